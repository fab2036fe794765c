(** C86: indentation. *)
From Verif Require Export SpecOpts SpecBuild Main Build.
Local Open Scope string_scope.

(** Build options that may differ in Indent and Tabs. *)
Record same_style (a b : bopts) : Prop := SameStyle {
  ss_header : b_header b = b_header a;
  ss_print : b_print b = b_print a;
  ss_ext : b_ext b = b_ext a }.
(** The same file, or its tree written with other indentation. *)
Inductive reindented (a b : bopts) (fit : list directive -> bool) : string + string -> string + string -> Prop :=
| ri_same : forall x, reindented a b fit x x
| ri_built : forall ds t t', fit ds = true -> build a ds = Some t -> build b ds = Some t' -> reindented a b fit (inl t) (inl t').
(** The same tokens, or the same error. *)
Definition same_words (ext : ext_lexers) (x y : string + string) : Prop :=
  match x, y with inl s, inl t => lex ext s = lex ext t | inr m, inr m' => m = m' | _, _ => False end.
