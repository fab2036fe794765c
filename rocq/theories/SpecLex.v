(** Specifications of the lexer's output (C02-C04, C06), in terms of tokens only. *)
From Verif Require Export SpecForest.
Local Open Scope string_scope.

(** Unquoted "{", "}" or ";". *)
Definition sepb (t : token) : bool :=
  (negb (t_quoted t) && existsb (String.eqb (t_val t)) ["{"; "}"; ";"])%bool.
Definition noteb (t : token) : bool :=
  (negb (t_quoted t) && match t_val t with String "#"%char _ => true | _ => false end)%bool.
Definition opensb (t : token) : bool := (negb (t_quoted t) && String.eqb (t_val t) "{")%bool.
Definition closesb (t : token) : bool := (negb (t_quoted t) && String.eqb (t_val t) "}")%bool.

(** Braces opened and not closed. *)
Fixpoint net (toks : list token) : Z :=
  match toks with
  | [] => 0
  | t :: r => (if opensb t then 1 + net r else if closesb t then net r - 1 else net r)%Z
  end.
(** No prefix closes more than it opens. *)
Definition nested (toks : list token) : Prop := forall a b, toks = (a ++ b)%list -> (0 <= net a)%Z.
(** Is the last token, comments aside, a separator? *)
Fixpoint after_sep (b : bool) (toks : list token) : bool :=
  match toks with [] => b | t :: r => after_sep (if noteb t then b else sepb t) r end.
(** No "{" or ";" directly after a separator (comments aside). *)
Definition spaced (toks : list token) : Prop := forall a t b, toks = (a ++ t :: b)%list ->
  sepb t = true -> after_sep false a = true -> t_val t = "}".

Definition no_errors (toks : list token) : Prop := Forall (fun t => t_err t = None) toks.
(** The error token [t] after the tokens [toks] and the rule they break. *)
Inductive breach (toks : list token) (t : token) : Prop :=
| br_sep : forall c line, In c ["{"; ";"] -> after_sep false toks = true ->
    t_err t = Some (EParse (PE ("unexpected """ ++ c ++ """") (Some "lexer") (Some line) "" "" None)) -> breach toks t
| br_close : forall line, net toks = 0%Z ->
    t_err t = Some (EParse (PE "unexpected ""}""" (Some "lexer") (Some line) "" "" None)) -> breach toks t
| br_open : forall line, (0 < net toks)%Z ->
    t_err t = Some (EParse (PE "unexpected end of file, expecting ""}""" (Some "lexer") (Some line) "" "" None)) -> breach toks t.
Inductive verdict (toks : list token) : Prop :=
| vd_good : no_errors toks -> nested toks -> spaced toks -> net toks = 0%Z -> verdict toks
| vd_bad : forall pre t, toks = (pre ++ [t])%list -> no_errors pre -> nested pre -> spaced pre -> breach pre t ->
    t_val t = "" -> t_quoted t = false -> verdict toks.

(** Shape of tokens. *)
Definition no_newline (s : string) : Prop := str_exists (Ascii.eqb "010"%char) s = false.
Definition odd_first : list N := [123; 125; 59; 35; 34; 39]%N.     (* braces, semicolon, hash, quotes *)
Inductive token_shape (t : token) : Prop :=
| sh_quoted : t_quoted t = true -> token_shape t
| sh_sep : In (t_val t) ["{"; "}"; ";"] -> token_shape t
| sh_note : forall r, t_val t = "#" ++ r -> no_newline r -> token_shape t
| sh_word : forall n w, decode_rune (t_val t) = (n, w, true) -> is_space_rune n = false -> ~ In n odd_first -> token_shape t.

(** Without the carriage returns. *)
Fixpoint no_cr (s : string) : string :=
  match s with
  | "" => ""
  | String c r => if Ascii.eqb c "013"%char then no_cr r else String c (no_cr r)
  end.
Definition newlines (s : string) : Z :=
  Z.of_nat (List.length (filter (Ascii.eqb "010"%char) (list_of_str s))).
Inductive ascending (lo hi : Z) : list token -> Prop :=
| asc_nil : (lo <= hi)%Z -> ascending lo hi []
| asc_cons : forall t r, (lo <= t_line t)%Z -> ascending (t_line t) hi r -> ascending lo hi (t :: r).
