(** Lexical errors and what the parser does with them (C30). *)
From Verif Require Export SpecLex Main.
Local Open Scope string_scope.

(** A block that is closed by the tokens that follow its "{". *)
Definition shut (toks : list token) : Prop := exists b c, toks = (b ++ c)%list /\ net b = (-1)%Z /\ no_errors b.
(** Whatever looks like a block of an ignored directive is closed. *)
Definition ignored_shut (names : list string) (toks : list token) : Prop :=
  forall a h args t rest, toks = (a ++ h :: args ++ t :: rest)%list -> In (t_val h) names ->
    Forall (fun x => sepb x = false) args -> opensb t = true -> shut rest.
(** The text starts, comments aside, with "{". *)
Definition leads (toks : list token) : Prop :=
  exists a t r, toks = (a ++ t :: r)%list /\ Forall (fun x => noteb x = true) a /\ opensb t = true.
(** What the lexer guarantees without external lexers: an error is the last token and no separator,
    no "{" follows a separator, and nothing is closed that is not open. *)
Definition orderly (toks : list token) : Prop :=
  (forall a t b, toks = (a ++ t :: b)%list -> t_err t <> None -> b = [] /\ sepb t = false) /\
  (forall a t b, toks = (a ++ t :: b)%list -> opensb t = true -> after_sep false a = false) /\
  (forall a b, toks = (a ++ b)%list -> b <> [] -> (0 <= net a)%Z).
