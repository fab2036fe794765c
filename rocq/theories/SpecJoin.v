(** C67: putting texts together. *)
From Verif Require Export SpecLex.
Local Open Scope string_scope.
Local Open Scope list_scope.

(** The token [t], [n] lines further down; an error's line moves too. *)
Definition later (n : Z) (t : token) : token :=
  Tok (t_val t) (t_line t + n) (t_quoted t)
    (match t_err t with
     | Some (EParse p) => Some (EParse (PE (pe_what p) (pe_file p) (option_map (fun l => l + n)%Z (pe_line p)) (pe_stmt p) (pe_block p) (pe_orig p)))
     | e => e
     end).
(** Comments aside, the tokens do not begin with ";" or "{". *)
Definition fresh (toks : list token) : Prop := forall a t b, toks = a ++ t :: b -> Forall (fun c => noteb c = true) a ->
  sepb t = true -> t_val t = "}".
(** [P] are the tokens of [a], all of them complete at its end: a newline behind [a] changes
    nothing, though blocks may be open. *)
Definition tokens_are (s : string) (P : list token) : Prop :=
  lex [] s = P \/ exists e x, lex [] s = P ++ [e] /\ t_err e = Some x.
Definition settled (a : string) (P : list token) : Prop := no_errors P /\ tokens_are a P /\ tokens_are (a ++ s_nl) P.
