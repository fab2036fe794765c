(** Specification: statements cut off by the end of the file (C50). *)
From Verif Require Export SpecLost.
Local Open Scope string_scope.

(** The last token that is not a comment is a word: its statement has no end. *)
Definition cut_off (toks : list token) : Prop :=
  exists a t b, toks = (a ++ t :: b)%list /\ sepb t = false /\ noteb t = false /\ Forall (fun x => noteb x = true) b.
