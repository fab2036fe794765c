(** Errors of Combined that leave no goroutine behind (C47). *)
From Verif Require Export SpecChan SpecOutcome.
Local Open Scope string_scope.

(** The first failure is an index that is too large, in a file's own tree (not in a file
    it includes), at any depth. *)
Inductive own_error (cs : list config) (f : string) : list directive -> Prop :=
| own_here : forall d b pre i post ds r, block_outcome cs f (d_block d) b -> d_name d = "include" ->
    d_includes d = Some (pre ++ i :: post)%list -> outcomes cs f d b pre (Dirs ds) -> (Z.of_nat (List.length cs) <= i)%Z ->
    own_error cs f (d :: r)
| own_block : forall d b r, d_block d = Some b -> own_error cs f b -> own_error cs f (d :: r)
| own_later : forall d ds r, outcome cs f [d] (Dirs ds) -> own_error cs f r -> own_error cs f (d :: r).
