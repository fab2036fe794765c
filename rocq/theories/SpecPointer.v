(** C76: what it means that two pointers stand for the same directive. *)
From Verif Require Export Pointer SpecTree.
Local Open Scope string_scope.

(** A relation that agrees with everything that can be seen. *)
Definition alike_under (m : memory) (R : ptr -> ptr -> Prop) : Prop := forall p q, R p q ->
  match p, q with
  | None, None => True
  | Some x, Some y =>
    n_name (m x) = n_name (m y) /\ n_line (m x) = n_line (m y) /\ n_args (m x) = n_args (m y) /\
    n_file (m x) = n_file (m y) /\ n_includes (m x) = n_includes (m y) /\
    n_comment (m x) = n_comment (m y) /\ n_ismap (m x) = n_ismap (m y) /\
    Forall2 R (n_block (m x)) (n_block (m y))
  | _, _ => False
  end.
(** Nobody who follows the pointers can tell the two apart. *)
Definition same_seen (m : memory) (p q : ptr) : Prop := exists R, alike_under m R /\ R p q.

(** The directive at [p] does not contain itself, at any depth. *)
Inductive ends (m : memory) : ptr -> Prop :=
| en_nil : ends m None
| en_node : forall x, Forall (ends m) (n_block (m x)) -> ends m (Some x).

(** The pointer [p] stands for a tree, as in C23. *)
Inductive stands_for (m : memory) : ptr -> directive -> Prop :=
| sf : forall x d, n_name (m x) = d_name d -> n_line (m x) = d_line d -> n_args (m x) = d_args d ->
    n_file (m x) = d_file d -> n_includes (m x) = opt_list (d_includes d) -> n_comment (m x) = d_comment d ->
    n_ismap (m x) = d_ismap d -> Forall2 (stands_for m) (n_block (m x)) (opt_list (d_block d)) ->
    stands_for m (Some x) d.
