(** C76: Directive.Equal on pointers. *)
From Verif Require Import SpecPointer PointerProofs.
Local Open Scope string_scope.

(** When Equal returns, it tells whether the two can be told apart by following the
    pointers: with directives shared between blocks, nil elements, and cycles. *)
Theorem C76_answer : forall m fuel p q b, equal_at fuel m p q = Some b -> (b = true <-> same_seen m p q).
Proof.
  intros m fuel p q b H. destruct b; split; intro G; try discriminate; auto.
  - exact (equal_true m fuel p q H).
  - destruct (equal_false m fuel p q H G).
Qed.
Print Assumptions C76_answer.
(** It returns if one of the two does not contain itself, whatever the other is. *)
Theorem C76_returns : forall m p q, ends m p \/ ends m q -> exists fuel b, equal_at fuel m p q = Some b.
Proof. intros m p q [E|E]; [apply (equal_ends m p E q)|apply (equal_ends m q E p)]. Qed.
Print Assumptions C76_returns.
(** A directive equals itself, also if it contains itself. *)
Theorem C76_self : forall m p, exists fuel, equal_at fuel m p p = Some true.
Proof. exact equal_self. Qed.
Print Assumptions C76_self.
(** On trees it is the function of C23. *)
Theorem C76_trees : forall m p q d e, stands_for m p d -> stands_for m q e ->
  exists fuel, equal_at fuel m p q = Some (dir_equal d e).
Proof. exact equal_trees. Qed.
Print Assumptions C76_trees.
(** It need not return if both contain themselves, although they are the same to see. *)
Theorem C76_cycles_refuted : exists m p q, same_seen m p q /\ forall fuel, equal_at fuel m p q = None.
Proof. exists ring, (Some 0), (Some 1). split; [exact ring_same|apply ring_never]. Qed.
Print Assumptions C76_cycles_refuted.

(** A server that stands twice in a block beside a nil element, and a copy of all that. *)
Definition c76_memory : memory := fun x =>
  match x with
  | 0 => Node "http" 1 [] "" [] [Some 1; None; Some 1] None false
  | 1 => Node "server" 2 ["x"] "" [] [] None false
  | 2 => Node "http" 1 [] "" [] [Some 3; None; Some 4] None false
  | 3 | 4 => Node "server" 2 ["x"] "" [] [] None false
  | _ => Node "http" 1 [] "" [] [Some 1; Some 1; Some 1] None false
  end.
Example C76_case : equal_at 3 c76_memory (Some 0) (Some 2) = Some true /\
  equal_at 3 c76_memory (Some 0) (Some 5) = Some false /\ ends c76_memory (Some 0) /\
  (exists d e, stands_for c76_memory (Some 5) d /\ stands_for c76_memory (Some 1) e /\ dir_equal d e = false).
Proof.
  assert (S : stands_for c76_memory (Some 1) (Dir "server" 2 ["x"] "" None None None false))
    by (constructor; try reflexivity; constructor).
  split; [reflexivity|]. split; [reflexivity|]. split.
  - constructor. repeat constructor.
  - exists (Dir "http" 1 [] "" None (Some [Dir "server" 2 ["x"] "" None None None false; Dir "server" 2 ["x"] "" None None None false;
              Dir "server" 2 ["x"] "" None None None false]) None false). eexists. split; [|split; [exact S|reflexivity]].
    constructor; try reflexivity. repeat (constructor; [exact S|]). constructor.
Qed.
