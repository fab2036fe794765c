(** C84: the numbers of configs are only numbers. *)
From Verif Require Import NumberProofs.
Import SpecOutcome.
Local Open Scope string_scope.

(** With other numbers for the configs, and any configs besides, the combined tree is the same. *)
Theorem C84_renumbered : forall r k old q p, combined k old = CbOk q -> renumbered r old p -> pl_config old <> [] ->
  exists q', settles p (CbOk q') /\ same_tree q q'.
Proof. exact number_same. Qed.
Print Assumptions C84_renumbered.
(** In another order all is the same but the order of the errors. *)
Theorem C84_reordered : forall r k old q p, combined k old = CbOk q -> reordered r old p -> pl_config old <> [] ->
  exists q', settles p (CbOk q') /\ same_but_order q q'.
Proof. exact reorder_same. Qed.
Print Assumptions C84_reordered.
(** Configs that are appended only bring in their errors and statuses. *)
Theorem C84_appended : forall k old q more, combined k old = CbOk q -> pl_config old <> [] ->
  exists q', settles (Pay (pl_status old) (pl_errors old) (pl_config old ++ more)) (CbOk q') /\ same_tree q q'.
Proof. exact more_same. Qed.
Print Assumptions C84_appended.

(** Three files; the second and the third change places. *)
Definition three (i j : Z) (x y : string) : payload :=
  let main := Cfg "a" "ok" [] [Dir "http" 1 [] "" None (Some [Dir "include" 2 ["*"] "" (Some [i; j]) None None false]) None false] in
  let leaf f := Cfg f (if String.eqb f "b" then "failed" else "ok") [CE None (EOther f)] [Dir "gzip" 1 [f] "" None None None false] in
  Pay "failed" [] [main; leaf x; leaf y].
Definition swap (i : Z) : Z := if Z.eqb i 1 then 2%Z else if Z.eqb i 2 then 1%Z else i.
Example C84_case : reordered swap (three 1 2 "b" "c") (three 2 1 "c" "b") /\
  exists q q', combined 4 (three 1 2 "b" "c") = CbOk q /\ combined 4 (three 2 1 "c" "b") = CbOk q' /\ q <> q' /\ same_but_order q q'.
Proof.
  split.
  - split; [|cbn; apply perm_skip, perm_swap]. constructor; try reflexivity.
    + intros c cs E. injection E as <- <-. eexists _, _. split; [reflexivity|]. split; reflexivity.
    + intros i c P N. assert (i = 0 \/ i = 1 \/ i = 2)%Z as [-> | [-> | ->]].
      { assert (Z.to_nat i < 3) by (apply (proj1 (nth_error_Some (pl_config (three 1 2 "b" "c")) (Z.to_nat i))); congruence). lia. }
      all: injection N as <-; eexists; (split; [|split; [reflexivity|split; reflexivity]]); vm_compute; congruence.
  - eexists _, _. split; [vm_compute; reflexivity|]. split; [vm_compute; reflexivity|]. split; [discriminate|].
    split; [reflexivity|]. split; [reflexivity|]. repeat constructor.
Qed.
