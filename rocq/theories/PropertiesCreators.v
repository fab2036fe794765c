(** C82: BuildInto and creators that can fail. *)
From Verif Require Import CreatorsProofs.
Local Open Scope string_scope.

(** The calls BuildInto makes are planned before the first reply, and made up to the first
    that fails; used options change nothing. *)
Theorem C82_calls : forall o0 o cs n, bo_ext o0 = None -> reused o0 o ->
  exists calls r, plan o0 n cs calls r /\ forall outs, into_calls cs o n outs = up_to_failure calls outs r.
Proof. exact into_planned. Qed.
Print Assumptions C82_calls.
(** On a StringsCreator they are what C27 says. *)
Theorem C82_strings : forall cs o c, let '(m, r) := into_calls cs o (List.length (cr_heap c)) [] in
  build_into cs o c = (fold_left on_strings m c, match r with IOk => true | _ => false end).
Proof. exact strings_same. Qed.
Print Assumptions C82_strings.
(** A writer is left open if writing fails. *)
Theorem C82_left_open_refuted : ~ (forall cs o outs m r w, into_calls cs o 0 outs = (m, r) ->
  In (CWrite w "x;") m -> In (CClose w) m).
Proof.
  intros H. specialize (H [Cfg "a" "ok" [] [Dir "x" 1 [] "" None None None false]] (BO 4 false false [] None (fun _ => true)) [true; false] _ _ 0 ltac:(vm_compute; reflexivity) ltac:(vm_compute; auto)).
  destruct H as [H|[H|[]]]; discriminate H.
Qed.
Print Assumptions C82_left_open_refuted.

Definition cr_two : list config := [Cfg "a" "ok" [] [Dir "x" 1 [] "" None None None false]; Cfg "b" "ok" [] []].
Definition cr_opts : boptions := BO 0 false true [] None (fun _ => true).
Example C82_case : bo_ext cr_opts = None /\ reused cr_opts (build_opts cr_opts) /\
  into_calls cr_two (build_opts cr_opts) 0 [] =
    ([CCreate "a"; CWrite 0 header; CWrite 0 "x;"; CClose 0; CCreate "b"; CWrite 1 header; CWrite 1 ""; CClose 1], IOk) /\
  into_calls cr_two cr_opts 0 [true; true; true; false] = ([CCreate "a"; CWrite 0 header; CWrite 0 "x;"; CClose 0], IErr) /\
  into_calls cr_two cr_opts 0 [true; true; true; true; false] = ([CCreate "a"; CWrite 0 header; CWrite 0 "x;"; CClose 0; CCreate "b"], IErr).
Proof. split; [reflexivity|]. split; [apply ru_build, ru_new|]. vm_compute. auto. Qed.
