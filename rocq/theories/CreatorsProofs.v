(** The calls BuildInto makes (C82). *)
From Verif Require Export SpecCreators FilesProofs.
Local Open Scope string_scope.

Lemma run_calls_app : forall a b outs, run_calls (a ++ b)%list outs =
  let '(m, ok, outs) := run_calls a outs in if ok then let '(m2, ok, outs) := run_calls b outs in ((m ++ m2)%list, ok, outs) else (m, false, outs).
Proof.
  induction a as [|c a IH]; intros b outs; cbn [app run_calls].
  - now destruct (run_calls b outs) as [[m ok] x].
  - destruct (reply outs) as [[|] outs1]; [|reflexivity]. rewrite IH. destruct (run_calls a outs1) as [[m [|]] x]; [|reflexivity].
    now destruct (run_calls b x) as [[m2 ok] y].
Qed.
Lemma run_calls_up : forall calls outs r, up_to_failure calls outs r = let '(m, ok, _) := run_calls calls outs in (m, if ok then r else IErr).
Proof.
  unfold up_to_failure. induction calls as [|c calls IH]; intros outs r; cbn [run_calls].
  - now destruct (first_failure outs).
  - destruct outs as [|[|] outs]; cbn [reply first_failure].
    + specialize (IH [] r). cbn [first_failure] in IH. destruct (run_calls calls []) as [[m ok] x]. injection IH as -> <-. reflexivity.
    + specialize (IH outs r). destruct (first_failure outs) as [k|]; cbn [option_map].
      * cbn [List.length]. change (Nat.ltb (S k) (S (List.length calls))) with (Nat.ltb k (List.length calls)). destruct (Nat.ltb k (List.length calls)); destruct (run_calls calls outs) as [[m ok] x].
        -- change (firstn (S (S k)) (c :: calls)) with (c :: firstn (S k) calls). congruence.
        -- injection IH as -> <-. reflexivity.
      * destruct (run_calls calls outs) as [[m ok] x]. injection IH as -> <-. reflexivity.
    + reflexivity.
Qed.
Lemma into_run_calls : forall o0, bo_ext o0 = None -> forall cs o n, reused o0 o ->
  exists calls r, plan o0 n cs calls r /\ forall outs, into_calls cs o n outs = let '(m, ok, _) := run_calls calls outs in (m, if ok then r else IErr).
Proof.
  intros o0 N. induction cs as [|g cs IH]; intros o n R.
  { exists [], IOk. split; [constructor|]. intros outs. reflexivity. }
  pose proof (reuse o0 o (cf_parsed g) N R) as T. rewrite body_text in T.
  set (hd := if bo_header o then [header] else [] : list string).
  assert (HD : (if bo_header o then [CWrite n header] else []) = map (CWrite n) hd) by (unfold hd; now destruct (bo_header o)).
  assert (HW : whole hd = if bo_header o then header else "") by (unfold hd; destruct (bo_header o); reflexivity).
  cbn [into_calls]. rewrite HD. destruct (build_body (plain_opts (build_opts o)) (cf_parsed g)) as [t|] eqn:B; cbn [option_map] in T.
  - destruct (IH (build_opts o) (S n) (ru_build _ _ R)) as (calls & r & P & E).
    exists (CCreate (cf_file g) :: map (CWrite n) (hd ++ [t]) ++ CClose n :: calls)%list, r. split.
    + constructor; [|exact P]. rewrite <- T, <- HW. f_equal. unfold hd. destruct (bo_header o); cbn [app whole fold_right]; now rewrite ?app_nil_r_s.
    + intros outs. rewrite map_app. replace (CCreate (cf_file g) :: (map (CWrite n) hd ++ map (CWrite n) [t]) ++ CClose n :: calls)%list
        with ((CCreate (cf_file g) :: map (CWrite n) hd) ++ [CWrite n t; CClose n] ++ calls)%list by (cbn [app map]; rewrite <- !app_assoc; reflexivity).
      rewrite run_calls_app. destruct (run_calls (CCreate (cf_file g) :: map (CWrite n) hd) outs) as [[m1 [|]] outs1]; [|reflexivity].
      rewrite run_calls_app. destruct (run_calls [CWrite n t; CClose n] outs1) as [[m2 [|]] outs2]; [|reflexivity].
      rewrite E. destruct (run_calls calls outs2) as [[m3 ok] outs3]. reflexivity.
  - exists (CCreate (cf_file g) :: map (CWrite n) hd)%list, IPanic. split; [constructor; congruence|].
    intros outs. now destruct (run_calls (CCreate (cf_file g) :: map (CWrite n) hd) outs) as [[m1 [|]] outs1].
Qed.
Lemma into_planned : forall o0 o cs n, bo_ext o0 = None -> reused o0 o ->
  exists calls r, plan o0 n cs calls r /\ forall outs, into_calls cs o n outs = up_to_failure calls outs r.
Proof.
  intros o0 o cs n N R. destruct (into_run_calls o0 N cs o n R) as (calls & r & P & E). exists calls, r. split; [exact P|]. intros outs. now rewrite run_calls_up.
Qed.
Lemma run_calls_fine : forall calls, run_calls calls [] = (calls, true, []).
Proof. induction calls as [|c calls IH]; [reflexivity|]. cbn. now rewrite IH. Qed.
Lemma strings_same : forall cs o c, let '(m, r) := into_calls cs o (List.length (cr_heap c)) [] in
  build_into cs o c = (fold_left on_strings m c, match r with IOk => true | _ => false end).
Proof.
  induction cs as [|g cs IH]; intros o c; [reflexivity|]. cbn [into_calls build_into]. rewrite run_calls_fine. unfold cr_create, build_write.
  set (n := List.length (cr_heap c)). set (c1 := Creat _ _).
  assert (L : forall b c2, List.length (cr_heap (cr_write n b c2)) = List.length (cr_heap c2)).
  { intros b c2. unfold cr_write. destruct (nth_error (cr_heap c2) n); [|reflexivity]. cbn [cr_heap]. apply put_nth_length. }
  assert (F : fold_left on_strings (CCreate (cf_file g) :: if bo_header o then [CWrite n header] else []) c = if bo_header o then cr_write n header c1 else c1) by (now destruct (bo_header o)).
  destruct (build_body (plain_opts (build_opts o)) (cf_parsed g)) as [t|]; [|now rewrite F].
  rewrite run_calls_fine. set (c2 := if bo_header o then cr_write n header c1 else c1) in *.
  specialize (IH (build_opts o) (cr_close n (cr_write n t c2))).
  assert (E : List.length (cr_heap (cr_close n (cr_write n t c2))) = S n).
  { unfold cr_close. rewrite !L. unfold c2. transitivity (List.length (cr_heap c1)); [destruct (bo_header o); [apply L|reflexivity]|]. unfold c1. cbn [cr_heap]. rewrite app_length. cbn. apply Nat.add_1_r. }
  rewrite E in IH. destruct (into_calls cs (build_opts o) (S n) []) as [m3 r]. rewrite IH. f_equal.
  rewrite !fold_left_app, F. reflexivity.
Qed.
