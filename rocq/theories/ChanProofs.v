(** Schedules of goroutine trees. *)
From Verif Require Export SpecChan.
From Coq Require Import Lia.
Import ListNotations.
Local Open Scope list_scope.

Section Proofs.
Context {T : Type}.
Implicit Types (g c : gor T) (p : proc T).

(** What the channel of a goroutine will still deliver. *)
Fixpoint left_ (g : gor T) : list T :=
  match g with
  | G _ buf hold r _ => buf ++ hold ++ left_code r
  end
with left_code (r : code T) : list T :=
  match r with
  | Code p => delivers p
  | Loop c a b k =>
    match over b a (left_ c) with
    | (e, Some a') => e ++ delivers (k a')
    | (e, None) => e
    end
  | Closed => []
  end.

Lemma left_G : forall cap buf hold r kids,
    left_ (G cap buf hold r kids) = buf ++ hold ++ left_code r.
Proof. reflexivity. Qed.

Lemma left_start : forall cap p, left_ (start cap p) = delivers p.
Proof. reflexivity. Qed.

Lemma take_left : forall g x g', take g = Some (x, g') -> left_ g = x :: left_ g'.
Proof.
  intros [cap buf hold r kids] x g' H.
  destruct buf as [|y buf].
  - destruct cap; destruct hold as [|y h]; try discriminate H.
    cbn [take] in H; injection H as <- <-; reflexivity.
  - cbn [take] in H.
    assert (E : Some (y, G cap buf hold r kids) = Some (x, g')) by (destruct cap; exact H).
    injection E as <- <-; reflexivity.
Qed.

Lemma ended_left : forall g, ended g = true -> left_ g = [].
Proof.
  intros [cap [|x buf] [|y h] [p|c a b k|] kids] H; cbn in H; try discriminate H; reflexivity.
Qed.

Lemma step_left : forall g g', step g g' -> left_ g = left_ g'.
Proof.
  induction 1; rewrite ?left_G; cbn [left_code app delivers].
  - reflexivity.
  - rewrite <- app_assoc; reflexivity.
  - rewrite left_start; reflexivity.
  - rewrite (take_left _ _ _ H); cbn [over]; rewrite H0.
    destruct (over b a' (left_ c')) as [e' [a''|]]; rewrite ?app_assoc; reflexivity.
  - rewrite (take_left _ _ _ H); cbn [over]; rewrite H0.
    rewrite app_nil_r; reflexivity.
  - rewrite (ended_left _ H); cbn [over app]; reflexivity.
  - reflexivity.
  - rewrite IHstep; reflexivity.
  - reflexivity.
Qed.

(** ** Progress *)
Lemma progress_ : forall g, (exists g', step g g') \/ (exists x g', take g = Some (x, g'))
                           \/ ended g = true.
Proof.
  fix F 1. intros [cap buf hold r kids].
  destruct buf as [|x buf].
  2:{ right; left; exists x, (G cap buf hold r kids); destruct cap; reflexivity. }
  destruct hold as [|t h].
  2:{ destruct cap as [|cap].
      - right; left; eexists _, _; reflexivity.
      - left; eexists; apply s_send; cbn; lia. }
  destruct r as [p|c a b k|].
  - left; destruct p as [|t k|n q a b k]; eexists; constructor.
  - left; destruct (F c) as [[c' HS]|[(x & c' & HT)|HE]].
    + eexists; apply s_child; exact HS.
    + destruct (b a x) as [e [a'|]] eqn:B; eexists.
      * eapply s_recv; [exact HT|exact B].
      * eapply s_return; [exact HT|exact B].
    + eexists; apply s_over; exact HE.
  - right; right; reflexivity.
Qed.

(** ** Termination *)
Fixpoint todo (g : gor T) : nat :=
  match g with
  | G _ buf hold r kids => length hold + todo_code r + list_sum (map todo kids)
  end
with todo_code (r : code T) : nat :=
  match r with
  | Code p => work p
  | Loop c a b k =>
    1 + todo c + length (left_ c)
    + match over b a (left_ c) with
      | (e, Some a') => 2 * length e + work (k a')
      | (e, None) => 2 * length e + 1
      end
  | Closed => 0
  end.

Lemma take_todo : forall g x g', take g = Some (x, g') -> todo g' <= todo g.
Proof.
  intros [cap buf hold r kids] x g' H.
  destruct buf as [|y buf].
  - destruct cap; destruct hold as [|y h]; try discriminate H.
    cbn [take] in H; injection H as <- <-; cbn [todo length]; lia.
  - cbn [take] in H.
    assert (E : Some (y, G cap buf hold r kids) = Some (x, g')) by (destruct cap; exact H).
    injection E as <- <-; cbn [todo]; lia.
Qed.

Lemma step_todo : forall g g', step g g' -> todo g' < todo g.
Proof.
  induction 1.
  - cbn [todo todo_code length work]; lia.
  - cbn [todo length]; lia.
  - cbn [todo todo_code work length].
    change (todo (start n p)) with (0 + work p + 0); rewrite left_start.
    destruct (over b a (delivers p)) as [e [a'|]]; lia.
  - cbn [todo todo_code length].
    rewrite (take_left _ _ _ H); cbn [over length]; rewrite H0.
    pose proof (take_todo _ _ _ H).
    destruct (over b a' (left_ c')) as [e' [a''|]]; rewrite app_length; lia.
  - cbn [todo todo_code length map list_sum fold_right work].
    rewrite (take_left _ _ _ H); cbn [over length]; rewrite H0.
    pose proof (take_todo _ _ _ H). unfold list_sum; cbn [fold_right map]. lia.
  - cbn [todo todo_code length map].
    rewrite (ended_left _ H); cbn [over length]. unfold list_sum; cbn [fold_right map]. lia.
  - cbn [todo todo_code length work]; lia.
  - cbn [todo todo_code]; rewrite (step_left _ _ H).
    destruct (over b a (left_ c')) as [e' [a''|]]; lia.
  - cbn [todo]; rewrite !map_app, !list_sum_app; cbn [map]; unfold list_sum; cbn [fold_right].
    lia.
Qed.

Lemma step_todo_ended : forall g, ended g = true -> left_ g = [].
Proof. exact ended_left. Qed.

(** ** The receiver *)
Lemma fed_snoc : forall (C : consumer T) n s l,
    fed C s l (S n) = c_next C (fed C s l n) (nth_error l n).
Proof.
  induction n as [|n IH]; intros s l.
  - destruct l; reflexivity.
  - change (fed C s l (S (S n)))
      with (match l with [] => fed C (c_next C s None) [] (S n)
                    | x :: r => fed C (c_next C s (Some x)) r (S n) end).
    destruct l as [|x r]; rewrite IH.
    + cbn [fed nth_error]; destruct n; reflexivity.
    + reflexivity.
Qed.

Lemma given_snoc : forall n (l : list T), given l (S n) = given l n ++ [nth_error l n].
Proof.
  induction n as [|n IH]; intros [|x l]; try reflexivity.
  - change (None :: given (@nil T) (S n) = None :: (given (@nil T) n ++ [None])).
    rewrite IH; destruct n; reflexivity.
  - change (Some x :: given l (S n) = Some x :: (given l n ++ [nth_error l n])).
    rewrite IH; reflexivity.
Qed.

(** What holds in every reachable state: [n] receives happened. *)
Definition inv (C : consumer T) (p : proc T) (s0 : c_state C) (y : sys C) : Prop :=
  match y with
  | (g, s, h) =>
    exists n, h = given (delivers p) n /\ s = fed C s0 (delivers p) n
              /\ left_ g = skipn n (delivers p)
              /\ (length (delivers p) < n -> ended g = true)
              /\ (forall m, m < n -> c_done C (fed C s0 (delivers p) m) = false)
  end.

Lemma step_not_ended : forall g g', step g g' -> ended g = true -> ended g' = true.
Proof.
  intros g g' H E; destruct H; cbn in E; try discriminate E;
    try (destruct buf; discriminate E); try exact E.
Qed.

Lemma take_not_ended : forall g x g', take g = Some (x, g') -> ended g = false.
Proof.
  intros [cap buf hold r kids] x g' H.
  destruct buf; [|reflexivity]. destruct hold; [|reflexivity].
  destruct cap; discriminate H.
Qed.

Lemma skipn_nth : forall {A} n (l : list A) x r,
    skipn n l = x :: r -> nth_error l n = Some x /\ skipn (S n) l = r /\ n < length l.
Proof.
  induction n as [|n IH]; intros [|y l] x r H; try discriminate H.
  - injection H as -> ->; cbn; repeat split; lia.
  - cbn [skipn] in H; destruct (IH _ _ _ H) as (A1 & A2 & A3).
    repeat split; [exact A1|exact A2|cbn; lia].
Qed.

Lemma inv_step : forall C p s0 y z, inv C p s0 y -> sstep C y z -> inv C p s0 z.
Proof.
  intros C p s0 [[g s] h] z (n & Hh & Hs & Hl & He & Hd) ST; inversion ST; subst; clear ST.
  - exists n; repeat split; auto.
    + rewrite <- Hl; symmetry; apply step_left; assumption.
    + intro L; eapply step_not_ended; [eassumption|auto].
  - match goal with HT : take _ = _ |- _ =>
      pose proof (take_left _ _ _ HT) as L; pose proof (take_not_ended _ _ _ HT) as NE end.
    rewrite Hl in L; destruct (skipn_nth _ _ _ _ L) as (A1 & A2 & A3).
    exists (S n); rewrite fed_snoc, given_snoc, A1; repeat split; auto.
    + lia.
    + intros m Hm; destruct (Nat.eq_dec m n) as [->|]; [assumption|apply Hd; lia].
  - match goal with HE : ended _ = true |- _ => pose proof (ended_left _ HE) as L end.
    rewrite Hl in L.
    assert (LN : length (delivers p) <= n).
    { pose proof (skipn_length n (delivers p)) as Q; rewrite L in Q; cbn in Q; lia. }
    assert (NE : nth_error (delivers p) n = None) by (apply nth_error_None; exact LN).
    exists (S n); rewrite fed_snoc, given_snoc, NE; repeat split; auto.
    + rewrite Hl, L; symmetry; apply skipn_all2; lia.
    + intros m Hm; destruct (Nat.eq_dec m n) as [->|]; [assumption|apply Hd; lia].
Qed.

Lemma inv_run : forall C cap p s0 n y,
    run C n (start cap p, s0, []) y -> inv C p s0 y.
Proof.
  intros C cap p s0 n y H.
  remember (start cap p, s0, []) as x eqn:X.
  induction H; subst.
  - exists 0; cbn; repeat split; auto; lia.
  - eapply inv_step; eauto.
Qed.

Lemma given_prefix : forall n (l : list T), n <= length l -> given l n = map Some (firstn n l).
Proof.
  induction n as [|n IH]; intros [|x l] H; try reflexivity; [cbn in H; lia|].
  cbn [given firstn map]; rewrite IH; [reflexivity|cbn in H; lia].
Qed.

Lemma given_over : forall n (l : list T), length l <= n ->
    given l n = map Some l ++ repeat None (n - length l).
Proof.
  induction n as [|n IH]; intros [|x l] H; try reflexivity; [cbn in H; lia| |].
  - cbn [given map app length Nat.sub repeat]; rewrite IH by (cbn; lia).
    cbn [map app length]; rewrite Nat.sub_0_r; reflexivity.
  - cbn [given map app length Nat.sub]; rewrite IH by (cbn in H; lia); reflexivity.
Qed.

(** *** The theorems *)

(** Received so far: a prefix of the sequence, or all of it and ends. *)
Theorem prefix_ : forall C cap p s0 n g s h,
    run C n (start cap p, s0, []) (g, s, h) ->
    exists k, h = given (delivers p) k /\ s = fed C s0 (delivers p) k
              /\ (forall m, m < k -> c_done C (fed C s0 (delivers p) m) = false).
Proof.
  intros C cap p s0 n g s h H; destruct (inv_run _ _ _ _ _ _ H) as (k & A & B & _ & _ & D).
  exists k; auto.
Qed.

Theorem no_deadlock : forall C cap p s0 n g s h,
    run C n (start cap p, s0, []) (g, s, h) -> c_done C s = false ->
    exists z, sstep C (g, s, h) z.
Proof.
  intros C cap p s0 n g s h H D.
  destruct (progress_ g) as [[g' S1]|[(x & g' & S1)|S1]].
  - eexists; apply y_int; exact S1.
  - eexists; apply y_recv; eauto.
  - eexists; apply y_end; eauto.
Qed.

(** Two schedules that both let the receiver finish leave it in the same
    state, with the same values received, whatever the capacities. *)
Theorem determined : forall C cap1 cap2 p s0 n1 n2 g1 g2 s1 s2 h1 h2,
    run C n1 (start cap1 p, s0, []) (g1, s1, h1) -> c_done C s1 = true ->
    run C n2 (start cap2 p, s0, []) (g2, s2, h2) -> c_done C s2 = true ->
    s1 = s2 /\ h1 = h2.
Proof.
  intros C cap1 cap2 p s0 n1 n2 g1 g2 s1 s2 h1 h2 R1 D1 R2 D2.
  destruct (prefix_ _ _ _ _ _ _ _ _ R1) as (k1 & A1 & B1 & E1).
  destruct (prefix_ _ _ _ _ _ _ _ _ R2) as (k2 & A2 & B2 & E2).
  assert (k1 = k2) as ->.
  { destruct (Nat.lt_trichotomy k1 k2) as [L|[L|L]]; [|exact L|].
    - specialize (E2 _ L); rewrite <- B1 in E2; congruence.
    - specialize (E1 _ L); rewrite <- B2 in E1; congruence. }
  subst; auto.
Qed.

Theorem determined_same : forall C cap1 cap2 p q s0 n1 n2 g1 g2 s1 s2 h1 h2,
    delivers p = delivers q ->
    run C n1 (start cap1 p, s0, []) (g1, s1, h1) -> c_done C s1 = true ->
    run C n2 (start cap2 q, s0, []) (g2, s2, h2) -> c_done C s2 = true ->
    s1 = s2 /\ h1 = h2.
Proof.
  intros C cap1 cap2 p q s0 n1 n2 g1 g2 s1 s2 h1 h2 EQ R1 D1 R2 D2.
  destruct (prefix_ _ _ _ _ _ _ _ _ R1) as (k1 & A1 & B1 & E1).
  destruct (prefix_ _ _ _ _ _ _ _ _ R2) as (k2 & A2 & B2 & E2).
  rewrite <- EQ in *.
  assert (k1 = k2) as ->.
  { destruct (Nat.lt_trichotomy k1 k2) as [L|[L|L]]; [|exact L|].
    - specialize (E2 _ L); rewrite <- B1 in E2; congruence.
    - specialize (E1 _ L); rewrite <- B2 in E1; congruence. }
  subst; auto.
Qed.

(** Every schedule is finite as long as the receiver reads finitely often: at
    most [work p] steps happen besides the receives. *)
Lemma run_todo : forall C cap p s0 n y,
    run C n (start cap p, s0, []) y ->
    n + todo (fst (fst y)) <= work p + length (snd y).
Proof.
  intros C cap p s0 n y H; remember (start cap p, s0, []) as x eqn:X.
  induction H; subst.
  - cbn; lia.
  - specialize (IHrun eq_refl).
    inversion H0; subst; cbn [fst snd] in *.
    + pose proof (step_todo _ _ H1); lia.
    + pose proof (take_todo _ _ _ H2); rewrite app_length; cbn [length]; lia.
    + rewrite app_length; cbn [length]; lia.
Qed.

Theorem terminates : forall C cap p s0 n g s h,
    run C n (start cap p, s0, []) (g, s, h) -> n <= work p + length h.
Proof.
  intros C cap p s0 n g s h H; pose proof (run_todo _ _ _ _ _ _ H) as L.
  cbn [fst snd] in L; lia.
Qed.

(** A receiver that reads to the end has the whole sequence when it is done. *)
Lemma fed_drainer : forall (l : list T) n acc,
    n <= length l -> fed drainer (acc, false) l n = (acc ++ firstn n l, false).
Proof.
  induction l as [|x l IH]; intros [|n] acc H; cbn [fed firstn]; rewrite ?app_nil_r; auto.
  - cbn in H; lia.
  - cbn [drainer c_next fst]; rewrite IH by (cbn in H; lia).
    rewrite <- app_assoc; reflexivity.
Qed.

Theorem drained : forall cap p n g s h,
    run drainer n (start cap p, ([], false), []) (g, s, h) -> snd s = true ->
    fst s = delivers p /\ h = map Some (delivers p) ++ [None] /\ ended g = true.
Proof.
  intros cap p n g s h H D; destruct (inv_run _ _ _ _ _ _ H) as (k & A & B & _ & E & F).
  destruct (Nat.le_gt_cases k (length (delivers p))) as [L|L].
  { rewrite fed_drainer in B by exact L; rewrite B in D; discriminate D. }
  specialize (E L).
  assert (k = S (length (delivers p))) as ->.
  { destruct (Nat.le_gt_cases k (S (length (delivers p)))) as [L2|L2]; [lia|].
    specialize (F _ L2); rewrite fed_snoc in F.
    rewrite fed_drainer in F by lia.
    assert (NE : nth_error (delivers p) (length (delivers p)) = None) by (apply nth_error_None; lia).
    rewrite NE in F; cbn in F; discriminate F. }
  rewrite fed_snoc, fed_drainer in B by lia.
  assert (NE : nth_error (delivers p) (length (delivers p)) = None) by (apply nth_error_None; lia).
  rewrite NE in B; subst s; cbn [drainer c_next fst snd app].
  rewrite firstn_all. rewrite given_snoc, given_prefix, firstn_all, NE in A by lia.
  auto.
Qed.

(** ** Left behind *)
Fixpoint patient_g (g : gor T) : Prop :=
  match g with
  | G _ _ _ r kids =>
    (match r with
     | Code p => patient p
     | Loop c a b k =>
       patient_g c /\ match over b a (left_ c) with
                      | (_, Some a') => patient (k a')
                      | (_, None) => False
                      end
     | Closed => True
     end) /\ list_sum (map live kids) = 0
  end.

Lemma take_live : forall g x g', take g = Some (x, g') -> live g' = live g.
Proof.
  intros [cap buf hold r kids] x g' H.
  destruct buf as [|y buf].
  - destruct cap; destruct hold as [|y h]; try discriminate H.
    cbn [take] in H; injection H as <- <-; reflexivity.
  - cbn [take] in H.
    assert (E : Some (y, G cap buf hold r kids) = Some (x, g')) by (destruct cap; exact H).
    injection E as <- <-; reflexivity.
Qed.

Lemma take_patient : forall g x g', take g = Some (x, g') -> patient_g g -> patient_g g'.
Proof.
  intros [cap buf hold r kids] x g' H P.
  destruct buf as [|y buf].
  - destruct cap; destruct hold as [|y h]; try discriminate H.
    cbn [take] in H; injection H as <- <-; exact P.
  - cbn [take] in H.
    assert (E : Some (y, G cap buf hold r kids) = Some (x, g')) by (destruct cap; exact H).
    injection E as <- <-; exact P.
Qed.

Lemma ended_live : forall g, ended g = true -> patient_g g -> live g = 0.
Proof.
  intros [cap [|x buf] [|y h] [p|c a b k|] kids] H P; cbn in H; try discriminate H.
  cbn [patient_g] in P; cbn [live]; destruct P as [_ P]; lia.
Qed.

Lemma live_steps0 : forall g g', step g g' -> live g = 0 -> live g' = 0.
Proof.
  induction 1; intro L; cbn [live] in L |- *; try (exfalso; lia); auto.
  rewrite !map_app, !list_sum_app in *; cbn [map] in *; unfold list_sum in *;
    cbn [fold_right] in *.
  assert (live c = 0) as L0 by lia. rewrite (IHstep L0). lia.
Qed.

Lemma step_patient : forall g g', step g g' -> patient_g g -> patient_g g'.
Proof.
  induction 1; cbn [patient_g patient]; intros [P Q]; split; auto.
  - split; [|exact (proj2 P)]. cbn; auto. split; [exact (proj1 P)|reflexivity].
  - destruct P as [P1 P2]; split; [eapply take_patient; eassumption|].
    rewrite (take_left _ _ _ H) in P2; cbn [over] in P2; rewrite H0 in P2.
    destruct (over b a' (left_ c')) as [e' [a''|]]; exact P2.
  - destruct P as [P1 P2].
    rewrite (take_left _ _ _ H) in P2; cbn [over] in P2; rewrite H0 in P2; contradiction.
  - destruct P as [P1 P2]; rewrite (ended_left _ H) in P2; exact P2.
  - destruct P as [P1 P2]; cbn [map]; unfold list_sum; cbn [fold_right].
    rewrite (ended_live _ H P1); exact Q.
  - destruct P as [P1 P2]; rewrite <- (step_left _ _ H); auto.
  - rewrite map_app, list_sum_app in *; cbn [map] in *; unfold list_sum in *;
      cbn [fold_right] in *.
    assert (live c = 0) as L0 by lia. rewrite (live_steps0 _ _ H L0). lia.
Qed.

(** When the channel of a patient program is found closed, every goroutine it
    started, directly or not, has returned. *)
Lemma sstep_patient : forall C y z, sstep C y z -> patient_g (fst (fst y)) -> patient_g (fst (fst z)).
Proof.
  intros C y z H; destruct H; cbn [fst]; intro P; auto.
  - eapply step_patient; eauto.
  - eapply take_patient; eauto.
Qed.

Lemma run_patient : forall C cap p s0 n y, patient p ->
    run C n (start cap p, s0, []) y -> patient_g (fst (fst y)).
Proof.
  intros C cap p s0 n y P H; remember (start cap p, s0, []) as x eqn:X.
  induction H; subst.
  - cbn; auto.
  - eapply sstep_patient; eauto.
Qed.

Lemma given_end : forall n (l : list T) h, given l n = h ++ [None] -> length l < n.
Proof.
  intros n l h H; destruct (Nat.le_gt_cases n (length l)) as [L|L]; [|exact L].
  rewrite given_prefix in H by exact L.
  assert (X : In None (map Some (firstn n l))) by (rewrite H; apply in_or_app; right; left; reflexivity).
  apply in_map_iff in X; destruct X as (y & Y & _); discriminate Y.
Qed.

Theorem none_left : forall C cap p s0 n g s h,
    patient p -> run C n (start cap p, s0, []) (g, s, h) ->
    In None h -> live g = 0.
Proof.
  intros C cap p s0 n g s h P H IN.
  pose proof (run_patient _ _ _ _ _ _ P H) as PG; cbn [fst] in PG.
  destruct (inv_run _ _ _ _ _ _ H) as (k & A & _ & _ & E & _).
  apply ended_live; [|exact PG]. apply E.
  destruct (Nat.le_gt_cases k (length (delivers p))) as [L|L]; [|exact L].
  rewrite A, given_prefix in IN by exact L.
  apply in_map_iff in IN; destruct IN as (y & Y & _); discriminate Y.
Qed.

Lemma delivers_sends : forall l : list T, delivers (sends l) = l.
Proof. induction l as [|x l IH]; [reflexivity|cbn; f_equal; exact IH]. Qed.

Definition g_cap (g : gor T) : nat := match g with G c _ _ _ _ => c end.

(** Any goroutine whose receiver left too early stays for ever. *)
Definition fits (g : gor T) : Prop :=
  match g with G cap buf hold r _ => length buf <= cap /\ (r = Closed -> hold = []) end.

Lemma fits_step : forall g g', step g g' -> fits g -> fits g' /\ g_cap g' = g_cap g.
Proof.
  intros g g' H; destruct H; cbn [fits g_cap]; intros [F1 F2];
    split; auto; split; auto; try discriminate.
  - rewrite app_length; cbn; lia.
  - intro E; specialize (F2 E); discriminate F2.
Qed.

Lemma fits_take : forall g x g', take g = Some (x, g') -> fits g -> fits g' /\ g_cap g' = g_cap g.
Proof.
  intros [cap buf hold r kids] x g' H [F1 F2].
  destruct buf as [|y buf].
  - destruct cap; destruct hold as [|y h]; try discriminate H.
    cbn [take] in H; injection H as <- <-; cbn; repeat split; auto.
    intro E; specialize (F2 E); discriminate F2.
  - cbn [take] in H.
    assert (E : Some (y, G cap buf hold r kids) = Some (x, g')) by (destruct cap; exact H).
    injection E as <- <-; cbn in *; repeat split; auto; lia.
Qed.

Lemma fits_run : forall C cap p s0 n y, run C n (start cap p, s0, []) y ->
    fits (fst (fst y)) /\ g_cap (fst (fst y)) = cap.
Proof.
  intros C cap p s0 n y H; remember (start cap p, s0, []) as x eqn:X.
  induction H; subst.
  - cbn; repeat split; auto with arith.
  - destruct (IHrun eq_refl) as [P1 P2]; destruct H0; cbn [fst] in *.
    + destruct (fits_step _ _ H0 P1); split; [assumption|congruence].
    + destruct (fits_take _ _ _ H1 P1); split; [assumption|congruence].
    + auto.
Qed.

Lemma fits_steps : forall g g', steps g g' -> fits g ->
    fits g' /\ g_cap g' = g_cap g /\ left_ g' = left_ g.
Proof.
  intros g g' H; induction H; intro F; [auto|].
  destruct (fits_step _ _ H F) as [F2 E2].
  destruct (IHsteps F2) as (F3 & E3 & L3).
  rewrite (step_left _ _ H); repeat split; [exact F3|congruence|exact L3].
Qed.

Lemma fits_live0 : forall g, fits g -> live g = 0 -> length (left_ g) <= g_cap g.
Proof.
  intros [cap buf hold r kids] [F1 F2] L.
  destruct r; cbn [live] in L; try lia.
  cbn [left_ left_code g_cap]; rewrite (F2 eq_refl), !app_nil_r; exact F1.
Qed.

Lemma given_len : forall n (l : list T), length (given l n) = n.
Proof.
  induction n as [|n IH]; intro l; [reflexivity|].
  rewrite given_snoc, app_length, IH; cbn; lia.
Qed.

Theorem stays : forall (C : consumer T) cap p s0 n g s h g',
    run C n (start cap p, s0, []) (g, s, h) -> steps g g' ->
    length h + cap < length (delivers p) -> live g' <> 0.
Proof.
  intros C cap p s0 n g s h g' H ST L L0.
  destruct (inv_run _ _ _ _ _ _ H) as (k & A & _ & B & _ & _).
  destruct (fits_run _ _ _ _ _ _ H) as [F1 F2]; cbn [fst] in *.
  destruct (fits_steps _ _ ST F1) as (G1 & G2 & G3).
  pose proof (fits_live0 _ G1 L0) as X.
  rewrite G3, B, skipn_length, G2, F2 in X.
  assert (length h = k) by (rewrite A; apply given_len). lia.
Qed.

(** The other direction, for patient programs: if what is left fits into the
    buffer, everything returns. *)
Lemma rest_live0 : forall g : gor T, fits g -> patient_g g -> at_rest g ->
    length (left_ g) <= g_cap g -> live g = 0.
Proof.
  intros [cap buf hold r kids] [F1 F2] [P1 P2] AR L.
  cbn [left_ g_cap] in L; rewrite !app_length in L.
  destruct hold as [|t h].
  2:{ exfalso; eapply AR; apply s_send. cbn [length] in L; lia. }
  destruct r as [p|c a b k|].
  - exfalso; destruct p as [|t k|n q a b k]; eapply AR; constructor.
  - exfalso; destruct (progress_ c) as [[c' HS]|[(x & c' & HT)|HE]].
    + eapply AR; apply s_child; exact HS.
    + destruct (b a x) as [e [a'|]] eqn:B; eapply AR.
      * eapply s_recv; [exact HT|exact B].
      * eapply s_return; [exact HT|exact B].
    + eapply AR; apply s_over; exact HE.
  - cbn [live]; lia.
Qed.

Lemma steps_patient : forall g g' : gor T, steps g g' -> patient_g g -> patient_g g'.
Proof. intros g g' H; induction H; intro P; [exact P|]. apply IHsteps; eapply step_patient; eauto. Qed.

Theorem returns : forall (C : consumer T) cap p s0 n g s h g',
    patient p -> run C n (start cap p, s0, []) (g, s, h) ->
    steps g g' -> at_rest g' ->
    length (delivers p) <= length h + cap -> live g' = 0.
Proof.
  intros C cap p s0 n g s h g' P H ST AR E.
  destruct (inv_run _ _ _ _ _ _ H) as (k & A & _ & B & _ & _).
  destruct (fits_run _ _ _ _ _ _ H) as [F1 F2].
  pose proof (run_patient _ _ _ _ _ _ P H) as PG; cbn [fst] in *.
  destruct (fits_steps _ _ ST F1) as (G1 & G2 & G3).
  assert (LH : length h = k) by (rewrite A; apply given_len).
  apply rest_live0; auto.
  - eapply steps_patient; eauto.
  - rewrite G3, B, skipn_length, G2, F2; lia.
Qed.

(** The receiver gets done: if it would be done after some number of receives,
    every schedule can be continued until it is, and the goroutine can always
    be run until it rests. *)
Lemma run_app : forall (C : consumer T) n m (x y z : sys C), run C n x y -> run C m y z -> run C (n + m) x z.
Proof.
  intros C n m x y z H1 H2; induction H2.
  - rewrite Nat.add_0_r; exact H1.
  - rewrite Nat.add_succ_r; eapply r_step; eauto.
Qed.

Theorem finishes : forall (C : consumer T) cap p s0 K n y,
    c_done C (fed C s0 (delivers p) K) = true ->
    run C n (start cap p, s0, []) y ->
    exists m g s h, run C m y (g, s, h) /\ c_done C s = true.
Proof.
  intros C cap p s0 K n y DK R.
  remember (work p + K - n) as fuel eqn:F.
  revert n y R F; induction fuel as [fuel IH] using lt_wf_ind; intros n [[g s] h] R F.
  destruct (c_done C s) eqn:D.
  { exists 0, g, s, h; split; [constructor|exact D]. }
  destruct (no_deadlock _ _ _ _ _ _ _ _ R D) as [z SZ].
  assert (RZ : run C (S n) (start cap p, s0, []) z) by (eapply r_step; eauto).
  destruct z as [[g2 s2] h2].
  pose proof (terminates _ _ _ _ _ _ _ _ RZ) as B.
  destruct (prefix_ _ _ _ _ _ _ _ _ RZ) as (k & A1 & _ & A3).
  assert (LK : k <= K).
  { destruct (Nat.le_gt_cases k K) as [L|L]; [exact L|].
    rewrite (A3 _ L) in DK; discriminate DK. }
  assert (length h2 = k) by (rewrite A1; apply given_len).
  assert (LF : work p + K - S n < fuel) by lia.
  destruct (IH _ LF (S n) _ RZ eq_refl) as (m & g' & s' & h' & RM & DM).
  exists (1 + m), g', s', h'; split; [|exact DM].
  eapply run_app; [|exact RM]. eapply r_step; [constructor|exact SZ].
Qed.

(** Whether a goroutine (or one below it) can take a step is decidable. *)
Lemma step_dec : forall g : gor T, (exists g', step g g') \/ ~ (exists g', step g g').
Proof.
  fix F 1. intros [cap buf hold r kids].
  assert (K : (exists k1 c c' k2, kids = k1 ++ c :: k2 /\ step c c')
              \/ ~ (exists k1 c c' k2, kids = k1 ++ c :: k2 /\ step c c')).
  { induction kids as [|c kids IHk].
    - right; intros (k1 & c & c' & k2 & E & _); destruct k1; discriminate E.
    - destruct (F c) as [[c' S1]|NS].
      + left; exists [], c, c', kids; split; [reflexivity|exact S1].
      + destruct IHk as [(k1 & d & d' & k2 & -> & S1)|NK].
        * left; exists (c :: k1), d, d', k2; split; [reflexivity|exact S1].
        * right; intros (k1 & d & d' & k2 & E & S1).
          destruct k1 as [|k k1]; injection E as -> E.
          -- apply NS; exists d'; exact S1.
          -- apply NK; exists k1, d, d', k2; auto. }
  destruct K as [(k1 & c & c' & k2 & -> & S1)|NK].
  { left; eexists; apply s_kid; exact S1. }
  destruct hold as [|t h].
  2:{ destruct (Nat.lt_ge_cases (length buf) cap) as [L|L].
      { left; eexists; apply s_send; exact L. }
      destruct r as [p|c a b k|].
      - right; intros [g' S1]; inversion S1; subst; [lia|].
        apply NK; eexists _, _, _, _; split; [reflexivity|eassumption].
      - destruct (F c) as [[c' S1]|NS].
        { left; eexists; apply s_child; exact S1. }
        right; intros [g' S1]; inversion S1; subst; [lia| |].
        + apply NS; eexists; eassumption.
        + apply NK; eexists _, _, _, _; split; [reflexivity|eassumption].
      - right; intros [g' S1]; inversion S1; subst; [lia|].
        apply NK; eexists _, _, _, _; split; [reflexivity|eassumption]. }
  destruct r as [p|c a b k|].
  - left; destruct p as [|t k|n q a b k]; eexists; constructor.
  - left; destruct (progress_ c) as [[c' HS]|[(x & c' & HT)|HE]].
    + eexists; apply s_child; exact HS.
    + destruct (b a x) as [e [a'|]] eqn:B; eexists.
      * eapply s_recv; [exact HT|exact B].
      * eapply s_return; [exact HT|exact B].
    + eexists; apply s_over; exact HE.
  - right; intros [g' S1]; inversion S1; subst.
    apply NK; eexists _, _, _, _; split; [reflexivity|eassumption].
Qed.

Theorem rests : forall g : gor T, exists g', steps g g' /\ at_rest g'.
Proof.
  intro g; remember (todo g) as n eqn:N; revert g N.
  induction n as [n IH] using lt_wf_ind; intros g N.
  destruct (step_dec g) as [[g' S1]|NS].
  - pose proof (step_todo _ _ S1) as L. rewrite <- N in L.
    destruct (IH _ L g' eq_refl) as (g2 & S2 & R2).
    exists g2; split; [eapply ss_step; eauto|exact R2].
  - exists g; split; [constructor|]. intros g' S1; apply NS; exists g'; exact S1.
Qed.

End Proofs.

(** ** The lexer *)
Lemma over_forward : forall {T} (xs : list T) a, over forward a xs = (xs, Some a).
Proof.
  induction xs as [|x xs IH]; intro a; [reflexivity|].
  cbn [over]; unfold forward at 1; rewrite IH; reflexivity.
Qed.

Fixpoint send_ind' (P : send -> Prop) (HO : forall t, P (Own t))
         (HE : forall n l, Forall P l -> P (Ext n l)) (x : send) : P x :=
  match x with
  | Own t => HO t
  | Ext n l => HE n l ((fix go (l : list send) : Forall P l :=
                          match l with
                          | [] => Forall_nil P
                          | y :: r => Forall_cons y (send_ind' P HO HE y) (go r)
                          end) l)
  end.

Lemma send_code_delivers : forall x k,
    delivers (send_code x k) = send_tokens x ++ delivers k.
Proof.
  induction x as [t|n l IH] using send_ind'; intro k; [reflexivity|].
  assert (L : delivers (fold_right send_code Stop l) = flat_map send_tokens l).
  { induction IH as [|y r HY HR IH2]; [reflexivity|].
    cbn [fold_right flat_map]; rewrite HY, IH2; reflexivity. }
  cbn [send_code delivers send_tokens]; rewrite L, over_forward; reflexivity.
Qed.

Theorem lexer_delivers : forall l, delivers (lexer_code l) = flat_map send_tokens l.
Proof.
  induction l as [|x l IH]; [reflexivity|].
  unfold lexer_code in *; cbn [fold_right flat_map]; rewrite send_code_delivers, IH; reflexivity.
Qed.

Lemma send_code_patient : forall x k, patient k -> patient (send_code x k).
Proof.
  induction x as [t|n l IH] using send_ind'; intros k K; [exact K|].
  cbn [send_code patient]; rewrite over_forward; split; [|exact K].
  induction IH as [|y r HY HR IH2]; [exact I|cbn [fold_right]; apply HY; exact IH2].
Qed.

Theorem lexer_patient : forall l, patient (lexer_code l).
Proof.
  induction l as [|x l IH]; [exact I|].
  unfold lexer_code in *; cbn [fold_right]; apply send_code_patient; exact IH.
Qed.
