(** Goroutines whose loops stop listening only at the end. *)
From Verif Require Export OutcomeProofs SpecOwn ChanCombine Chan.
From Coq Require Import Lia.
Import ListNotations.
Local Open Scope list_scope.

Section Tidy.
Context {T : Type}.
(** The loop returns early, at the last value. *)
Fixpoint at_last (b : loop_body T) (a xs : list T) : Prop :=
  match xs with
  | [] => False
  | x :: r => match b a x with (_, None) => r = [] | (_, Some a') => at_last b a' r end
  end.
Fixpoint tidy (p : proc T) : Prop :=
  match p with
  | Stop => True
  | Emit _ k => tidy k
  | Range _ c a b k =>
    tidy c /\ match over b a (delivers c) with
              | (_, Some a') => tidy (k a')
              | (_, None) => at_last b a (delivers c)
              end
  end.
Lemma patient_tidy : forall p, patient p -> tidy p.
Proof.
  induction p as [|t k IH|n c IHc a b k IHk]; cbn [patient tidy]; auto. intros [A B]. split; auto.
  destruct (over b a (delivers c)) as [e [a'|]]; auto. destruct B.
Qed.
Fixpoint tidy_g (g : gor T) : Prop :=
  match g with
  | G _ _ _ r kids =>
    match r with
    | Code p => tidy p
    | Loop c a b k =>
      tidy_g c /\ fits c /\ match over b a (left_ c) with
                  | (_, Some a') => tidy (k a')
                  | (_, None) => at_last b a (left_ c)
                  end
    | Closed => True
    end /\ (fix all l := match l with [] => True | x :: l => (tidy_g x /\ fits x /\ left_ x = []) /\ all l end) kids
  end.
Definition gone (g : gor T) : Prop := tidy_g g /\ fits g /\ left_ g = [].
Lemma tidy_G : forall cap buf h r kids, tidy_g (G cap buf h r kids) <->
  match r with
  | Code p => tidy p
  | Loop c a b k => tidy_g c /\ fits c /\ match over b a (left_ c) with (_, Some a') => tidy (k a') | (_, None) => at_last b a (left_ c) end
  | Closed => True
  end /\ Forall gone kids.
Proof.
  intros cap buf h r kids. cbn [tidy_g].
  assert (X : (fix all l := match l with [] => True | x :: l => (tidy_g x /\ fits x /\ left_ x = []) /\ all l end) kids <-> Forall gone kids).
  { induction kids as [|x l IH]; split; auto.
    - intros [A B]. constructor; [exact A|now apply IH].
    - intros F. inversion F; subst. split; [assumption|now apply IH]. }
  rewrite X. reflexivity.
Qed.
Lemma take_tidy : forall g x g', take g = Some (x, g') -> tidy_g g -> tidy_g g'.
Proof.
  intros [cap buf hold r kids] x g' H P.
  destruct buf as [|y buf].
  - destruct cap; destruct hold as [|y h]; try discriminate H.
    cbn [take] in H; injection H as <- <-; exact P.
  - cbn [take] in H.
    assert (E : Some (y, G cap buf hold r kids) = Some (x, g')) by (destruct cap; exact H).
    injection E as <- <-; exact P.
Qed.
Lemma step_tidy : forall g g', step g g' -> tidy_g g -> tidy_g g'.
Proof.
  induction 1; rewrite !tidy_G; cbn [tidy]; intros [P Q]; (split; [|try exact Q]); auto.
  - destruct P as [P1 P2]. split; [apply tidy_G; split; [exact P1|constructor]|]. split; [cbn; split; [lia|discriminate]|exact P2].
  - destruct P as (P1 & P2 & P3). split; [eapply take_tidy; eassumption|]. split; [exact (proj1 (fits_take _ _ _ H P2))|].
    rewrite (take_left _ _ _ H) in P3. cbn [over at_last] in P3. rewrite H0 in P3.
    destruct (over b a' (left_ c')) as [e' [a''|]]; exact P3.
  - destruct P as (P1 & P2 & P3). constructor; [|exact Q]. split; [eapply take_tidy; eassumption|]. split; [exact (proj1 (fits_take _ _ _ H P2))|].
    rewrite (take_left _ _ _ H) in P3. cbn [over at_last] in P3. rewrite H0 in P3. exact P3.
  - destruct P as (P1 & P2 & P3). rewrite (ended_left _ H) in P3. exact P3.
  - destruct P as (P1 & P2 & P3). constructor; [|exact Q]. split; [exact P1|]. split; [exact P2|now apply ended_left].
  - destruct P as (P1 & P2 & P3). rewrite <- (step_left _ _ H). split; [auto|]. split; [exact (proj1 (fits_step _ _ H P2))|exact P3].
  - apply Forall_app in Q as [Q1 Q2]. inversion Q2 as [|? ? (K1 & K2 & K3) Q3]; subst. apply Forall_app. split; [exact Q1|]. constructor; [|exact Q3].
    split; [auto|]. split; [exact (proj1 (fits_step _ _ H K2))|]. now rewrite <- (step_left _ _ H).
Qed.
Lemma run_tidy : forall C cap p s0 n y, tidy p -> run C n (start cap p, s0, []) y -> tidy_g (fst (fst y)).
Proof.
  intros C cap p s0 n y P H; remember (start cap p, s0, []) as x eqn:X. induction H; subst.
  - cbn [fst]. apply tidy_G. split; [exact P|constructor].
  - specialize (IHrun eq_refl). destruct H0; cbn [fst] in *; auto; [eapply step_tidy; eauto|eapply take_tidy; eauto].
Qed.
Lemma steps_tidy : forall g g', steps g g' -> tidy_g g -> tidy_g g'.
Proof. intros g g' H; induction H; intro P; [exact P|]. apply IHsteps; eapply step_tidy; eauto. Qed.
Fixpoint gsize (g : gor T) : nat :=
  match g with G _ _ _ r kids => S (match r with Loop c _ _ _ => gsize c | _ => 0 end + list_sum (map gsize kids)) end.
Lemma tidy_rest : forall n g, gsize g <= n -> fits g -> tidy_g g -> at_rest g -> length (left_ g) <= g_cap g -> live g = 0.
Proof.
  induction n as [|n IH]; intros [cap buf hold r kids] S F P AR L; [cbn [gsize] in S; lia|].
  apply tidy_G in P as [P1 P2]. destruct F as [F1 F2].
  assert (K : list_sum (map live kids) = 0).
  { assert (X : forall l, Forall gone l -> (forall x, In x l -> at_rest x) -> list_sum (map gsize l) <= n -> list_sum (map live l) = 0).
    { induction l as [|x l IHl]; intros FG AL SZ; [reflexivity|]. inversion FG as [|? ? (G1 & G2 & G3) FG']; subst.
      change (list_sum (map gsize (x :: l))) with (gsize x + list_sum (map gsize l)) in SZ. change (list_sum (map live (x :: l))) with (live x + list_sum (map live l)).
      rewrite IHl by (auto; try lia; intros; apply AL; now right). rewrite (IH x); auto; [lia|apply AL; now left|rewrite G3; cbn; lia]. }
    apply X; auto.
    - intros x I g' ST. apply in_split in I as (k1 & k2 & ->). eapply AR. apply s_kid. exact ST.
    - cbn [gsize] in S. lia. }
  cbn [left_ g_cap] in L; rewrite !app_length in L.
  destruct hold as [|t h].
  2:{ exfalso; eapply AR; apply s_send. cbn [length] in L; lia. }
  destruct r as [p|c a b k|].
  - exfalso; destruct p as [|t k|m q a b k]; eapply AR; constructor.
  - exfalso; destruct (progress_ c) as [[c' HS]|[(x & c' & HT)|HE]].
    + eapply AR; apply s_child; exact HS.
    + destruct (b a x) as [e [a'|]] eqn:B; eapply AR.
      * eapply s_recv; [exact HT|exact B].
      * eapply s_return; [exact HT|exact B].
    + eapply AR; apply s_over; exact HE.
  - cbn [live]; lia.
Qed.
Theorem tidy_returns : forall (C : consumer T) cap p s0 n g s h g',
    tidy p -> run C n (start cap p, s0, []) (g, s, h) -> steps g g' -> at_rest g' ->
    length (delivers p) <= length h + cap -> live g' = 0.
Proof.
  intros C cap p s0 n g s h g' P H ST AR E.
  destruct (inv_run _ _ _ _ _ _ H) as (k & A & _ & B & _ & _).
  destruct (fits_run _ _ _ _ _ _ H) as [F1 F2].
  pose proof (run_tidy _ _ _ _ _ _ P H) as PG; cbn [fst] in *.
  destruct (fits_steps _ _ ST F1) as (G1 & G2 & G3).
  assert (LH : length h = k) by (rewrite A; apply given_len).
  apply (tidy_rest (gsize g')); auto.
  - eapply steps_tidy; eauto.
  - rewrite G3, B, skipn_length, G2, F2; lia.
Qed.
End Tidy.

(** ** Combined *)
Definition clean (p : proc inc) (e : goerr) : Prop := exists ds, delivers p = map IDir ds ++ [IErr e] /\ tidy p.
Lemma clean_forward : forall n p k ds e, delivers p = map IDir ds -> patient p -> clean k e -> clean (Range n p [] forward (fun _ => k)) e.
Proof.
  intros n p k ds e HD HP (ds' & KD & KT). exists (ds ++ ds'). cbn [delivers tidy]. rewrite over_forward, HD, KD, map_app, app_assoc.
  repeat split; auto. now apply patient_tidy.
Qed.
Lemma clean_add : forall d k e, clean k e -> clean (Emit (IDir d) k) e.
Proof. intros d k e (ds & A & B). exists (d :: ds). cbn [delivers tidy map app]. now rewrite A. Qed.
Lemma at_last_collects : forall ds e a, at_last collects a (map IDir ds ++ [IErr e]).
Proof. induction ds as [|d ds IH]; intros e a; cbn [map app at_last collects]; auto. Qed.
Lemma perform_dirs : forall k cs f b ds, outcome cs f b (Dirs ds) -> perform k cs f b <> CFuel -> perform k cs f b = COk ds.
Proof.
  intros k cs f b ds O NF. apply outcome_iff in O as [n E]. specialize (E (Nat.max n k) (Nat.le_max_l _ _)).
  rewrite (perform_fix k cs f b (perform k cs f b) NF eq_refl) in E; [exact E|apply Nat.le_max_r].
Qed.
Lemma idx_app : forall fuel cs f d k e is is2 ds, perform_all fuel cs f d is = COk ds ->
  clean (idx_code fuel cs f d k is2) e -> clean (idx_code fuel cs f d k (is ++ is2)) e.
Proof.
  intros fuel cs f d k e. induction is as [|i is IH]; intros is2 ds P C; [exact C|]. cbn [app idx_code perform_all] in *.
  destruct (Z.leb _ i); [discriminate|]. destruct (Z.ltb i 0); [discriminate|]. destruct (nth_error cs (Z.to_nat i)) as [c|]; [|discriminate].
  pose proof (includes_agree fuel cs (cf_file c) (cf_parsed c)) as A. destruct (perform fuel cs (cf_file c) (cf_parsed c)) as [ds1|e1| |]; try discriminate.
  destruct A as [A1 A2]. cbn [cseq] in P. destruct (perform_all fuel cs f d is) as [ds2|e2| |] eqn:PA; try discriminate. eapply clean_forward; eauto.
Qed.
Lemma idx_large : forall fuel cs f d k i is, (Z.of_nat (length cs) <= i)%Z -> clean (idx_code fuel cs f d k (i :: is)) (index_error f d i).
Proof. intros fuel cs f d k i is L. cbn [idx_code]. apply Z.leb_le in L. rewrite L. exists []. split; [reflexivity|exact I]. Qed.
Lemma all_app : forall fuel cs f d is is2, perform_all fuel cs f d (is ++ is2) = cseq (perform_all fuel cs f d is) (perform_all fuel cs f d is2).
Proof.
  intros fuel cs f d. induction is as [|i is IH]; intros is2; cbn [app perform_all]; [cbn [cseq]; destruct (perform_all fuel cs f d is2); reflexivity|].
  destruct (Z.leb _ i); [reflexivity|]. destruct (Z.ltb i 0); [reflexivity|]. destruct (nth_error cs (Z.to_nat i)) as [c|]; [|reflexivity]. rewrite IH.
  destruct (perform fuel cs (cf_file c) (cf_parsed c)); try reflexivity. cbn [cseq]. destruct (perform_all fuel cs f d is) as [x| | |]; try reflexivity. cbn [cseq cadd].
  destruct (perform_all fuel cs f d is2); cbn [cadd]; try reflexivity. now rewrite app_assoc.
Qed.
Lemma all_dirs : forall k cs f d b is ds, outcomes cs f d b is (Dirs ds) -> forall f' d', perform_all k cs f' d' is <> CFuel -> exists ds', perform_all k cs f' d' is = COk ds'.
Proof.
  intros k cs f d b. induction is as [|i is IH]; intros ds O f' d' NF; [eexists; reflexivity|].
  inversion O as [|? ? ? ? ? L|? ? ? ? ? L|? ? ? ? ? c ? P N O1 FA|? ? ? ? ? c ds1 a P N O1 O2]; subst; try (destruct FA; fail).
  destruct a as [ds2|e|]; try discriminate. cbn [perform_all] in *.
  assert (X : (Z.of_nat (List.length cs) <=? i)%Z = false). { apply Z.leb_gt. assert (nth_error cs (Z.to_nat i) <> None) as Y by congruence. apply nth_error_Some in Y. lia. }
  assert (Y : (i <? 0)%Z = false) by (apply Z.ltb_ge; auto). rewrite X, Y, N in *.
  assert (Q : perform k cs (cf_file c) (cf_parsed c) = COk ds1). { apply perform_dirs; auto. intros Z. apply NF. now rewrite Z. }
  rewrite Q in *. cbn [cseq] in *. destruct (IH _ O2 f' d') as [ds' E]. { intros Z. apply NF. now rewrite Z. } rewrite E. eexists; reflexivity.
Qed.
Lemma block_range : forall fuel cs f b nb d r e, perform fuel cs f b = COk nb -> clean (after_code fuel cs f r (with_block d nb)) e ->
  clean (Range 0 (includes_code fuel cs f b) [] collects (fun a => after_code fuel cs f r (with_block d (dirs_of a)))) e.
Proof.
  intros fuel cs f b nb d r e P C. pose proof (includes_agree fuel cs f b) as A. rewrite P in A. destruct A as [A1 A2]. destruct C as (ds & C1 & C2).
  exists ds. cbn [delivers tidy]. rewrite A1, over_collects_ok. cbn [app]. rewrite dirs_of_map. split; [exact C1|]. split; [now apply patient_tidy|exact C2].
Qed.
Lemma outcomes_app : forall cs f d b is2 a is ds, outcomes cs f d b is (Dirs ds) -> outcomes cs f d b is2 a -> exists a', outcomes cs f d b (is ++ is2) a' /\ a' = after ds a.
Proof.
  intros cs f d b is2 a. induction is as [|i is IH]; intros ds O O2.
  - inversion O; subst. exists a. split; [exact O2|]. destruct a; reflexivity.
  - inversion O as [|? ? ? ? ? L|? ? ? ? ? L|? ? ? ? ? c ? P N O1 FA|? ? ? ? ? c ds1 a0 P N O1 O3]; subst; try (destruct FA; fail).
    destruct a0 as [ds2|e|]; try discriminate. match goal with E : after _ _ = Dirs _ |- _ => cbn [after] in E; injection E as <- end.
    destruct (IH _ O3 O2) as (a' & A & ->). cbn [app]. eexists. split; [eapply os_cons; eauto|]. destruct a; cbn [after]; auto. now rewrite app_assoc.
Qed.
Lemma own_fails : forall cs f block, own_error cs f block -> exists e, outcome cs f block (Bad e).
Proof.
  intros cs f block O. induction O as [d b pre i post ds r OB NM DI OS L|d b r B O [e IH]|d ds r O1 O [e IH]].
  - pose proof (os_large cs f d b i post L) as OL. destruct (outcomes_app _ _ _ _ _ _ _ _ OS OL) as (a' & A & ->). cbn [after] in A.
    eexists. eapply oc_broken; eauto. exact I.
  - exists e. eapply oc_inside; eauto. exact I.
  - exists e. inversion O1 as [|? ? ? ? ? B OB FA|? ? ? ? a OB NR ON|? ? ? is ? ? a OB NM DI OS ON|? ? ? ? ? ? OB NM DI OS FA]; subst; try (destruct FA; fail).
    + exact (oc_keep _ _ _ _ _ _ OB NR IH).
    + exact (oc_include _ _ _ _ _ _ _ _ OB NM DI OS IH).
Qed.
Lemma perform_bad : forall k cs f b a, outcome cs f b a -> perform k cs f b <> CFuel -> perform k cs f b = cres_of a.
Proof.
  intros k cs f b a O NF. apply outcome_iff in O as [n E]. specialize (E (Nat.max n k) (Nat.le_max_l _ _)).
  rewrite (perform_fix k cs f b (perform k cs f b) NF eq_refl) in E; [exact E|apply Nat.le_max_r].
Qed.
Lemma own_clean : forall cs f block, own_error cs f block -> forall fuel e, perform fuel cs f block = CErr e -> clean (includes_code fuel cs f block) e.
Proof.
  intros cs f block O. induction O as [d b pre i post ds r OB NM DI OS L|d b r B O IH|d ds r O1 O IH]; intros [|fuel] e P; try discriminate P; rewrite perform_cons in P; rewrite includes_cons.
  - assert (X : forall d', d_name d' = d_name d -> d_includes d' = d_includes d ->
      (if negb (is_include d') then cadd [d'] (perform (S fuel) cs f r)
       else cseq (perform_all fuel cs f d' (opt_list (d_includes d'))) (perform (S fuel) cs f r)) = CErr e -> clean (after_code fuel cs f r d') e).
    { intros d' E1 E2 P'. unfold after_code. assert (INC : is_include d' = true) by (apply is_include_iff; split; congruence).
      rewrite INC, E2, DI in *. cbn [negb opt_list] in *. rewrite all_app in P'.
      destruct (all_dirs fuel _ _ _ _ _ _ OS f d') as [ds' E]. { intros Z. rewrite Z in P'. discriminate. }
      rewrite E in P'. cbn [cseq] in P'. cbn [perform_all] in P'. pose proof L as L'. apply Z.leb_le in L'. rewrite L' in P'. cbn [cadd cseq] in P'. injection P' as <-.
      eapply idx_app; [exact E|]. now apply idx_large. }
    destruct (d_block d) as [b0|] eqn:B.
    + inversion OB as [|? ? nb OB' E1 E2]; subst. assert (Q : perform fuel cs f b0 = COk nb). { apply perform_dirs; auto. intros Z. rewrite Z in P. discriminate. }
      rewrite Q in P. eapply block_range; [exact Q|]. apply X; auto.
    + apply X; auto.
  - rewrite B in *. destruct (perform fuel cs f b) as [nb|e1| |] eqn:Q; try discriminate P.
    + exfalso. destruct (own_fails _ _ _ O) as [e' OE]. assert (Z : perform fuel cs f b = cres_of (Bad e')) by (apply perform_bad; [exact OE|congruence]). rewrite Q in Z. discriminate.
    + injection P as <-. destruct (IH _ _ Q) as (ds & C1 & C2). exists []. cbn [delivers tidy]. rewrite C1, over_collects_err. cbn. repeat split; auto. apply at_last_collects.
  - assert (X : forall b d', d' = reblock d b -> block_outcome cs f (d_block d) b ->
      (if negb (is_include d') then cadd [d'] (perform (S fuel) cs f r)
       else cseq (perform_all fuel cs f d' (opt_list (d_includes d'))) (perform (S fuel) cs f r)) = CErr e -> clean (after_code fuel cs f r d') e).
    { intros b d' -> OB' P'. change (is_include (reblock d b)) with (is_include d) in P'. change (d_includes (reblock d b)) with (d_includes d) in P'.
      unfold after_code. change (is_include (reblock d b)) with (is_include d). change (d_includes (reblock d b)) with (d_includes d). destruct (is_include d) eqn:INC; cbn [negb] in *.
      - apply is_include_iff in INC as [NM NN].
        inversion O1 as [|? ? ? ? ? B OB FA|? ? ? ? a OB NR ON|? ? ? is ? ? a OB NM' DI OS ON|? ? ? ? ? ? OB NM' DI OS FA]; subst; try (destruct FA; fail); [destruct NR; split; assumption|].
        rewrite DI in *. cbn [opt_list] in *. destruct a as [ds2|e2|]; try discriminate.
        destruct (all_dirs fuel _ _ _ _ _ _ OS f (reblock d b)) as [ds' E]. { intros Z. rewrite Z in P'. discriminate. }
        rewrite E in P'. cbn [cseq] in P'. destruct (perform (S fuel) cs f r) as [x|e2| |] eqn:R; try discriminate P'. cbn [cadd] in P'. injection P' as ->.
        rewrite <- (app_nil_r is). eapply idx_app; [exact E|]. cbn [idx_code]. now apply IH.
      - destruct (perform (S fuel) cs f r) as [x|e2| |] eqn:R; try discriminate P'. cbn [cadd] in P'. injection P' as ->. apply clean_add. now apply IH. }
    destruct (d_block d) as [b0|] eqn:B.
    + assert (Y : exists nb, outcome cs f b0 (Dirs nb)).
      { inversion O1 as [|? ? ? ? ? B' OB FA|? ? ? ? a OB NR ON|? ? ? is ? ? a OB NM' DI OS ON|? ? ? ? ? ? OB NM' DI OS FA]; subst; try (destruct FA; fail); rewrite B in OB; inversion OB; subst; eauto. }
      destruct Y as [nb Y]. assert (Q : perform fuel cs f b0 = COk nb). { apply perform_dirs; auto. intros Z. rewrite Z in P. discriminate. }
      rewrite Q in P. eapply block_range; [exact Q|]. apply (X (Some nb)); auto. now constructor.
    + apply (X None); auto; [|constructor]. rewrite <- B. symmetry. apply reblock_same.
Qed.
Theorem own_error_clean : forall fuel cs f block n cap g s h g', own_error cs f block -> perform fuel cs f block <> CFuel ->
  run combiner n (start cap (includes_code fuel cs f block), Reading [], []) (g, s, h) -> c_done combiner s = true ->
  steps g g' -> at_rest g' -> live g' = 0.
Proof.
  intros fuel cs f block n cap g s h g' O NF R D ST AR. destruct (own_fails _ _ _ O) as [e OE]. apply (perform_bad fuel) in OE; auto. cbn [cres_of] in OE.
  destruct (own_clean _ _ _ O _ _ OE) as (ds & C1 & C2). apply (tidy_returns _ _ _ _ _ _ _ _ _ C2 R ST AR). rewrite C1, app_length, map_length.
  destruct (prefix_ _ _ _ _ _ _ _ _ R) as (k & Hh & Hs & _). rewrite C1 in Hs.
  destruct (Nat.le_gt_cases k (length ds)) as [L|L].
  - rewrite fed_combiner_err in Hs by exact L. subst s. discriminate D.
  - rewrite Hh. rewrite given_len. cbn [length]. lia.
Qed.
