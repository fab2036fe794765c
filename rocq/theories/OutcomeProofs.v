(** C16: every run of Combined, successful or not. *)
From Verif Require Export CombineProofs SpecOutcome.
Local Open Scope string_scope.

Definition cres_of (a : answer) : cres := match a with Dirs ds => COk ds | Bad e => CErr e | Negative => CPanic end.
Lemma reblock_same : forall d, reblock d (d_block d) = d.
Proof. now intros []. Qed.
Lemma include_text_ok : forall d b, dir_string (reblock d b) = include_text d b.
Proof.
  intros d b. unfold dir_string, include_text. cbn [reblock d_block d_name d_args]. destruct b as [[|x b]|]; cbn [opt_list]; auto.
  all: f_equal; f_equal; now rewrite app_nil_r_s.
Qed.
Lemma cres_after : forall ds a, cres_of (after ds a) = cadd ds (cres_of a).
Proof. intros ds []; reflexivity. Qed.

(** ** What the code answers *)
Lemma perform_outcome : forall fuel old f block, perform fuel old f block <> CFuel ->
  exists a, cres_of a = perform fuel old f block /\ outcome old f block a.
Proof.
  induction fuel as [|fuel IH]; intros old f block H; [now destruct H|].
  assert (ALL : forall f d b is, perform_all fuel old f (reblock d b) is <> CFuel ->
            exists a, cres_of a = perform_all fuel old f (reblock d b) is /\ outcomes old f d b is a).
  { intros f0 d b is. induction is as [|i is IHis]; intros H0; cbn [perform_all] in *.
    - exists (Dirs []). split; [reflexivity|constructor].
    - destruct (Z.leb _ i) eqn:LE.
      { apply Z.leb_le in LE. eexists (Bad _). split; [|apply os_large; exact LE]. cbn [cres_of]. unfold index_error. now rewrite include_text_ok. }
      destruct (Z.ltb i 0) eqn:NEG. { apply Z.ltb_lt in NEG. exists Negative. split; [reflexivity|now constructor]. }
      apply Z.ltb_ge in NEG. apply Z.leb_gt in LE. destruct (nth_error old (Z.to_nat i)) as [c|] eqn:N.
      2: { apply nth_error_None in N. lia. }
      destruct (IH old (cf_file c) (cf_parsed c)) as (a & E & O). { intros X. apply H0. now rewrite X. }
      rewrite <- E in *. destruct a as [ds|e|].
      + cbn [cres_of cseq] in *. destruct IHis as (a & E2 & O2). { intros X. apply H0. now rewrite X. }
        exists (after ds a). split; [rewrite cres_after; now f_equal|]. eapply os_cons; eauto.
      + exists (Bad e). split; [reflexivity|]. eapply os_fails; eauto; exact I.
      + exists Negative. split; [reflexivity|]. eapply os_fails; eauto; exact I. }
  induction block as [|d r IHb]; [exists (Dirs []); split; [reflexivity|constructor]|].
  rewrite perform_cons in *.
  assert (REST : forall b, block_outcome old f (d_block d) b ->
    (if negb (is_include (reblock d b)) then cadd [reblock d b] (perform (S fuel) old f r)
     else cseq (perform_all fuel old f (reblock d b) (opt_list (d_includes (reblock d b)))) (perform (S fuel) old f r)) <> CFuel ->
    exists a, cres_of a = (if negb (is_include (reblock d b)) then cadd [reblock d b] (perform (S fuel) old f r)
     else cseq (perform_all fuel old f (reblock d b) (opt_list (d_includes (reblock d b)))) (perform (S fuel) old f r)) /\ outcome old f (d :: r) a).
  { intros b OB NF. change (is_include (reblock d b)) with (is_include d) in *. destruct (is_include d) eqn:INC; cbn [negb] in *.
    - apply is_include_iff in INC as [NM NN]. change (d_includes (reblock d b)) with (d_includes d) in *. destruct (d_includes d) as [is|] eqn:DI; [|congruence]. cbn [opt_list] in *.
      destruct (ALL f d b is) as (a & E & O). { intros X. apply NF. now rewrite X. }
      rewrite <- E in *. destruct a as [ds|e|].
      + cbn [cres_of cseq] in *. destruct IHb as (a & E2 & O2). { intros X. apply NF. now rewrite X. }
        exists (after ds a). split; [rewrite cres_after; now f_equal|]. eapply oc_include; eauto.
      + exists (Bad e). split; [reflexivity|]. eapply oc_broken; eauto; exact I.
      + exists Negative. split; [reflexivity|]. eapply oc_broken; eauto; exact I.
    - destruct IHb as (a & E2 & O2). { intros X. apply NF. now rewrite X. }
      exists (after [reblock d b] a). split; [rewrite cres_after; now f_equal|]. eapply oc_keep; eauto. rewrite <- is_include_iff. congruence. }
  destruct (d_block d) as [b|] eqn:B.
  - destruct (IH old f b) as (a & E & O). { intros X. apply H. now rewrite X. }
    rewrite <- E in *. destruct a as [ds|e|]; cbn [cres_of] in *.
    + apply (REST (Some ds)); auto. now constructor.
    + exists (Bad e). split; [reflexivity|]. eapply oc_inside; eauto. exact I.
    + exists Negative. split; [reflexivity|]. eapply oc_inside; eauto. exact I.
  - assert (X : d = reblock d None) by (rewrite <- B; symmetry; apply reblock_same). pose proof (REST None) as R. rewrite <- X in R. apply R; auto. constructor.
Qed.

(** ** Every answer is found *)
Lemma perform_fix : forall n old f block r, r <> CFuel -> perform n old f block = r -> forall k, n <= k -> perform k old f block = r.
Proof. intros n old f block r NF H k L. replace k with (k - n + n) by lia. rewrite perform_more; congruence. Qed.
Lemma cres_fuel : forall a, cres_of a <> CFuel.
Proof. intros []; discriminate. Qed.
Lemma outcome_perform : forall old,
  (forall f block a, outcome old f block a -> exists n, forall k, n <= k -> perform k old f block = cres_of a) /\
  (forall f b b', block_outcome old f b b' -> exists n, forall k, n <= k -> forall d, d_block d = b ->
     match d_block d with Some b => match perform k old f b with COk nb => inl (with_block d nb) | e => inr e end | None => inl d end = inl (reblock d b')) /\
  (forall f d b is a, outcomes old f d b is a -> exists n, forall k, n <= k -> perform_all k old f (reblock d b) is = cres_of a).
Proof.
  intros old. apply outcome_both.
  - intros f. exists 1. intros [|k] L; [lia|reflexivity].
  - intros f d b r a B _ [n E] FA. exists (S n). intros [|k] L; [lia|]. rewrite perform_cons, B, E by lia. destruct a; [destruct FA| |]; reflexivity.
  - intros f d b r a _ [n1 E1] NR _ [n2 E2]. exists (S (n1 + n2)). intros [|k] L; [lia|]. rewrite perform_cons, E1, E2 by (auto; lia).
    change (is_include (reblock d b)) with (is_include d). destruct (is_include d) eqn:INC; [apply is_include_iff in INC; tauto|]. now rewrite cres_after.
  - intros f d b is ds r a _ [n1 E1] NM DI _ [n2 E2] _ [n3 E3]. exists (S (n1 + n2 + n3)). intros [|k] L; [lia|]. rewrite perform_cons, E1, E3 by (auto; lia).
    change (is_include (reblock d b)) with (is_include d). assert (INC : is_include d = true) by (apply is_include_iff; split; congruence). rewrite INC.
    change (d_includes (reblock d b)) with (d_includes d). rewrite DI. cbn [opt_list negb]. rewrite E2 by lia. now rewrite cres_after.
  - intros f d b is r a _ [n1 E1] NM DI _ [n2 E2] FA. exists (S (n1 + n2)). intros [|k] L; [lia|]. rewrite perform_cons, E1 by (auto; lia).
    change (is_include (reblock d b)) with (is_include d). assert (INC : is_include d = true) by (apply is_include_iff; split; congruence). rewrite INC.
    change (d_includes (reblock d b)) with (d_includes d). rewrite DI. cbn [opt_list negb]. rewrite E2 by lia. destruct a; [destruct FA| |]; reflexivity.
  - intros f. exists 0. intros k _ d B. rewrite B, <- B. f_equal. symmetry. apply reblock_same.
  - intros f b ds _ [n E]. exists n. intros k L d B. rewrite B, E by auto. reflexivity.
  - intros f d b. exists 0. reflexivity.
  - intros f d b i is LE. exists 0. intros k _. cbn [perform_all]. apply Z.leb_le in LE. rewrite LE. unfold index_error. now rewrite include_text_ok.
  - intros f d b i is NEG. exists 0. intros k _. cbn [perform_all]. assert (X : (Z.of_nat (List.length old) <=? i)%Z = false) by (apply Z.leb_gt; lia). apply Z.ltb_lt in NEG. now rewrite X, NEG.
  - intros f d b i is c a P N _ [n E] FA. exists n. intros k L. cbn [perform_all].
    assert (X : (Z.of_nat (List.length old) <=? i)%Z = false). { apply Z.leb_gt. assert (nth_error old (Z.to_nat i) <> None) as Y by congruence. apply nth_error_Some in Y. lia. }
    assert (Y : (i <? 0)%Z = false) by (apply Z.ltb_ge; auto). rewrite X, Y, N, E by auto. destruct a; [destruct FA| |]; reflexivity.
  - intros f d b i is c ds a P N _ [n1 E1] _ [n2 E2]. exists (n1 + n2). intros k L. cbn [perform_all].
    assert (X : (Z.of_nat (List.length old) <=? i)%Z = false). { apply Z.leb_gt. assert (nth_error old (Z.to_nat i) <> None) as Y by congruence. apply nth_error_Some in Y. lia. }
    assert (Y : (i <? 0)%Z = false) by (apply Z.ltb_ge; auto). rewrite X, Y, N, E1, E2 by lia. now rewrite cres_after.
Qed.
Lemma outcome_iff : forall old f block a, outcome old f block a <-> exists n, forall k, n <= k -> perform k old f block = cres_of a.
Proof.
  intros old f block a. split; [apply (proj1 (outcome_perform old))|]. intros [n E]. specialize (E n (le_n n)).
  destruct (perform_outcome n old f block) as (a' & E' & O). { rewrite E. apply cres_fuel. }
  assert (a' = a) by (rewrite E in E'; destruct a, a'; cbn in E'; congruence). now subst.
Qed.
Lemma outcome_dirs : forall old f block ds, outcome old f block (Dirs ds) -> expand old block ds.
Proof. intros old f block ds O. apply outcome_iff in O as [n E]. eapply perform_expand. exact (E n (le_n n)). Qed.

(** ** Combined *)
Lemma combined_error : forall old e, settles old (CbErr e) <-> exists c0 cs, pl_config old = c0 :: cs /\ outcome (c0 :: cs) (cf_file c0) (cf_parsed c0) (Bad e).
Proof.
  intros old e. unfold settles, combined. destruct (pl_config old) as [|c0 cs] eqn:PC.
  { split; [intros [n H]; specialize (H n (le_n n)); discriminate|intros (c & r & E & _); discriminate]. }
  split.
  - intros [n H]. exists c0, cs. split; auto. apply outcome_iff. exists n. intros k L. specialize (H k L). destruct (perform k _ _ _); inversion H; reflexivity.
  - intros (c & r & E & O). inversion E; subst. apply outcome_iff in O as [n O]. exists n. intros k L. now rewrite (O k L).
Qed.
Lemma combined_panic : forall old, settles old CbPanic <-> exists c0 cs, pl_config old = c0 :: cs /\ outcome (c0 :: cs) (cf_file c0) (cf_parsed c0) Negative.
Proof.
  intros old. unfold settles, combined. destruct (pl_config old) as [|c0 cs] eqn:PC.
  { split; [intros [n H]; specialize (H n (le_n n)); discriminate|intros (c & r & E & _); discriminate]. }
  split.
  - intros [n H]. exists c0, cs. split; auto. apply outcome_iff. exists n. intros k L. specialize (H k L). destruct (perform k _ _ _); inversion H; reflexivity.
  - intros (c & r & E & O). inversion E; subst. apply outcome_iff in O as [n O]. exists n. intros k L. now rewrite (O k L).
Qed.
Lemma combined_endless : forall old, (forall k, combined k old = CbFuel) <-> exists c0 cs, pl_config old = c0 :: cs /\ forall a, ~ outcome (c0 :: cs) (cf_file c0) (cf_parsed c0) a.
Proof.
  intros old. unfold combined. destruct (pl_config old) as [|c0 cs] eqn:PC.
  { split; [intros H; specialize (H 0); discriminate|intros (c & r & E & _); discriminate]. }
  split.
  - intros H. exists c0, cs. split; auto. intros a O. apply outcome_iff in O as [n O]. specialize (H n). rewrite (O n (le_n n)) in H. destruct a; discriminate.
  - intros (c & r & E & NO) k. inversion E; subst. destruct (perform k (c :: r) (cf_file c) (cf_parsed c)) as [ds|e| |] eqn:P; auto; exfalso;
      (destruct (perform_outcome k (c :: r) (cf_file c) (cf_parsed c)) as (a & _ & O); [congruence|exact (NO a O)]).
Qed.
Lemma combined_ok : forall old, (exists p, settles old (CbOk p)) <-> pl_config old = [] \/ exists c0 cs ds, pl_config old = c0 :: cs /\ outcome (c0 :: cs) (cf_file c0) (cf_parsed c0) (Dirs ds).
Proof.
  intros old. unfold settles, combined. destruct (pl_config old) as [|c0 cs] eqn:PC.
  { split; [now left|]. intros _. exists old, 0. reflexivity. }
  split.
  - intros (p & n & H). right. specialize (H n (le_n n)). destruct (perform_outcome n (c0 :: cs) (cf_file c0) (cf_parsed c0)) as (a & E & O). { destruct (perform n _ _ _); discriminate. }
    rewrite <- E in H. destruct a as [ds|e|]; try discriminate. exists c0, cs, ds. auto.
  - intros [X|(c & r & ds & E & O)]; [discriminate|]. inversion E; subst. apply outcome_iff in O as [n O]. eexists. exists n. intros k L. rewrite (O k L). reflexivity.
Qed.
