(** C83: combining twice. *)
From Verif Require Import RoundProofs.
From Verif Require Export OutcomeProofs SpecAgain.
Import SpecOutcome.
Local Open Scope string_scope.

Lemma within_cons : forall x d r, within x (d :: r) <-> within x [d] \/ within x r.
Proof. intros x d r. exact (within_app x [d] r). Qed.

Lemma expand_fixed : forall cs ds, (forall d, within d ds -> ~ resolved d) -> expand cs ds ds.
Proof.
  intros cs.
  assert (A : forall d, (forall x, within x [d] -> ~ resolved x) -> expand cs (opt_list (d_block d)) (opt_list (d_block d))).
  { intros d. induction d as [d IH] using dir_ind'. intros H. destruct (d_block d) as [b|] eqn:B; [|constructor]. cbn [opt_list] in *.
    assert (H' : forall x, within x b -> ~ resolved x) by (intros x X; apply H, within_one; eauto). clear H B.
    induction IH as [|e b D F IHb]; [constructor|].
    assert (H1 : forall x, within x [e] -> ~ resolved x) by (intros x X; apply H', within_cons; auto).
    assert (H2 : forall x, within x b -> ~ resolved x) by (intros x X; apply H', within_cons; auto).
    assert (NR : ~ resolved e) by (apply H1, within_one; auto). specialize (D H1). specialize (IHb H2).
    destruct (d_block e) as [be|] eqn:BE; [|now constructor].
    replace (e :: b) with (reblock e (Some be) :: b) at 2 by (rewrite <- BE, reblock_same; reflexivity).
    eapply x_block; eauto. }
  intros ds H. apply (A (Dir "" 0 [] "" None (Some ds) None false)).
  intros x X. apply within_one in X as [->|(b & B & W)]; [intros [N _]; discriminate|]. inversion B; subst. auto.
Qed.
Lemma outcome_fixed : forall cs f ds, (forall d, within d ds -> ~ resolved d) -> outcome cs f ds (Dirs ds).
Proof.
  intros cs f.
  assert (A : forall d, (forall x, within x [d] -> ~ resolved x) -> block_outcome cs f (d_block d) (d_block d)).
  { intros d. induction d as [d IH] using dir_ind'. intros H. destruct (d_block d) as [b|] eqn:B; [|constructor]. cbn [opt_list] in *.
    assert (H' : forall x, within x b -> ~ resolved x) by (intros x X; apply H, within_one; eauto). clear H B. constructor.
    induction IH as [|e b D F IHb]; [constructor|].
    assert (H1 : forall x, within x [e] -> ~ resolved x) by (intros x X; apply H', within_cons; auto).
    assert (H2 : forall x, within x b -> ~ resolved x) by (intros x X; apply H', within_cons; auto).
    assert (NR : ~ resolved e) by (apply H1, within_one; auto).
    pose proof (oc_keep cs f e (d_block e) b (Dirs b) (D H1) NR (IHb H2)) as X. rewrite reblock_same in X. exact X. }
  intros ds H. pose proof (A (Dir "" 0 [] "" None (Some ds) None false)) as X. cbn [d_block] in X.
  assert (Y : block_outcome cs f (Some ds) (Some ds)).
  { apply X. intros x Z. apply within_one in Z as [->|(b & B & W)]; [intros [N _]; discriminate|]. inversion B; subst. auto. }
  inversion Y; subst; auto.
Qed.
Lemma expand_again : forall cs ds out, expand cs ds out -> forall cs', expand cs' out out.
Proof. intros cs ds out E cs'. apply expand_fixed. exact (proj1 (expand_no_include cs) ds out E). Qed.

Lemma flat_fixed : forall p, settles p (CbOk p) <-> flat_payload p.
Proof.
  intros p. unfold settles, flat_payload. split.
  - intros [n H]. specialize (H n (le_n n)). apply combined_is_combination in H. destruct (pl_config p) as [|c cs] eqn:PC; [now left|right].
    destruct H as [(ds & _ & E & NR) _ ST]. rewrite PC in E. injection E as E1 E2. subst cs. exists c. split; [reflexivity|].
    pose proof (f_equal cf_status E1) as E2. pose proof (f_equal cf_parsed E1) as E3. cbn in E2, E3. clear E1. repeat split.
    + intros Z. rewrite Z in ST. discriminate.
    + destruct (_ || _)%bool; auto.
    + now rewrite E3.
  - intros [E|(c & E & NS & CS & NR)].
    + exists 0. intros k _. unfold combined. now rewrite E.
    + pose proof (outcome_fixed [c] (cf_file c) (cf_parsed c) NR) as O. apply outcome_iff in O as [n O]. exists n. intros k L.
      unfold combined. rewrite E. rewrite (O k L). cbn [cres_of]. apply String.eqb_neq in NS. rewrite NS. destruct p as [st er cf], c as [fi cst ce pa]. cbn in *. subst cf.
      rewrite app_nil_r, orb_false_r. destruct CS as [ -> | -> ]; reflexivity.
Qed.
Lemma combined_flat : forall k old p, combined k old = CbOk p -> flat_payload p.
Proof.
  intros k old p H. apply combined_is_combination in H. unfold flat_payload. destruct (pl_config old) as [|c0 cs] eqn:PC; [subst; now left|right].
  destruct H as [(ds & _ & E & NR) _ ST]. eexists. split; [exact E|]. cbn [cf_status cf_parsed]. repeat split; auto.
  - rewrite ST. destruct (String.eqb _ _) eqn:Z; [discriminate|]. now apply String.eqb_neq.
  - destruct (existsb _ _); auto.
Qed.
Lemma combined_again : forall k old p, combined k old = CbOk p -> settles p (CbOk p).
Proof. intros k old p H. apply flat_fixed. eapply combined_flat; eauto. Qed.
Lemma parsed_again : forall k o f p, o_combine o = true -> parse_main k o f = ROk p -> settles p (CbOk p).
Proof.
  intros k o f p C H. unfold parse_main in H. destruct (collect k o f) as [st| | |]; try discriminate. unfold finish in H.
  destruct (has_cycle _ _ _); [discriminate|]. rewrite C in H. destruct (combined k (p_pay st)) as [q| | |] eqn:E; try discriminate.
  inversion H; subst. eapply combined_again; eauto.
Qed.
