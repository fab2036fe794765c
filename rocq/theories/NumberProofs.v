(** C84: numbers of configs. *)
From Verif Require Import TreeFacts.
From Verif Require Export OutcomeProofs SpecNumber.
Import SpecOutcome.
Local Open Scope string_scope.

Lemma after_dirs : forall ds a out, after ds a = Dirs out -> exists o, a = Dirs o /\ out = (ds ++ o)%list.
Proof. intros ds [o|e|] out H; inversion H. eauto. Qed.
Lemma renumber_kept : forall r d, ~ resolved d -> renumber r d = reblock d (option_map (map (renumber r)) (d_block d)).
Proof.
  intros r [n l a f i b c m] NR. unfold resolved in NR. cbn in *. unfold reblock. cbn. f_equal.
  destruct (String.eqb n "include") eqn:E; [|reflexivity]. apply String.eqb_eq in E. destruct i; [|reflexivity]. exfalso. apply NR. split; [auto|discriminate].
Qed.
Lemma renumber_block : forall r d, d_block (renumber r d) = option_map (map (renumber r)) (d_block d).
Proof. intros r []. reflexivity. Qed.
Lemma renumber_name : forall r d, d_name (renumber r d) = d_name d.
Proof. intros r []. reflexivity. Qed.
Lemma renumber_includes : forall r d, d_name d = "include" -> d_includes (renumber r d) = option_map (map r) (d_includes d).
Proof. intros r [] E. cbn in *. subst. reflexivity. Qed.

Lemma outcome_number : forall r cs cs',
  (forall i c, (0 <= i)%Z -> nth_error cs (Z.to_nat i) = Some c ->
     exists c', (0 <= r i)%Z /\ nth_error cs' (Z.to_nat (r i)) = Some c' /\ renumbered_config r c c') ->
  (forall f ds a, outcome cs f ds a -> forall out, a = Dirs out -> outcome cs' f (map (renumber r) ds) (Dirs out)) /\
  (forall f b b', block_outcome cs f b b' -> block_outcome cs' f (option_map (map (renumber r)) b) b') /\
  (forall f d b is a, outcomes cs f d b is a -> forall out d', a = Dirs out -> outcomes cs' f d' b (map r is) (Dirs out)).
Proof.
  intros r cs cs' PL. apply outcome_both.
  - intros f out E. inversion E. constructor.
  - intros f d b t a _ _ _ FA out ->. destruct FA.
  - intros f d b t a _ B NR _ IH out E. apply after_dirs in E as (o & -> & ->). cbn [map].
    pose proof (renumber_kept r d NR) as RK.
    assert (RE : reblock d b = reblock (renumber r d) b) by (rewrite RK; reflexivity). rewrite RE.
    apply (oc_keep cs' f (renumber r d) b (map (renumber r) t) (Dirs o)); auto.
    + now rewrite renumber_block.
    + intros [N I]. apply NR. rewrite RK in N, I. now split.
  - intros f d b is ds t a _ B NM DI _ IH1 _ IH2 out E. apply after_dirs in E as (o & -> & ->). cbn [map].
    apply (oc_include cs' f (renumber r d) b (map r is) ds (map (renumber r) t) (Dirs o)); auto.
    + now rewrite renumber_block.
    + now rewrite renumber_name.
    + now rewrite renumber_includes, DI.
  - intros f d b is t a _ _ _ _ _ _ FA out ->. destruct FA.
  - intros f. constructor.
  - intros f b ds _ IH. cbn. constructor. auto.
  - intros f d b out d' E. inversion E. constructor.
  - intros; discriminate.
  - intros; discriminate.
  - intros f d b i is c a _ _ _ _ FA out d' ->. destruct FA.
  - intros f d b i is c ds a P N _ IH1 _ IH2 out d' E. apply after_dirs in E as (o & -> & ->). cbn [map].
    destruct (PL i c P N) as (c' & P' & N' & F' & T'). apply (os_cons cs' f d' b (r i) (map r is) c' ds (Dirs o)); auto.
    rewrite F', T'. auto.
Qed.

Lemma combined_number : forall r k old q p, combined k old = CbOk q -> renumbered r old p -> pl_config old <> [] ->
  exists c c' ds, pl_config q = [Cfg (cf_file c) (if existsb (fun c => String.eqb (cf_status c) "failed") (pl_config old) then "failed" else "ok") (flat_map cf_errors (pl_config old)) ds] /\
    cf_file c' = cf_file c /\ pl_status q = (if String.eqb (pl_status old) "" then "ok" else pl_status old) /\ pl_errors q = pl_errors old /\
    settles p (CbOk (Pay (pl_status q) (pl_errors q)
      [Cfg (cf_file c') (if existsb (fun c => String.eqb (cf_status c) "failed") (pl_config p) then "failed" else "ok") (flat_map cf_errors (pl_config p)) ds])).
Proof.
  intros r k old q p H [ST ER FI PL] NE. unfold combined in H. destruct (pl_config old) as [|c cs] eqn:PC; [congruence|].
  destruct (FI c cs eq_refl) as (c' & cs' & PC' & F' & T'). destruct (perform k (c :: cs) (cf_file c) (cf_parsed c)) as [ds| | |] eqn:PF; try discriminate.
  inversion H; subst q. clear H. exists c, c', ds. cbn. repeat split; auto.
  assert (O : outcome (c :: cs) (cf_file c) (cf_parsed c) (Dirs ds)).
  { destruct (perform_outcome k (c :: cs) (cf_file c) (cf_parsed c)) as (a & E & O); [congruence|]. rewrite PF in E. destruct a; inversion E. subst. exact O. }
  pose proof (proj1 (outcome_number r (c :: cs) (pl_config p) PL) _ _ _ O ds eq_refl) as O'. rewrite <- T', <- F' in O'.
  apply outcome_iff in O' as [n O']. exists n. intros j L. specialize (O' j L). unfold combined. rewrite PC' in O' |- *. rewrite O', ST, ER. reflexivity.
Qed.
Lemma number_same : forall r k old q p, combined k old = CbOk q -> renumbered r old p -> pl_config old <> [] ->
  exists q', settles p (CbOk q') /\ same_tree q q'.
Proof.
  intros r k old q p H R NE. destruct (combined_number r k old q p H R NE) as (c & c' & ds & Q & F & S1 & S2 & W). eexists. split; [exact W|].
  split; [reflexivity|]. split; [reflexivity|]. rewrite Q. cbn [pl_config]. constructor; [|constructor]. cbn. auto.
Qed.
Lemma perm_exists : forall A (f : A -> bool) l m, Permutation l m -> existsb f l = existsb f m.
Proof. intros A f l m P. induction P; cbn; try congruence. rewrite !orb_assoc. f_equal. apply orb_comm. Qed.
Lemma perm_flat : forall A B (f : A -> list B) l m, Permutation l m -> Permutation (flat_map f l) (flat_map f m).
Proof.
  intros A B f l m P. induction P; cbn; auto.
  - now apply Permutation_app_head.
  - rewrite !app_assoc. apply Permutation_app_tail, Permutation_app_comm.
  - eapply Permutation_trans; eauto.
Qed.
Lemma existsb_map_fst : forall (l : list config), existsb (fun x => String.eqb (fst x) "failed") (map (fun c => (cf_status c, cf_errors c)) l) = existsb (fun c => String.eqb (cf_status c) "failed") l.
Proof. induction l as [|c l IH]; cbn; [reflexivity|]. now rewrite IH. Qed.
Lemma flat_map_map_snd : forall (l : list config), flat_map snd (map (fun c => (cf_status c, cf_errors c)) l) = flat_map cf_errors l.
Proof. induction l as [|c l IH]; cbn; [reflexivity|]. now rewrite IH. Qed.
Lemma reorder_same : forall r k old q p, combined k old = CbOk q -> reordered r old p -> pl_config old <> [] ->
  exists q', settles p (CbOk q') /\ same_but_order q q'.
Proof.
  intros r k old q p H [R PM] NE. destruct (combined_number r k old q p H R NE) as (c & c' & ds & Q & F & S1 & S2 & W). eexists. split; [exact W|].
  split; [reflexivity|]. split; [reflexivity|]. rewrite Q. cbn [pl_config]. constructor; [|constructor]. cbn. repeat split; auto.
  - pose proof (perm_exists _ (fun x => String.eqb (fst x) "failed") _ _ PM) as X. rewrite !existsb_map_fst in X. now rewrite X.
  - pose proof (perm_flat _ _ snd _ _ PM) as X. rewrite !flat_map_map_snd in X. exact X.
Qed.
Lemma renumber_id : forall d, renumber (fun i => i) d = d.
Proof.
  intros d. induction d as [d IH] using dir_ind'. destruct d as [n l a f i b c m]. cbn in *. f_equal.
  - destruct (String.eqb n "include"); [|reflexivity]. destruct i; [|reflexivity]. cbn. now rewrite map_id.
  - destruct b as [b|]; [|reflexivity]. f_equal. cbn in IH. induction IH as [|x b X _ IHb]; [reflexivity|]. cbn. now rewrite X, IHb.
Qed.
Lemma more_same : forall k old q more, combined k old = CbOk q -> pl_config old <> [] ->
  exists q', settles (Pay (pl_status old) (pl_errors old) (pl_config old ++ more)) (CbOk q') /\ same_tree q q'.
Proof.
  intros k old q more H NE. apply (number_same (fun i => i) k old); auto.
  assert (ID : forall c, renumbered_config (fun i => i) c c).
  { intros c. split; [reflexivity|]. symmetry. rewrite <- (map_id (cf_parsed c)) at 2. apply map_ext. apply renumber_id. }
  constructor; cbn; auto.
  - intros c cs E. rewrite E. exists c, (cs ++ more)%list. auto.
  - intros i c P N. exists c. split; [auto|]. split; [|auto]. rewrite nth_error_app1; auto. apply nth_error_Some. congruence.
Qed.
