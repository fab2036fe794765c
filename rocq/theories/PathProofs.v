(** C20, C53: validation in every path, odd names included. *)
From Verif Require Export ComplainProofs.
Local Open Scope string_scope.

Lemma path_plain : forall p, path_bit p <> None -> plain_path p.
Proof.
  intros p H. destruct (path_bit p) as [b|] eqn:E; [|congruence]. apply path_bit_listed in E. pose proof context_paths_plain as F. rewrite Forall_forall in F. auto.
Qed.
Lemma accepts_bit : forall o p q d term, path_bit p = path_bit q -> accepts o p d term -> accepts o q d term.
Proof.
  intros o p q d term E H. destruct H as [U S|ms K P|ms K C A|ms mask b K P I B FF].
  - now apply acc_unknown.
  - eapply acc_path; eauto. congruence.
  - eapply acc_unchecked; eauto.
  - eapply acc_mask; eauto. congruence.
Qed.
Lemma objects_bit : forall o p q d term w, path_bit p = path_bit q -> objects o p d term w -> objects o q d term w.
Proof.
  intros o p q d term w E H. inversion H as [U ST|ms b K PB SC FA|ms b before m after w' K PB SA EM HM FA FB AG|b K PB SC SA]; subst; try rewrite E in PB.
  - now apply ob_unknown.
  - eapply ob_place; eauto.
  - eapply ob_form; eauto.
  - eapply ob_nothing; eauto.
Qed.
Lemma contexts_known : forall k v, assoc k contexts = Some v -> exists q, path_bit q <> None /\ k = join q ">".
Proof.
  intros k v H. apply assoc_In in H.
  assert (X : In k (map (fun q => join q ">") context_paths)).
  { replace (map (fun q => join q ">") context_paths) with (map fst contexts) by reflexivity. apply in_map_iff. exists (k, v). auto. }
  apply in_map_iff in X as (q & <- & I). exists q. split; auto.
  assert (G : Forall (fun q => path_bit q <> None) context_paths) by (repeat (constructor; [discriminate|]); constructor).
  now apply (proj1 (Forall_forall _ _) G).
Qed.
(** A path with plain names that the tables treat alike. *)
Lemma meant_plain : forall path p, meant path p -> exists q, plain_path q /\ path_bit q = path_bit p /\
  assoc (ctx_key path) contexts = assoc (ctx_key q) contexts.
Proof.
  intros path p M. unfold meant in M. destruct (path_bit p) as [b|] eqn:B.
  - exists p. split; [apply path_plain; congruence|]. split; auto. unfold ctx_key. now rewrite M.
  - exists ["nowhere"]. split; [constructor; [now split|constructor]|]. split; [reflexivity|].
    change (assoc (ctx_key ["nowhere"]) contexts) with (@None N).
    destruct (assoc (ctx_key path) contexts) as [v|] eqn:A; auto. exfalso.
    destruct (contexts_known _ _ A) as (q & Q & E). now apply (M q).
Qed.
Lemma analyze_place : forall o f d term path q, assoc (ctx_key path) contexts = assoc (ctx_key q) contexts ->
  analyze o f d term path = option_map (fun e => stmt_error f d (last_block path) (pe_what e)) (analyze o f d term q).
Proof.
  intros o f d term path q E. unfold analyze. rewrite E. destruct (find_masks o (d_name d)) as [ms kn].
  destruct (o_strict o && negb kn)%bool; [reflexivity|].
  destruct (assoc (ctx_key q) contexts) as [cm|]; [|reflexivity]. destruct (negb kn); [reflexivity|]. cbv zeta.
  destruct (negb (o_skipctx o) && _)%bool; [reflexivity|]. destruct (o_skipargs o); [reflexivity|].
  destruct (check_masks _ _ _ _); reflexivity.
Qed.
Lemma meant_total : forall path, exists p, meant path p.
Proof.
  intros path.
  assert (D : (exists q, In q context_paths /\ join q ">" = join path ">") \/ forall q, In q context_paths -> join q ">" <> join path ">").
  { generalize context_paths. induction l as [|x l IH]; [right; intros q []|].
    destruct (string_dec (join x ">") (join path ">")) as [E|N]; [left; exists x; split; auto; now left|].
    destruct IH as [(q & I & E)|IH]; [left; exists q; split; auto; now right|].
    right. intros q [<-|I]; auto. }
  destruct D as [(q & I & E)|D].
  - exists q. unfold meant. destruct (path_bit q) eqn:B; auto. exfalso.
    assert (G : Forall (fun q => path_bit q <> None) context_paths) by (repeat (constructor; [discriminate|]); constructor).
    now apply (proj1 (Forall_forall _ _) G q I).
  - exists ["nowhere"]. unfold meant. cbn. intros q Q. apply D. destruct (path_bit q) eqn:B; [|congruence]. eapply path_bit_listed; eauto.
Qed.
Lemma meant_verdict : forall o path p d term, d_block d = None -> meant path p ->
  accepts o p d term \/ exists what, objects o p d term what.
Proof.
  intros o path p d term NB M. destruct (meant_plain _ _ M) as (q & PQ & B & E).
  destruct (analyze o "" d term q) as [e|] eqn:A.
  - apply analyze_says in A as (w & W & _); auto. right. exists w. eapply objects_bit; eauto.
  - apply analyze_accepts in A; auto. left. eapply accepts_bit; eauto.
Qed.

Theorem analyze_every_path : forall o f d term path p, meant path p -> (analyze o f d term path = None <-> accepts o p d term).
Proof.
  intros o f d term path p M. destruct (meant_plain _ _ M) as (q & PQ & B & E). rewrite (analyze_place _ _ _ _ _ _ E).
  split; intros H.
  - apply (accepts_bit o q); auto. apply (analyze_accepts o f); auto. destruct (analyze o f d term q); auto; discriminate.
  - apply (accepts_bit o p q) in H; [|congruence]. apply (analyze_accepts o f) in H; auto. now rewrite H.
Qed.
Theorem says_every_path : forall o f d term path p e, d_block d = None -> meant path p ->
  (analyze o f d term path = Some e <-> exists what, objects o p d term what /\ EParse e = objection f path d what).
Proof.
  intros o f d term path p e NB M. destruct (meant_plain _ _ M) as (q & PQ & B & E). rewrite (analyze_place _ _ _ _ _ _ E).
  assert (OB : forall what, EParse (stmt_error f d (last_block path) what) = objection f path d what).
  { intros what. now apply objection_stmt. }
  split.
  - intros H. destruct (analyze o f d term q) as [e0|] eqn:A; [|discriminate]. inversion H; subst e.
    apply (analyze_says o f d term q e0 PQ NB) in A as (w & W & X). inversion X. exists w. split; [eapply objects_bit; eauto|]. apply OB.
  - intros (w & W & X). apply (objects_bit o p q) in W; [|congruence].
    assert (A : exists e0, EParse e0 = objection f q d w) by (eexists; reflexivity). destruct A as [e0 X0].
    rewrite (proj2 (analyze_says o f d term q e0 PQ NB) (ex_intro _ w (conj W X0))). cbn [option_map].
    inversion X0. cbn [pe_what]. rewrite <- OB in X. now inversion X.
Qed.
Theorem analyze_sources_perm : forall o o' f f' d term path,
  Permutation (o_sources o) (o_sources o') ->
  o_default o' = o_default o -> o_strict o' = o_strict o ->
  o_skipctx o' = o_skipctx o -> o_skipargs o' = o_skipargs o ->
  (analyze o f d term path = None <-> analyze o' f' d term path = None).
Proof.
  intros o o' f f' d term path PM E1 E2 E3 E4. destruct (meant_total path) as [p M].
  rewrite (analyze_every_path _ _ _ _ _ _ M), (analyze_every_path _ _ _ _ _ _ M).
  split; apply accepts_sources_perm; auto using Permutation_sym.
Qed.
Lemma same_answer_sym : forall n f g, same_answer n f g -> same_answer n g f.
Proof. intros n f g. unfold same_answer. destruct (f n), (g n); auto using Permutation_sym. Qed.
Theorem analyze_masks_perm : forall o o' f f' d term path,
  Forall2 (same_answer (d_name d)) (o_sources o) (o_sources o') ->
  same_answer (d_name d) (o_default o) (o_default o') ->
  o_strict o' = o_strict o -> o_skipctx o' = o_skipctx o -> o_skipargs o' = o_skipargs o ->
  (analyze o f d term path = None <-> analyze o' f' d term path = None).
Proof.
  intros o o' f f' d term path PM E1 E2 E3 E4. destruct (meant_total path) as [p M].
  rewrite (analyze_every_path _ _ _ _ _ _ M), (analyze_every_path _ _ _ _ _ _ M).
  split; apply accepts_masks_perm; auto using same_answer_sym.
  clear - PM. induction PM; constructor; auto using same_answer_sym.
Qed.
Lemma meant_known : forall path, path_bit path <> None -> meant path path.
Proof. intros path H. unfold meant. destruct (path_bit path); congruence. Qed.
