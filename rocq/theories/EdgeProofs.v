(** Every edge of the include graph comes from an include directive of a tree (C15, C51). *)
From Verif Require Export IncludeProofs.
Local Open Scope string_scope.

Definition core (st : pst) : string * list directive * list config :=
  (cf_file (p_cur st), cf_parsed (p_cur st), pl_config (p_pay st)).
Definition ext (st st' : pst) : Prop :=
  (exists m, p_included st' = (p_included st ++ m)%list) /\ core st' = core st.
Lemma ext_refl : forall st, ext st st.
Proof. intros st. split; auto. exists []. now rewrite app_nil_r. Qed.
Lemma ext_trans : forall a b c, ext a b -> ext b c -> ext a c.
Proof. intros a b c [[m M] A] [[n N] B]. split; [|congruence]. exists (m ++ n)%list. now rewrite N, M, app_assoc. Qed.
Lemma ext_same : forall st st', p_included st' = p_included st -> core st' = core st -> ext st st'.
Proof. intros st st' A B. split; auto. exists []. now rewrite app_nil_r. Qed.
Lemma ext_file : forall st st', ext st st' -> cf_file (p_cur st') = cf_file (p_cur st).
Proof. intros st st' [_ E]. unfold core in E. congruence. Qed.
(** [b] is among the included files numbered [is]. *)
Definition picks (st : pst) (is : list Z) (b : string) : Prop := exists i, In i is /\ assoc b (p_included st) = Some i.
Lemma picks_ext : forall st st' is b, ext st st' -> picks st is b -> picks st' is b.
Proof. intros st st' is b [[m M] _] (i & I & A). exists i. split; auto. rewrite M. now apply assoc_app_l. Qed.

Lemma add_include_edges : forall ctx st f, ext st (fst (add_include ctx st f)) /\
  assoc f (p_included (fst (add_include ctx st f))) = Some (snd (add_include ctx st f)) /\
  forall a b, edge (fst (add_include ctx st f)) a b -> edge st a b \/ a = cf_file (p_cur st) /\ b = f.
Proof.
  intros ctx st f.
  assert (EO : forall a b, edge_of (assoc_set (cf_file (p_cur st)) (old_edges st ++ [f])%list (p_edges st)) a b ->
                           edge st a b \/ a = cf_file (p_cur st) /\ b = f).
  { intros a b. unfold edge, edge_of. destruct (string_dec (cf_file (p_cur st)) a) as [<-|N].
    - rewrite assoc_set_same. unfold old_edges. intros (l & E & B). inversion E; subst.
      apply in_app_iff in B as [B|[<-|[]]]; auto. left. destruct (assoc _ (p_edges st)); [eauto|contradiction].
    - rewrite assoc_set_other by auto. auto. }
  unfold add_include. fold (old_edges st). destruct (assoc f (p_included st)) as [z|] eqn:A; cbn [fst snd].
  - split; [|split; [|exact EO]].
    + apply ext_same; reflexivity.
    + cbn. unfold get_z. now rewrite A.
  - split; [|split; [|exact EO]].
    + split; [|reflexivity]. cbn. rewrite assoc_set_fresh by auto. eauto.
    + cbn. unfold get_z. now rewrite assoc_set_same.
Qed.
Lemma add_includes_edges : forall ctx fs st, ext st (fst (add_includes ctx st fs)) /\
  forall a b, edge (fst (add_includes ctx st fs)) a b ->
    edge st a b \/ a = cf_file (p_cur st) /\ picks (fst (add_includes ctx st fs)) (snd (add_includes ctx st fs)) b.
Proof.
  intros ctx. induction fs as [|f fs IH]; intros st; cbn [add_includes].
  - split; [apply ext_refl|]. auto.
  - destruct (add_include_edges ctx st f) as (A & B & C). destruct (add_include ctx st f) as [st1 i]. cbn [fst snd] in *.
    destruct (IH st1) as (D & E). destruct (add_includes ctx st1 fs) as [st2 is]. cbn [fst snd] in *.
    split; [eapply ext_trans; eauto|]. intros a b X. destruct (E a b X) as [Y|[-> Y]].
    + destruct (C a b Y) as [Z|[-> ->]]; auto. right. split; auto. eapply picks_ext; [exact D|]. exists i. split; auto. now left.
    + right. rewrite (ext_file _ _ A). split; auto. destruct Y as (j & J & Y). exists j. split; auto. now right.
Qed.

Lemma decide_edges : forall o dir ctx st t args term,
  match decide o dir ctx (fresh o st t args) term st with
  | DKeep d st' => ext st st' /\ forall a b, edge st' a b ->
      edge st a b \/ a = cf_file (p_cur st) /\ picks st' (opt_list (d_includes d)) b
  | DSkip _ st' | DBreak st' | DErr _ st' => ext st st' /\ p_edges st' = p_edges st
  | _ => True
  end.
Proof.
  intros o dir ctx st t args term. pose proof (decide_cases o dir ctx (fresh o st t args) term st) as DC.
  assert (DR : forall st', dropped o dir (fresh o st t args) st st' -> ext st st' /\ p_edges st' = p_edges st).
  { intros st' []; (split; [apply ext_same|]); reflexivity. }
  destruct (decide o dir ctx (fresh o st t args) term st) as [d st'|d|eat st'|st'|e st'|]; auto.
  destruct DC as [args' NI|arg more fs N SG A HM G|arg more c N SG A HM OP|arg more msg N SG A HM OP SE].
  - split; [apply ext_refl|auto].
  - destruct (add_includes_edges ctx (sort_strings fs) st) as [X Y].
    destruct (add_includes ctx st (sort_strings fs)) as [s is]. cbn [fst snd] in *. split; auto.
    intros a b E. destruct (Y a b E) as [Z|Z]; auto. right. now destruct is.
  - destruct (add_includes_edges ctx [path_of dir arg] (log_open st (path_of dir arg))) as [X Y].
    destruct (add_includes ctx (log_open st (path_of dir arg)) [path_of dir arg]) as [s is]. cbn [fst snd] in *. split; auto.
    intros a b E. destruct (Y a b E) as [Z|Z]; auto. right. now destruct is.
  - split; [apply ext_same; reflexivity|auto].
Qed.

Definition traced (st st' : pst) (ds : list directive) : Prop := ext st st' /\
  forall a b, edge st' a b -> edge st a b \/
    a = cf_file (p_cur st) /\ exists d, within d ds /\ picks st' (opt_list (d_includes d)) b.
Lemma within_app_l : forall d a b, within d a -> within d (a ++ b).
Proof.
  intros d a b H. induction H as [ds I|e blk ds I B H IH].
  - apply in_here. apply in_or_app. auto.
  - eapply in_block; [apply in_or_app; left; eauto|exact B|exact H].
Qed.
Lemma within_app_r : forall d a b, within d b -> within d (a ++ b).
Proof.
  intros d a b H. destruct H as [ds I|e blk ds I B H].
  - apply in_here. apply in_or_app. auto.
  - eapply in_block; [apply in_or_app; right; eauto|exact B|exact H].
Qed.
Definition local (st st' : pst) : Prop := ext st st' /\
  forall a b, edge st' a b -> edge st a b \/ a = cf_file (p_cur st).
Definition tracedr (st : pst) (r : pres) : Prop :=
  match r with POk ds _ st' => traced st st' ds | PErr _ _ st' => local st st' | _ => True end.
Lemma traced_local : forall st st' ds, traced st st' ds -> local st st'.
Proof. intros st st' ds [E T]. split; auto. intros a b X. destruct (T a b X) as [Y|[Y _]]; auto. Qed.
Lemma local_trans : forall a b c, local a b -> local b c -> local a c.
Proof.
  intros a b c [A1 A2] [B1 B2]. split; [eapply ext_trans; eauto|]. intros x y E.
  destruct (B2 x y E) as [X|X]; auto. right. now rewrite X, (ext_file _ _ A1).
Qed.
Lemma traced_padd : forall st st1 ds r, traced st st1 ds -> tracedr st1 r -> tracedr st (padd ds r).
Proof.
  intros st st1 ds r [E1 T1] T. destruct r as [ds2 rest st2|e rest st2| |]; cbn in *; auto.
  2:{ eapply local_trans; [|exact T]. eapply traced_local. split; eauto. }
  destruct T as [E2 T2].
  split; [eapply ext_trans; eauto|]. intros a b E. destruct (T2 a b E) as [X|(-> & d & W & P)].
  - destruct (T1 a b X) as [Y|(-> & d & W & P)]; auto. right. split; auto. exists d. split; [now apply within_app_l|].
    eapply picks_ext; eauto.
  - right. rewrite (ext_file _ _ E1). split; auto. exists d. split; auto. now apply within_app_r.
Qed.
Lemma traced_weak : forall st ds, traced st st ds.
Proof. intros st ds. split; [apply ext_refl|auto]. Qed.

Lemma run_edges : forall o dir ctx toks st r, Run o dir ctx toks st r -> tracedr st r.
Proof.
  intros o dir ctx toks st r H.
  induction H as
    [ctx st|ctx st t r e TE|ctx st t r TE TC|ctx st t r res TE TC TM H IH|ctx st t r ST RA
    |ctx st t r args cs term rest ST RA D|ctx st t r args cs term rest e st' ST RA D
    |ctx st t r args cs term rest st' ST RA D|ctx st t r args cs term rest eat st' res ST RA D H IH
    |ctx st t r args cs term rest d res ST RA D H IH
    |ctx st t r args cs term rest d st' res ST RA D TB H IH
    |ctx st t r args cs term rest d st' h inner blk rest' st'' res ST RA D TB EB H1 IH1 H2 IH2
    |ctx st t r args cs term rest d st' h inner res ST RA D TB EB H IH F];
    try (pose proof (decide_edges o dir ctx st t args term) as DE; rewrite D in DE); try exact I.
  - apply traced_weak.
  - exact (traced_local _ _ [] (traced_weak st [])).
  - apply traced_weak.
  - eapply traced_padd; [apply traced_weak|exact IH].
  - exact (traced_local _ _ [] (traced_weak st [])).
  - destruct DE as [E1 E2]. split; auto. unfold edge. rewrite E2. auto.
  - destruct DE as [E1 E2]. split; auto. unfold edge. rewrite E2. auto.
  - destruct DE as [E1 E2].
    assert (X : tracedr st (padd [] res)).
    { eapply traced_padd; [|exact IH]. split; auto. unfold edge. rewrite E2. auto. }
    destruct res; exact X.
  - eapply traced_padd; [apply traced_weak|exact IH].
  - destruct DE as [E1 E2]. eapply traced_padd; [|exact IH]. split; auto.
    intros a b E. destruct (E2 a b E) as [X|[-> X]]; auto. right. split; auto. exists d. split; auto. apply in_here. now left.
  - destruct DE as [E1 E2]. cbn in IH1. destruct IH1 as [E3 E4]. eapply traced_padd; [|exact IH2].
    assert (E5 : ext st' st'') by (eapply ext_trans; [|exact E3]; apply ext_same; reflexivity).
    split; [eapply ext_trans; [exact E1|exact E5]|].
    intros a b E. destruct (E4 a b E) as [X|(-> & x & W & P)].
    + destruct (E2 a b X) as [Y|[-> Y]]; auto. right. split; auto. exists (set_block d blk). split; [apply in_here; now left|].
      cbn. eapply picks_ext; eauto.
    + right. split; [exact (ext_file _ _ E1)|]. exists x. split; auto.
      eapply in_block with (e := set_block d blk); [now left|reflexivity|exact W].
  - destruct DE as [E1 E2]. destruct res; cbn in *; auto; [contradiction|].
    eapply local_trans; [|exact IH].
    assert (X : traced st (set_heap st' h) [d]).
    { split; [eapply ext_trans; [exact E1|]; apply ext_same; reflexivity|].
      intros a b E. destruct (E2 a b E) as [X|[-> X]]; auto. right. split; auto. exists d. split; auto. apply in_here. now left. }
    exact (traced_local _ _ _ X).
Qed.

(** ** The files *)
Definition sourced (st : pst) : Prop := forall a b, edge st a b -> exists c, In c (pl_config (p_pay st)) /\ cf_file c = a /\
  ((exists d, within d (cf_parsed c) /\ picks st (opt_list (d_includes d)) b) \/ cut_short c).
Lemma sourced_file : forall o dir path ctx st, sourced st ->
  match parse_file o dir path ctx st with FDone st' => sourced st' | _ => True end.
Proof.
  intros o dir path ctx st SO. unfold parse_file. destruct (o_open o path) as [content|msg]; auto. cbv zeta.
  set (toks := lex (o_lexers o) content).
  set (st0 := set_cur (log_use (log_open st path) path ctx) (Cfg path "ok" [] [])).
  pose proof (run_edges o dir ctx toks st0 _ (parse_run o dir ctx toks st0)) as R.
  destruct (parse o dir (S (List.length toks)) ctx toks st0) as [ds rest st'|e rest st'| |]; auto; cbn [tracedr] in R.
  - destruct R as [[[m M] C] T]. unfold core in C. inversion C as [[C1 C2 C3]].
    intros a b E. cbn [pl_config p_pay set_pay]. rewrite C3.
    destruct (T a b E) as [X|(-> & d & W & P)].
    + destruct (SO a b X) as (c & I & F & [(d & W & P)|CS]); (exists c; split; [apply in_or_app; auto|split; auto]).
      left. exists d. split; auto. destruct P as (i & J & A). exists i. split; auto. cbn. rewrite M. now apply assoc_app_l.
    + eexists. split; [apply in_or_app; right; left; reflexivity|]. split; [exact C1|]. left. exists d. auto.
  - destruct (o_stop o); auto. destruct R as [[[m M] C] T]. unfold core in C. inversion C as [[C1 C2 C3]].
    intros a b E. cbn [pl_config p_pay set_pay handle_error set_cur]. rewrite C3.
    destruct (T a b E) as [X| ->].
    + destruct (SO a b X) as (c & I & F & [(d & W & P)|CS]); (exists c; split; [apply in_or_app; auto|split; auto]).
      left. exists d. split; auto. destruct P as (i & J & A). exists i. split; auto. cbn. rewrite M. now apply assoc_app_l.
    + eexists. split; [apply in_or_app; right; left; reflexivity|]. split; [exact C1|]. right. split; [reflexivity|exact C2].
Qed.
Lemma sourced_files : forall fuel o dir st, sourced st ->
  match run_files fuel o dir st with FDone st' => sourced st' | _ => True end.
Proof.
  induction fuel as [|fuel IH]; intros o dir st S; cbn [run_files].
  - destruct (p_queue st) as [|[path ctx] q]; auto.
  - destruct (p_queue st) as [|[path ctx] q]; auto.
    pose proof (sourced_file o dir path ctx (set_queue st q) S) as F.
    destruct (parse_file o dir path ctx (set_queue st q)); auto. now apply IH.
Qed.
Lemma collect_sourced : forall fuel o filename st, collect fuel o filename = FDone st -> sourced st.
Proof.
  intros fuel o filename st C. pose proof (sourced_files fuel o (dir_name filename) (init_state filename)) as F.
  unfold collect in C. rewrite C in F. apply F. intros a b (l & E & _). discriminate.
Qed.
(** C15: where the edges come from. *)
Lemma edges_from_trees : forall fuel o filename st a b, collect fuel o filename = FDone st -> edge st a b ->
  exists c, In c (pl_config (p_pay st)) /\ cf_file c = a /\
    ((exists d i, within d (cf_parsed c) /\ In i (opt_list (d_includes d)) /\ selects (p_pay st) i b) \/ cut_short c).
Proof.
  intros fuel o filename st a b C E. destruct (collect_sourced _ _ _ _ C a b E) as (c & I & F & H). exists c. split; auto. split; auto.
  destruct H as [(d & W & i & J & A)|H]; auto. left. exists d, i. split; auto. split; auto.
  pose proof (collect_between fuel o filename) as CB. rewrite C in CB. destruct CB as [[V _] Q].
  destruct (numbered_nth _ _ _ (iv_num _ _ _ _ V) A) as [P X]. split; auto.
  rewrite <- (iv_files _ _ _ _ V), Q in X. cbn in X. rewrite app_nil_r, nth_error_map in X.
  destruct (nth_error (pl_config (p_pay st)) (Z.to_nat i)) as [c'|]; [|discriminate]. exists c'. split; auto. now inversion X.
Qed.
