(** C21 (map-like blocks in Parse), C22 (crashes of Parse), C18 on evaluated forests. *)
From Verif Require Export SpecMap ForestEval IgnoreProofs ValidateProofs IfProofs IncludeProofs CombineProofs SpecCrash SpecRun.
Local Open Scope string_scope.

Lemma words_vals : forall args, words args = arg_vals args.
Proof.
  intros args. unfold words, arg_vals. f_equal. induction args as [|t args IH]; [reflexivity|]. cbn [filter].
  assert (E : word t = negb (tok_comment t)).
  { unfold word. destruct (tok_comment t) eqn:TC.
    - apply hash_comment in TC as [Q [r E]]. now rewrite E.
    - apply not_hash in TC. destruct (t_val t) as [|c r] eqn:E; [reflexivity|].
      destruct (Ascii.ascii_dec c "#"%char) as [->|N].
      + cbn. destruct (t_quoted t) eqn:Q; auto. exfalso. apply TC. split; auto. exists r. now rewrite E.
      + destruct c as [[] [] [] [] [] [] [] []]; try reflexivity; congruence. }
  now rewrite E, IH.
Qed.
Lemma map_block_like : forall m, map_block m <-> In m map_like.
Proof. reflexivity. Qed.
Lemma decide_map_exact : forall o dir ctx d term st m, last (read_slice (p_heap st) ctx) EmptyString = m ->
  read_slice (p_heap st) ctx <> [] -> map_block m ->
  decide o dir ctx d term st =
    match analyze_map_body (cf_file (p_cur st)) d term m with
    | Some e => if o_stop o then DErr (EParse e) st
                else DSkip (String.eqb term "{") (handle_error o st (EParse e))
    | None => DMap (set_ismap d)
    end.
Proof.
  intros o dir ctx d term st m L N M. unfold decide.
  destruct (read_slice (p_heap st) ctx) as [|c r]; [congruence|]. rewrite L.
  apply map_block_like, map_like_iff in M. destruct (assoc m map_bodies); [reflexivity|congruence].
Qed.

(** Errors only. *)

Lemma map_error_line : forall file d term m e, analyze_map_body file d term m = Some e -> pe_line e = Some (d_line d).
Proof.
  intros file d term m e. unfold analyze_map_body. destruct (assoc m map_bodies); [|discriminate].
  destruct (negb _); [intros H; now inversion H|].
  destruct (assoc (d_name d) _); destruct (valid_args _ _); intros H; now inversion H.
Qed.

Lemma map_eval : forall o dir ctx m F ds bad cm label, entries cm label m F ds bad -> Forall wf_stmt F ->
  forall st, cm = o_comments o -> label = file_label o st ->
  read_slice (p_heap st) ctx <> [] -> last (read_slice (p_heap st) ctx) EmptyString = m -> map_block m ->
  o_stop o = false \/ bad = [] ->
  exists st', eval_forest o dir ctx F st = EOk ds st' /\ only_errors (cf_file (p_cur st)) st st' bad /\
    p_used st' = p_used st /\ p_asked st' = p_asked st /\ cf_file (p_cur st') = cf_file (p_cur st).
Proof.
  intros o dir ctx m F ds bad cm label H.
  induction H as [|t c F ds bad TV H IH|h args l F ds bad FA H IH|h args l body F ds bad B H IH]; intros W st CM LB NE LA MB SB.
  - exists st. repeat split; auto. exists []. now rewrite app_nil_r.
  - inversion W as [|? ? W1 W2]; subst. destruct (IH W2 st) as (st' & E & R); auto. exists st'. split; auto.
    unfold eval_forest in *. cbn [eseq eval_stmt]. rewrite E. cbn [eadd]. rewrite TV. reflexivity.
  - inversion W as [|? ? W1 W2]; subst. destruct (IH W2 st) as (st' & E & R); auto. exists st'. split; auto.
    unfold eval_forest in *. cbn [eseq eval_stmt].
    rewrite (decide_map_exact _ _ _ _ _ _ _ eq_refl) by auto.
    assert (A : analyze_map_body (cf_file (p_cur st)) (fresh o st h (arg_vals args)) ";" (last (read_slice (p_heap st) ctx) EmptyString) = None).
    { apply analyze_map_body_iff; auto. split; auto. cbn. now rewrite <- words_vals. }
    rewrite A, E. cbn [eadd app]. now rewrite words_vals.
  - destruct SB as [SB|SB]; [|discriminate]. inversion W as [|? ? W1 W2]; subst.
    set (term := match body with None => ";" | Some _ => "{" end).
    set (d := fresh o st h (arg_vals args)).
    assert (A : exists e, analyze_map_body (cf_file (p_cur st)) d term (last (read_slice (p_heap st) ctx) EmptyString) = Some e).
    { destruct (analyze_map_body (cf_file (p_cur st)) d term (last (read_slice (p_heap st) ctx) EmptyString)) as [e|] eqn:A; eauto.
      apply analyze_map_body_iff in A as [A1 A2]; auto. cbn in A2. rewrite <- words_vals in A2.
      unfold term in A1. destruct body; [discriminate|]. exfalso. destruct B; auto. }
    destruct A as [e A]. set (st1 := handle_error o st (EParse e)).
    destruct (IH W2 st1) as (st' & E & (R1 & R2 & R3 & R4 & R5 & R6 & R7 & es & R8 & R9) & R10 & R11 & R12); auto.
    exists st'. split.
    + unfold eval_forest in *. cbn [eseq eval_stmt]. fold term. fold d.
      rewrite (decide_map_exact _ _ _ _ _ _ _ eq_refl) by auto. rewrite A, SB. fold st1.
      assert (T : Bool.eqb (String.eqb term "{") (match body with None => false | Some _ => true end) = true).
      { unfold term. now destruct body. }
      rewrite T, E. reflexivity.
    + split; [|auto]. repeat (split; [assumption|]).
      exists (PyE (cf_file (p_cur st)) (Some (t_line h)) (EParse e) (match o_callback o with Some f => Some (f (EParse e)) | None => None end) :: es).
      split.
      * rewrite R8. unfold st1, handle_error. cbn. rewrite (map_error_line _ _ _ _ _ A). cbn. now rewrite <- app_assoc.
      * constructor; auto.
Qed.
Lemma map_parse : forall o dir ctx m F ds bad st fuel, entries (o_comments o) (file_label o st) m F ds bad ->
  Forall wf_stmt F -> read_slice (p_heap st) ctx <> [] -> last (read_slice (p_heap st) ctx) EmptyString = m ->
  map_block m -> o_stop o = false \/ bad = [] -> List.length (flat F) < fuel ->
  exists st', parse o dir fuel ctx (flat F) st = POk ds [] st' /\ only_errors (cf_file (p_cur st)) st st' bad.
Proof.
  intros o dir ctx m F ds bad st fuel E W N L M S B.
  destruct (map_eval o dir ctx m F ds bad _ _ E W st eq_refl eq_refl N L M S) as (st' & EV & OE & _).
  exists st'. split; auto. pose proof (eval_parse o dir F ctx st fuel W B) as P. now rewrite EV in P.
Qed.

(** Children of blocks, for every content. *)
Lemma is_map_enter_iff : forall path name, is_map (enter_path path name) = existsb (String.eqb name) map_like.
Proof.
  intros path name. destruct (is_map (enter_path path name)) eqn:M.
  - apply is_map_enter in M. symmetry. apply existsb_exists. exists name. split; auto. apply String.eqb_refl.
  - symmetry. apply not_true_iff_false. intros X. apply existsb_exists in X as (x & I & EQ). apply String.eqb_eq in EQ. subst x.
    unfold is_map, enter_path in M. pose proof (proj1 (map_like_iff name) I) as A.
    destruct path as [|c0 r].
    + cbn [last] in M. destruct (assoc name map_bodies); congruence.
    + destruct (String.eqb c0 "http" && String.eqb name "location")%bool eqn:EE.
      { apply andb_true_iff in EE as [_ EE]. apply String.eqb_eq in EE. subst name. vm_compute in A. congruence. }
      rewrite last_snoc in M. destruct ((c0 :: r) ++ [name])%list eqn:X; [now destruct r|].
      destruct (assoc name map_bodies); congruence.
Qed.
Lemma last_enter : forall path name, In name map_like -> last (enter_path path name) EmptyString = name /\ enter_path path name <> [].
Proof.
  intros path name I. unfold enter_path. destruct path as [|c0 r]; [split; [reflexivity|discriminate]|].
  destruct (String.eqb c0 "http" && String.eqb name "location")%bool eqn:EE.
  - apply andb_true_iff in EE as [_ EE]. apply String.eqb_eq in EE. subst name.
    repeat (destruct I as [I|I]; [discriminate|]). destruct I.
  - rewrite last_snoc. split; auto. now destruct r.
Qed.
Definition in_ctx (path : list string) (d : directive) : Prop :=
  d_comment d = None ->
  if is_map path then
    d_ismap d = true /\ d_block d = None /\ d_includes d = None /\
    fits_arity (entry_arity (last path EmptyString) (d_name d)) (d_args d)
  else d_ismap d = false.
Lemma is_map_block : forall path, is_map path = true -> map_block (last path EmptyString) /\ path <> [].
Proof.
  intros path M. unfold is_map in M. destruct path as [|c r]; [discriminate|].
  split; [|discriminate]. apply map_block_like, map_like_iff. destruct (assoc (last (c :: r) EmptyString) map_bodies); congruence.
Qed.
Lemma decide_keep_ismap : forall o dir ctx t args term st d st', decide o dir ctx (fresh o st t args) term st = DKeep d st' ->
  is_map (read_slice (p_heap st) ctx) = false /\ d_ismap d = false /\ d_block d = None /\ d_name d = t_val t.
Proof.
  intros o dir ctx t args term st d st' D. pose proof (decide_shape _ _ _ _ _ _ _ _ D) as SH.
  destruct (is_map (read_slice (p_heap st) ctx)) eqn:M.
  - pose proof (decide_is_map o dir ctx (fresh o st t args) term st M) as X. rewrite D in X. contradiction.
  - destruct SH as (S1 & _ & _ & S4 & _ & S6). auto.
Qed.

Lemma run_children : forall o dir ctx toks st r, Run o dir ctx toks st r -> good (p_heap st) ctx ->
  match r with
  | POk ds _ _ => Forall (deep children_ok) ds /\ Forall (in_ctx (read_slice (p_heap st) ctx)) ds
  | _ => True
  end.
Proof.
  intros o dir ctx toks st r H.
  set (G := fun path ds => Forall (deep children_ok) ds /\ Forall (in_ctx path) ds).
  assert (PA : forall path ds r, G path ds -> match r with POk ds' _ _ => G path ds' | _ => True end ->
     match padd ds r with POk ds' _ _ => G path ds' | _ => True end).
  { intros path ds [ds' rest s| | |] [A B]; cbn; auto. intros [C D]. split; apply Forall_app; auto. }
  assert (CO : forall path file line cs, G path (map (comment_dir file line) cs)).
  { intros path file line cs. split; apply Forall_map, Forall_forall; intros c _.
    - constructor; [|constructor]. intros b B. discriminate.
    - intros X. discriminate. }
  assert (CL : forall path x l, G path [x] -> G path l -> G path (x :: l)).
  { intros path x l [A B] [C D]. inversion A; inversion B; subst. split; constructor; auto. }
  assert (LEAF : forall d, d_block d = None -> deep children_ok d).
  { intros d B. constructor; [intros b E; congruence|]. rewrite B. constructor. }
  change (good (p_heap st) ctx -> match r with POk ds _ _ => G (read_slice (p_heap st) ctx) ds | _ => True end).
  induction H as [ctx st|ctx st t r e TE|ctx st t r TE TC|ctx st t r res TE TC TM H IH|ctx st t r ST RA|ctx st t r args cs term rest ST RA D|ctx st t r args cs term rest e st' ST RA D|ctx st t r args cs term rest st' ST RA D|ctx st t r args cs term rest eat st' res ST RA D H IH|ctx st t r args cs term rest d res ST RA D H IH|ctx st t r args cs term rest d st' res ST RA D TB H IH|ctx st t r args cs term rest d st' h inner blk rest' st'' res ST RA D TB EB H1 IH1 H2 IH2|ctx st t r args cs term rest d st' h inner res ST RA D TB EB H IH FL];
    intros GC; try exact I; try (split; constructor);
    try (pose proof (decide_heap o dir ctx (fresh o st t args) term st) as DH; rewrite D in DH; cbn [decision_state] in DH).
  - apply PA; [|exact (IH GC)]. destruct (o_comments o); [|split; constructor]. exact (CO _ _ _ [drop 1 (t_val t)]).
  - rewrite DH in IH. exact (IH GC).
  - apply PA; [|exact (IH GC)]. pose proof (decide_map _ _ _ _ _ _ _ D) as E.
    assert (M : is_map (read_slice (p_heap st) ctx) = true).
    { destruct (is_map (read_slice (p_heap st) ctx)) eqn:M; auto. exfalso. revert D. unfold decide. unfold is_map in M.
      destruct (read_slice (p_heap st) ctx) as [|x l].
      - destruct (mem_str _ _); [discriminate|]. destruct (analyze _ _ _ _ _).
        + destruct (o_stop o); [discriminate|]. destruct (has_suffix _ _); [destruct (negb _)|]; discriminate.
        + destruct (if String.eqb _ "if" then _ else _); [|discriminate]. destruct (negb (o_single o) && _)%bool; [|discriminate].
          unfold do_include. destruct (d_args _); [discriminate|]. destruct (has_magic _).
          * destruct (o_glob o _); [|discriminate]. now destruct (add_includes _ _ _).
          * destruct (o_open o _); [now destruct (add_includes _ _ _)|]. destruct (o_stop o); discriminate.
      - destruct (assoc (last (x :: l) EmptyString) map_bodies); [discriminate|].
        destruct (mem_str _ _); [discriminate|]. destruct (analyze _ _ _ _ _).
        + destruct (o_stop o); [discriminate|]. destruct (has_suffix _ _); [destruct (negb _)|]; discriminate.
        + destruct (if String.eqb _ "if" then _ else _); [|discriminate]. destruct (negb (o_single o) && _)%bool; [|discriminate].
          unfold do_include. destruct (d_args _); [discriminate|]. destruct (has_magic _).
          * destruct (o_glob o _); [|discriminate]. now destruct (add_includes _ _ _).
          * destruct (o_open o _); [now destruct (add_includes _ _ _)|]. destruct (o_stop o); discriminate. }
    split; constructor; try constructor; try (subst d; cbn; intros; discriminate); try (subst d; cbn; constructor).
    intros _. rewrite M. destruct (is_map_block _ M) as [MB NE].
    rewrite (decide_map_exact _ _ _ _ _ _ _ eq_refl NE MB) in D.
    destruct (analyze_map_body _ _ _ _) as [e|] eqn:A; [destruct (o_stop o); discriminate|].
    apply analyze_map_body_iff in A as [_ A]; auto. subst d. cbn in *. auto.
  - destruct (decide_keep_ismap _ _ _ _ _ _ _ _ _ D) as (M & IM & BL & NM).
    apply PA; [|rewrite DH in IH; exact (IH GC)]. apply CL; [|apply CO].
    split; constructor; auto. intros _. now rewrite M.
  - destruct (decide_keep_ismap _ _ _ _ _ _ _ _ _ D) as (M & IM & BL & NM).
    rewrite <- DH in GC. destruct (enter_block_spec _ _ _ _ _ GC EB) as (GI & RI & FE & C).
    pose proof (run_frame _ _ _ _ _ _ H1 GI) as F2. cbn [res_heap p_heap set_heap] in F2.
    assert (F1 : frame ctx (p_heap st') (p_heap st'')) by (eapply frame_weaken; eauto).
    specialize (IH1 GI). specialize (IH2 (good_frame _ _ _ _ GC F1)).
    rewrite (read_frame _ _ _ F1), DH in IH2. apply PA; [|exact IH2]. apply CL; [|apply CO].
    destruct IH1 as [I1 I2]. cbn [p_heap set_heap] in I2. rewrite RI in I2.
    split; constructor; auto; try (intros _; now rewrite M).
    constructor; [|exact I1]. intros b B. cbn in B. inversion B; subst b. cbn [d_name set_block].
    eapply Forall_impl; [|exact I2]. intros x X CX. specialize (X CX). rewrite is_map_enter_iff in X.
    destruct (existsb (String.eqb (d_name d)) map_like) eqn:ML; auto.
    apply existsb_exists in ML as (y & IY & EY). apply String.eqb_eq in EY. subst y.
    now rewrite (proj1 (last_enter _ _ IY)) in X.
  - destruct res; auto. destruct FL.
Qed.
Lemma children_files : forall first o dir fuel st st', qinv first st ->
  Forall (fun c => Forall (deep children_ok) (cf_parsed c)) (pl_config (p_pay st)) -> cf_parsed (p_cur st) = [] ->
  run_files fuel o dir st = FDone st' -> Forall (fun c => Forall (deep children_ok) (cf_parsed c)) (pl_config (p_pay st')).
Proof.
  intros first o dir. induction fuel as [|fuel IH]; intros st st' Q P CP; cbn [run_files].
  - destruct (p_queue st) as [|[path ctx] q]; [|discriminate]. intros H. now inversion H; subst.
  - destruct (p_queue st) as [|[path ctx] q] eqn:E; [intros H; now inversion H; subst|].
    pose proof (ctx_file first o dir path ctx q st Q E) as CF.
    assert (G : good (p_heap st) ctx).
    { destruct Q as [Q _]. rewrite E in Q. inversion Q as [|? ? [G _] _]; subst. exact G. }
    assert (F : forall s, parse_file o dir path ctx (set_queue st q) = FDone s ->
      Forall (fun c => Forall (deep children_ok) (cf_parsed c)) (pl_config (p_pay s)) /\ cf_parsed (p_cur s) = []).
    { intros s. unfold parse_file. cbv zeta. set (st0 := log_use (log_open (set_queue st q) path) path ctx).
      destruct (o_open o path) as [content|msg]; [|discriminate].
      set (toks := lex (o_lexers o) content). set (st1 := set_cur st0 (Cfg path "ok" [] [])).
      pose proof (parse_run o dir ctx toks st1) as R.
      pose proof (run_children _ _ _ _ _ _ R G) as RC.
      assert (RP : forall r, Run o dir ctx toks st1 r -> match r with
        | POk _ _ s' => pl_config (p_pay s') = pl_config (p_pay st) /\ cf_parsed (p_cur s') = []
        | PErr _ _ s' => pl_config (p_pay s') = pl_config (p_pay st) /\ cf_parsed (p_cur s') = [] | _ => True end).
      { intros r RR. refine (run_state_inv o dir (fun s => pl_config (p_pay s) = pl_config (p_pay st) /\ cf_parsed (p_cur s) = []) _ _ _ _ _ _ RR (conj eq_refl eq_refl)); auto.
        intros c a b EF [X Y]. destruct EF as [|e|p|p e|p c0|p fs]; auto.
        - destruct (add_includes_frame c [p] (log_open a p)) as (_ & E1 & E2 & _). rewrite E1, E2. auto.
        - destruct (add_includes_frame c (sort_strings fs) a) as (_ & E1 & E2 & _). rewrite E1, E2. auto. }
      specialize (RP _ R).
      destruct (parse o dir (S (List.length toks)) ctx toks st1) as [ds rest st2|e rest st2| |]; try discriminate.
      - intros H. inversion H; subst. cbn. destruct RP as [-> RP]. split; auto. apply Forall_app. split; auto.
        constructor; auto. apply RC.
      - destruct (o_stop o); [discriminate|]. intros H. inversion H; subst. cbn. destruct RP as [-> RP]. split; auto.
        apply Forall_app. split; auto. constructor; auto. cbn. rewrite RP. constructor. }
    destruct (parse_file o dir path ctx (set_queue st q)) as [st1|e st1| |]; try discriminate.
    intros H. destruct (F st1 eq_refl) as [F1 F2]. eapply IH; [| | |exact H]; auto. exact (proj1 CF).
Qed.
Lemma collect_children : forall fuel o filename st, collect fuel o filename = FDone st ->
  forall c d, In c (pl_config (p_pay st)) -> within d (cf_parsed c) -> children_ok d.
Proof.
  intros fuel o filename st C c d I W.
  assert (F : Forall (fun c => Forall (deep children_ok) (cf_parsed c)) (pl_config (p_pay st))).
  { eapply children_files; [apply (qinv_init filename)| | |exact C]; [constructor|reflexivity]. }
  rewrite Forall_forall in F. specialize (F c I). exact (deep_within _ _ _ W F).
Qed.

(** ** C22: the only crash of Parse *)
Definition crash_at (cm : bool) (toks : list token) : Prop :=
  exists pre t r args cs term rest, toks = (pre ++ t :: r)%list /\ t_val t = "if" /\
    read_args cm r = Some (args, cs, term, rest) /\ blank_parens args.
Lemma run_panic : forall o dir ctx toks st r, Run o dir ctx toks st r -> r = PPanic -> crash_at (o_comments o) toks.
Proof.
  intros o dir ctx toks st r H.
  assert (SU : forall a b, suffix a b -> crash_at (o_comments o) a -> crash_at (o_comments o) b).
  { intros a b [p ->] (pre & t & r0 & args & cs & term & rest & -> & X). exists (p ++ pre)%list, t, r0, args, cs, term, rest.
    split; [now rewrite app_assoc|exact X]. }
  induction H as [ctx st|ctx st t r e TE|ctx st t r TE TC|ctx st t r res TE TC TM H IH|ctx st t r ST RA|ctx st t r args cs term rest ST RA D|ctx st t r args cs term rest e st' ST RA D|ctx st t r args cs term rest st' ST RA D|ctx st t r args cs term rest eat st' res ST RA D H IH|ctx st t r args cs term rest d res ST RA D H IH|ctx st t r args cs term rest d st' res ST RA D TB H IH|ctx st t r args cs term rest d st' h inner blk rest' st'' res ST RA D TB EB H1 IH1 H2 IH2|ctx st t r args cs term rest d st' h inner res ST RA D TB EB H IH FL];
    intros E; try discriminate;
    try (assert (E' : res = PPanic) by (destruct res; cbn in E; congruence));
    try (pose proof (read_args_suffix _ _ _ _ _ _ RA) as SR; apply (suffix_tail t) in SR).
  - apply (SU r); auto. apply suffix_tail, suffix_refl.
  - exists [], t, r, args, cs, term, rest. split; auto.
    revert D. unfold decide. destruct (match read_slice (p_heap st) ctx with [] => None | _ => _ end).
    { destruct (analyze_map_body _ _ _ _); [destruct (o_stop o)|]; discriminate. }
    destruct (mem_str _ _); [discriminate|]. destruct (analyze _ _ _ _ _).
    { destruct (o_stop o); [discriminate|]. destruct (has_suffix _ _); [destruct (negb _)|]; discriminate. }
    cbn [d_name d_args fresh]. destruct (String.eqb_spec (t_val t) "if") as [EI|NI].
    + destruct (prepare_if args) as [a|] eqn:PI; [|intros _; rewrite <- prepare_if_panics; auto].
      destruct (negb (o_single o) && _)%bool; [|discriminate].
      unfold do_include. cbn [d_args set_args]. destruct a; [discriminate|]. destruct (has_magic _).
      * destruct (o_glob o _); [|discriminate]. now destruct (add_includes _ _ _).
      * destruct (o_open o _); [now destruct (add_includes _ _ _)|]. destruct (o_stop o); discriminate.
    + destruct (negb (o_single o) && _)%bool; [|discriminate].
      unfold do_include. cbn [d_args set_args]. destruct args; [discriminate|]. destruct (has_magic _).
      * destruct (o_glob o _); [|discriminate]. now destruct (add_includes _ _ _).
      * destruct (o_open o _); [now destruct (add_includes _ _ _)|]. destruct (o_stop o); discriminate.
  - apply (SU (if eat then consume 0 rest else rest)); auto. destruct eat; auto.
    eapply suffix_trans; [apply consume_suffix|exact SR].
  - apply (SU rest); auto.
  - apply (SU rest); auto.
  - apply (SU rest'); auto. pose proof (run_suffix _ _ _ _ _ _ H1) as RS. cbn in RS. eapply suffix_trans; eauto.
  - apply (SU rest); auto.
Qed.
Lemma files_panic : forall fuel o filename st, IncludeProofs.between o filename st ->
  run_files fuel o (dir_name filename) st = FPanic ->
  exists f content, reach o filename f /\ o_open o f = inl content /\ crash_at (o_comments o) (lex (o_lexers o) content).
Proof.
  induction fuel as [|fuel IH]; intros o filename st B; cbn [run_files].
  - destruct (p_queue st) as [|[path ctx] q]; discriminate.
  - destruct (p_queue st) as [|[path ctx] q] eqn:Q; [discriminate|].
    pose proof (between_file o filename path ctx q st B Q) as BF.
    destruct (parse_file o (dir_name filename) path ctx (set_queue st q)) as [st1|e st1| |] eqn:PF; try discriminate.
    + apply IH. apply BF.
    + intros _. destruct B as [V _].
      assert (RP : reach o filename path).
      { pose proof (iv_reach _ _ _ _ V) as RA. rewrite Forall_forall in RA. apply RA.
        rewrite <- (iv_files _ _ _ _ V), Q. apply in_app_iff. right. left. reflexivity. }
      revert PF. unfold parse_file. cbv zeta. destruct (o_open o path) as [content|msg] eqn:OP; [|discriminate].
      set (toks := lex (o_lexers o) content). set (s1 := set_cur _ (Cfg path "ok" [] [])).
      pose proof (parse_run o (dir_name filename) ctx toks s1) as R.
      destruct (parse o (dir_name filename) (S (List.length toks)) ctx toks s1) as [ds rest st2|e rest st2| |] eqn:PP; try discriminate.
      * destruct (o_stop o); discriminate.
      * intros _. exists path, content. split; auto. split; auto. eapply run_panic; eauto.
Qed.
Lemma parse_panic_at : forall fuel o filename, parse_main fuel o filename = RPanic ->
  exists f content, reach o filename f /\ o_open o f = inl content /\ crash_at (o_comments o) (lex (o_lexers o) content).
Proof.
  intros fuel o filename. unfold parse_main. destruct (collect fuel o filename) as [st|e st| |] eqn:C; try discriminate.
  - unfold finish. destruct (has_cycle _ _ _) eqn:HC; [discriminate|]. destruct (o_combine o); [|discriminate].
    assert (AC : ~ cyclic (p_edges st)) by (rewrite <- combine_acyclic by eauto; congruence).
    destruct (collect_combines _ _ _ _ C AC) as (n & p & P).
    destruct (combined fuel (p_pay st)) as [q|e| |] eqn:CB; try discriminate. intros _. exfalso.
    specialize (P (n + fuel) ltac:(lia)). unfold combined in CB, P.
    destruct (pl_config (p_pay st)) as [|c0 cs]; [discriminate|].
    destruct (perform fuel (c0 :: cs) (cf_file c0) (cf_parsed c0)) eqn:PF; try discriminate.
    rewrite perform_more in P by congruence. rewrite PF in P. discriminate.
  - intros _. apply (files_panic fuel o filename (init_state filename)); auto. apply between_init.
Qed.
Lemma read_args_plain : forall cm r args cs term rest, read_args cm r = Some (args, cs, term, rest) ->
  exists A k, r = (A ++ k :: rest)%list /\ Forall plain A /\ ~ plain k /\ words A = args.
Proof.
  intros cm. induction r as [|t r IH]; cbn [read_args]; intros args cs term rest H; [discriminate|].
  destruct (is_term t) eqn:T.
  - inversion H; subst. exists [], t. split; [reflexivity|]. split; [constructor|]. split; [|reflexivity].
    intros P. now rewrite (plain_not_term _ P) in T.
  - destruct (read_args cm r) as [[[[a c] tm] rs]|]; [|discriminate].
    destruct (IH _ _ _ _ eq_refl) as (A & k & -> & F & K & W). exists (t :: A), k. 
    assert (E : words (t :: A) = if negb (tok_comment t) then t_val t :: a else a).
    { rewrite words_vals. unfold arg_vals. cbn [filter]. rewrite words_vals in W. rewrite <- W. now destruct (negb (tok_comment t)). }
    assert (P : plain t).
    { unfold is_term, tok_is in T. destruct (t_quoted t) eqn:Q; [now left|right]. cbn [negb andb] in T.
      apply orb_false_iff in T as [T T3]. apply orb_false_iff in T as [T1 T2].
      apply String.eqb_neq in T1, T2, T3. cbn. intuition congruence. }
    destruct (negb (tok_comment t)); [|destruct cm]; inversion H; subst rest; subst args;
      (split; [reflexivity|]; split; [now constructor|]; now split).
Qed.
Lemma parse_panic : forall fuel o filename, parse_main fuel o filename = RPanic ->
  exists f content, reach o filename f /\ o_open o f = inl content /\ crash_site (lex (o_lexers o) content).
Proof.
  intros fuel o filename H. destruct (parse_panic_at _ _ _ H) as (f & content & R & O & pre & t & r & args & cs & term & rest & E & T & RA & B).
  exists f, content. split; auto. split; auto. destruct (read_args_plain _ _ _ _ _ _ RA) as (A & k & -> & F & K & W).
  exists pre, t, A, k, rest. rewrite W. auto.
Qed.
