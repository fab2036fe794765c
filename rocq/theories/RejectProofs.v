(** C32: rejected statements leave no trace but their errors. *)
From Verif Require Export SpecReject IgnoreEval.
Local Open Scope string_scope.

(** ** Decisions do not look at errors. *)
Definition blank_cfg (c : config) : config := Cfg (cf_file c) "" [] (cf_parsed c).
Definition blank_pay (p : payload) : payload := Pay "" [] (map blank_cfg (pl_config p)).
Definition blank (st : pst) : pst := set_pay (set_cur st (blank_cfg (p_cur st))) (blank_pay (p_pay st)).
Definition bdec (d : decision) : decision :=
  match d with
  | DKeep d st => DKeep d (blank st)
  | DMap d => DMap d
  | DSkip e st => DSkip e (blank st)
  | DBreak st => DBreak (blank st)
  | DErr e st => DErr e (blank st)
  | DPanic => DPanic
  end.
Lemma blank_cfg_twice : forall c, blank_cfg (blank_cfg c) = blank_cfg c.
Proof. reflexivity. Qed.
Lemma blank_handle : forall o st e, blank (handle_error o st e) = blank st.
Proof. reflexivity. Qed.
Lemma blank_pay_twice : forall p, blank_pay (blank_pay p) = blank_pay p.
Proof. intros p. unfold blank_pay. cbn. f_equal. rewrite map_map. reflexivity. Qed.
Lemma blank_twice : forall st, blank (blank st) = blank st.
Proof.
  intros st. unfold blank at 1. cbn [p_pay set_pay blank p_cur set_cur].
  rewrite blank_pay_twice, blank_cfg_twice. reflexivity.
Qed.
Lemma blank_open : forall st p, blank (log_open st p) = log_open (blank st) p.
Proof. reflexivity. Qed.
Lemma blank_include : forall ctx f st,
  add_include ctx (blank st) f = (blank (fst (add_include ctx st f)), snd (add_include ctx st f)).
Proof. intros ctx f st. unfold add_include. cbn. now destruct (assoc f (p_included st)). Qed.
Lemma blank_includes : forall ctx fs st,
  add_includes ctx (blank st) fs = (blank (fst (add_includes ctx st fs)), snd (add_includes ctx st fs)).
Proof.
  intros ctx. induction fs as [|f fs IH]; intros st; [reflexivity|]. cbn [add_includes]. rewrite blank_include.
  destruct (add_include ctx st f) as [st1 i]. cbn [fst snd]. rewrite IH. now destruct (add_includes ctx st1 fs).
Qed.
Lemma decide_blank : forall o dir ctx d term st,
  bdec (decide o dir ctx d term (blank st)) = bdec (decide o dir ctx d term st).
Proof.
  intros o dir ctx d term st. unfold decide.
  change (p_heap (blank st)) with (p_heap st). change (cf_file (p_cur (blank st))) with (cf_file (p_cur st)).
  destruct (match read_slice (p_heap st) ctx with [] => None | _ => _ end) as [m|].
  { destruct (analyze_map_body _ _ _ _); [destruct (o_stop o)|]; cbn [bdec]; rewrite ?blank_handle, ?blank_twice; reflexivity. }
  destruct (mem_str _ _); [cbn [bdec]; now rewrite blank_twice|].
  destruct (analyze _ _ _ _ _) as [e|].
  { destruct (o_stop o); [cbn [bdec]; now rewrite blank_twice|].
    destruct (has_suffix _ _); [destruct (negb _)|]; cbn [bdec]; rewrite !blank_handle, blank_twice; reflexivity. }
  destruct (if String.eqb (d_name d) "if" then prepare_if (d_args d) else Some (d_args d)) as [args|]; [|reflexivity].
  destruct (negb (o_single o) && _)%bool; [|cbn [bdec]; now rewrite blank_twice].
  unfold do_include. change (p_heap (blank st)) with (p_heap st). change (cf_file (p_cur (blank st))) with (cf_file (p_cur st)).
  cbn [d_args set_args]. destruct args as [|a0 args]; [cbn [bdec]; now rewrite blank_twice|].
  destruct (has_magic _).
  - destruct (o_glob o _) as [fs|msg]; [|cbn [bdec]; now rewrite blank_twice].
    rewrite blank_includes. destruct (add_includes ctx st (sort_strings fs)) as [s is]. cbn [fst snd bdec]. now rewrite blank_twice.
  - destruct (o_open o _) as [c|msg].
    + rewrite <- blank_open, blank_includes. destruct (add_includes ctx _ _) as [s is]. cbn [fst snd bdec]. now rewrite blank_twice.
    + destruct (o_stop o); cbn [bdec]; rewrite ?blank_handle, ?blank_open, blank_twice; reflexivity.
Qed.
Lemma decide_same : forall o dir ctx d term st st', blank st = blank st' ->
  bdec (decide o dir ctx d term st) = bdec (decide o dir ctx d term st').
Proof. intros o dir ctx d term st st' E. rewrite <- decide_blank, E. apply decide_blank. Qed.

Definition eeq (e e' : ev) : Prop :=
  match e, e' with
  | EOk ds s, EOk ds' s' => ds = ds' /\ blank s = blank s'
  | EErr x s, EErr x' s' => x = x' /\ blank s = blank s'
  | EPanic, EPanic => True
  | _, _ => False
  end.
Definition deq (a b : decision) : Prop :=
  match a, b with
  | DKeep d s, DKeep d' s' => d = d' /\ blank s = blank s'
  | DMap d, DMap d' => d = d'
  | DSkip e s, DSkip e' s' => e = e' /\ blank s = blank s'
  | DBreak s, DBreak s' => blank s = blank s'
  | DErr e s, DErr e' s' => e = e' /\ blank s = blank s'
  | DPanic, DPanic => True
  | _, _ => False
  end.
Lemma decide_deq : forall o dir ctx d term st st', blank st = blank st' ->
  deq (decide o dir ctx d term st) (decide o dir ctx d term st').
Proof.
  intros o dir ctx d term st st' E. pose proof (decide_same o dir ctx d term st st' E) as H.
  remember (decide o dir ctx d term st) as a. remember (decide o dir ctx d term st') as b. clear - H.
  set (st_of := fun x => match x with DKeep _ s | DSkip _ s | DBreak s | DErr _ s => Some s | _ => None end).
  pose proof (f_equal st_of H) as X.
  destruct a, b; cbn [bdec] in H; try discriminate H; cbn [st_of bdec] in X; cbn [deq].
  - split; [exact (f_equal (fun x => match x with DKeep d _ => d | _ => d end) H)|].
    exact (f_equal (fun x => match x with DKeep _ s => s | _ => blank st end) H).
  - exact (f_equal (fun x => match x with DMap d => d | _ => d end) H).
  - split; [exact (f_equal (fun x => match x with DSkip e _ => e | _ => eat end) H)|].
    exact (f_equal (fun x => match x with DSkip _ s => s | _ => blank st end) H).
  - exact (f_equal (fun x => match x with DBreak s => s | _ => blank st end) H).
  - split; [exact (f_equal (fun x => match x with DErr e _ => e | _ => e end) H)|].
    exact (f_equal (fun x => match x with DErr _ s => s | _ => blank st end) H).
  - exact I.
Qed.
Lemma eeq_add : forall ds e e', eeq e e' -> eeq (eadd ds e) (eadd ds e').
Proof. intros ds [] []; cbn; try tauto. intros [-> H]. auto. Qed.
Lemma blank_heap : forall st st', blank st = blank st' -> p_heap st = p_heap st'.
Proof. intros st st' E. exact (f_equal p_heap E). Qed.
Lemma blank_file : forall st st', blank st = blank st' -> cf_file (p_cur st) = cf_file (p_cur st').
Proof. intros st st' E. exact (f_equal (fun s => cf_file (p_cur s)) E). Qed.
Lemma blank_label : forall o st st', blank st = blank st' -> file_label o st = file_label o st'.
Proof. intros o st st' E. unfold file_label. now rewrite (blank_file _ _ E). Qed.
Lemma blank_set_heap : forall st st' h, blank st = blank st' -> blank (set_heap st h) = blank (set_heap st' h).
Proof. intros st st' h E. change (set_heap (blank st) h = set_heap (blank st') h). now rewrite E. Qed.

(** ** The decisions on the statements of [absent]. *)
Lemma is_map_iff : forall path, is_map path = true <-> inside_map path.
Proof.
  intros path. split.
  - intros M. destruct (is_map_block _ M). split; auto.
  - intros [N M]. unfold is_map. destruct path as [|c r]; [congruence|].
    apply map_block_like, map_like_iff in M. unfold map_bodies in *. destruct (assoc (last (c :: r) EmptyString) _); auto.
Qed.
Lemma accepts_dir : forall o path d d' term, d_name d = d_name d' -> d_args d = d_args d' ->
  accepts o path d term -> accepts o path d' term.
Proof.
  intros o path d d' term N A H. destruct H as [U S|ms K P|ms K C A'|ms mask b K P I B FF].
  - apply acc_unknown; auto. rewrite <- N. exact U.
  - eapply acc_path; eauto. rewrite <- N. exact K.
  - eapply acc_unchecked; eauto. rewrite <- N. exact K.
  - eapply acc_mask; eauto; [rewrite <- N; exact K|]. destruct FF as [FF|FF]; auto. right.
    unfold form_fits in *. rewrite <- A. exact FF.
Qed.
Lemma decide_outside : forall o dir ctx d term st, ~ inside_map (read_slice (p_heap st) ctx) ->
  ~ In (d_name d) (o_ignore o) ->
  decide o dir ctx d term st =
  match analyze o (cf_file (p_cur st)) d term (read_slice (p_heap st) ctx) with
  | Some e =>
    if o_stop o then DErr (EParse e) st
    else
      let st := handle_error o st (EParse e) in
      if has_suffix (pe_what e) not_terminated then
        if negb (String.eqb term "}") then DSkip true st else DBreak st
      else DSkip false st
  | None =>
    match (if String.eqb (d_name d) "if" then prepare_if (d_args d) else Some (d_args d)) with
    | None => DPanic
    | Some args =>
      let d := set_args d args in
      if (negb (o_single o) && String.eqb (d_name d) "include")%bool
      then do_include o dir ctx d st else DKeep d st
    end
  end.
Proof.
  intros o dir ctx d term st M NI. unfold decide.
  assert (MM : is_map (read_slice (p_heap st) ctx) = false).
  { destruct (is_map _) eqn:X; auto. apply is_map_iff in X. contradiction. }
  assert (MI : mem_str (d_name d) (o_ignore o) = false).
  { destruct (mem_str _ _) eqn:X; auto. apply mem_str_iff in X. contradiction. }
  unfold is_map in MM. destruct (read_slice (p_heap st) ctx) as [|c r]; [now rewrite MI|].
  destruct (assoc (last (c :: r) EmptyString) map_bodies); [discriminate|]. now rewrite MI.
Qed.

(** Messages that end like "... is not terminated by ";"". *)
Fixpoint rev_str (s : string) : string := match s with EmptyString => "" | String c r => rev_str r ++ String c "" end.
Lemma rev_app_s : forall a b, rev_str (a ++ b) = rev_str b ++ rev_str a.
Proof. induction a as [|c a IH]; intros b; cbn; [now rewrite app_nil_r_s|]. now rewrite IH, app_assoc_s. Qed.
Lemma rev_rev_s : forall a, rev_str (rev_str a) = a.
Proof. induction a as [|c a IH]; [reflexivity|]. cbn. rewrite rev_app_s, IH. reflexivity. Qed.
Lemma suffix_rev : forall s p, has_suffix s p = true <-> has_prefix (rev_str s) (rev_str p) = true.
Proof.
  intros s p. rewrite has_suffix_iff, has_prefix_iff. split; intros [r E].
  - exists (rev_str r). rewrite <- rev_app_s. now rewrite E.
  - exists (rev_str r). rewrite <- (rev_rev_s s), E, rev_app_s, rev_rev_s. reflexivity.
Qed.
Fixpoint agree (a b : string) : bool :=
  match a, b with String x a, String y b => (Ascii.eqb x y && agree a b)%bool | _, _ => true end.
Lemma other_end : forall m tail p, agree (rev_str tail) (rev_str p) = false -> has_suffix (m ++ tail) p = false.
Proof.
  intros m tail p H. destruct (has_suffix (m ++ tail) p) eqn:X; auto. exfalso.
  apply suffix_rev, has_prefix_iff in X as [r E]. rewrite rev_app_s in E.
  enough (P : agree (rev_str tail) (rev_str p) = true) by congruence. clear H. revert E.
  generalize (rev_str tail) as t, (rev_str p) as q, (rev_str m) as w. clear.
  induction t as [|x t IH]; intros q w E; [reflexivity|]. destruct q as [|y q]; [reflexivity|].
  cbn in E. inversion E; subst. cbn. rewrite Ascii.eqb_refl. eapply IH; eauto.
Qed.

Definition ends_else (t p : string) : Prop := forall m, has_suffix (m ++ t) p = false.
Lemma ends_base : forall t p, agree (rev_str t) (rev_str p) = false -> ends_else t p.
Proof. intros t p H m. now apply other_end. Qed.
Lemma ends_app : forall a t p, ends_else t p -> ends_else (a ++ t) p.
Proof. intros a t p H m. rewrite <- app_assoc_s. apply H. Qed.
Lemma ends_cons : forall c t p, ends_else t p -> ends_else (String c t) p.
Proof. intros c t p H. exact (ends_app (String c "") t p H). Qed.
Lemma ends_whole : forall t p, ends_else t p -> has_suffix t p = false.
Proof. intros t p H. exact (H ""). Qed.
Ltac ends := apply ends_whole; repeat first [apply ends_base; reflexivity | apply ends_app | apply ends_cons].

Lemma check_quiet : forall d ms what w, has_suffix what not_terminated = false ->
  check_masks d ";" what ms = Some w -> has_suffix w not_terminated = false.
Proof.
  intros d. induction ms as [|m ms IH]; intros what w NS; cbn [check_masks].
  - intros H. now inversion H; subst.
  - destruct (has_bit m ngxConfExpr && negb (valid_expr (d_args d)))%bool.
    { apply IH. ends. }
    destruct (has_bit m ngxConfBlock && negb (String.eqb ";" "{"))%bool.
    { apply IH. ends. }
    change (String.eqb ";" ";") with true. cbn [negb]. rewrite andb_false_r.
    destruct (valid_args m (d_args d)); [discriminate|].
    assert (N : has_suffix ("invalid number of arguments in " ++ s_dq ++ d_name d ++ s_dq ++ " directive") not_terminated = false).
    { ends. }
    assert (V : forall a, has_suffix ("invalid value " ++ s_dq ++ a ++ s_dq ++ " in " ++ s_dq ++ d_name d ++ s_dq
               ++ " directive, it must be " ++ s_dq ++ "on" ++ s_dq ++ " or " ++ s_dq ++ "off" ++ s_dq) not_terminated = false).
    { intros a. ends. }
    destruct (d_args d) as [|a [|b r]]; try (apply IH; exact N).
    destruct (has_bit m ngxConfFlag && negb (valid_flag a))%bool; apply IH; auto.
Qed.
Lemma odd_suffix : forall n, has_suffix ("unknown directive " ++ s_dq ++ n ++ s_dq) not_terminated = true -> odd_name n.
Proof.
  intros n H. apply has_suffix_iff in H as [r E]. unfold not_terminated in E.
  rewrite <- !app_assoc_s in E.
  assert (C : forall a b (c : ascii), a ++ String c "" = b ++ String c "" -> a = b).
  { clear. intros a b c E. apply (f_equal rev_str) in E. rewrite !rev_app_s in E. cbn in E. inversion E as [E'].
    apply (f_equal rev_str) in E'. now rewrite !rev_rev_s in E'. }
  assert (E2 : "unknown directive " ++ s_dq ++ n = r ++ " is not terminated by " ++ s_dq ++ ";").
  { apply (C _ _ """"%char). rewrite !app_assoc_s. rewrite !app_assoc_s in E. exact E. }
  clear E. apply (f_equal rev_str) in E2. rewrite !rev_app_s in E2.
  assert (A : has_prefix (rev_str n) (rev_str (" is not terminated by " ++ s_dq ++ ";")) = true).
  { revert E2.
    change (rev_str ";" ++ rev_str s_dq) with (String ";" s_dq). cbn [append].
    change (rev_str "unknown directive ") with " evitcerid nwonknu".
    change (rev_str (" is not terminated by " ++ s_dq ++ ";")) with (";" ++ s_dq ++ " yb detanimret ton si ").
    change (rev_str " is not terminated by ") with " yb detanimret ton si ".
    change (rev_str s_dq) with s_dq.
    generalize (rev_str n) as k. intros k H. apply has_prefix_iff.
    unfold s_dq in *. cbn in H.
    repeat (destruct k as [|? k]; [exfalso; cbn in H; discriminate H | cbn in H; injection H as -> H]).
    eexists. reflexivity. }
  apply has_prefix_iff in A as [z Z]. exists (rev_str z). rewrite <- (rev_rev_s n), Z, rev_app_s, rev_rev_s. reflexivity.
Qed.
Lemma semicolon_quiet : forall o file d path e, ~ odd_name (d_name d) ->
  analyze o file d ";" path = Some e -> has_suffix (pe_what e) not_terminated = false.
Proof.
  intros o file d path e NO. unfold analyze. destruct (find_masks o (d_name d)) as [ms known].
  destruct (o_strict o && negb known)%bool.
  { intros H. inversion H; subst. cbn [pe_what stmt_error].
    destruct (has_suffix _ _) eqn:X; auto. apply odd_suffix in X. contradiction. }
  destruct (assoc (ctx_key path) contexts) as [cm|]; [|discriminate]. destruct (negb known); [discriminate|].
  destruct (negb (o_skipctx o) && _)%bool.
  { intros H. inversion H; subst. cbn [pe_what stmt_error]. ends. }
  destruct (o_skipargs o); [discriminate|].
  destruct (check_masks d ";" EmptyString _) as [w|] eqn:CK; [|discriminate].
  intros H. inversion H; subst. cbn [pe_what stmt_error]. eapply check_quiet; [|exact CK]. reflexivity.
Qed.
Lemma check_block_simple : forall d ms what, ms <> [] ->
  (forall m, In m ms -> has_bit m ngxConfExpr = false /\ has_bit m ngxConfBlock = false) ->
  check_masks d "{" what ms = Some ("directive " ++ s_dq ++ d_name d ++ s_dq ++ " is not terminated by " ++ s_dq ++ ";" ++ s_dq).
Proof.
  intros d ms. induction ms as [|m ms IH]; intros what N H; [congruence|]. cbn [check_masks].
  destruct (H m (or_introl eq_refl)) as [-> ->]. cbn [andb negb]. change (String.eqb "{" ";") with false. cbn [negb].
  destruct ms as [|m' ms]; [reflexivity|]. apply IH; [discriminate|]. intros x I. apply H. now right.
Qed.
Lemma block_quiet : forall o file d path, plain_path path -> simple_here o path (d_name d) ->
  exists e, analyze o file d "{" path = Some e /\ has_suffix (pe_what e) not_terminated = true.
Proof.
  intros o file d path PP (SA & ms & b & K & PB & (m & IM & BM) & ALL).
  unfold analyze. rewrite contexts_spec by auto. destruct (find_masks_spec o (d_name d)) as [FK _].
  rewrite (FK _ K), PB. cbn [option_map negb]. rewrite andb_false_r.
  set (cm := if o_skipctx o then ms else filter (fun m => has_bit m (2 ^ b)) ms).
  assert (CM : forall m, In m cm <-> In m ms /\ (o_skipctx o = true \/ bit b m)).
  { intros x. unfold cm, bit. destruct (o_skipctx o); [tauto|].
    rewrite filter_In, has_bit_pow. intuition discriminate. }
  assert (NE : cm <> []). { intros E. assert (I : In m cm) by (apply CM; auto). now rewrite E in I. }
  assert (NA : (negb (o_skipctx o) && match cm with [] => true | _ => false end)%bool = false).
  { destruct cm; [congruence|]. apply andb_false_r. }
  rewrite NA, SA.
  rewrite (check_block_simple d cm EmptyString NE).
  - eexists. split; [reflexivity|]. cbn [pe_what stmt_error]. apply has_suffix_iff.
    exists ("directive " ++ s_dq ++ d_name d ++ s_dq). rewrite !app_assoc_s. reflexivity.
  - intros x I. apply CM in I as [I1 I2]. destruct (ALL x I1 I2) as [B8 B9].
    change ngxConfExpr with (2 ^ 9)%N. change ngxConfBlock with (2 ^ 8)%N. rewrite !has_bit_pow.
    unfold bit in B8, B9. split; now apply not_true_iff_false.
Qed.

(** ** The evaluations with and without the rejected statements. *)
Lemma absent_wf : forall o path F F', absent o path F F' -> Forall wf_stmt F -> Forall wf_stmt F'.
Proof.
  intros o path F F' A. induction A; intros W; auto; inversion W as [|? ? W1 W2]; subst; auto.
  constructor; auto. apply wf_stm_inv in W1 as (TE & P & NH & FA & FB). apply wf_block; auto.
Qed.
Lemma fresh_name : forall o st h args, d_name (fresh o st h args) = t_val h.
Proof. reflexivity. Qed.
Lemma accepted : forall o path file st h args term, plain_path path -> accepts o path (stm_dir h args) term ->
  analyze o file (fresh o st h (arg_vals args)) term path = None.
Proof.
  intros o path file st h args term PP A. apply analyze_accepts; auto.
  eapply accepts_dir; [| |exact A]; [reflexivity|]. cbn. apply words_vals.
Qed.
Lemma rejected : forall o path file st h args term, plain_path path -> ~ accepts o path (stm_dir h args) term ->
  exists e, analyze o file (fresh o st h (arg_vals args)) term path = Some e.
Proof.
  intros o path file st h args term PP A.
  destruct (analyze o file (fresh o st h (arg_vals args)) term path) as [e|] eqn:AN; eauto. exfalso. apply A.
  apply analyze_accepts in AN; auto. eapply accepts_dir; [| |exact AN]; [reflexivity|]. cbn. symmetry. apply words_vals.
Qed.
Lemma eseq_eeq : forall f g s s' F F' (st st' : pst), eeq (f s st) (g s' st') ->
  (forall ds t ds' t', f s st = EOk ds t -> g s' st' = EOk ds' t' -> blank t = blank t' -> eeq (eseq f F t) (eseq g F' t')) ->
  eeq (eseq f (s :: F) st) (eseq g (s' :: F') st').
Proof.
  intros f g s s' F F' st st' H C. cbn [eseq].
  destruct (f s st) as [ds t|x t| |] eqn:A, (g s' st') as [ds' t'|x' t'| |] eqn:B; cbn [eeq] in H; try contradiction; auto.
  destruct H as [<- H]. apply eeq_add. eapply C; eauto.
Qed.
(** A statement whose decision keeps it without looking into the block. *)
Lemma eval_simple_same : forall o dir ctx h args l st st', blank st = blank st' ->
  (forall eat s, decide o dir ctx (fresh o st h (arg_vals args)) ";" st = DSkip eat s -> eat = false) ->
  (forall s, decide o dir ctx (fresh o st h (arg_vals args)) ";" st <> DBreak s) ->
  eeq (eval_stmt o dir ctx (SStm h args l None) st) (eval_stmt o dir ctx (SStm h args l None) st').
Proof.
  intros o dir ctx h args l st st' E SK NB. cbn [eval_stmt].
  assert (FR : fresh o st' h (arg_vals args) = fresh o st h (arg_vals args)).
  { unfold fresh. now rewrite (blank_label o _ _ E). }
  assert (CO : comments_of o st' (t_line h) (arg_coms (o_comments o) args) = comments_of o st (t_line h) (arg_coms (o_comments o) args)).
  { unfold comments_of. now rewrite (blank_label o _ _ E). }
  rewrite FR, CO. pose proof (decide_deq o dir ctx (fresh o st h (arg_vals args)) ";" st st' E) as H.
  destruct (decide o dir ctx (fresh o st h (arg_vals args)) ";" st) as [d s|d|eat s|s|e s|] eqn:D;
    destruct (decide o dir ctx (fresh o st h (arg_vals args)) ";" st') as [d' s'|d'|eat' s'|s'|e' s'|]; cbn [deq] in H; try contradiction.
  - destruct H as [<- H]. cbn. auto.
  - subst d'. cbn. auto.
  - destruct H as [<- H]. rewrite (SK eat s eq_refl). cbn. auto.
  - exfalso. now apply (NB s).
  - cbn. auto.
  - exact I.
Qed.
Lemma decide_keeps : forall o dir ctx d term st, ~ inside_map (read_slice (p_heap st) ctx) ->
  ~ In (d_name d) (o_ignore o) -> analyze o (cf_file (p_cur st)) d term (read_slice (p_heap st) ctx) = None ->
  match decide o dir ctx d term st with DKeep _ _ | DErr _ _ | DPanic => True | _ => False end.
Proof.
  intros o dir ctx d term st M NI A. rewrite decide_outside by auto. rewrite A.
  destruct (if String.eqb (d_name d) "if" then prepare_if (d_args d) else Some (d_args d)) as [args|]; auto.
  cbv zeta. destruct (negb (o_single o) && _)%bool; auto.
  unfold do_include. cbn [d_args set_args]. destruct args; auto. destruct (has_magic _).
  - destruct (o_glob o _); auto. now destruct (add_includes _ _ _).
  - destruct (o_open o _); [now destruct (add_includes _ _ _)|]. now destruct (o_stop o).
Qed.

Lemma eval_absent : forall o dir, o_stop o = false -> forall path F F', absent o path F F' -> Forall wf_stmt F ->
  forall ctx st st', plain_path path -> good (p_heap st) ctx -> read_slice (p_heap st) ctx = path -> blank st = blank st' ->
  eeq (eval_forest o dir ctx F st) (eval_forest o dir ctx F' st').
Proof.
  intros o dir NS path F F' A. unfold eval_forest.
  induction A as [path|path t F F' A IH|path h args l F F' M FI A IH|path h args l body F F' M BAD A IH
    |path h args l body F F' M IG A IH|path h args l F F' M NI AC A IH
    |path h args l b b' c F F' M NI AC PL A1 IH1 A2 IH2|path h args l body F F' M NI RJ QU A IH];
    intros W ctx st st' PP G RD E; try (inversion W as [|? ? W1 W2]; subst); auto.
  - cbn. auto.
  - apply eseq_eeq.
    + cbn. rewrite (blank_label o _ _ E). auto.
    + intros ds t1 ds' t1' X Y Z. inversion X; subst. inversion Y; subst. apply IH; auto.
  - apply eseq_eeq.
    + apply eval_simple_same; auto.
      * intros eat s D. apply is_map_iff in M. pose proof (decide_is_map o dir ctx (fresh o st h (arg_vals args)) ";" st M) as X.
        now rewrite D in X.
      * intros s D. apply is_map_iff in M. pose proof (decide_is_map o dir ctx (fresh o st h (arg_vals args)) ";" st M) as X.
        now rewrite D in X.
    + intros ds t1 ds' t1' X Y Z. pose proof (eval_stmt_frame _ _ _ _ _ _ _ W1 X G) as FR.
      apply IH; auto; [exact (good_frame _ _ _ _ G FR)|exact (read_frame _ _ _ FR)].
  - cbn [eseq eval_stmt]. destruct M as [N MB].
    rewrite (decide_map_exact _ _ _ _ _ _ _ eq_refl) by auto.
    set (term := match body with None => ";" | Some _ => "{" end).
    set (d := fresh o st h (arg_vals args)).
    assert (AM : exists e, analyze_map_body (cf_file (p_cur st)) d term (last (read_slice (p_heap st) ctx) EmptyString) = Some e).
    { destruct (analyze_map_body (cf_file (p_cur st)) d term (last (read_slice (p_heap st) ctx) EmptyString)) as [e|] eqn:AM; eauto.
      apply analyze_map_body_iff in AM as [A1 A2]; auto. cbn in A2. rewrite <- words_vals in A2.
      unfold term in A1. destruct body; [discriminate|]. exfalso. destruct BAD; auto. }
    destruct AM as [e AM]. rewrite AM, NS.
    assert (T : Bool.eqb (String.eqb term "{") (match body with None => false | Some _ => true end) = true).
    { unfold term. now destruct body. }
    rewrite T. change (eeq (eadd [] (eseq (eval_stmt o dir ctx) F (handle_error o st (EParse e)))) (eseq (eval_stmt o dir ctx) F' st')).
    assert (X : forall r, eadd [] r = r) by (now intros []). rewrite X. apply IH; auto.
  - assert (MM : is_map (read_slice (p_heap st) ctx) = false).
    { destruct (is_map _) eqn:X; auto. apply is_map_iff in X. contradiction. }
    assert (II : mem_str (t_val h) (o_ignore o) = true) by now apply mem_str_iff.
    assert (EV : forall s, p_heap s = p_heap st -> eval_stmt o dir ctx (SStm h args l body) s = EOk [] s).
    { intros s HS. cbn [eval_stmt]. rewrite (decide_ignored o dir) by (rewrite ?HS; auto). now destruct body. }
    apply eseq_eeq.
    + rewrite !EV by (auto; symmetry; now apply blank_heap). cbn. auto.
    + intros ds t1 ds' t1' X Y Z. rewrite EV in X by auto. rewrite EV in Y by (symmetry; now apply blank_heap).
      inversion X; subst. inversion Y; subst. apply IH; auto.
  - pose proof (decide_keeps o dir ctx (fresh o st h (arg_vals args)) ";" st M NI (accepted _ _ _ _ _ _ _ PP AC)) as DK.
    apply eseq_eeq.
    + apply eval_simple_same; auto.
      * intros eat s D. now rewrite D in DK.
      * intros s D. now rewrite D in DK.
    + intros ds t1 ds' t1' X Y Z. pose proof (eval_stmt_frame _ _ _ _ _ _ _ W1 X G) as FR.
      apply IH; auto; [exact (good_frame _ _ _ _ G FR)|exact (read_frame _ _ _ FR)].
  - pose proof (decide_keeps o dir ctx (fresh o st h (arg_vals args)) "{" st M NI (accepted _ _ _ _ _ _ _ PP AC)) as DK.
    apply eseq_eeq.
    + cbn [eval_stmt].
      assert (FR : fresh o st' h (arg_vals args) = fresh o st h (arg_vals args)).
      { unfold fresh. now rewrite (blank_label o _ _ E). }
      assert (CO : comments_of o st' (t_line h) (arg_coms (o_comments o) args) = comments_of o st (t_line h) (arg_coms (o_comments o) args)).
      { unfold comments_of. now rewrite (blank_label o _ _ E). }
      rewrite FR, CO. pose proof (decide_deq o dir ctx (fresh o st h (arg_vals args)) "{" st st' E) as H.
      pose proof (decide_heap o dir ctx (fresh o st h (arg_vals args)) "{" st) as DH.
      destruct (decide o dir ctx (fresh o st h (arg_vals args)) "{" st) as [d s|d|eat s|s|e s|] eqn:D; try contradiction;
        destruct (decide o dir ctx (fresh o st h (arg_vals args)) "{" st') as [d' s'|d'|eat' s'|s'|e' s'|]; cbn [deq] in H; try contradiction; cbn [eeq]; auto.
      destruct H as [<- H2].
      destruct (decide_keep_ismap _ _ _ _ _ _ _ _ _ D) as (_ & _ & _ & NM). cbn [decision_state] in DH.
      assert (HH : p_heap s = p_heap s') by now apply blank_heap. rewrite <- HH.
      destruct (enter_block (p_heap s) ctx (d_name d)) as [h' inner] eqn:EB.
      assert (G1 : good (p_heap s) ctx) by now rewrite DH.
      destruct (enter_block_spec _ _ _ _ _ G1 EB) as (GI & RI & _ & _).
      rewrite DH, NM, <- below_enter in RI.
      apply wf_stm_inv in W1 as (TE & P & NH & FA & FB).
      specialize (IH1 FB inner (set_heap s h') (set_heap s' h') PL GI RI (blank_set_heap _ _ _ H2)).
      destruct (eseq (eval_stmt o dir inner) b (set_heap s h')) as [blk t1|x t1| |],
               (eseq (eval_stmt o dir inner) b' (set_heap s' h')) as [blk' t1'|x' t1'| |]; cbn [eeq] in *; try contradiction; auto.
      destruct IH1 as [<- Z]. auto.
    + intros ds t1 ds' t1' X Y Z. pose proof (eval_stmt_frame _ _ _ _ _ _ _ W1 X G) as FR.
      apply IH2; auto; [exact (good_frame _ _ _ _ G FR)|exact (read_frame _ _ _ FR)].
  - cbn [eseq eval_stmt]. rewrite decide_outside by auto.
    set (d := fresh o st h (arg_vals args)).
    assert (X : forall r, eadd [] r = r) by (now intros []).
    destruct body as [[b c]|]; cbn [ender] in RJ.
    + destruct (block_quiet o (cf_file (p_cur st)) d _ PP QU) as (e & AN & SU). rewrite AN, NS. cbv zeta. rewrite SU.
      change (negb (String.eqb "{" "}")) with true. cbn [Bool.eqb].
      rewrite X. apply IH; auto.
    + destruct (rejected o _ (cf_file (p_cur st)) st h args ";" PP RJ) as (e & AN). fold d in AN. rewrite AN, NS. cbv zeta.
      rewrite (semicolon_quiet _ _ d _ _ QU AN). cbn [Bool.eqb]. rewrite X. apply IH; auto.
Qed.

(** ** Parse *)
Definition feq (a b : fres) : Prop :=
  match a, b with
  | FDone s, FDone s' => blank s = blank s'
  | FErr e s, FErr e' s' => e = e' /\ blank s = blank s'
  | FPanic, FPanic => True
  | _, _ => False
  end.
Lemma blank_push : forall st st' c c' a b a' b', blank st = blank st' -> blank_cfg c = blank_cfg c' ->
  blank (set_pay st (Pay a b (pl_config (p_pay st) ++ [c])%list)) = blank (set_pay st' (Pay a' b' (pl_config (p_pay st') ++ [c'])%list)).
Proof.
  intros st st' c c' a b a' b' E C.
  pose proof (f_equal (fun s => pl_config (p_pay s)) E) as P. cbn in P.
  assert (X : forall s l, blank (set_pay s (Pay a b l)) = set_pay (blank s) (Pay "" [] (map blank_cfg l))) by reflexivity.
  assert (X' : forall s l, blank (set_pay s (Pay a' b' l)) = set_pay (blank s) (Pay "" [] (map blank_cfg l))) by reflexivity.
  rewrite X, X', E, !map_app. cbn [map]. now rewrite P, C.
Qed.
Lemma file_absent : forall o dir op path ctx st st', o_stop o = false -> same_errors (o_open o) op ->
  good (p_heap st) ctx -> blank st = blank st' -> absent_file o op (path, read_slice (p_heap st) ctx) ->
  feq (parse_file o dir path ctx st) (parse_file (with_open o op) dir path ctx st').
Proof.
  intros o dir op path ctx st st' NS SE G E AF. unfold parse_file. cbv zeta.
  set (o1 := with_open o op). change (o_open o1) with op. change (o_stop o1) with (o_stop o). change (o_lexers o1) with (o_lexers o).
  assert (E0 : blank (log_use (log_open st path) path ctx) = blank (log_use (log_open st' path) path ctx)).
  { change (log_use (log_open (blank st) path) path ctx = log_use (log_open (blank st') path) path ctx). now rewrite E. }
  unfold absent_file in AF. cbn [fst snd] in AF.
  destruct (o_open o path) as [c|msg], (op path) as [c'|msg']; try contradiction; [|subst; cbn; auto].
  destruct AF as (F & F' & LF & LF' & WF & PP & AB). rewrite LF, LF', NS.
  set (s0 := set_cur (log_use (log_open st path) path ctx) (Cfg path "ok" [] [])).
  set (s0' := set_cur (log_use (log_open st' path) path ctx) (Cfg path "ok" [] [])).
  assert (E1 : blank s0 = blank s0').
  { change (set_cur (blank (log_use (log_open st path) path ctx)) (Cfg path "" [] []) = set_cur (blank (log_use (log_open st' path) path ctx)) (Cfg path "" [] [])).
    now rewrite E0. }
  pose proof (eval_absent o dir NS _ _ _ AB WF ctx s0 s0' PP G eq_refl E1) as EV.
  pose proof (eval_parse o dir F ctx s0 (S (List.length (flat F))) WF (Nat.lt_succ_diag_r _)) as P1.
  pose proof (eval_parse o dir F' ctx s0' (S (List.length (flat F'))) (absent_wf _ _ _ _ AB WF) (Nat.lt_succ_diag_r _)) as P2.
  assert (OP : forall r, parse o dir (S (List.length (flat F'))) ctx (flat F') s0' = r -> r <> PFuel ->
                         parse o1 dir (S (List.length (flat F'))) ctx (flat F') s0' = r).
  { intros r R NF. apply run_parse; [apply Nat.lt_succ_diag_r|]. unfold o1. apply run_open; auto. rewrite <- R. apply parse_run. }
  destruct (eval_forest o dir ctx F s0) as [ds t|x t| |], (eval_forest o dir ctx F' s0') as [ds' t'|x' t'| |]; cbn [eeq] in EV; try contradiction.
  - destruct EV as [<- EV]. rewrite P1, (OP _ P2) by discriminate. cbn [feq].
    apply blank_push; auto. unfold blank_cfg. cbn. now rewrite (blank_file _ _ EV).
  - destruct EV as [<- EV]. destruct P1 as [r1 P1], P2 as [r2 P2]. rewrite P1, (OP _ P2) by discriminate. cbn [feq].
    apply blank_push; [now rewrite !blank_handle|].
    exact (f_equal p_cur EV).
  - rewrite P1, (OP _ P2) by discriminate. exact I.
Qed.
Lemma files_absent : forall o dir op first, o_stop o = false -> same_errors (o_open o) op ->
  forall fuel st st1 st', qinv first st -> blank st = blank st1 -> state_of (run_files fuel o dir st) = Some st' ->
  Forall (absent_file o op) (p_used st') ->
  feq (run_files fuel o dir st) (run_files fuel (with_open o op) dir st1).
Proof.
  intros o dir op first NS SE. induction fuel as [|fuel IH]; intros st st1 st' Q E; cbn [run_files].
  - replace (p_queue st1) with (p_queue st) by exact (f_equal p_queue E).
    destruct (p_queue st) as [|[path ctx] q]; [|discriminate]. auto.
  - replace (p_queue st1) with (p_queue st) by exact (f_equal p_queue E).
    destruct (p_queue st) as [|[path ctx] q] eqn:EQ; auto.
    pose proof (file_used o dir path ctx (set_queue st q)) as U.
    pose proof (ctx_file first o dir path ctx q st Q EQ) as CF.
    assert (G : good (p_heap st) ctx).
    { destruct Q as [Q _]. rewrite EQ in Q. inversion Q as [|? ? [G _] _]; subst. exact G. }
    intros S OM.
    assert (M : absent_file o op (path, read_slice (p_heap st) ctx)).
    { destruct (parse_file o dir path ctx (set_queue st q)) as [s1|e s1| |]; try discriminate.
      - specialize (U s1 eq_refl). destruct (files_used _ _ _ _ _ S) as [l L]. rewrite L, U in OM.
        apply Forall_app in OM as [OM _]. apply Forall_app in OM as [_ OM]. now inversion OM.
      - inversion S; subst. specialize (U st' eq_refl). rewrite U in OM. apply Forall_app in OM as [_ OM]. now inversion OM. }
    assert (EQQ : blank (set_queue st q) = blank (set_queue st1 q)).
    { change (set_queue (blank st) q = set_queue (blank st1) q). now rewrite E. }
    pose proof (file_absent o dir op path ctx (set_queue st q) (set_queue st1 q) NS SE G EQQ M) as FA.
    destruct (parse_file o dir path ctx (set_queue st q)) as [s1|e s1| |],
             (parse_file (with_open o op) dir path ctx (set_queue st1 q)) as [s2|e2 s2| |]; cbn [feq] in FA; try contradiction; auto.
    eapply IH; eauto. exact (proj1 CF).
Qed.
Lemma collect_absent : forall fuel o op filename st, o_stop o = false -> same_errors (o_open o) op ->
  state_of (collect fuel o filename) = Some st -> Forall (absent_file o op) (p_used st) ->
  feq (collect fuel o filename) (collect fuel (with_open o op) filename).
Proof.
  intros fuel o op filename st NS SE S F. eapply files_absent; eauto. apply qinv_init.
Qed.
Lemma parse_absent : forall fuel o op filename st, o_stop o = false -> o_combine o = false -> same_errors (o_open o) op ->
  collect fuel o filename = FDone st -> Forall (absent_file o op) (p_used st) ->
  match parse_main fuel o filename, parse_main fuel (with_open o op) filename with
  | ROk p, ROk p' => trees p = trees p'
  | RErr e, RErr e' => e = e'
  | _, _ => False
  end.
Proof.
  intros fuel o op filename st NS NC SE C F.
  pose proof (collect_absent fuel o op filename st NS SE) as H. rewrite C in H. specialize (H eq_refl F).
  unfold parse_main. rewrite C.
  destruct (collect fuel (with_open o op) filename) as [st'|e st'| |]; cbn [feq] in H; try contradiction.
  unfold finish. change (o_combine (with_open o op)) with (o_combine o). rewrite NC.
  replace (p_indeg st') with (p_indeg st) by exact (f_equal p_indeg H).
  replace (p_edges st') with (p_edges st) by exact (f_equal p_edges H).
  destruct (has_cycle _ _ _); auto.
  assert (T : map blank_cfg (pl_config (p_pay st)) = map blank_cfg (pl_config (p_pay st'))) by exact (f_equal (fun s => pl_config (p_pay s)) H).
  unfold trees. apply (f_equal (map (fun c => (cf_file c, cf_parsed c)))) in T. now rewrite !map_map in T.
Qed.
