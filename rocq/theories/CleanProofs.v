(** C19, C35: runs with ParseComments or CombineConfigs switched off. *)
From Verif Require Export CombineProofs SpecClean SpecOpts.
Local Open Scope string_scope.


Section Clean.
Variables (sc sf : bool) (o : popts) (dir : string).
Let o' := with_off sc sf o.
Let cl := flat_map (clean sc sf).

Definition cst (st : pst) : pst :=
  Pst (p_queue st) (p_included st) (p_edges st) (p_indeg st) (p_heap st)
      (clean_config sc sf (p_cur st)) (clean_payload sc sf (p_pay st)) (p_opens st) (p_asked st) (p_used st).
(** A directive without comment or block. *)
Definition relabel (d : directive) : directive :=
  Dir (d_name d) (d_line d) (d_args d) (if sf then EmptyString else d_file d) (d_includes d)
      (d_block d) (d_comment d) (d_ismap d).
Definition cdec (r : decision) : decision :=
  match r with
  | DKeep d st => DKeep (relabel d) (cst st)
  | DMap d => DMap (relabel d)
  | DSkip e st => DSkip e (cst st)
  | DBreak st => DBreak (cst st)
  | DErr e st => DErr e (cst st)
  | DPanic => DPanic
  end.
Definition cpres (r : pres) : pres :=
  match r with
  | POk ds rest st => POk (cl ds) rest (cst st)
  | PErr e rest st => PErr e rest (cst st)
  | _ => r
  end.

Lemma clean_leaf : forall d, d_comment d = None -> d_block d = None -> clean sc sf d = [relabel d].
Proof. intros [n l a f i b c m] C B. cbn in *. subst. cbn. rewrite andb_false_r. reflexivity. Qed.
Lemma clean_block : forall d ds, d_comment d = None ->
  clean sc sf (set_block d ds) = [set_block (relabel d) (cl ds)].
Proof. intros [n l a f i b c m] ds C. cbn in *. subst. cbn. rewrite andb_false_r. reflexivity. Qed.
Lemma cst_handle : forall st e, cst (handle_error o st e) = handle_error o' (cst st) e.
Proof. reflexivity. Qed.
Lemma cst_label : forall st, file_label o' (cst st) = if sf then EmptyString else file_label o st.
Proof. intros st. unfold file_label. cbn. now destruct sf. Qed.
Lemma cst_include : forall ctx st f,
  add_include ctx (cst st) f = (cst (fst (add_include ctx st f)), snd (add_include ctx st f)).
Proof. intros ctx st f. unfold add_include. cbn. now destruct (assoc f (p_included st)). Qed.
Lemma cst_includes : forall ctx fs st,
  add_includes ctx (cst st) fs = (cst (fst (add_includes ctx st fs)), snd (add_includes ctx st fs)).
Proof.
  intros ctx fs. induction fs as [|f fs IH]; intros st; [reflexivity|]. cbn [add_includes].
  rewrite cst_include. destruct (add_include ctx st f) as [st1 i]. cbn [fst snd]. rewrite IH.
  destruct (add_includes ctx st1 fs) as [st2 is]. reflexivity.
Qed.
Lemma relabel_includes : forall d is, relabel (set_includes d is) = set_includes (relabel d) is.
Proof. intros d [|i is]; reflexivity. Qed.

Lemma check_masks_clean : forall d term ms what, check_masks (relabel d) term what ms = check_masks d term what ms.
Proof.
  intros d term ms. induction ms as [|m ms IH]; intros what; [reflexivity|]. cbn [check_masks].
  change (d_name (relabel d)) with (d_name d). change (d_args (relabel d)) with (d_args d).
  now rewrite !IH.
Qed.
Lemma analyze_clean : forall f d term path, analyze o' f (relabel d) term path = analyze o f d term path.
Proof.
  intros f d term path. unfold analyze. change (find_masks o' (d_name (relabel d))) with (find_masks o (d_name d)).
  destruct (find_masks o (d_name d)) as [ms known].
  destruct (assoc (ctx_key path) contexts); [rewrite check_masks_clean|]; reflexivity.
Qed.

Lemma decide_clean : forall ctx d term st,
  decide o' dir ctx (relabel d) term (cst st) = cdec (decide o dir ctx d term st).
Proof.
  intros ctx d term st. unfold decide.
  change (p_heap (cst st)) with (p_heap st). change (cf_file (p_cur (cst st))) with (cf_file (p_cur st)).
  rewrite analyze_clean.
  destruct (match read_slice (p_heap st) ctx with [] => None | _ => _ end) as [m|].
  { change (analyze_map_body (cf_file (p_cur st)) (relabel d) term m)
      with (analyze_map_body (cf_file (p_cur st)) d term m).
    destruct (analyze_map_body _ _ _ _); [|reflexivity]. change (o_stop o') with (o_stop o).
    destruct (o_stop o); reflexivity. }
  change (d_name (relabel d)) with (d_name d). change (o_ignore o') with (o_ignore o).
  destruct (mem_str (d_name d) (o_ignore o)); [reflexivity|].
  destruct (analyze _ _ _ _ _) as [e|].
  { change (o_stop o') with (o_stop o). destruct (o_stop o); [reflexivity|].
    destruct (has_suffix _ _); [|reflexivity]. destruct (negb _); reflexivity. }
  change (d_args (relabel d)) with (d_args d).
  destruct (if String.eqb (d_name d) "if" then _ else _) as [args|]; [|reflexivity].
  change (o_single o') with (o_single o). change (d_name (set_args (relabel d) args)) with (d_name d).
  change (d_name (set_args d args)) with (d_name d).
  destruct (negb (o_single o) && _)%bool; [|reflexivity].
  unfold do_include. change (d_args (set_args (relabel d) args)) with args.
  change (d_args (set_args d args)) with args. destruct args as [|a0 args]; [reflexivity|].
  change (o_glob o') with (o_glob o). change (o_open o') with (o_open o). change (o_stop o') with (o_stop o).
  destruct (has_magic (resolve dir a0)).
  - destruct (o_glob o (resolve dir a0)) as [fs|msg]; [|reflexivity]. rewrite cst_includes.
    destruct (add_includes ctx st (sort_strings fs)) as [st' is]. cbn [cdec fst snd].
    now rewrite relabel_includes.
  - destruct (o_open o (resolve dir a0)) as [c|msg].
    + change (log_open (cst st) (resolve dir a0)) with (cst (log_open st (resolve dir a0))).
      rewrite cst_includes.
      destruct (add_includes ctx (log_open st (resolve dir a0)) [resolve dir a0]) as [st' is]. cbn [cdec fst snd].
      now rewrite relabel_includes.
    + destruct (o_stop o); reflexivity.
Qed.

Lemma read_args_clean : forall toks, read_args (o_comments o') toks =
  match read_args (o_comments o) toks with
  | Some (args, cs, term, rest) => Some (args, if sc then [] else cs, term, rest)
  | None => None
  end.
Proof.
  intros toks. unfold o', with_off. cbn [o_comments]. destruct sc.
  - induction toks as [|t toks IH]; [reflexivity|]. cbn [read_args]. destruct (is_term t); [reflexivity|].
    rewrite IH. destruct (read_args (o_comments o) toks) as [[[[args cs] term] rest]|]; [|reflexivity].
    destruct (negb (tok_comment t)); [reflexivity|]. now destruct (o_comments o).
  - now destruct (read_args (o_comments o) toks) as [[[[args cs] term] rest]|].
Qed.
Lemma cpres_padd : forall ds r, cpres (padd ds r) = padd (cl ds) (cpres r).
Proof. intros ds [ds' rest st|e rest st| |]; cbn; auto. unfold cl. now rewrite flat_map_app. Qed.
Lemma comments_clean : forall st line cs,
  comments_of o' (cst st) line (if sc then [] else cs) = cl (comments_of o st line cs).
Proof.
  intros st line cs. unfold comments_of, cl. rewrite cst_label. induction cs as [|c cs IH].
  - now destruct sc.
  - cbn [map flat_map]. rewrite <- IH. unfold comment_dir at 2. cbn [clean]. destruct sc; reflexivity.
Qed.
Lemma comment_clean : forall st line c,
  (if o_comments o' then [comment_dir (file_label o' (cst st)) line c] else []) =
  flat_map (clean sc sf) (if o_comments o then [comment_dir (file_label o st) line c] else []).
Proof.
  intros st line c. rewrite cst_label. unfold o', with_off. cbn [o_comments].
  destruct sc, (o_comments o); reflexivity.
Qed.
Lemma fresh_clean : forall st t args, fresh o' (cst st) t args = relabel (fresh o st t args).
Proof. intros. unfold fresh. rewrite cst_label. reflexivity. Qed.
Lemma failed_clean : forall r, failed r -> failed (cpres r).
Proof. now intros []. Qed.

Lemma run_clean : forall ctx toks st r, Run o dir ctx toks st r -> Run o' dir ctx toks (cst st) (cpres r).
Proof.
  intros ctx toks st r H.
  induction H as
    [ctx st|ctx st t r e TE|ctx st t r TE TC|ctx st t r res TE TC TM H IH|ctx st t r ST RA
    |ctx st t r args cs term rest ST RA D|ctx st t r args cs term rest e st' ST RA D
    |ctx st t r args cs term rest st' ST RA D|ctx st t r args cs term rest eat st' res ST RA D H IH
    |ctx st t r args cs term rest d res ST RA D H IH|ctx st t r args cs term rest d st' res ST RA D TB H IH
    |ctx st t r args cs term rest d st' h inner blk rest' st'' res ST RA D TB EB H1 IH1 H2 IH2
    |ctx st t r args cs term rest d st' h inner res ST RA D TB EB H IH FL].
  - constructor.
  - exact (R_tokerr o' dir ctx (cst st) t r e TE).
  - now constructor.
  - rewrite cpres_padd.
    replace (cl (if o_comments o then [comment_dir (file_label o st) (t_line t) (drop 1 (t_val t))] else []))
      with (if o_comments o' then [comment_dir (file_label o' (cst st)) (t_line t) (drop 1 (t_val t))] else []).
    + now apply R_comment.
    + apply comment_clean.
  - apply (R_premature o' dir ctx (cst st) t r ST). now rewrite read_args_clean, RA.
  - eapply R_panic; eauto; [now rewrite read_args_clean, RA|]. now rewrite fresh_clean, decide_clean, D.
  - eapply R_err; eauto; [now rewrite read_args_clean, RA|]. now rewrite fresh_clean, decide_clean, D.
  - eapply R_break; eauto; [now rewrite read_args_clean, RA|]. now rewrite fresh_clean, decide_clean, D.
  - eapply R_skip; eauto; [now rewrite read_args_clean, RA|]. now rewrite fresh_clean, decide_clean, D.
  - rewrite cpres_padd. apply decide_map in D as DM.
    replace (cl [d]) with [relabel d].
    + eapply R_map; eauto; [now rewrite read_args_clean, RA|]. now rewrite fresh_clean, decide_clean, D.
    + unfold cl. cbn [flat_map]. subst d. now rewrite clean_leaf.
  - rewrite cpres_padd. apply decide_shape in D as DS. destruct DS as (_ & _ & _ & DB & DC & _).
    replace (cl (d :: comments_of o st (t_line t) cs))
      with (relabel d :: comments_of o' (cst st) (t_line t) (if sc then [] else cs)).
    + eapply R_simple; eauto; [now rewrite read_args_clean, RA|]. now rewrite fresh_clean, decide_clean, D.
    + rewrite comments_clean. unfold cl. cbn [flat_map]. now rewrite clean_leaf.
  - rewrite cpres_padd. apply decide_shape in D as DS. destruct DS as (_ & _ & _ & DB & DC & _).
    replace (cl (set_block d blk :: comments_of o st (t_line t) cs))
      with (set_block (relabel d) (cl blk) :: comments_of o' (cst st) (t_line t) (if sc then [] else cs)).
    + refine (R_block o' dir ctx (cst st) t r args (if sc then [] else cs) term rest (relabel d) (cst st') h inner
        (cl blk) rest' (cst st'') (cpres res) ST _ _ TB EB IH1 IH2);
        [now rewrite read_args_clean, RA|now rewrite fresh_clean, decide_clean, D].
    + rewrite comments_clean. unfold cl. cbn [flat_map]. now rewrite clean_block.
  - refine (R_blockfail o' dir ctx (cst st) t r args (if sc then [] else cs) term rest (relabel d) (cst st') h inner
        (cpres res) ST _ _ TB EB IH _);
      [now rewrite read_args_clean, RA|now rewrite fresh_clean, decide_clean, D|now apply failed_clean].
Qed.

Definition cfres (r : fres) : fres :=
  match r with FDone st => FDone (cst st) | FErr e st => FErr e (cst st) | _ => r end.
Lemma clean_idem_nil : forall a b c, clean_config sc sf (Cfg a b c []) = Cfg a b c [].
Proof. reflexivity. Qed.
Lemma file_clean : forall path ctx st,
  parse_file o' dir path ctx (cst st) = cfres (parse_file o dir path ctx st).
Proof.
  intros path ctx st. unfold parse_file. change (o_open o') with (o_open o). change (o_lexers o') with (o_lexers o).
  change (o_stop o') with (o_stop o).
  destruct (o_open o path) as [content|msg]; [|reflexivity].
  set (toks := lex (o_lexers o) content).
  change (set_cur (log_use (log_open (cst st) path) path ctx) (Cfg path "ok" [] []))
    with (cst (set_cur (log_use (log_open st path) path ctx) (Cfg path "ok" [] []))).
  set (st1 := set_cur (log_use (log_open st path) path ctx) (Cfg path "ok" [] [])).
  pose proof (run_clean _ _ _ _ (parse_run o dir ctx toks st1)) as R.
  rewrite (run_parse o' dir ctx toks _ _ (S (List.length toks)) (Nat.lt_succ_diag_r _) R).
  destruct (parse o dir (S (List.length toks)) ctx toks st1) as [ds rest st2|e rest st2| |]; cbn [cpres cfres]; auto.
  - do 2 f_equal. unfold set_pay, cst. cbn. unfold clean_payload. cbn. now rewrite map_app.
  - destruct (o_stop o); cbn [cfres]; auto. unfold set_pay, cst, handle_error, clean_payload. cbn.
    now rewrite map_app.
Qed.
Lemma files_clean : forall fuel st, run_files fuel o' dir (cst st) = cfres (run_files fuel o dir st).
Proof.
  induction fuel as [|fuel IH]; intros st; cbn [run_files]; change (p_queue (cst st)) with (p_queue st).
  - now destruct (p_queue st) as [|[path ctx] q].
  - destruct (p_queue st) as [|[path ctx] q]; [reflexivity|].
    change (set_queue (cst st) q) with (cst (set_queue st q)). rewrite file_clean.
    destruct (parse_file o dir path ctx (set_queue st q)); cbn [cfres]; auto.
Qed.
End Clean.

Lemma collect_clean : forall sc sf fuel o filename,
  collect fuel (with_off sc sf o) filename = cfres sc sf (collect fuel o filename).
Proof. intros. unfold collect. now rewrite <- files_clean. Qed.

(** ** Combination of stripped trees *)
Section CleanCombine.
Variables (sc sf : bool).
Let cl := flat_map (clean sc sf).
Definition crel (a b : cres) : Prop :=
  match a with
  | COk ds => b = COk (cl ds)
  | CErr _ => exists e, b = CErr e
  | CPanic => b = CPanic
  | CFuel => b = CFuel
  end.
Lemma crel_cadd : forall ds a b, crel a b -> crel (cadd ds a) (cadd (cl ds) b).
Proof.
  intros ds [x|e| |] b H; cbn in *; try (subst; reflexivity).
  - subst. cbn. unfold cl. now rewrite flat_map_app.
  - destruct H as [e' ->]. cbn. eauto.
Qed.
Lemma crel_cseq : forall a b x y, crel a b -> crel x y -> crel (cseq a x) (cseq b y).
Proof.
  intros [d|e| |] b x y H H2; cbn in *; try (subst; reflexivity).
  - subst b. cbn [cseq]. now apply crel_cadd.
  - destruct H as [e' ->]. cbn. eauto.
Qed.
(** A comment has no block and is no include directive. *)
Definition comment_ok (d : directive) : Prop := d_comment d <> None -> d_block d = None /\ is_include d = false.

Lemma perform_clean : forall fuel cs f ds, Forall (fun c => Forall (deep comment_ok) (cf_parsed c)) cs ->
  Forall (deep comment_ok) ds ->
  crel (perform fuel cs f ds) (perform fuel (map (clean_config sc sf) cs) f (cl ds)).
Proof.
  induction fuel as [|fuel IH]; intros cs f ds HC HD; [reflexivity|].
  assert (ALL : forall d d' is, crel (perform_all fuel cs f d is)
            (perform_all fuel (map (clean_config sc sf) cs) f d' is)).
  { intros d d' is. induction is as [|i is IHis]; cbn [perform_all]; [reflexivity|].
    rewrite map_length. destruct (Z.leb _ i); [cbn; eauto|]. destruct (Z.ltb i 0); [reflexivity|].
    rewrite nth_error_map. destruct (nth_error cs (Z.to_nat i)) as [c|] eqn:N; [|reflexivity]. cbn [option_map].
    apply crel_cseq; auto. apply IH; auto. rewrite Forall_forall in HC. apply HC. eapply nth_error_In; eauto. }
  induction ds as [|d ds IHds]; [reflexivity|].
  inversion HD as [|? ? DD DS]; subst. specialize (IHds DS). inversion DD as [d0 CO DB]; subst d0.
  rewrite perform_cons. unfold cl. cbn [flat_map]. fold (cl ds).
  destruct d as [n l a fl i b c m]. cbn [clean d_block].
  destruct (sc && match c with Some _ => true | None => false end)%bool eqn:DROP.
  - destruct CO as [B IN]; [apply andb_true_iff in DROP as [_ DR]; destruct c; cbn; discriminate|]. cbn [d_block] in B. subst b.
    rewrite IN. cbn [negb app].
    set (d := Dir n l a fl i None c m) in *.
    replace (cl ds) with (cl [d] ++ cl ds)%list; [|unfold cl, d; cbn [flat_map clean]; now rewrite DROP].
    replace (perform (S fuel) (map (clean_config sc sf) cs) f (cl [d] ++ cl ds)) with
       (cadd (cl [d]) (perform (S fuel) (map (clean_config sc sf) cs) f (cl ds))).
    + now apply crel_cadd.
    + replace (cl [d]) with (@nil directive) by (unfold cl, d; cbn [flat_map clean]; now rewrite DROP).
      cbn [app]. destruct (perform (S fuel) _ f (cl ds)); reflexivity.
  - cbn [app]. rewrite perform_cons. cbn [d_block].
    destruct b as [b|].
    + cbn [d_block opt_list] in DB. specialize (IH cs f b HC DB). fold (cl b).
      destruct (perform fuel cs f b) as [nb|e| |]; cbn [crel] in IH.
      * rewrite IH. unfold with_block. cbn [d_name d_line d_args d_file d_includes d_comment d_ismap].
        unfold is_include at 1 2. cbn [d_name d_includes].
        destruct (negb _) eqn:NI.
        -- replace [Dir n l a (if sf then EmptyString else fl) i (Some (cl nb)) c m]
             with (cl [Dir n l a fl i (Some nb) c m]);
             [now apply crel_cadd|]. unfold cl. cbn [flat_map clean]. now rewrite DROP.
        -- apply crel_cseq; auto.
      * destruct IH as [e' ->]. cbn. eauto.
      * now rewrite IH.
      * now rewrite IH.
    + unfold is_include at 1 2. cbn [d_name d_includes].
      destruct (negb _) eqn:NI.
      * replace [Dir n l a (if sf then EmptyString else fl) i None c m]
             with (cl [Dir n l a fl i None c m]); [now apply crel_cadd|]. unfold cl. cbn [flat_map clean]. now rewrite DROP.
      * apply crel_cseq; auto.
Qed.
Lemma combined_clean : forall fuel p, Forall (fun c => Forall (deep comment_ok) (cf_parsed c)) (pl_config p) ->
  match combined fuel p with
  | CbOk q => pl_config p = [] \/ combined fuel (clean_payload sc sf p) = CbOk (clean_payload sc sf q)
  | CbErr _ => True
  | CbPanic => True
  | CbFuel => combined fuel (clean_payload sc sf p) = CbFuel
  end.
Proof.
  intros fuel [s es cs] H. unfold combined, clean_payload. cbn [pl_config pl_status pl_errors].
  destruct cs as [|c0 cs]; [auto|]. cbn [pl_config] in H. inversion H as [|? ? HC HCS]; subst.
  pose proof (perform_clean fuel (c0 :: cs) (cf_file c0) (cf_parsed c0) H HC) as P.
  cbn [map] in *. change (cf_file (clean_config sc sf c0)) with (cf_file c0).
  change (cf_parsed (clean_config sc sf c0)) with (cl (cf_parsed c0)).
  destruct (perform fuel (c0 :: cs) (cf_file c0) (cf_parsed c0)); cbn [crel] in P; auto.
  - right. rewrite P. unfold clean_payload. cbn [pl_config pl_status pl_errors map]. unfold clean_config at 5.
    cbn [cf_file cf_status cf_errors cf_parsed].
    assert (EX : existsb (fun c => String.eqb (cf_status c) "failed") (clean_config sc sf c0 :: map (clean_config sc sf) cs)
              = existsb (fun c => String.eqb (cf_status c) "failed") (c0 :: cs)).
    { cbn [existsb]. f_equal. clear. induction cs as [|c cs IH]; cbn; auto. now rewrite IH. }
    rewrite EX.
    replace (flat_map cf_errors (clean_config sc sf c0 :: map (clean_config sc sf) cs))
      with (flat_map cf_errors (c0 :: cs)); [reflexivity|].
    cbn [flat_map]. f_equal. clear. induction cs as [|c cs IH]; cbn; auto. now rewrite IH.
  - now rewrite P.
Qed.
End CleanCombine.

(** Trees of Parse satisfy the premise. *)
Lemma effect_trees : forall o ctx (P : config -> Prop) s s', effect o ctx s s' ->
  Forall P (pl_config (p_pay s)) /\ cf_parsed (p_cur s) = [] ->
  Forall P (pl_config (p_pay s')) /\ cf_parsed (p_cur s') = [].
Proof.
  intros o ctx P s s' EF A. destruct EF as [|e|p|p e|p c|p fs]; auto.
  - destruct (add_includes_frame ctx [p] (log_open s p)) as (_ & E1 & E2 & _). now rewrite E1, E2.
  - destruct (add_includes_frame ctx (sort_strings fs) s) as (_ & E1 & E2 & _). now rewrite E1, E2.
Qed.
Lemma run_file : forall o dir ctx toks st r, Run o dir ctx toks st r ->
  match r with POk _ _ st' => cf_file (p_cur st') = cf_file (p_cur st)
             | PErr _ _ st' => cf_file (p_cur st') = cf_file (p_cur st) | _ => True end.
Proof.
  intros o dir ctx toks st r R.
  apply (run_state_inv o dir (fun s => cf_file (p_cur s) = cf_file (p_cur st))) in R; auto.
  intros c s s' EF H. destruct EF as [|e|p|p e|p c0|p fs]; auto.
  - destruct (add_includes_frame c [p] (log_open s p)) as (_ & E1 & _). now rewrite E1.
  - destruct (add_includes_frame c (sort_strings fs) s) as (_ & E1 & _). now rewrite E1.
Qed.
Lemma files_inv : forall o dir (P : string -> directive -> Prop),
  (forall ctx toks st r, Run o dir ctx toks st r ->
     match r with POk ds _ _ => Forall (deep (P (cf_file (p_cur st)))) ds | _ => True end) ->
  forall fuel st, Forall (fun c => Forall (deep (P (cf_file c))) (cf_parsed c)) (pl_config (p_pay st)) ->
  match run_files fuel o dir st with
  | FDone st' => Forall (fun c => Forall (deep (P (cf_file c))) (cf_parsed c)) (pl_config (p_pay st'))
  | _ => True
  end.
Proof.
  intros o dir P HR. induction fuel as [|fuel IH]; intros st H; cbn [run_files].
  - now destruct (p_queue st) as [|[path ctx] q].
  - destruct (p_queue st) as [|[path ctx] q]; auto. unfold parse_file.
    destruct (o_open o path) as [content|msg]; auto. set (toks := lex (o_lexers o) content).
    set (st1 := set_cur (log_use (log_open (set_queue st q) path) path ctx) (Cfg path "ok" [] [])).
    pose proof (parse_run o dir ctx toks st1) as R.
    pose proof (run_state_inv o dir (fun s => Forall (fun c => Forall (deep (P (cf_file c))) (cf_parsed c)) (pl_config (p_pay s)) /\
                                         cf_parsed (p_cur s) = [])) as RI.
    destruct (parse o dir (S (List.length toks)) ctx toks st1) as [ds rest st2|e rest st2| |]; auto.
    + pose proof (HR _ _ _ _ R) as F. pose proof (run_file _ _ _ _ _ _ R) as RF. cbn in RF, F.
      apply RI in R; auto.
      * destruct R as [R1 R2]. apply IH; cbn; auto. apply Forall_app. split; auto. constructor; auto.
        cbn. now rewrite RF.
      * intros c s s' EF A. eapply effect_trees; eauto.
    + destruct (o_stop o); auto.
      apply RI in R; auto.
      * destruct R as [R1 R2]. apply IH; cbn; auto. apply Forall_app. split; auto. constructor; auto.
        cbn. rewrite R2. constructor.
      * intros c s s' EF A. eapply effect_trees; eauto.
Qed.
Lemma run_comments : forall o dir ctx toks st r, Run o dir ctx toks st r ->
  match r with POk ds _ _ => Forall (deep comment_ok) ds | _ => True end.
Proof.
  intros o dir ctx toks st r R.
  pose proof (run_inv o dir (fun _ => True) (fun _ _ => True) (fun _ d => comment_ok d)) as RI.
  apply RI in R; auto.
  - destruct r; auto. apply R.
  - intros c t args term s _. destruct (decide o dir c (fresh o s t args) term s) as [d s'|d|b s'|s'|e s'|] eqn:D; auto.
    + repeat split; auto; apply decide_shape in D; destruct D as (_ & _ & _ & _ & DC & _);
        exfalso; rewrite DC in *; auto.
    + apply decide_map in D. subst d. intros C. now destruct C.
  - intros s d blk DC _ C. now destruct C.
  - intros s line c _ _. split; reflexivity.
Qed.
Lemma collect_comments : forall fuel o filename st, collect fuel o filename = FDone st ->
  Forall (fun c => Forall (deep comment_ok) (cf_parsed c)) (pl_config (p_pay st)).
Proof.
  intros fuel o filename st C. unfold collect in C.
  pose proof (files_inv o (dir_name filename) (fun _ => comment_ok) (run_comments o (dir_name filename)) fuel (init_state filename)) as F.
  rewrite C in F. apply F. constructor.
Qed.

(** C19 *)
Lemma parse_strip : forall fuel o filename,
  parse_main fuel (with_comments o false) filename = strip_result (parse_main fuel o filename).
Proof.
  intros fuel o filename. change (with_comments o false) with (with_off true false o).
  unfold parse_main. rewrite collect_clean.
  destruct (collect fuel o filename) as [st|e st| |] eqn:C; auto. cbn [cfres].
  unfold finish. change (p_indeg (cst true false st)) with (p_indeg st). change (p_edges (cst true false st)) with (p_edges st).
  change (o_combine (with_off true false o)) with (o_combine o).
  change (p_pay (cst true false st)) with (strip (p_pay st)).
  destruct (has_cycle _ _ _) eqn:HC; [reflexivity|]. destruct (o_combine o) eqn:CO; [|reflexivity].
  assert (AC : ~ cyclic (p_edges st)) by (rewrite <- combine_acyclic by eauto; congruence).
  destruct (collect_combines _ _ _ _ C AC) as (n & p & P).
  pose proof (combined_clean true false fuel (p_pay st) (collect_comments _ _ _ _ C)) as CC.
  assert (NE : forall r, combined fuel (p_pay st) = r -> (exists e, r = CbErr e) \/ r = CbPanic -> False).
  { intros r E H. specialize (P (n + fuel) ltac:(lia)). unfold combined in E, P.
    destruct (pl_config (p_pay st)) as [|c0 cs]; [subst r; destruct H as [[e H]|H]; discriminate|].
    destruct (perform fuel (c0 :: cs) (cf_file c0) (cf_parsed c0)) eqn:PF; subst r;
      try (destruct H as [[e0 H]|H]; discriminate);
      rewrite perform_more in P by congruence; rewrite PF in P; discriminate. }
  destruct (combined fuel (p_pay st)) as [q|e| |] eqn:CB.
  - destruct CC as [CC|CC].
    + pose proof (inc_first _ _ _ (collect_includes_ok _ _ _ _ C)) as [rest FI]. rewrite CC in FI. discriminate.
    + change (clean_payload true false) with strip in CC. rewrite CC. reflexivity.
  - exfalso. apply (NE _ eq_refl). left. eauto.
  - exfalso. apply (NE _ eq_refl). auto.
  - change (clean_payload true false) with strip in CC. rewrite CC. reflexivity.
Qed.

(** C35 *)
Lemma run_labels : forall o dir ctx toks st r, Run o dir ctx toks st r ->
  match r with
  | POk ds _ _ => Forall (deep (fun d => d_file d = if o_combine o then cf_file (p_cur st) else EmptyString)) ds
  | _ => True
  end.
Proof.
  intros o dir ctx toks st r R.
  pose proof (run_inv o dir (fun s => cf_file (p_cur s) = cf_file (p_cur st)) (fun _ _ => True)
                (fun _ d => d_file d = if o_combine o then cf_file (p_cur st) else EmptyString)) as RI.
  apply RI in R; auto.
  - destruct r; auto. apply R.
  - intros c t args term s HS.
    assert (FF : forall s', effect o c s s' -> cf_file (p_cur s') = cf_file (p_cur st)).
    { intros s' EF. rewrite <- HS. destruct EF as [|e|p|p e|p c0|p fs]; auto.
      - destruct (add_includes_frame c [p] (log_open s p)) as (_ & E1 & _). now rewrite E1.
      - destruct (add_includes_frame c (sort_strings fs) s) as (_ & E1 & _). now rewrite E1. }
    pose proof (decide_effect o dir c (fresh o s t args) term s) as EF.
    destruct (decide o dir c (fresh o s t args) term s) as [d s'|d|b s'|s'|e s'|] eqn:D; cbn [decision_state] in EF; auto.
    + apply decide_shape in D as (_ & _ & DF & _). repeat split; auto. rewrite DF. cbn. unfold file_label. now rewrite HS.
    + apply decide_map in D. subst d. cbn. unfold file_label. now rewrite HS.
  - intros s line c HS. cbn. unfold file_label. now rewrite HS.
Qed.
Lemma collect_labels : forall fuel o filename st, collect fuel o filename = FDone st ->
  forall c d, In c (pl_config (p_pay st)) -> within d (cf_parsed c) ->
  d_file d = if o_combine o then cf_file c else EmptyString.
Proof.
  intros fuel o filename st C c d I W. unfold collect in C.
  pose proof (files_inv o (dir_name filename) (fun f d => d_file d = if o_combine o then f else EmptyString)
                (run_labels o (dir_name filename)) fuel (init_state filename)) as F.
  rewrite C in F. specialize (F ltac:(constructor)). rewrite Forall_forall in F. specialize (F c I).
  exact (deep_within _ _ _ W F).
Qed.
(** Directives of an expansion are those of the configs, up to their blocks. *)
Lemma within_cons : forall d x l, within d (x :: l) <->
  d = x \/ (exists b, d_block x = Some b /\ within d b) \/ within d l.
Proof.
  intros d x l. split.
  - intros W. inversion W as [ds I|e b ds I B W']; subst.
    + destruct I as [<-|I]; auto. right. right. now constructor.
    + destruct I as [<-|I]; eauto. right. right. eapply in_block; eauto.
  - intros [->|[(b & B & W)|W]].
    + constructor. cbn. auto.
    + eapply in_block; cbn; eauto.
    + inversion W as [ds I|e b ds I B W']; subst; [constructor; cbn; auto|eapply in_block; cbn; eauto].
Qed.
Lemma within_app : forall d a b, within d (a ++ b) -> within d a \/ within d b.
Proof.
  intros d a b W. inversion W as [ds I|e x ds I B W']; subst; apply in_app_iff in I as [I|I];
    eauto using within.
Qed.
Lemma expand_origin : forall cs,
  (forall ds out, expand cs ds out -> forall d, within d out ->
     (exists e, within e ds /\ same_head d e) \/ (exists c e, In c cs /\ within e (cf_parsed c) /\ same_head d e)) /\
  (forall is out, expand_all cs is out -> forall d, within d out ->
     exists c e, In c cs /\ within e (cf_parsed c) /\ same_head d e).
Proof.
  intros cs. apply expand_both.
  - intros d W. left. exists d. split; auto. repeat split.
  - intros x r r' N B E IH d W. apply within_cons in W as [->|[(b & B' & W)|W]].
    + left. exists x. split; [apply within_cons; auto|repeat split].
    + congruence.
    + destruct (IH d W) as [(e & We & He)|H]; auto. left. exists e. split; auto. apply within_cons. auto.
  - intros x b b' r r' N B E1 IH1 E2 IH2 d W. apply within_cons in W as [->|[(b0 & B' & W)|W]].
    + left. exists x. split; [apply within_cons; auto|repeat split].
    + cbn in B'. inversion B'; subst b0. destruct (IH1 d W) as [(e & We & He)|H]; auto.
      left. exists e. split; auto. apply within_cons. eauto.
    + destruct (IH2 d W) as [(e & We & He)|H]; auto. left. exists e. split; auto. apply within_cons. auto.
  - intros x is ds r r' N DI E1 IH1 E2 IH2 d W. apply within_app in W as [W|W].
    + right. auto.
    + destruct (IH2 d W) as [(e & We & He)|H]; auto. left. exists e. split; auto. apply within_cons. auto.
  - intros d W. inversion W as [ds I|e b ds I]; destruct I.
  - intros i c ds is rest P N E1 IH1 E2 IH2 d W. apply within_app in W as [W|W]; auto.
    destruct (IH1 d W) as [(e & We & He)|H]; auto. exists c, e. split; auto. eapply nth_error_In; eauto.
Qed.
Lemma parse_labels : forall fuel o filename p, parse_main fuel o filename = ROk p ->
  forall c d, In c (pl_config p) -> within d (cf_parsed c) ->
  if o_combine o then
    exists st c0 e, collect fuel o filename = FDone st /\ In c0 (pl_config (p_pay st)) /\
      within e (cf_parsed c0) /\ same_head d e /\ d_file d = cf_file c0
  else d_file d = EmptyString.
Proof.
  intros fuel o filename p H c d I W. unfold parse_main in H.
  destruct (collect fuel o filename) as [st|e st| |] eqn:C; try discriminate.
  unfold finish in H. destruct (has_cycle _ _ _); [discriminate|].
  pose proof (collect_labels _ _ _ _ C) as L. destruct (o_combine o) eqn:CO.
  - destruct (combined fuel (p_pay st)) as [q|e| |] eqn:CB; try discriminate. inversion H; subst q. clear H.
    apply combined_is_combination in CB. destruct (pl_config (p_pay st)) as [|c0 cs] eqn:PC.
    + subst p. rewrite PC in I. destruct I.
    + destruct CB as [(ds & E & PE & _) _ _]. rewrite PE in I. destruct I as [<-|[]]. cbn in W. rewrite PC in E.
      assert (R : exists c e, In c (c0 :: cs) /\ within e (cf_parsed c) /\ same_head d e).
      { destruct (proj1 (expand_origin _) _ _ E d W) as [(e & We & He)|R]; auto.
        exists c0, e. repeat split; try apply He; auto. cbn. auto. }
      destruct R as (c1 & e & I1 & We & He). exists st, c1, e. rewrite PC.
      repeat split; auto; try apply He. destruct He as (_ & _ & _ & -> & _). auto.
  - inversion H; subst. exact (L c d I W).
Qed.
Lemma collect_unlabel : forall fuel o filename,
  collect fuel (with_off false true o) filename = cfres false true (collect fuel o filename).
Proof. intros. apply collect_clean. Qed.
