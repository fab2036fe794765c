(** C13: StopParsingOnError returns the first error. *)
From Verif Require Export StatusProofs SpecOpts.
Local Open Scope string_scope.

(** The same options with another StopParsingOnError. *)

Definition errs (st : pst) : list payload_error := pl_errors (p_pay st).

Section Stop.
Variable o : popts.
Hypothesis nonstop : o_stop o = false.
Let o' := with_stop o true.

(** The stopping run returned the first error the other run recorded. *)
Definition first_new (st st' : pst) (r' : pres) : Prop :=
  exists e more rest0 st0, errs st' = (errs st ++ e :: more)%list /\ r' = PErr (py_err e) rest0 st0.
Definition stop_rel (st : pst) (r r' : pres) : Prop :=
  match r with
  | POk _ _ st' => errs st' = errs st /\ r' = r \/ first_new st st' r'
  | PErr _ _ st' => errs st' = errs st /\ r' = r \/ first_new st st' r'
  | PPanic => r' = PPanic \/ exists e rest0 st0, r' = PErr e rest0 st0
  | PFuel => True
  end.

Lemma find_masks_stop : forall n, find_masks o' n = find_masks o n.
Proof. reflexivity. Qed.
Lemma analyze_stop : forall f d term path, analyze o' f d term path = analyze o f d term path.
Proof. reflexivity. Qed.

Lemma errs_handle : forall st e, exists pe, errs (handle_error o st e) = (errs st ++ [pe])%list /\ py_err pe = e.
Proof. intros st e. unfold errs, handle_error. cbn. eexists. split; reflexivity. Qed.
Lemma errs_includes : forall ctx st fs, errs (fst (add_includes ctx st fs)) = errs st.
Proof. intros. unfold errs. destruct (add_includes_frame ctx fs st) as (_ & _ & -> & _). reflexivity. Qed.

(** One statement. *)
Lemma decide_stop : forall dir ctx d term st,
  (errs (decision_state st (decide o dir ctx d term st)) = errs st /\
   decide o' dir ctx d term st = decide o dir ctx d term st) \/
  (exists e pe st0, decide o' dir ctx d term st = DErr e st0 /\
     errs (decision_state st (decide o dir ctx d term st)) = (errs st ++ [pe])%list /\ py_err pe = e /\
     decide o dir ctx d term st <> DPanic).
Proof.
  intros dir ctx d term st. unfold decide.
  destruct (match read_slice (p_heap st) ctx with [] => None | _ => _ end) as [m|].
  { destruct (analyze_map_body _ _ _ _) as [e|]; [|left; auto].
    right. cbn [o_stop o' with_stop]. rewrite nonstop.
    destruct (errs_handle st (EParse e)) as [pe [E1 E2]].
    exists (EParse e), pe, st. repeat split; auto. discriminate. }
  change (o_ignore o') with (o_ignore o).
  destruct (mem_str _ _); [left; auto|]. rewrite analyze_stop.
  destruct (analyze _ _ _ _ _) as [e|].
  { right. cbn [o_stop o' with_stop]. rewrite nonstop.
    destruct (errs_handle st (EParse e)) as [pe [E1 E2]].
    exists (EParse e), pe, st. split; auto.
    destruct (has_suffix _ _); [destruct (negb _)|]; repeat split; auto; discriminate. }
  destruct (if String.eqb (d_name d) "if" then prepare_if (d_args d) else Some (d_args d)) as [args|];
    [|left; auto].
  change (o_single o') with (o_single o).
  destruct (negb (o_single o) && _)%bool; [|left; auto].
  unfold do_include. cbn [d_args set_args]. destruct args as [|a0 args]; [left; auto|].
  destruct (has_magic _).
  - left. change (o_glob o') with (o_glob o). destruct (o_glob o _) as [fs|msg]; auto.
    pose proof (errs_includes ctx st (sort_strings fs)) as E.
    destruct (add_includes ctx st (sort_strings fs)) as [s is]. auto.
  - change (o_open o') with (o_open o). destruct (o_open o _) as [c|msg].
    + left. match goal with |- context [add_includes ctx ?s ?l] => pose proof (errs_includes ctx s l) as E;
        destruct (add_includes ctx s l) as [s' is] end. auto.
    + right. cbn [o_stop o' with_stop]. rewrite nonstop.
      match goal with |- context [handle_error o ?s ?e] => destruct (errs_handle s e) as [pe [E1 E2]] end.
      eexists _, pe, _. split; [reflexivity|]. repeat split; auto. discriminate.
Qed.

Lemma stop_rel_padd : forall st ds r r', stop_rel st r r' -> stop_rel st (padd ds r) (padd ds r').
Proof.
  intros st ds r r' H. destruct r as [ds0 rest s|e rest s| |]; cbn in *; auto.
  - destruct H as [[E ->]|(e & more & r0 & s0 & E & ->)]; [left; auto|right].
    exists e, more, r0, s0. auto.
  - destruct H as [[E ->]|(e0 & more & r0 & s0 & E & ->)]; [left; auto|right].
    exists e0, more, r0, s0. auto.
  - destruct H as [->|(e & r0 & s0 & ->)]; [left; reflexivity|right]. exists e, r0, s0. reflexivity.
Qed.
(** Prefix a run by steps without new errors. *)
Lemma stop_rel_errs : forall st1 st2 r r', errs st2 = errs st1 -> stop_rel st2 r r' -> stop_rel st1 r r'.
Proof.
  intros st1 st2 r r' E H. destruct r; cbn in *; unfold first_new in *; try rewrite E in H; auto.
Qed.
Lemma errs_grow : forall dir ctx toks st r, Run o dir ctx toks st r ->
  match r with
  | POk _ _ st' => exists m, errs st' = (errs st ++ m)%list
  | PErr _ _ st' => exists m, errs st' = (errs st ++ m)%list
  | _ => True
  end.
Proof.
  intros dir ctx toks st r H.
  apply (run_state_rel o dir (fun a b => exists m, errs b = (errs a ++ m)%list)) in H; auto.
  - intros a. exists []. now rewrite app_nil_r.
  - intros a b c [m1 E1] [m2 E2]. exists (m1 ++ m2)%list. now rewrite E2, E1, app_assoc.
  - intros c s s' E. destruct E as [|e S|p S|p e S1 S2|p ct S O|p fs S G].
    + exists []. now rewrite app_nil_r.
    + destruct (errs_handle s e) as [pe [E _]]. eauto.
    + exists []. unfold errs. cbn. now rewrite app_nil_r.
    + destruct (errs_handle (log_open s p) e) as [pe [E _]]. rewrite E. exists [pe]. reflexivity.
    + exists []. rewrite errs_includes, app_nil_r. reflexivity.
    + exists []. rewrite errs_includes, app_nil_r. reflexivity.
  - intros s h. exists []. unfold errs. cbn. now rewrite app_nil_r.
Qed.
(** A statement that records an error: the stopping run ends here. *)
Lemma stop_rel_first : forall dir ctx toks st st' pe r rest0 st0,
  errs st' = (errs st ++ [pe])%list -> Run o dir ctx toks st' r ->
  stop_rel st r (PErr (py_err pe) rest0 st0).
Proof.
  intros dir ctx toks st st' pe r rest0 st0 E H. apply errs_grow in H.
  destruct r as [ds rest s|e rest s| |]; cbn; eauto.
  - right. destruct H as [m H]. exists pe, m, rest0, st0. rewrite H, E, <- app_assoc. auto.
  - right. destruct H as [m H]. exists pe, m, rest0, st0. rewrite H, E, <- app_assoc. auto.
Qed.

Lemma padd_err : forall ds e rest st, padd ds (PErr e rest st) = PErr e rest st.
Proof. reflexivity. Qed.

Lemma run_stop : forall dir ctx toks st r, Run o dir ctx toks st r ->
  exists r', Run o' dir ctx toks st r' /\ stop_rel st r r'.
Proof.
  intros dir ctx toks st r H.
  induction H as
    [ctx st|ctx st t r e TE|ctx st t r TE TC|ctx st t r res TE TC TM H IH|ctx st t r ST RA
    |ctx st t r args cs term rest ST RA D|ctx st t r args cs term rest e st' ST RA D
    |ctx st t r args cs term rest st' ST RA D|ctx st t r args cs term rest eat st' res ST RA D H IH
    |ctx st t r args cs term rest d res ST RA D H IH
    |ctx st t r args cs term rest d st' res ST RA D TB H IH
    |ctx st t r args cs term rest d st' h inner blk rest' st'' res ST RA D TB EB H1 IH1 H2 IH2
    |ctx st t r args cs term rest d st' h inner res ST RA D TB EB H IH F];
    try (destruct (decide_stop dir ctx (fresh o st t args) term st) as
           [[NE SD]|(e1 & pe & st0 & SD & NE & PE & NP)]; rewrite D in *; cbn [decision_state] in NE);
    try match type of SD with
        | decide _ _ _ _ _ _ = DErr _ _ =>
          exists (PErr (py_err pe) rest st0); split;
            [rewrite PE; eapply R_err; [exact ST|exact RA|exact SD]|]
        end.
  - exists (POk [] [] st). split; [constructor|left; auto].
  - eexists. split; [eapply R_tokerr; exact TE|left; auto].
  - eexists. split; [eapply R_close; eauto|left; auto].
  - destruct IH as [r' [R' S']]. eexists. split; [eapply R_comment; eauto|]. now apply stop_rel_padd.
  - eexists. split; [apply R_premature; eauto|left; auto].
  - exists PPanic. split; [eapply R_panic; eauto|left; auto].
  - congruence.
  - eexists. split; [eapply R_err; eauto|left; auto].
  - cbn. right. exists pe, [], rest, st0. split; auto.
  - eexists. split; [eapply R_break; eauto|left; auto].
  - cbn. right. exists pe, [], rest, st0. split; auto.
  - destruct IH as [r' [R' S']]. exists r'. split; [eapply R_skip; eauto|]. eapply stop_rel_errs; eauto.
  - eapply stop_rel_first; eauto.
  - destruct IH as [r' [R' S']]. eexists. split; [eapply R_map; eauto|]. now apply stop_rel_padd.
  - exfalso. assert (L : List.length (errs st) = List.length (errs st ++ [pe])%list) by congruence.
    rewrite app_length in L. cbn in L. lia.
  - destruct IH as [r' [R' S']]. eexists. split; [eapply R_simple; eauto|].
    apply stop_rel_padd. eapply stop_rel_errs; eauto.
  - rewrite <- (padd_err (d :: comments_of o st (t_line t) cs)). apply stop_rel_padd.
    eapply stop_rel_first; eauto.
  - destruct IH1 as [r1 [R1 S1]]. destruct S1 as [[E1 ->]|(e & more & r0 & s0 & E1 & ->)].
    + destruct IH2 as [r2 [R2 S2]]. eexists. split; [eapply R_block; eauto|].
      apply stop_rel_padd. eapply stop_rel_errs; [|exact S2]. rewrite E1. exact NE.
    + exists (PErr (py_err e) r0 s0). split; [eapply R_blockfail; eauto; exact I|].
      rewrite <- (padd_err (set_block d blk :: comments_of o st (t_line t) cs)). apply stop_rel_padd.
      change (errs (set_heap st' h)) with (errs st') in E1. rewrite NE in E1.
      apply errs_grow in H2. destruct res as [ds rs s|e2 rs s| |]; cbn; eauto.
      * right. destruct H2 as [m H2]. exists e, (more ++ m)%list, r0, s0.
        rewrite H2, E1, <- app_assoc. auto.
      * right. destruct H2 as [m H2]. exists e, (more ++ m)%list, r0, s0.
        rewrite H2, E1, <- app_assoc. auto.
  - rewrite <- (padd_err (set_block d blk :: comments_of o st (t_line t) cs)). apply stop_rel_padd.
    apply errs_grow in H1. destruct H1 as [m1 H1]. apply errs_grow in H2.
    change (errs (set_heap st' h)) with (errs st') in H1.
    destruct res as [ds rs s|e2 rs s| |]; cbn; eauto.
    + right. destruct H2 as [m H2]. exists pe, (m1 ++ m)%list, rest, st0.
      rewrite H2, H1, NE, <- !app_assoc. auto.
    + right. destruct H2 as [m H2]. exists pe, (m1 ++ m)%list, rest, st0.
      rewrite H2, H1, NE, <- !app_assoc. auto.
  - destruct IH as [r' [R' S']].
    assert (ER : errs (set_heap st' h) = errs st) by exact NE.
    assert (FR : failed r').
    { destruct res; cbn in *; try contradiction.
      - destruct S' as [[_ ->]|(e1 & more & r0 & s0 & _ & ->)]; exact I.
      - destruct S' as [->|(e1 & r0 & s0 & ->)]; exact I. }
    exists r'. split; [eapply R_blockfail; eauto|]. eapply stop_rel_errs; eauto.
  - eapply stop_rel_first with (st' := set_heap st' h); eauto.
Qed.

(** Files. *)
Definition ffirst (st' : pst) (st : pst) (r' : fres) : Prop :=
  match r' with
  | FErr e0 _ => exists e more, errs st' = (errs st ++ e :: more)%list /\ e0 = py_err e
  | _ => False
  end.
Definition fstop_rel (st : pst) (r r' : fres) : Prop :=
  match r with
  | FDone st' => errs st' = errs st /\ r' = r \/ ffirst st' st r'
  | FErr _ st' => errs st' = errs st /\ r' = r \/ ffirst st' st r'
  | FPanic => r' = FPanic \/ exists e s, r' = FErr e s
  | FFuel => r' = FFuel \/ exists e s, r' = FErr e s
  end.

Lemma file_stop : forall dir path ctx st,
  fstop_rel st (parse_file o dir path ctx st) (parse_file o' dir path ctx st).
Proof.
  intros dir path ctx st. unfold parse_file. change (o_open o') with (o_open o).
  change (o_lexers o') with (o_lexers o). destruct (o_open o path) as [content|msg]; [|left; auto].
  set (toks := lex (o_lexers o) content).
  set (st0 := set_cur (log_use (log_open st path) path ctx) (Cfg path "ok" [] [])).
  destruct (run_stop _ _ _ _ _ (parse_run o dir ctx toks st0)) as [r' [R' SR]].
  assert (L : List.length toks < S (List.length toks)) by lia.
  rewrite (run_parse o' dir ctx toks st0 r' _ L R'). clear R'.
  destruct (parse o dir (S (List.length toks)) ctx toks st0) as [ds rest s|e rest s| |] eqn:PO; cbn in SR.
  - destruct SR as [[E ->]|(e & more & r0 & s0 & E & ->)].
    + left. split; auto.
    + right. cbn. exists e, more. split; auto.
  - rewrite nonstop. cbn [o_stop o' with_stop].
    destruct SR as [[E ->]|(e1 & more & r0 & s0 & E & ->)].
    + right. cbn. destruct (errs_handle s e) as [pe [E1 E2]]. exists pe, []. split; auto.
      unfold errs in *. cbn in *. rewrite <- E. exact E1.
    + right. cbn. destruct (errs_handle s e) as [pe [E1 E2]]. exists e1, (more ++ [pe])%list. split; auto.
      unfold errs in E1, E. unfold errs. cbn in *. rewrite E1, E, <- app_assoc. reflexivity.
  - destruct SR as [->|(e & r0 & s0 & ->)]; cbn; eauto.
  - exfalso. eapply parse_no_fuel; eauto.
Qed.

Lemma files_grow : forall fuel dir st,
  match run_files fuel o dir st with
  | FDone st' => exists m, errs st' = (errs st ++ m)%list
  | FErr _ st' => exists m, errs st' = (errs st ++ m)%list
  | _ => True
  end.
Proof.
  induction fuel as [|fuel IH]; intros dir st; cbn [run_files].
  - destruct (p_queue st) as [|[path ctx] q]; auto. exists []. now rewrite app_nil_r.
  - destruct (p_queue st) as [|[path ctx] q]; [exists []; now rewrite app_nil_r|].
    assert (G := file_stop dir path ctx (set_queue st q)).
    destruct (parse_file o dir path ctx (set_queue st q)) as [s|e s| |] eqn:PF; auto.
    + assert (GS : exists m, errs s = (errs st ++ m)%list).
      { destruct G as [[E _]|G].
        - exists []. rewrite app_nil_r. exact E.
        - destruct (parse_file o' dir path ctx (set_queue st q)); try contradiction.
          destruct G as (e0 & more & E & _). eexists. exact E. }
      destruct GS as [m GS]. specialize (IH dir s). destruct (run_files fuel o dir s); auto.
      * destruct IH as [m' ->]. rewrite GS, <- app_assoc. eauto.
      * destruct IH as [m' ->]. rewrite GS, <- app_assoc. eauto.
    + destruct G as [[E _]|G].
      * exists []. rewrite app_nil_r. exact E.
      * destruct (parse_file o' dir path ctx (set_queue st q)); try contradiction.
        destruct G as (e1 & more & E & _). eexists. exact E.
Qed.

Lemma files_stop : forall fuel dir st,
  fstop_rel st (run_files fuel o dir st) (run_files fuel o' dir st).
Proof.
  induction fuel as [|fuel IH]; intros dir st; cbn [run_files].
  - destruct (p_queue st) as [|[path ctx] q]; cbn; auto.
  - destruct (p_queue st) as [|[path ctx] q]; [left; auto|].
    pose proof (file_stop dir path ctx (set_queue st q)) as G.
    destruct (parse_file o dir path ctx (set_queue st q)) as [s|e s| |] eqn:PF.
    + destruct G as [[E ->]|G].
      * specialize (IH dir s). change (errs (set_queue st q)) with (errs st) in E.
        destruct (run_files fuel o dir s) as [s2|e s2| |]; cbn in *; auto.
        -- rewrite E in IH. destruct IH as [IH|IH]; [left; auto|right].
           unfold ffirst in *. destruct (run_files fuel o' dir s); auto. now rewrite E in IH.
        -- rewrite E in IH. destruct IH as [IH|IH]; [left; auto|right].
           unfold ffirst in *. destruct (run_files fuel o' dir s); auto. now rewrite E in IH.
      * unfold ffirst in G.
        destruct (parse_file o' dir path ctx (set_queue st q)) as [|e0 s0| |]; try contradiction.
        destruct G as (e & more & E & ->). pose proof (files_grow fuel dir s) as FG.
        change (errs (set_queue st q)) with (errs st) in E.
        destruct (run_files fuel o dir s) as [s2|e2 s2| |]; cbn; eauto.
        -- right. destruct FG as [m FG]. exists e, (more ++ m)%list. rewrite FG, E, <- app_assoc. auto.
        -- right. destruct FG as [m FG]. exists e, (more ++ m)%list. rewrite FG, E, <- app_assoc. auto.
    + destruct G as [[E ->]|G]; [left; auto|]. unfold ffirst in G.
      destruct (parse_file o' dir path ctx (set_queue st q)) as [|e0 s0| |]; try contradiction. right. exact G.
    + destruct G as [->|(e & s & ->)]; cbn; eauto.
    + destruct G as [->|(e & s & ->)]; cbn; eauto.
Qed.

Lemma parse_stop : forall fuel filename,
  match parse_main fuel o filename with
  | ROk p => match pl_errors p with
             | [] => parse_main fuel o' filename = ROk p
             | e :: _ => parse_main fuel o' filename = RErr (py_err e)
             end
  | r => parse_main fuel o' filename = r \/ exists e, parse_main fuel o' filename = RErr e
  end.
Proof.
  intros fuel filename. unfold parse_main, collect.
  pose proof (files_stop fuel (dir_name filename) (init_state filename)) as SR.
  change (errs (init_state filename)) with (@nil payload_error) in *.
  destruct (run_files fuel o (dir_name filename) (init_state filename)) as [st|e st| |] eqn:RF.
  - assert (FO : finish fuel o' st = finish fuel o st) by reflexivity.
    assert (PE : match finish fuel o st with ROk p => pl_errors p = errs st | _ => True end).
    { unfold finish. destruct (has_cycle _ _ _); auto. destruct (o_combine o); [|reflexivity].
      unfold combined. destruct (pl_config (p_pay st)) as [|c0 cs] eqn:PC; [reflexivity|].
      destruct (perform _ _ _ _); auto. }
    destruct SR as [[E ->]|SR].
    + rewrite FO. destruct (finish fuel o st) as [p|e| |] eqn:FI; auto.
      rewrite PE, E. reflexivity.
    + unfold ffirst in SR. destruct (run_files fuel o' (dir_name filename) (init_state filename)); try contradiction.
      destruct SR as (e0 & more & E & ->). cbn in E.
      destruct (finish fuel o st) as [p|e1| |]; eauto.
      rewrite PE, E. reflexivity.
  - destruct SR as [[E ->]|SR]; auto. unfold ffirst in SR.
    destruct (run_files fuel o' (dir_name filename) (init_state filename)); try contradiction. eauto.
  - destruct SR as [->|(e & s & ->)]; eauto.
  - destruct SR as [->|(e & s & ->)]; eauto.
Qed.
(** The same in terms of the errors recorded by the time the run ends, whatever Parse
    then returns. *)
Lemma collect_stop : forall fuel filename st,
  collect fuel o filename = FDone st \/ (exists e, collect fuel o filename = FErr e st) ->
  parse_main fuel o' filename = match pl_errors (p_pay st) with
                                | [] => parse_main fuel o filename
                                | e :: _ => RErr (py_err e)
                                end.
Proof.
  intros fuel filename st H. unfold parse_main, collect in *.
  pose proof (files_stop fuel (dir_name filename) (init_state filename)) as SR.
  change (errs (init_state filename)) with (@nil payload_error) in *.
  destruct H as [RF|[e RF]]; rewrite RF in *; cbn in SR.
  - destruct SR as [[E ->]|SR].
    + unfold errs in E. rewrite E. reflexivity.
    + unfold ffirst in SR.
      destruct (run_files fuel o' (dir_name filename) (init_state filename)); try contradiction.
      destruct SR as (pe & more & E & ->). unfold errs in E. cbn in E. rewrite E. reflexivity.
  - destruct SR as [[E ->]|SR].
    + unfold errs in E. rewrite E. reflexivity.
    + unfold ffirst in SR.
      destruct (run_files fuel o' (dir_name filename) (init_state filename)); try contradiction.
      destruct SR as (pe & more & E & ->). unfold errs in E. cbn in E. rewrite E. reflexivity.
Qed.
End Stop.
