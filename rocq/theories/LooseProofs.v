(** C71: checking less leaves what was accepted as it was. *)
From Verif Require Export SpecLoose StopProofs PathProofs.
Local Open Scope string_scope.

Section Loose.
Variables o o' : popts.
Hypothesis L : same_reading o o'.
Hypothesis accepts_loose : forall p d term, accepts o p d term -> accepts o' p d term.

Lemma analyze_loose : forall f d term path, analyze o f d term path = None -> analyze o' f d term path = None.
Proof.
  intros f d term path H. destruct (meant_total path) as [p M].
  apply (analyze_every_path o' f d term path p M). apply accepts_loose.
  now apply (analyze_every_path o f d term path p M).
Qed.

Lemma snoc_more : forall A (l : list A) x m, l <> ((l ++ [x]) ++ m)%list.
Proof.
  intros A l x m H. apply (f_equal (@List.length A)) in H. rewrite !app_length in H. cbn in H. lia.
Qed.
Lemma snoc_same : forall A (l : list A) x, (l ++ [x])%list <> l.
Proof. intros A l x H. apply (snoc_more A l x []). now rewrite app_nil_r. Qed.

(** One statement that is decided without an error. *)
Lemma decide_grow : forall dir ctx d term st,
  exists m, errs (decision_state st (decide o dir ctx d term st)) = (errs st ++ m)%list.
Proof.
  intros dir ctx d term st.
  assert (R : forall s, exists m, errs s = (errs s ++ m)%list) by (intros s; exists []; now rewrite app_nil_r).
  unfold decide.
  destruct (match read_slice (p_heap st) ctx with [] => None | _ => _ end) as [m|].
  { destruct (analyze_map_body _ _ _ _) as [e|]; [|apply R].
    destruct (o_stop o); [apply R|]. destruct (errs_handle o st (EParse e)) as [pe [E _]]. eauto. }
  destruct (mem_str _ _); [apply R|].
  destruct (analyze _ _ _ _ _) as [e|].
  { destruct (o_stop o); [apply R|]. destruct (errs_handle o st (EParse e)) as [pe [E _]].
    destruct (has_suffix _ _); [destruct (negb _)|]; eauto. }
  destruct (if String.eqb (d_name d) "if" then prepare_if (d_args d) else Some (d_args d)) as [args|]; [|apply R].
  destruct (negb (o_single o) && _)%bool; [|apply R].
  unfold do_include. cbn [d_args set_args]. destruct args as [|a0 args]; [apply R|].
  destruct (has_magic _).
  - destruct (o_glob o _) as [fs|msg]; [|apply R].
    pose proof (errs_includes ctx st (sort_strings fs)) as E.
    destruct (add_includes ctx st (sort_strings fs)) as [s is]. cbn in *. exists []. now rewrite app_nil_r.
  - destruct (o_open o _) as [c|msg].
    + match goal with |- context [add_includes ctx ?s ?l] => pose proof (errs_includes ctx s l) as E;
        destruct (add_includes ctx s l) as [s' is] end. cbn in *. exists []. now rewrite app_nil_r.
    + destruct (o_stop o); [cbn; exists []; rewrite app_nil_r; reflexivity|].
      match goal with |- context [handle_error o ?s ?e] => destruct (errs_handle o s e) as [pe [E1 E2]] end.
      exists [pe]. exact E1.
Qed.
Definition sound (r : decision) : Prop := match r with DErr _ _ | DPanic => False | _ => True end.
Lemma decide_loose : forall dir ctx d term st, sound (decide o dir ctx d term st) ->
  errs (decision_state st (decide o dir ctx d term st)) = errs st ->
  decide o' dir ctx d term st = decide o dir ctx d term st.
Proof.
  intros dir ctx d term st. unfold decide.
  destruct (match read_slice (p_heap st) ctx with [] => None | _ => _ end) as [m|].
  { destruct (analyze_map_body _ _ _ _) as [e|]; [|reflexivity].
    destruct (o_stop o); [contradiction|]. intros _ H. exfalso.
    destruct (errs_handle o st (EParse e)) as [pe [E _]]. cbn [decision_state] in H. rewrite E in H.
    exact (snoc_same _ _ _ H). }
  rewrite (sr_ignore _ _ L).
  destruct (mem_str _ _); [reflexivity|].
  destruct (analyze o _ _ _ _) as [e|] eqn:A.
  { destruct (o_stop o); [contradiction|]. intros _ H. exfalso.
    destruct (errs_handle o st (EParse e)) as [pe [E _]].
    destruct (has_suffix _ _); [destruct (negb _)|]; cbn [decision_state] in H; rewrite E in H;
      exact (snoc_same _ _ _ H). }
  rewrite (analyze_loose _ _ _ _ A).
  destruct (if String.eqb (d_name d) "if" then prepare_if (d_args d) else Some (d_args d)) as [args|]; [|reflexivity].
  rewrite (sr_single _ _ L).
  destruct (negb (o_single o) && _)%bool; [|reflexivity].
  unfold do_include. cbn [d_args set_args]. destruct args as [|a0 args]; [reflexivity|].
  rewrite (sr_glob _ _ L), (sr_open _ _ L).
  destruct (has_magic _); [reflexivity|].
  destruct (o_open o _) as [c|msg]; [reflexivity|].
  destruct (o_stop o); [contradiction|]. intros _ H. exfalso. cbn [decision_state] in H.
  match type of H with context [handle_error o ?s ?e] => destruct (errs_handle o s e) as [pe [E1 E2]] end.
  rewrite E1 in H. exact (snoc_same _ _ _ H).
Qed.

Lemma padd_ok : forall ds r ds' rest st, padd ds r = POk ds' rest st ->
  exists ds0, r = POk ds0 rest st /\ ds' = (ds ++ ds0)%list.
Proof. intros ds [] ds' rest' st' H; cbn in H; inversion H; subst. eauto. Qed.

Lemma parse_grow : forall dir fuel ctx toks st ds rest st', parse o dir fuel ctx toks st = POk ds rest st' ->
  exists m, errs st' = (errs st ++ m)%list.
Proof.
  intros dir. induction fuel as [|fuel IH]; intros ctx toks st ds rest st' H; [discriminate|].
  cbn [parse] in H. destruct toks as [|t toks].
  { inversion H; subst. exists []. now rewrite app_nil_r. }
  destruct (t_err t); [discriminate|]. destruct (tok_is t "}").
  { inversion H; subst. exists []. now rewrite app_nil_r. }
  destruct (tok_comment t).
  { apply padd_ok in H. destruct H as (ds0 & H & _). eauto. }
  destruct (read_args (o_comments o) toks) as [[[[args cs] term] rs]|]; [|discriminate].
  match type of H with context [decide o dir ctx ?d0 term st] =>
    destruct (decide_grow dir ctx d0 term st) as [m0 G]; destruct (decide o dir ctx d0 term st) as [d st1|d|eat st1|st1|e st1|] end;
    cbn [decision_state] in G; try discriminate.
  - destruct (String.eqb term "{").
    + destruct (enter_block (p_heap st1) ctx (d_name d)) as [h inner].
      destruct (parse o dir fuel inner rs (set_heap st1 h)) as [blk r2 st2| | |] eqn:P1; try discriminate.
      apply padd_ok in H. destruct H as (ds0 & H & _). apply IH in P1. apply IH in H.
      destruct P1 as [m1 P1]. destruct H as [m2 H]. change (errs (set_heap st1 h)) with (errs st1) in P1.
      exists (m0 ++ m1 ++ m2)%list. rewrite H, P1, G, <- !app_assoc. reflexivity.
    + apply padd_ok in H. destruct H as (ds0 & H & _). apply IH in H. destruct H as [m H].
      exists (m0 ++ m)%list. rewrite H, G, <- app_assoc. reflexivity.
  - apply padd_ok in H. destruct H as (ds0 & H & _). eauto.
  - apply IH in H. destruct H as [m H]. exists (m0 ++ m)%list. rewrite H, G, <- app_assoc. reflexivity.
  - inversion H; subst. eauto.
Qed.

Lemma still : forall A (a b c : list A), (exists m, b = (a ++ m)%list) -> (exists m, c = (b ++ m)%list) -> c = a ->
  b = a /\ c = b.
Proof.
  intros A a b c [m ->] [n ->] H. rewrite <- app_assoc in H.
  assert (E : (m ++ n)%list = []) by (apply (app_inv_head a); rewrite app_nil_r; exact H).
  apply app_eq_nil in E. destruct E as [-> ->]. now rewrite !app_nil_r.
Qed.

Lemma parse_loose : forall dir fuel ctx toks st ds rest st', parse o dir fuel ctx toks st = POk ds rest st' ->
  errs st' = errs st -> parse o' dir fuel ctx toks st = POk ds rest st'.
Proof.
  intros dir. induction fuel as [|fuel IH]; intros ctx toks st ds rest st' H E; [discriminate|].
  cbn [parse] in *. destruct toks as [|t toks]; [exact H|].
  destruct (t_err t); [discriminate|]. destruct (tok_is t "}"); [exact H|].
  assert (FL : file_label o' st = file_label o st) by (unfold file_label; now rewrite (sr_combine _ _ L)).
  rewrite (sr_comments _ _ L), FL.
  destruct (tok_comment t).
  { apply padd_ok in H. destruct H as (ds0 & H & ->). rewrite (IH _ _ _ _ _ _ H E). reflexivity. }
  destruct (read_args (o_comments o) toks) as [[[[args cs] term] rs]|]; [|discriminate].
  match type of H with context [decide o dir ctx ?d0 term st] =>
    pose proof (decide_grow dir ctx d0 term st) as G; pose proof (decide_loose dir ctx d0 term st) as D;
    destruct (decide o dir ctx d0 term st) as [d st1|d|eat st1|st1|e st1|] end;
    cbn [decision_state sound] in G, D; try discriminate.
  - destruct (String.eqb term "{").
    + destruct (enter_block (p_heap st1) ctx (d_name d)) as [h inner] eqn:EB.
      destruct (parse o dir fuel inner rs (set_heap st1 h)) as [blk r2 st2| | |] eqn:P1; try discriminate.
      apply padd_ok in H. destruct H as (ds0 & H & ->).
      pose proof (parse_grow _ _ _ _ _ _ _ _ P1) as G1. change (errs (set_heap st1 h)) with (errs st1) in G1.
      pose proof (parse_grow _ _ _ _ _ _ _ _ H) as G2.
      assert (G' : exists m, errs st2 = (errs st ++ m)%list).
      { destruct G as [m0 G]. destruct G1 as [m1 G1]. exists (m0 ++ m1)%list. now rewrite G1, G, <- app_assoc. }
      destruct (still _ _ _ _ G' G2 E) as [E2 E3]. destruct (still _ _ _ _ G G1 E2) as [E0 E1].
      rewrite (D I E0), EB. rewrite (IH _ _ _ _ _ _ P1 E1), (IH _ _ _ _ _ _ H E3). reflexivity.
    + apply padd_ok in H. destruct H as (ds0 & H & ->).
      destruct (still _ _ _ _ G (parse_grow _ _ _ _ _ _ _ _ H) E) as [E0 E1].
      rewrite (D I E0), (IH _ _ _ _ _ _ H E1). reflexivity.
  - rewrite (D I eq_refl). apply padd_ok in H. destruct H as (ds0 & H & ->). rewrite (IH _ _ _ _ _ _ H E). reflexivity.
  - destruct (still _ _ _ _ G (parse_grow _ _ _ _ _ _ _ _ H) E) as [E0 E1].
    rewrite (D I E0). exact (IH _ _ _ _ _ _ H E1).
  - inversion H; subst. rewrite (D I E). reflexivity.
Qed.

Lemma file_grow : forall dir path ctx st st', parse_file o dir path ctx st = FDone st' ->
  exists m, errs st' = (errs st ++ m)%list.
Proof.
  intros dir path ctx st st' H. unfold parse_file in H. destruct (o_open o path) as [content|msg]; [|discriminate].
  match type of H with context [parse o dir ?f ctx ?t ?s] => destruct (parse o dir f ctx t s) as [ds rest s'|e rest s'| |] eqn:P end;
    try discriminate.
  - inversion H; subst. exact (parse_grow _ _ _ _ _ _ _ _ P).
  - destruct (o_stop o); [discriminate|]. inversion H; subst.
    pose proof (errs_grow o _ _ _ _ _ (parse_run o dir ctx (lex (o_lexers o) content)
      (set_cur (log_use (log_open st path) path ctx) (Cfg path "ok" [] [])))) as G. rewrite P in G.
    destruct G as [m G]. destruct (errs_handle o s' e) as [pe [E _]]. exists (m ++ [pe])%list.
    unfold errs in *. cbn in *. rewrite E, G, <- app_assoc. reflexivity.
Qed.
Lemma file_loose : forall dir path ctx st st', parse_file o dir path ctx st = FDone st' -> errs st' = errs st ->
  parse_file o' dir path ctx st = FDone st'.
Proof.
  intros dir path ctx st st' H E. unfold parse_file in *. rewrite (sr_open _ _ L), (sr_lexers _ _ L).
  destruct (o_open o path) as [content|msg]; [|discriminate].
  match type of H with context [parse o dir ?f ctx ?t ?s] => destruct (parse o dir f ctx t s) as [ds rest s'|e rest s'| |] eqn:P end;
    try discriminate.
  - inversion H; subst. rewrite (parse_loose _ _ _ _ _ _ _ _ P E). reflexivity.
  - exfalso. destruct (o_stop o); [discriminate|]. inversion H; subst.
    pose proof (errs_grow o _ _ _ _ _ (parse_run o dir ctx (lex (o_lexers o) content)
      (set_cur (log_use (log_open st path) path ctx) (Cfg path "ok" [] [])))) as G. rewrite P in G.
    destruct G as [m G]. destruct (errs_handle o s' e) as [pe [E1 _]].
    unfold errs in *. cbn in *. rewrite E1, G in E. apply (f_equal (@List.length _)) in E.
    rewrite !app_length in E. cbn in E. lia.
Qed.

Lemma files_more : forall fuel dir st st', run_files fuel o dir st = FDone st' ->
  exists m, errs st' = (errs st ++ m)%list.
Proof.
  induction fuel as [|fuel IH]; intros dir st st' H; cbn [run_files] in H; destruct (p_queue st) as [|[path ctx] q].
  - inversion H; subst. exists []. now rewrite app_nil_r.
  - discriminate.
  - inversion H; subst. exists []. now rewrite app_nil_r.
  - destruct (parse_file o dir path ctx (set_queue st q)) as [s|e s| |] eqn:F; try discriminate.
    apply file_grow in F. destruct F as [m1 F]. apply IH in H. destruct H as [m2 H].
    change (errs (set_queue st q)) with (errs st) in F. exists (m1 ++ m2)%list. now rewrite H, F, <- app_assoc.
Qed.
Lemma files_loose : forall fuel dir st st', run_files fuel o dir st = FDone st' -> errs st' = errs st ->
  run_files fuel o' dir st = FDone st'.
Proof.
  induction fuel as [|fuel IH]; intros dir st st' H E; cbn [run_files] in *; destruct (p_queue st) as [|[path ctx] q]; auto.
  destruct (parse_file o dir path ctx (set_queue st q)) as [s|e s| |] eqn:F; try discriminate.
  destruct (still _ _ _ _ (file_grow _ _ _ _ _ F) (files_more _ _ _ _ H) E) as [E1 E2].
  rewrite (file_loose _ _ _ _ _ F E1). exact (IH _ _ _ H E2).
Qed.

Lemma finish_errs : forall fuel st p, finish fuel o st = ROk p -> pl_errors p = errs st.
Proof.
  intros fuel st p H. unfold finish in H. destruct (has_cycle _ _ _); [discriminate|].
  destruct (o_combine o); [|inversion H; reflexivity].
  unfold combined in H. destruct (pl_config (p_pay st)) as [|c0 cs]; [inversion H; reflexivity|].
  destruct (perform _ _ _ _); inversion H; reflexivity.
Qed.
Lemma main_loose : forall fuel filename p, parse_main fuel o filename = ROk p -> pl_errors p = [] ->
  parse_main fuel o' filename = ROk p.
Proof.
  intros fuel filename p H E. unfold parse_main, collect in *.
  destruct (run_files fuel o (dir_name filename) (init_state filename)) as [st|e st| |] eqn:RF; try discriminate.
  pose proof (finish_errs _ _ _ H) as PE. rewrite E in PE.
  rewrite (files_loose _ _ _ _ RF (eq_sym PE)). unfold finish in *. rewrite (sr_combine _ _ L). exact H.
Qed.
End Loose.

Lemma accepts_looser : forall o o', looser o o' -> forall p d term, accepts o p d term -> accepts o' p d term.
Proof.
  intros o o' L p d term A. destruct A as [U ST|ms K PB|ms K SC SA|ms mask b K PB I C F].
  - apply acc_unknown; [eapply lo_unknown; eauto|].
    destruct (o_strict o') eqn:E; auto. rewrite (lo_strict _ _ L E) in ST. discriminate.
  - destruct (lo_known _ _ L _ _ K) as (ms' & K' & _). eapply acc_path; eauto.
  - destruct (lo_known _ _ L _ _ K) as (ms' & K' & _).
    eapply acc_unchecked; [exact K'|eapply lo_skipctx; eauto|eapply lo_skipargs; eauto].
  - destruct (lo_known _ _ L _ _ K) as (ms' & K' & J). eapply acc_mask; [exact K'|exact PB|apply J; exact I| |].
    + destruct C as [C|C]; [left; eapply lo_skipctx; eauto|auto].
    + destruct F as [F|F]; [left; eapply lo_skipargs; eauto|auto].
Qed.

Lemma main_looser : forall o o', looser o o' -> forall fuel filename p,
  parse_main fuel o filename = ROk p -> pl_errors p = [] -> parse_main fuel o' filename = ROk p.
Proof. intros o o' L. exact (main_loose o o' (lo_same _ _ L) (accepts_looser o o' L)). Qed.

(** Switches and tables. *)
Lemma knows_more : forall o o' more name ms, o_sources o <> [] -> o_sources o' = (o_sources o ++ more)%list ->
  knows o name ms -> exists ms', knows o' name ms' /\ incl ms ms'.
Proof.
  intros o o' more name ms NE S [[A _]|(_ & f & I & K & ->)]; [contradiction|].
  eexists. split.
  - right. rewrite S. split; [destruct (o_sources o); [contradiction|discriminate]|].
    exists f. split; [apply in_or_app; auto|]. split; [exact K|reflexivity].
  - rewrite flat_map_app. apply incl_appl, incl_refl.
Qed.
Lemma relaxed_looser : forall o strict skipctx skipargs stop callback more,
  (strict = true -> o_strict o = true) -> (o_skipctx o = true -> skipctx = true) ->
  (o_skipargs o = true -> skipargs = true) ->
  more = [] \/ o_strict o = true /\ o_sources o <> [] ->
  looser o (relaxed o strict skipctx skipargs stop callback more).
Proof.
  intros o strict skipctx skipargs stop callback more ST SC SA M. constructor; auto.
  - constructor; reflexivity.
  - intros name ms K. destruct M as [->|[_ NE]].
    + exists ms. split; [|apply incl_refl]. unfold knows in *. cbn. rewrite app_nil_r. exact K.
    + exact (knows_more o (relaxed o strict skipctx skipargs stop callback more) more name ms NE eq_refl K).
  - intros name U F. destruct M as [->|[T _]]; [|congruence].
    intros ms K. apply (U ms). unfold knows in *. cbn in K. rewrite app_nil_r in K. exact K.
Qed.
Lemma relaxed_same : forall fuel o filename p strict skipctx skipargs stop callback more,
  (strict = true -> o_strict o = true) -> (o_skipctx o = true -> skipctx = true) ->
  (o_skipargs o = true -> skipargs = true) ->
  more = [] \/ o_strict o = true /\ o_sources o <> [] ->
  parse_main fuel o filename = ROk p -> pl_errors p = [] ->
  parse_main fuel (relaxed o strict skipctx skipargs stop callback more) filename = ROk p.
Proof.
  intros. eapply main_looser; [|eassumption|assumption]. apply relaxed_looser; auto.
Qed.
