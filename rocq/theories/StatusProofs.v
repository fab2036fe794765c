(** C12: status and error lists agree. *)
From Verif Require Export Effects SpecPayload.
Local Open Scope string_scope.

Lemma status_snoc : forall A (l : list A) x, status_fits "failed" (l ++ [x])%list.
Proof. intros A [|y l] x; reflexivity. Qed.

(** While a file is being parsed. *)
Definition busy (o : popts) (st : pst) : Prop :=
  status_fits (pl_status (p_pay st)) (pl_errors (p_pay st)) /\
  Forall (fun c => status_fits (cf_status c) (cf_errors c)) (pl_config (p_pay st)) /\
  payload_labels (p_pay st) = (flat_map labelled (pl_config (p_pay st)) ++ labelled (p_cur st))%list /\
  status_fits (cf_status (p_cur st)) (cf_errors (p_cur st)) /\
  err_fields (o_callback o) (p_pay st).

Lemma busy_frame : forall o st st', p_cur st' = p_cur st -> p_pay st' = p_pay st -> busy o st -> busy o st'.
Proof. intros o st st' E1 E2 B. unfold busy in *. rewrite E1, E2. exact B. Qed.

Lemma busy_error : forall o st e, busy o st -> busy o (handle_error o st e).
Proof.
  intros o st e (B1 & B2 & B3 & B4 & B5). unfold busy, handle_error. cbn. repeat split.
  - apply status_snoc.
  - exact B2.
  - unfold payload_labels, labelled in *. cbn. rewrite !map_app, B3. cbn. now rewrite app_assoc.
  - apply status_snoc.
  - unfold err_fields in *. cbn. apply Forall_app. split; [exact B5|].
    constructor; [|constructor]. cbn. split; reflexivity.
Qed.

Lemma busy_effect : forall o ctx st st', effect o ctx st st' -> busy o st -> busy o st'.
Proof.
  intros o ctx st st' E B. destruct E as [|e|p|p e|p c S O|p fs S G]; auto.
  - now apply busy_error.
  - apply busy_error. eapply busy_frame; [| |exact B]; reflexivity.
  - destruct (add_includes_frame ctx [p] (log_open st p)) as (_ & C & Y & _).
    eapply busy_frame; [exact C|exact Y|]. eapply busy_frame; [| |exact B]; reflexivity.
  - destruct (add_includes_frame ctx (sort_strings fs) st) as (_ & C & Y & _).
    eapply busy_frame; [exact C|exact Y|exact B].
Qed.

Lemma busy_run : forall o dir ctx toks st r, Run o dir ctx toks st r -> busy o st ->
  match r with POk _ _ st' => busy o st' | PErr _ _ st' => busy o st' | _ => True end.
Proof.
  intros o dir ctx toks st r H B.
  eapply run_state_inv with (P := busy o); eauto.
  intros; eapply busy_effect; eauto.
Qed.

Definition settled (o : popts) (st : pst) : Prop :=
  consistent (p_pay st) /\ err_fields (o_callback o) (p_pay st).

Lemma settled_file : forall o dir path ctx st, settled o st ->
  match parse_file o dir path ctx st with FDone st' => settled o st' | _ => True end.
Proof.
  intros o dir path ctx st [[C1 C2 C3] C4]. unfold parse_file.
  destruct (o_open o path) as [content|msg]; auto.
  set (toks := lex (o_lexers o) content).
  set (st0 := set_cur (log_use (log_open st path) path ctx) (Cfg path "ok" [] [])).
  assert (B : busy o st0).
  { unfold busy, st0. cbn. repeat split; auto. now rewrite app_nil_r. }
  pose proof (busy_run _ _ _ _ _ _ (parse_run o dir ctx toks st0) B) as B'.
  destruct (parse o dir (S (List.length toks)) ctx toks st0) as [ds rest st'|e rest st'| |]; auto.
  - destruct B' as (B1 & B2 & B3 & B4 & B5). split; [constructor|]; cbn; auto.
    + apply Forall_app. split; auto.
    + rewrite flat_map_app. cbn. rewrite app_nil_r. exact B3.
  - destruct (o_stop o); auto. apply (busy_error _ _ e) in B'.
    destruct B' as (B1 & B2 & B3 & B4 & B5). split; [constructor|].
    + exact B1.
    + apply Forall_app. split; [exact B2|]. constructor; [exact B4|constructor].
    + cbn [pl_config p_pay set_pay]. rewrite flat_map_app. cbn [flat_map]. rewrite app_nil_r. exact B3.
    + exact B5.
Qed.

Lemma settled_files : forall fuel o dir st, settled o st ->
  match run_files fuel o dir st with FDone st' => settled o st' | _ => True end.
Proof.
  induction fuel as [|fuel IH]; intros o dir st S; cbn [run_files].
  - destruct (p_queue st) as [|[path ctx] q]; auto. 
  - destruct (p_queue st) as [|[path ctx] q]; auto.
    assert (S' : settled o (set_queue st q)) by exact S.
    pose proof (settled_file o dir path ctx _ S') as F.
    destruct (parse_file o dir path ctx (set_queue st q)); auto. now apply IH.
Qed.

Lemma collect_settled : forall fuel o filename st, collect fuel o filename = FDone st -> settled o st.
Proof.
  intros fuel o filename st H. unfold collect in H.
  pose proof (settled_files fuel o (dir_name filename) (init_state filename)) as F. rewrite H in F.
  apply F. split; [constructor; cbn; auto; reflexivity|constructor].
Qed.

Lemma consistent_combine : forall fuel p p', consistent p -> pl_config p <> [] ->
  combined fuel p = CbOk p' -> consistent_combined p' /\ pl_errors p' = pl_errors p.
Proof.
  intros fuel p p' [C1 C2 C3] N H. unfold combined in H.
  destruct (pl_config p) as [|c0 cs] eqn:PC; [congruence|].
  rewrite <- PC in *. destruct (perform fuel (pl_config p) (cf_file c0) (cf_parsed c0)) as [ds| | |]; try discriminate.
  inversion H; subst; clear H. split; [|reflexivity]. constructor; cbn.
  - unfold status_fits in *. rewrite C1. destruct (pl_errors p); reflexivity.
  - eexists. split; [reflexivity|]. cbn. split.
    + assert (G : forall l, Forall (fun c => status_fits (cf_status c) (cf_errors c)) l ->
        status_fits (if existsb (fun c => String.eqb (cf_status c) "failed") l then "failed" else "ok")
          (flat_map cf_errors l)).
      { clear. induction l as [|c l IH]; intros F; [reflexivity|]. inversion F as [|? ? SC F']; subst.
        specialize (IH F'). cbn. unfold status_fits in SC. rewrite SC.
        destruct (cf_errors c) as [|e es]; cbn; auto. reflexivity. }
      now apply G.
    + unfold payload_labels, labelled in C3.
      assert (G : map (fun x : string * option Z * goerr => (snd (fst x), snd x))
                    (map (fun e => (py_file e, py_line e, py_err e)) (pl_errors p)) =
                  map (fun e => (py_line e, py_err e)) (pl_errors p)) by (rewrite map_map; reflexivity).
      rewrite <- G, C3. clear. induction (pl_config p) as [|c l IH]; cbn; auto.
      rewrite !map_app, IH, map_map. reflexivity.
Qed.

Lemma file_config_grows : forall o dir path ctx st st',
  parse_file o dir path ctx st = FDone st' -> pl_config (p_pay st') <> [].
Proof.
  intros o dir path ctx st st' H. unfold parse_file in H. destruct (o_open o path) as [ct|msg]; [|discriminate].
  destruct (parse _ _ _ _ _ _) as [ds rest s|e rest s| |]; try discriminate.
  - inversion H; subst. cbn. intros E. destruct (app_eq_nil _ _ E). discriminate.
  - destruct (o_stop o); [discriminate|]. inversion H; subst. cbn. intros E. destruct (app_eq_nil _ _ E). discriminate.
Qed.
Lemma files_config : forall fuel o dir st st',
  run_files fuel o dir st = FDone st' -> p_queue st <> [] -> pl_config (p_pay st') <> [].
Proof.
  assert (G : forall fuel o dir st st', run_files fuel o dir st = FDone st' ->
    pl_config (p_pay st) <> [] -> pl_config (p_pay st') <> []).
  { induction fuel as [|fuel IH]; intros o dir st st' H N; cbn [run_files] in H.
    - destruct (p_queue st) as [|[path ctx] q]; inversion H; now subst.
    - destruct (p_queue st) as [|[path ctx] q]; [inversion H; now subst|].
      destruct (parse_file o dir path ctx (set_queue st q)) eqn:E; try discriminate.
      eapply IH; eauto. eapply file_config_grows; eauto. }
  intros [|fuel] o dir st st' H N; cbn [run_files] in H.
  - destruct (p_queue st) as [|[path ctx] q]; [congruence|discriminate].
  - destruct (p_queue st) as [|[path ctx] q]; [congruence|].
    destruct (parse_file o dir path ctx (set_queue st q)) eqn:E; try discriminate.
    eapply G; eauto. eapply file_config_grows; eauto.
Qed.

Lemma parse_consistent : forall fuel o filename p, parse_main fuel o filename = ROk p ->
  err_fields (o_callback o) p /\
  if o_combine o then consistent_combined p else consistent p.
Proof.
  intros fuel o filename p H. unfold parse_main in H.
  destruct (collect fuel o filename) as [st| | |] eqn:C; try discriminate.
  destruct (collect_settled _ _ _ _ C) as [S1 S2].
  assert (N : pl_config (p_pay st) <> []) by (eapply files_config; [exact C|discriminate]).
  unfold finish in H. destruct (has_cycle _ _ _); [discriminate|].
  destruct (o_combine o).
  - destruct (combined fuel (p_pay st)) as [p'| | |] eqn:CB; try discriminate. inversion H; subst.
    destruct (consistent_combine _ _ _ S1 N CB) as [K E]. split; auto.
    unfold err_fields in *. now rewrite E.
  - inversion H; subst. auto.
Qed.
