(** C73: ErrorCallback only annotates. *)
From Verif Require Export SpecCallback Util.
Local Open Scope string_scope.

Section Cb.
Variables (o : popts) (cb : option (goerr -> string)).
Let o' := with_callback o cb.
Definition an (st : pst) : pst := set_pay st (annotate cb (p_pay st)).
Definition an_pres (r : pres) : pres :=
  match r with POk ds rest st => POk ds rest (an st) | PErr e rest st => PErr e rest (an st) | _ => r end.
Definition an_dec (d : decision) : decision :=
  match d with
  | DKeep d st => DKeep d (an st) | DSkip b st => DSkip b (an st) | DBreak st => DBreak (an st)
  | DErr e st => DErr e (an st) | _ => d
  end.
Definition an_fres (r : fres) : fres :=
  match r with FDone st => FDone (an st) | FErr e st => FErr e (an st) | _ => r end.

Lemma an_handle : forall st e, handle_error o' (an st) e = an (handle_error o st e).
Proof.
  intros st e. unfold handle_error, an, annotate, set_pay, set_cur, o'. cbn. rewrite map_app. reflexivity.
Qed.
Lemma an_add : forall ctx st f, add_include ctx (an st) f = (an (fst (add_include ctx st f)), snd (add_include ctx st f)).
Proof.
  intros ctx st f. unfold add_include, an. cbn. destruct (assoc f (p_included st)); reflexivity.
Qed.
Lemma an_adds : forall ctx fs st,
  add_includes ctx (an st) fs = (an (fst (add_includes ctx st fs)), snd (add_includes ctx st fs)).
Proof.
  intros ctx fs. induction fs as [|f fs IH]; intros st; [reflexivity|]. cbn [add_includes]. rewrite an_add.
  destruct (add_include ctx st f) as [st1 i]. cbn [fst snd]. rewrite IH.
  destruct (add_includes ctx st1 fs) as [st2 is]. reflexivity.
Qed.
Lemma an_decide : forall dir ctx d term st,
  decide o' dir ctx d term (an st) = an_dec (decide o dir ctx d term st).
Proof.
  intros dir ctx d term st. unfold decide. change (p_heap (an st)) with (p_heap st). change (p_cur (an st)) with (p_cur st).
  destruct (match read_slice (p_heap st) ctx with [] => None | _ => _ end) as [m|].
  { destruct (analyze_map_body _ _ _ _) as [e|]; [|reflexivity]. change (o_stop o') with (o_stop o).
    destruct (o_stop o); [reflexivity|]. rewrite an_handle. reflexivity. }
  change (o_ignore o') with (o_ignore o). destruct (mem_str _ _); [reflexivity|].
  change (analyze o') with (analyze o). destruct (analyze _ _ _ _ _) as [e|].
  { change (o_stop o') with (o_stop o). destruct (o_stop o); [reflexivity|]. rewrite an_handle.
    destruct (has_suffix _ _); [destruct (negb _)|]; reflexivity. }
  destruct (if String.eqb (d_name d) "if" then prepare_if (d_args d) else Some (d_args d)) as [args|]; [|reflexivity].
  change (o_single o') with (o_single o). destruct (negb (o_single o) && _)%bool; [|reflexivity].
  unfold do_include. cbn [d_args set_args]. destruct args as [|a0 args]; [reflexivity|].
  change (o_glob o') with (o_glob o). change (o_open o') with (o_open o). change (o_stop o') with (o_stop o).
  destruct (has_magic _).
  - destruct (o_glob o _) as [fs|msg]; [|reflexivity]. rewrite an_adds. destruct (add_includes ctx st _). reflexivity.
  - destruct (o_open o _) as [c|msg].
    + change (log_open (an st) (resolve dir a0)) with (an (log_open st (resolve dir a0))).
      rewrite an_adds. destruct (add_includes ctx (log_open st _) _). reflexivity.
    + destruct (o_stop o); [reflexivity|].
      change (log_open (an st) (resolve dir a0)) with (an (log_open st (resolve dir a0))). rewrite an_handle. reflexivity.
Qed.
Lemma an_padd : forall ds r, padd ds (an_pres r) = an_pres (padd ds r).
Proof. intros ds []; reflexivity. Qed.
Lemma an_parse : forall dir fuel ctx toks st,
  parse o' dir fuel ctx toks (an st) = an_pres (parse o dir fuel ctx toks st).
Proof.
  intros dir. induction fuel as [|fuel IH]; intros ctx toks st; [reflexivity|].
  cbn [parse]. destruct toks as [|t toks]; [reflexivity|].
  change (p_heap (an st)) with (p_heap st). change (p_cur (an st)) with (p_cur st).
  change (file_label o' (an st)) with (file_label o st). change (o_comments o') with (o_comments o).
  destruct (t_err t); [reflexivity|]. destruct (tok_is t "}"); [reflexivity|].
  destruct (tok_comment t); [rewrite IH; apply an_padd|].
  destruct (read_args (o_comments o) toks) as [[[[args cs] term] rs]|]; [|reflexivity].
  rewrite an_decide. match goal with |- context [decide o dir ctx ?d term st] => destruct (decide o dir ctx d term st) as [d0 st1|d0|eat st1|st1|e st1|] end;
    cbn [an_dec]; try reflexivity.
  - destruct (String.eqb term "{"); [|rewrite IH; apply an_padd].
    change (p_heap (an st1)) with (p_heap st1). destruct (enter_block (p_heap st1) ctx (d_name d0)) as [h inner].
    change (set_heap (an st1) h) with (an (set_heap st1 h)). rewrite IH.
    destruct (parse o dir fuel inner rs (set_heap st1 h)); cbn [an_pres]; try reflexivity.
    rewrite IH. apply an_padd.
  - rewrite IH. apply an_padd.
  - apply IH.
Qed.
Lemma an_file : forall dir path ctx st, parse_file o' dir path ctx (an st) = an_fres (parse_file o dir path ctx st).
Proof.
  intros dir path ctx st. unfold parse_file. change (o_open o') with (o_open o).
  destruct (o_open o path) as [content|]; [|reflexivity]. change (o_lexers o') with (o_lexers o).
  change (set_cur (log_use (log_open (an st) path) path ctx) (Cfg path "ok" [] []))
    with (an (set_cur (log_use (log_open st path) path ctx) (Cfg path "ok" [] []))).
  rewrite an_parse. match goal with |- context [an_pres ?r] => destruct r as [ds rest s|e rest s| |] end; cbn [an_pres]; try reflexivity.
  change (o_stop o') with (o_stop o). destruct (o_stop o); [reflexivity|]. rewrite an_handle. reflexivity.
Qed.
Lemma an_files : forall fuel dir st, run_files fuel o' dir (an st) = an_fres (run_files fuel o dir st).
Proof.
  induction fuel as [|fuel IH]; intros dir st; cbn [run_files]; change (p_queue (an st)) with (p_queue st);
    destruct (p_queue st) as [|[path ctx] q]; try reflexivity.
  change (set_queue (an st) q) with (an (set_queue st q)). rewrite an_file.
  destruct (parse_file o dir path ctx (set_queue st q)); cbn [an_fres]; auto.
Qed.
Lemma an_main : forall fuel filename, parse_main fuel o' filename = annotated cb (parse_main fuel o filename).
Proof.
  intros fuel filename. unfold parse_main, collect.
  change (init_state filename) with (an (init_state filename)) at 1. rewrite an_files.
  destruct (run_files fuel o (dir_name filename) (init_state filename)) as [st|e st| |]; try reflexivity.
  cbn [an_fres]. unfold finish. change (p_indeg (an st)) with (p_indeg st). change (p_edges (an st)) with (p_edges st).
  destruct (has_cycle _ _ _); [reflexivity|]. change (o_combine o') with (o_combine o).
  destruct (o_combine o); [|reflexivity]. unfold combined. cbn [p_pay an set_pay annotate pl_config pl_status pl_errors].
  destruct (pl_config (p_pay st)) as [|c0 cs]; [reflexivity|]. destruct (perform _ _ _ _); reflexivity.
Qed.
End Cb.
