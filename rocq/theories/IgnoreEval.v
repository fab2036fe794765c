(** C18 on evaluated forests: deleting the named statements outside map-like blocks. *)
From Verif Require Export MapProofs.
Local Open Scope string_scope.

Section IgnoreEval.
Variables (o : popts) (dir : string).
Let o0 := with_ignore o [].
Let ig := o_ignore o.

Lemma eval_map_stmt : forall s ctx st, is_map (read_slice (p_heap st) ctx) = true ->
  eval_stmt o0 dir ctx s st = eval_stmt o dir ctx s st.
Proof.
  intros [t|h args l body] ctx st M; [reflexivity|]. cbn [eval_stmt].
  change (o_comments o0) with (o_comments o). change (fresh o0) with (fresh o). change (comments_of o0) with (comments_of o).
  rewrite (decide_other o dir) by auto.
  pose proof (decide_is_map o dir ctx (fresh o st h (arg_vals args)) (match body with None => ";" | Some _ => "{" end) st M) as D.
  destruct (decide o dir ctx (fresh o st h (arg_vals args)) _ st); try contradiction; reflexivity.
Qed.
Lemma eval_map_forest : forall F ctx st, is_map (read_slice (p_heap st) ctx) = true ->
  eval_forest o0 dir ctx F st = eval_forest o dir ctx F st.
Proof.
  intros F ctx. unfold eval_forest. induction F as [|s F IH]; intros st M; [reflexivity|]. cbn [eseq].
  rewrite eval_map_stmt by auto. destruct (eval_stmt o dir ctx s st) as [ds st'| | |] eqn:E; auto.
  assert (H : p_heap st' = p_heap st).
  { destruct s as [t|h args l body]; [now inversion E|]. cbn [eval_stmt] in E.
    set (term := match body with None => ";" | Some _ => "{" end) in *.
    pose proof (decide_is_map o dir ctx (fresh o st h (arg_vals args)) term st M) as D.
    pose proof (decide_heap o dir ctx (fresh o st h (arg_vals args)) term st) as DH.
    destruct (decide o dir ctx (fresh o st h (arg_vals args)) term st) as [d s1|d|eat s1|s1|e s1|]; try contradiction; try discriminate.
    - destruct body; [discriminate|]. now inversion E; subst.
    - cbn in DH. destruct (Bool.eqb eat _); [|discriminate]. now inversion E; subst. }
  rewrite IH; auto. now rewrite H.
Qed.

Lemma eseq_one : forall f s (st : pst), eseq f [s] st = f s st.
Proof. intros f s st. cbn. destruct (f s st); auto. cbn. now rewrite app_nil_r. Qed.
Lemma eseq_app : forall f a b (st : pst),
  eseq f (a ++ b) st = match eseq f a st with EOk ds st' => eadd ds (eseq f b st') | e => e end.
Proof.
  intros f a b. induction a as [|s a IH]; intros st; cbn [app eseq].
  - now destruct (eseq f b st).
  - destruct (f s st) as [ds st'| | |]; auto. rewrite IH. destruct (eseq f a st') as [ds' st''| | |]; cbn; auto.
    destruct (eseq f b st''); cbn; auto. now rewrite app_assoc.
Qed.
Lemma eval_stmt_frame : forall s ctx st ds st1, wf_stmt s -> eval_stmt o dir ctx s st = EOk ds st1 ->
  good (p_heap st) ctx -> frame ctx (p_heap st) (p_heap st1).
Proof.
  intros s ctx st ds st1 W E G. apply (eval_frame o dir [s] ctx st ds st1); auto.
  unfold eval_forest. now rewrite eseq_one.
Qed.

Lemma eval_ignore_seq : forall F ctx, Forall wf_stmt F ->
  Forall (fun s => wf_stmt s -> forall ctx st, good (p_heap st) ctx -> is_map (read_slice (p_heap st) ctx) = false ->
            eval_forest o0 dir ctx (prune_out ig s) st = eval_stmt o dir ctx s st) F ->
  forall st, good (p_heap st) ctx -> is_map (read_slice (p_heap st) ctx) = false ->
  eval_forest o0 dir ctx (flat_map (prune_out ig) F) st = eval_forest o dir ctx F st.
Proof.
  intros F ctx W H. unfold eval_forest in *. induction H as [|s F HS H IH]; intros st G M; [reflexivity|].
  inversion W as [|? ? W1 W2]; subst. cbn [flat_map]. rewrite eseq_app. cbn [eseq].
  rewrite HS by auto. destruct (eval_stmt o dir ctx s st) as [ds st'| | |] eqn:E; auto.
  pose proof (eval_stmt_frame _ _ _ _ _ W1 E G) as F1.
  rewrite IH; auto; [exact (good_frame _ _ _ _ G F1)|]. now rewrite (read_frame _ _ _ F1).
Qed.
Lemma eval_ignore_stmt : forall s, wf_stmt s -> forall ctx st, good (p_heap st) ctx ->
  is_map (read_slice (p_heap st) ctx) = false ->
  eval_forest o0 dir ctx (prune_out ig s) st = eval_stmt o dir ctx s st.
Proof.
  intros s. unfold eval_forest.
  assert (IG : forall h args l body ctx st, is_map (read_slice (p_heap st) ctx) = false ->
     existsb (String.eqb (t_val h)) ig = true -> eval_stmt o dir ctx (SStm h args l body) st = EOk [] st).
  { intros h args l body ctx st M E. cbn [eval_stmt]. rewrite (decide_ignored o dir) by auto. now destruct body. }
  induction s as [t|h args l|h args l b c IH] using stmt_ind2; intros W ctx st G M; cbn [prune_out].
  - now rewrite eseq_one.
  - destruct (existsb (String.eqb (t_val h)) ig) eqn:E; [now rewrite IG|]. rewrite eseq_one. cbn [eval_stmt].
    rewrite (decide_other o dir) by auto. reflexivity.
  - destruct (existsb (String.eqb (t_val h)) ig) eqn:E; [now rewrite IG|]. rewrite eseq_one. cbn [eval_stmt].
    rewrite (decide_other o dir) by auto.
    change (fresh o0) with (fresh o). change (comments_of o0) with (comments_of o). change (o_comments o0) with (o_comments o).
    apply wf_stm_inv in W as (TE & P & NH & FA & FB).
    destruct (decide o dir ctx (fresh o st h (arg_vals args)) "{" st) as [d s1|d|eat s1|s1|e s1|] eqn:D; try reflexivity.
    destruct (decide_keep_ismap _ _ _ _ _ _ _ _ _ D) as (_ & _ & _ & NM).
    pose proof (decide_heap o dir ctx (fresh o st h (arg_vals args)) "{" st) as DH. rewrite D in DH. cbn in DH.
    destruct (enter_block (p_heap s1) ctx (d_name d)) as [h' inner] eqn:EB.
    assert (G1 : good (p_heap s1) ctx) by now rewrite DH.
    destruct (enter_block_spec _ _ _ _ _ G1 EB) as (GI & RI & _ & _).
    assert (IM : is_map (read_slice h' inner) = existsb (String.eqb (t_val h)) map_like).
    { rewrite RI, is_map_enter_iff, NM. reflexivity. }
    destruct (existsb (String.eqb (t_val h)) map_like).
    + pose proof (eval_map_forest b inner (set_heap s1 h') IM) as X. unfold eval_forest in X. now rewrite X.
    + pose proof (eval_ignore_seq b inner FB IH (set_heap s1 h') GI IM) as X. unfold eval_forest in X. now rewrite X.
Qed.
Lemma eval_ignore : forall F ctx st, Forall wf_stmt F -> good (p_heap st) ctx ->
  is_map (read_slice (p_heap st) ctx) = false ->
  eval_forest o0 dir ctx (flat_map (prune_out ig) F) st = eval_forest o dir ctx F st.
Proof.
  intros F ctx st W G M. apply eval_ignore_seq; auto. apply Forall_forall. intros s _. apply eval_ignore_stmt.
Qed.
End IgnoreEval.

Lemma prune_out_wf : forall I s, wf_stmt s -> Forall wf_stmt (prune_out I s).
Proof.
  intros I s. induction s as [t|h args l|h args l b c IH] using stmt_ind2; intros W; cbn [prune_out]; auto.
  - destruct (existsb _ I); auto.
  - destruct (existsb _ I); auto. apply wf_stm_inv in W as (TE & P & NH & FA & FB). constructor; auto. apply wf_block; auto.
    destruct (existsb _ map_like); auto. clear - IH FB. induction b as [|s b IHb]; cbn; auto.
    inversion IH; inversion FB; subst. apply Forall_app. auto.
Qed.
Lemma flat_prune_out_wf : forall I F, Forall wf_stmt F -> Forall wf_stmt (flat_map (prune_out I) F).
Proof. intros I F W. induction W; cbn; auto. apply Forall_app. split; auto. now apply prune_out_wf. Qed.

(** One file, in any state. *)
Lemma parse_ignore_out : forall o dir ctx st F k k', Forall wf_stmt F -> good (p_heap st) ctx ->
  is_map (read_slice (p_heap st) ctx) = false -> eval_forest o dir ctx F st <> EWild ->
  List.length (flat F) < k -> List.length (flat (flat_map (prune_out (o_ignore o)) F)) < k' ->
  match parse o dir k ctx (flat F) st, parse (with_ignore o []) dir k' ctx (flat (flat_map (prune_out (o_ignore o)) F)) st with
  | PErr e _ s, PErr e' _ s' => e = e' /\ s = s'
  | a, b => a = b
  end.
Proof.
  intros o dir ctx st F k k' W G M NW K K'.
  pose proof (eval_parse o dir F ctx st k W K) as A.
  pose proof (eval_parse (with_ignore o []) dir _ ctx st k' (flat_prune_out_wf (o_ignore o) F W) K') as B.
  rewrite (eval_ignore o dir F ctx st W G M) in B.
  destruct (eval_forest o dir ctx F st) as [ds st1|e st1| |]; try congruence.
  - now rewrite A, B.
  - destruct A as [r1 ->], B as [r2 ->]. auto.
  - now rewrite A, B.
Qed.
