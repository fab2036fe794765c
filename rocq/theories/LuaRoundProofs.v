(** C68: what the parser makes of built text with Lua blocks. *)
From Verif Require Export LuaTree RoundProofs.
Local Open Scope string_scope.

Section XReread.
  Variables (keep : bool) (lab : string).
  Fixpoint xreread (m : bool) (line : Z) (d : directive) {struct d} : list directive :=
    if is_comment d then (if keep then [comment_dir lab line (comment_text d)] else [])
    else [Dir (d_name d) line (d_args d) lab None
            (match d_block d with None => None | Some b => Some (List.concat (xplace (xreread (mapb (d_name d))) xbottom 0 1 (d_line d) line b)) end) None m].
End XReread.
Section Eval.
Variables (pr : N -> bool) (AR : ascii_right pr) (ok : spot -> bool) (o : popts) (dir : string).
Lemma xdecide : forall d D path ctx st, d_name D = d_name d -> d_args D = d_args (written d) -> is_comment d = false -> (d_name d = "if" -> prepare_if (parens (d_args d)) = Some (d_args d)) ->
  legal o path d -> read_slice (p_heap st) ctx = path -> plain_path path ->
  (mapb (last path "") = true /\ d_block d = None /\ d_name d <> "if" /\ decide o dir ctx D (term_of d) st = DMap (set_ismap D)) \/
  (mapb (last path "") = false /\ (forall b, d_block d = Some b -> plain_path [d_name d] /\ Forall (legal o (below path (d_name d))) b) /\
   decide o dir ctx D (term_of d) st = DKeep (set_args D (d_args d)) st).
Proof.
  intros d D path ctx st NM AG C IFA LG RD PP.
  destruct LG as [path d C'|path m d C' MB NI NB FA|path d C' NM' NIG INC ACC BLK]; [congruence| |].
  - left. assert (L : last (path ++ [m]) "" = m) by apply last_last. rewrite L. split; [now apply mapb_iff|]. split; auto. split; auto.
    unfold decide. rewrite RD. destruct (path ++ [m])%list as [|c r] eqn:E; [destruct path; discriminate|]. rewrite L.
    pose proof (proj1 (map_block_iff m) MB) as A. destruct (assoc m map_bodies) eqn:AM; [|congruence].
    assert (X : analyze_map_body (cf_file (p_cur st)) D (term_of d) m = None).
    { apply analyze_map_body_iff; auto. unfold term_of. rewrite NB, NM, AG. split; auto. unfold written. apply String.eqb_neq in NI. rewrite NI. exact FA. }
    rewrite X. reflexivity.
  - right. assert (MF : mapb (last path "") = false) by (apply not_true_iff_false; intros H; apply mapb_iff in H; auto). split; auto. split; auto.
    unfold decide. rewrite RD.
    assert (IM : match path with [] => None | _ :: _ => match assoc (last path "") map_bodies with Some _ => Some (last path "") | None => None end end = None).
    { destruct path as [|c r]; auto. destruct (assoc (last (c :: r) "") map_bodies) eqn:A; auto. destruct NM'. apply map_block_iff. rewrite A. discriminate. }
    rewrite IM, NM. destruct (mem_str (d_name d) (o_ignore o)) eqn:IG; [apply mem_str_iff in IG; contradiction|].
    assert (X : analyze o (cf_file (p_cur st)) D (term_of d) path = None).
    { apply analyze_accepts; auto. eapply accepts_ext; [| |exact ACC]; auto. }
    rewrite X, AG. assert (Y : (if d_name d =? "if" then prepare_if (d_args (written d)) else Some (d_args (written d))) = Some (d_args d)).
    { unfold written. cbn [d_args mkd]. destruct (String.eqb_spec (d_name d) "if") as [E|E]; auto. }
    rewrite Y. assert (Z0 : (negb (o_single o) && (d_name (set_args D (d_args d)) =? "include"))%bool = false).
    { change (d_name (set_args D (d_args d))) with (d_name D). rewrite NM. destruct (String.eqb_spec (d_name d) "include") as [E|E]; [rewrite (INC E); reflexivity|apply andb_false_r]. }
    rewrite Z0. reflexivity.
Qed.
Definition xeval_spec (d : directive) : Prop := forall path ctx st line, legal o path d -> read_slice (p_heap st) ctx = path -> good (p_heap st) ctx -> plain_path path ->
  exists h', eval_stmt o dir ctx (xplant line d) st = EOk (xreread (o_comments o) (file_label o st) (mapb (last path "")) line d) (set_heap st h').
Lemma xeval_loop : forall ds, Forall xeval_spec ds -> forallb (lua_writable pr ok) ds = true -> forall path ctx m inc last line st, Forall (legal o path) ds -> read_slice (p_heap st) ctx = path -> good (p_heap st) ctx -> plain_path path ->
  exists h', eval_forest o dir ctx (xplace xplant xbottom m inc last line ds) st =
    EOk (List.concat (xplace (xreread (o_comments o) (file_label o st) (mapb (List.last path ""))) xbottom m inc last line ds)) (set_heap st h').
Proof.
  intros ds SP. induction SP as [|d ds S SP IH]; intros W path ctx m inc last line st LG RD G PP.
  - exists (p_heap st). destruct st. reflexivity.
  - cbn [forallb] in W. apply andb_true_iff in W as [W1 W2]. inversion LG as [|? ? L1 L2]; subst. specialize (IH W2).
    assert (STEP : forall l last' line', exists h', eval_forest o dir ctx (xplant l d :: xplace xplant xbottom 0 1 last' line' ds) st =
      EOk (xreread (o_comments o) (file_label o st) (mapb (List.last (read_slice (p_heap st) ctx) "")) l d ++ List.concat (xplace (xreread (o_comments o) (file_label o st) (mapb (List.last (read_slice (p_heap st) ctx) ""))) xbottom 0 1 last' line' ds)) (set_heap st h')).
    { intros l last' line'. destruct (S _ ctx st l L1 eq_refl G PP) as [h1 E1].
      assert (FR : frame ctx (p_heap st) h1).
      { pose proof (eval_frame o dir [xplant l d] ctx st) as F. unfold eval_forest in F. cbn [eseq] in F. rewrite E1 in F. cbn [eadd] in F.
        specialize (F _ _ (Forall_cons _ (xplant_wf pr AR ok d W1 l) (Forall_nil _)) eq_refl G). exact F. }
      pose proof (read_frame _ _ _ FR) as RF.
      destruct (IH (read_slice (p_heap st) ctx) ctx 0%Z 1%Z last' line' (set_heap st h1) L2 RF (good_frame _ _ _ _ G FR) PP) as [h2 E2].
      exists h2. unfold eval_forest in *. cbn [eseq]. rewrite E1. change (file_label o (set_heap st h1)) with (file_label o st) in E2. rewrite E2. cbn [eadd]. reflexivity. }
    cbn [xplace]. destruct (Z.eqb (d_line d) last && is_comment d)%bool; cbn [List.concat]; apply STEP.
Qed.
Lemma lua_vals : forall line d, luab d = true -> arg_vals (tl (lua_front line d)) = d_args d /\ forall c, arg_coms c (tl (lua_front line d)) = [].
Proof.
  intros line d H. unfold luab in H. apply andb_true_iff in H as [_ LA]. unfold lua_front, lua_toks, lua_args in *. destruct (d_name d =? set_by_lua_block).
  - destruct (d_args d) as [|v [|c [|? ?]]]; try discriminate. rewrite !andb_true_iff in LA. destruct LA as [[[_ _] V] _]. apply negb_true_iff in V. cbn [removelast app tl].
    assert (NH : ~ hash (Tok v line false None)) by (intros [_ [r E]]; cbn [t_val] in E; rewrite E in V; destruct r; discriminate). apply not_hash in NH.
    assert (NC : forall l, tok_comment (Tok c l true None) = false) by (intros; unfold tok_comment; cbn [t_quoted t_val negb]; apply andb_false_r).
    unfold arg_vals, arg_coms. cbn [filter]. rewrite NH, NC. split; [reflexivity|now intros []].
  - destruct (d_args d) as [|c [|? ?]]; try discriminate. cbn [removelast app tl]. assert (NC : forall l, tok_comment (Tok c l true None) = false) by (intros; unfold tok_comment; cbn [t_quoted t_val negb]; apply andb_false_r).
    unfold arg_vals, arg_coms. cbn [filter]. rewrite NC. split; [reflexivity|now intros []].
Qed.
Lemma xeval_plant : forall d, lua_writable pr ok d = true -> xeval_spec d.
Proof.
  intros d. induction d as [d IH] using dir_ind'. intros W path ctx st line LG RD G PP. assert (SS : set_heap st (p_heap st) = st) by now destruct st. destruct (is_comment d) eqn:C; [|destruct (lua_dir d) eqn:L].
  - exists (p_heap st). rewrite SS. destruct d as [nm ln args file inc blk cm mp]. cbn [xplant xreread]. rewrite C. cbn [eval_stmt t_line t_val]. destruct (o_comments o); reflexivity.
  - destruct (lw_lua pr ok d W C L) as (LB & NB & _). destruct (lua_vals line d LB) as [AV AC].
    assert (NIF : d_name d <> "if").
    { intros E. unfold lua_dir in L. rewrite E in L. vm_compute in L. discriminate. }
    assert (PL : xplant line d = lua_stmt line d) by (destruct d; cbn [xplant]; now rewrite C, L).
    assert (RR : forall m, xreread (o_comments o) (file_label o st) m line d = [Dir (d_name d) line (d_args d) (file_label o st) None None None m]) by (intros; destruct d as [nm ln args file inc blk cm mp]; cbn [xreread]; rewrite C; cbn [d_block] in *; now rewrite NB).
    exists (p_heap st). rewrite SS, PL, RR. unfold lua_stmt. cbn [eval_stmt]. rewrite AC, AV. set (D := fresh o st (Tok (d_name d) line false None) (d_args d)).
    assert (WR : d_args D = d_args (written d)) by (unfold written; apply String.eqb_neq in NIF; now rewrite NIF).
    pose proof (xdecide d D path ctx st eq_refl WR C ltac:(congruence) LG RD PP) as DD. unfold term_of in DD. rewrite NB in DD.
    destruct DD as [(MB & _ & _ & DD)|(MB & _ & DD)]; rewrite DD, MB; reflexivity.
  - destruct (lw_inv pr ok d W C L) as (WS & _ & _ & WB). destruct (stmt_args pr ok (shallow d) AR C WS) as (S & t & [A1 _ A3 _] & _).
    change (d_name (shallow d)) with (d_name d) in S. change (arg_items (shallow d)) with (arg_items d) in *. change (d_args (written (shallow d))) with (d_args (written d)) in *.
    destruct (arg_vals_map _ line A1) as [AV AC]. rewrite A3 in AV.
    assert (IFA : d_name d = "if" -> prepare_if (parens (d_args d)) = Some (d_args d)).
    { intros E. unfold shallow in WS. cbn [writable] in WS. change (is_comment _) with (is_comment d) in WS. rewrite C in WS. rewrite !andb_true_iff in WS. destruct WS as [[[_ KA] IF] _]. cbn [d_name d_args] in *. rewrite E in IF. eapply parens_back; eauto. }
    assert (PL : xplant line d = SStm (atok line (arg_lex (d_name d))) (map (fun gx => atok line (snd gx)) (arg_items d)) line
         (match d_block d with None => None | Some b => Some (xplace xplant xbottom 0 1 (d_line d) line b, xbottom line d) end)) by (destruct d; cbn [xplant]; now rewrite C, L).
    assert (RR : forall m, xreread (o_comments o) (file_label o st) m line d = [Dir (d_name d) line (d_args d) (file_label o st) None
            (match d_block d with None => None | Some b => Some (List.concat (xplace (xreread (o_comments o) (file_label o st) (mapb (d_name d))) xbottom 0 1 (d_line d) line b)) end) None m]) by (intros; destruct d; cbn [xreread]; now rewrite C).
    rewrite PL, RR. cbn [eval_stmt]. rewrite AC, AV. fold (planted o line d st).
    assert (NM : d_name (planted o line d st) = d_name d) by (unfold planted, fresh, atok; cbn [d_name t_val]; apply (as_val _ _ S)).
    pose proof (xdecide d (planted o line d st) path ctx st NM eq_refl C IFA LG RD PP) as D.
    assert (TM : match (match d_block d with None => None | Some b => Some (xplace xplant xbottom 0 1 (d_line d) line b, xbottom line d) end) with None => ";" | Some _ => "{" end = term_of d) by (unfold term_of; now destruct (d_block d)).
    rewrite TM. destruct D as [(MB & NB & NI & D)|(MB & BL & D)]; rewrite D, MB.
    + exists (p_heap st). rewrite NB, SS. f_equal. unfold set_ismap, planted, fresh, atok. cbn. rewrite (as_val _ _ S). unfold written. apply String.eqb_neq in NI. rewrite NI. reflexivity.
    + assert (SA : set_args (planted o line d st) (d_args d) = Dir (d_name d) line (d_args d) (file_label o st) None None None false) by (unfold set_args, planted, fresh, atok; cbn; now rewrite (as_val _ _ S)).
      rewrite SA. destruct (d_block d) as [b|] eqn:B.
      * cbn [d_name]. destruct (enter_block (p_heap st) ctx (d_name d)) as [h1 inner] eqn:EB. destruct (enter_block_spec _ _ _ _ _ G EB) as (G1 & R1 & _ & _). rewrite RD, <- below_enter in R1.
        destruct (BL b eq_refl) as [PN LB]. destruct (WB b eq_refl) as [_ WB']. cbn [opt_list] in IH. rewrite forallb_forall in WB'.
        assert (SP : Forall xeval_spec b) by (rewrite Forall_forall in *; intros e I; apply IH; auto). apply forallb_forall in WB'.
        destruct (xeval_loop b SP WB' (below path (d_name d)) inner 0%Z 1%Z (d_line d) line (set_heap st h1) LB R1 G1 (below_plain _ _ PP PN)) as [h2 E2].
        exists h2. unfold eval_forest in E2. rewrite E2, below_last. reflexivity.
      * exists (p_heap st). rewrite SS. reflexivity.
Qed.
End Eval.

(** ** Erasure *)
Lemma xplace_each : forall keep lab ds, Forall (fun d => forall m line, map bare (xreread keep lab m line d) = map bare (kept_tree keep [d])) ds ->
  forall mp m inc la line, map bare (List.concat (xplace (xreread keep lab mp) xbottom m inc la line ds)) = map bare (kept_tree keep ds).
Proof.
  intros keep lab ds F. induction F as [|d ds D F IH]; intros mp m inc la line; [now destruct keep|]. rewrite kept_cons, map_app. cbn [xplace].
  destruct (_ && _)%bool; cbn [List.concat]; now rewrite map_app, D, IH.
Qed.
Lemma xreread_bare : forall pr ok keep lab d, lua_writable pr ok d = true -> forall m line, map bare (xreread keep lab m line d) = map bare (kept_tree keep [d]).
Proof.
  intros pr ok keep lab d. induction d as [d IH] using dir_ind'. intros W m line. rewrite kept_one. destruct d as [nm ln args file inc blk cm mp]. cbn [lua_writable] in W. destruct (is_comment _) eqn:C.
  - cbn [xreread quiet]. rewrite C. destruct keep; [|reflexivity]. cbn [d_args d_block] in W. rewrite !andb_true_iff in W. destruct W as [[_ A] B]. destruct args; [|discriminate]. destruct blk; [discriminate|].
    unfold is_comment in C. cbn [d_name d_comment] in C. apply andb_true_iff in C as [N C]. apply String.eqb_eq in N. subst nm. destruct cm as [c|]; [|discriminate]. reflexivity.
  - cbn [xreread quiet]. rewrite C. cbn [d_name d_line d_args d_file d_includes d_block d_comment d_ismap] in *. apply andb_true_iff in W as [CM W]. destruct cm; [discriminate|].
    assert (X : forall b, blk = Some b -> map bare (List.concat (xplace (xreread keep lab (mapb nm)) xbottom 0 1 ln line b)) = map bare (kept_tree keep b)).
    { intros b ->. destruct (lua_dir _); [apply andb_true_iff in W as [_ W]; discriminate|]. apply andb_true_iff in W as [_ BL]. apply andb_true_iff in BL as [_ BL]. rewrite forallb_forall in BL. apply xplace_each. cbn [opt_list] in IH. rewrite Forall_forall in *. intros d I. apply IH; auto. }
    destruct blk as [b|]; destruct keep; cbn [map bare d_name d_args d_block d_comment]; auto; now rewrite (X b eq_refl).
Qed.
Definition xround_tree (keep header : bool) (lab : string) (ds : list directive) : list directive :=
  if header then (head_dirs keep lab ++ List.concat (xplace (xreread keep lab false) xbottom 2 2 0 3 ds))%list
  else List.concat (xplace (xreread keep lab false) xbottom 0 0 0 1 ds).
Lemma xround_eval : forall pr ok o dir f header ds st, ascii_right pr -> forallb (lua_writable pr ok) ds = true -> Forall (legal o []) ds ->
  p_heap st = [[]] -> cf_file (p_cur st) = f ->
  exists h', eval_forest o dir (Slice 0 0) (xforest_of header ds) st = EOk (xround_tree (o_comments o) header (config_label o f) ds) (set_heap st h').
Proof.
  intros pr ok o dir f header ds st AR W LG H CF. 
  assert (SP : Forall (xeval_spec o dir) ds).
  { rewrite forallb_forall in W. apply Forall_forall. intros d I. apply (xeval_plant pr AR ok). auto. }
  assert (RD : read_slice (p_heap st) (Slice 0 0) = []) by (now rewrite H).
  assert (G : good (p_heap st) (Slice 0 0)) by (rewrite H; unfold good; cbn; lia).
  pose proof (fun m inc la l => xeval_loop pr AR ok o dir ds SP W [] (Slice 0 0) m inc la l st LG RD G (Forall_nil _)) as L.
  rewrite (label_cur o st f CF) in L. change (mapb (last [] "")) with false in L. unfold xforest_of, xround_tree. destruct header; [|apply L].
  destruct (L 2%Z 2%Z 0%Z 3%Z) as [h' E]. exists h'. unfold eval_forest in *. unfold head_stmts, header_notes. cbn [app eseq eval_stmt t_line t_val]. rewrite E. rewrite (label_cur o st f CF). unfold head_dirs. destruct (o_comments o); reflexivity.
Qed.
Lemma within_xplace : forall (f : Z -> directive -> list directive) (P : directive -> Prop) ds, Forall (fun d => forall line x, within x (f line d) -> P x) ds ->
  forall bot m inc la line x, within x (List.concat (xplace f bot m inc la line ds)) -> P x.
Proof.
  intros f P ds F bot. induction F as [|d ds D F IH]; intros m inc la line x X; [now apply within_nil in X|]. cbn [xplace] in X.
  destruct (_ && _)%bool; cbn [List.concat] in X; apply within_app in X as [X|X]; eauto.
Qed.
Lemma xreread_includes : forall keep lab d m line x, within x (xreread keep lab m line d) -> d_includes x = None.
Proof.
  intros keep lab d. induction d as [d IH] using dir_ind'. intros m line x X. destruct d as [nm ln args file inc blk cm mp]. cbn [xreread] in X. destruct (is_comment _).
  - destruct keep; [|now apply within_nil in X]. apply within_one in X as [->|(b & B & _)]; [reflexivity|discriminate].
  - apply within_one in X as [->|(b & B & X)]; [reflexivity|]. cbn [d_name d_line d_block opt_list] in *. destruct blk as [b0|]; [|discriminate]. inversion B; subst. clear B.
    eapply (within_xplace _ (fun x => d_includes x = None)); [|exact X]. cbn [opt_list] in IH. eapply Forall_impl; [|exact IH]. cbv beta. intros a A line0 x0. apply A.
Qed.
Lemma xround_includes : forall keep header lab ds d, within d (xround_tree keep header lab ds) -> d_includes d = None.
Proof.
  intros keep header lab ds x X.
  assert (P : forall m inc la line, within x (List.concat (xplace (xreread keep lab false) xbottom m inc la line ds)) -> d_includes x = None).
  { intros m inc la line Y. eapply (within_xplace _ (fun x => d_includes x = None)); [|exact Y]. apply Forall_forall. intros d _ l y. apply xreread_includes. }
  unfold xround_tree in X. destruct header; [|eauto]. apply within_app in X as [X|X]; [|eauto].
  unfold head_dirs in X. destruct keep; [|now apply within_nil in X]. inversion X as [? I|? ? ? I B W]; subst; destruct I as [<-|[<-|[<-|[]]]]; try reflexivity; discriminate.
Qed.
Lemma xround_parse : forall pr ok o f text header ds, ascii_right pr -> forallb (lua_writable pr ok) ds = true -> Forall (legal o []) ds ->
  o_open o f = inl text -> lex (o_lexers o) text = flat (xforest_of header ds) -> Forall wf_stmt (xforest_of header ds) ->
  exists n, forall k, n <= k -> parse_main k o f = ROk (ok_payload f (xround_tree (o_comments o) header (config_label o f) ds)).
Proof.
  intros pr ok o f text header ds AR W LG OP LX WF.
  assert (C : forall k, exists h', collect (S k) o f = FDone (set_pay (set_heap (set_cur (log_use (log_open (set_queue (init_state f) []) f) f (Slice 0 0)) (Cfg f "ok" [] [])) h') (ok_payload f (xround_tree (o_comments o) header (config_label o f) ds)))).
  { intros k. unfold collect. cbn [run_files init_state p_queue]. unfold parse_file. rewrite OP, LX.
    match goal with |- context [parse o ?dir ?fu ?c ?t ?s] => destruct (xround_eval pr ok o dir f header ds s AR W LG eq_refl eq_refl) as [h' E]; pose proof (eval_parse o dir (xforest_of header ds) c s fu WF ltac:(lia)) as P end.
    rewrite E in P. rewrite P. exists h'. cbn. destruct k; reflexivity. }
  assert (HC : has_cycle [f] [] [(f, 0%Z)] = false).
  { unfold has_cycle. cbn. unfold get_z. cbn. rewrite String.eqb_refl. reflexivity. }
  set (T := xround_tree (o_comments o) header (config_label o f) ds) in *. destruct (o_combine o) eqn:CO.
  - destruct (perform_same (pl_config (ok_payload f T)) f T) as [n N]; [intros d X; eapply xround_includes; eauto|].
    exists (S n). intros [|k] L; [lia|]. unfold parse_main. destruct (C k) as [h' E]. rewrite E. unfold finish. cbn -[has_cycle perform]. rewrite HC, CO. unfold combined. cbn -[perform]. cbn [pl_config ok_payload] in N. rewrite N by lia. reflexivity.
  - exists 1. intros [|k] L; [lia|]. unfold parse_main. destruct (C k) as [h' E]. rewrite E. unfold finish. cbn -[has_cycle]. rewrite HC, CO. reflexivity.
Qed.
Lemma xround_bare : forall pr ok keep header lab ds, forallb (lua_writable pr ok) ds = true ->
  map bare (xround_tree keep header lab ds) = map bare (expected keep header ds).
Proof.
  intros pr ok keep header lab ds W. assert (F : Forall (fun d => forall m line, map bare (xreread keep lab m line d) = map bare (kept_tree keep [d])) ds).
  { rewrite forallb_forall in W. apply Forall_forall. intros d I m line. eapply xreread_bare. eauto. }
  unfold xround_tree, expected. destruct header.
  - rewrite map_app, xplace_each by auto. destruct keep; [rewrite map_app|]; reflexivity.
  - rewrite xplace_each by auto. now destruct keep.
Qed.
Lemma lua_round : forall bo o f ds, ascii_right (b_print bo) -> b_ext bo = apply_builders [(lua_build, lua_names)] -> (0 <= b_indent bo)%Z -> o_lexers o = apply_lexers [(lua_lex, lua_names)] ->
  lua_writables (b_print bo) not_note ds = true -> Forall (legal o []) ds ->
  exists text, build bo ds = Some text /\ (o_open o f = inl text ->
    exists n ds', (forall k, n <= k -> parse_main k o f = ROk (Pay "ok" [] [Cfg f "ok" [] ds'])) /\
      map bare ds' = map bare (expected (o_comments o) (b_header bo) ds)).
Proof.
  intros bo o f ds AR NE IN NL W LG. destruct (xbuilt_text bo ds AR NE IN W) as (text & B & LX & WF). exists text. split; auto. intros OP.
  unfold lua_writables in W. apply andb_true_iff in W as [_ W]. destruct (xround_parse (b_print bo) not_note o f text (b_header bo) ds AR W LG OP ltac:(rewrite NL; exact LX) WF) as [n N].
  exists n. eexists. split; [exact N|]. eapply xround_bare; eauto.
Qed.

(** ** Building again *)
Lemma xpend_ge : forall ds, Forall (fun d => forall line, (line <= xbottom line d)%Z) ds -> forall m inc la line, (0 <= m)%Z -> (0 <= inc)%Z -> (line <= xpend xbottom m inc la line ds)%Z.
Proof.
  intros ds F. induction F as [|d ds D F IH]; intros m inc la line M I; [cbn; lia|]. cbn [xpend]. destruct (_ && _)%bool.
  - specialize (IH 0%Z 1%Z la (line + m)%Z ltac:(lia) ltac:(lia)). lia.
  - specialize (IH 0%Z 1%Z (if lua_dir d then la else d_line d) (xbottom (line + inc)%Z d) ltac:(lia) ltac:(lia)). specialize (D (line + inc)%Z). lia.
Qed.
Lemma xbottom_block : forall d line, (line <= xbottom line d)%Z /\ (lua_spot d = AfterSimple -> xbottom line d = line).
Proof.
  intros d. induction d as [d IH] using dir_ind'. intros line. destruct d as [nm ln args file inc blk cm mp]. unfold lua_spot, spot_of. cbn [xbottom d_block d_line] in *. destruct (is_comment _); [split; intros; lia|].
  destruct (lua_dir _). { split; [|discriminate]. match goal with |- context [newlines ?s] => assert (0 <= newlines s)%Z by (unfold newlines; lia) end. lia. }
  destruct blk as [b|]; [|split; intros; lia]. cbn [opt_list] in IH.
  assert (F : Forall (fun d => forall line, (line <= xbottom line d)%Z) b) by (eapply Forall_impl; [|exact IH]; cbv beta; intros a H l; apply H).
  pose proof (xpend_ge b F 0 1 ln line ltac:(lia) ltac:(lia)) as P. split; [lia|discriminate].
Qed.
Section Rebuild.
Variables (bo : bopts) (pr : N -> bool) (AR : ascii_right pr) (PR : b_print bo = pr) (NE : b_ext bo = lua_builders) (lab : string).
Lemma xreread_note : forall m line d, is_comment d = true -> xreread true lab m line d = [comment_dir lab line (comment_text d)].
Proof. intros m line d C. destruct d. cbn [xreread]. now rewrite C. Qed.
Definition xagain (keep m : bool) (line : Z) (d : directive) : directive := Dir (d_name d) line (d_args d) lab None
  (match d_block d with None => None | Some b => Some (List.concat (xplace (xreread keep lab (mapb (d_name d))) xbottom 0 1 (d_line d) line b)) end) None m.
Lemma xreread_stmt : forall keep m line d, is_comment d = false -> xreread keep lab m line d = [xagain keep m line d].
Proof. intros keep m line d C. destruct d. cbn [xreread]. now rewrite C. Qed.
Lemma xagain_not : forall keep m line d, is_comment (xagain keep m line d) = false.
Proof. intros. unfold is_comment. cbn. apply andb_false_r. Qed.
Lemma note_ext : assoc (enquote (b_print bo) "#") (b_ext bo) = None.
Proof. now rewrite NE, builders_assoc, note_enquote. Qed.
Lemma xrows_note : forall k L d r, is_comment d = true -> rows_loop bo (rows bo k) k L (d :: r) =
  if Z.eqb (d_line d) L then More (" #" ++ comment_text d) :: rows_loop bo (rows bo k) k L r else (Row k ("#" ++ comment_text d) :: rows_loop bo (rows bo k) k (d_line d) r).
Proof.
  intros k L d r C. cbn [rows_loop]. rewrite C, andb_true_r. destruct (Z.eqb _ _); auto. assert (N : d_name d = "#") by (unfold is_comment in C; apply andb_true_iff in C as [N _]; now apply String.eqb_eq).
  rewrite N, note_ext. destruct d. cbn [rows]. rewrite C. reflexivity.
Qed.
(** A statement, or what stands for it once it is read: same name and arguments. *)
Lemma xrows_stmt : forall ok k L d e r, lua_writable pr ok d = true -> is_comment d = false -> is_comment e = false -> d_name e = d_name d -> d_args e = d_args d ->
  rows_loop bo (rows bo k) k L (e :: r) = if lua_dir d then Row k (lua_build d) :: rows_loop bo (rows bo k) k L r else (rows bo k e ++ rows_loop bo (rows bo k) k (d_line e) r)%list.
Proof.
  intros ok k L d e r W C CE N A. cbn [rows_loop]. rewrite CE, andb_false_r, N, (ext_lookup bo pr AR PR NE ok d W). destruct (lua_dir d); auto. unfold lua_build. now rewrite N, A.
Qed.
Definition xrows_same (d : directive) : Prop := forall k mp line, is_comment d = false -> lua_dir d = false -> rows bo k (xagain true mp line d) = rows bo k d.
Lemma xrows_again : forall k ds, Forall xrows_same ds -> forallb (lua_writable pr on_line) ds = true -> forall mp s m inc L L' line, lua_apart on_line L s ds = true -> (0 <= m)%Z -> (0 <= inc)%Z ->
  (on_line s = true -> L' = line /\ m = 0%Z) -> (L' < line + inc)%Z ->
  rows_loop bo (rows bo k) k L' (List.concat (xplace (xreread true lab mp) xbottom m inc L line ds)) = rows_loop bo (rows bo k) k L ds.
Proof.
  intros k ds F. induction F as [|d ds D F IH]; intros W mp s m inc L L' line A M I S T; [reflexivity|]. cbn [forallb] in W. apply andb_true_iff in W as [W1 W2]. specialize (IH W2). cbn [lua_apart] in A. cbn [xplace]. destruct (is_comment d) eqn:C.
  - rewrite andb_true_r in *. rewrite xrows_note by auto. destruct (Z.eqb (d_line d) L) eqn:E; cbn [List.concat]; rewrite xreread_note by auto; cbn [app]; rewrite xrows_note by apply comment_again.
    + apply andb_true_iff in A as [A1 A2]. destruct (S A1) as [-> ->]. rewrite Z.add_0_r. cbn [d_line comment_dir]. rewrite Z.eqb_refl. f_equal. eapply IH; eauto; try lia; try discriminate.
    + cbn [d_line comment_dir]. replace (line + inc =? L')%Z with false by (symmetry; apply Z.eqb_neq; lia). f_equal. unfold lua_spot, spot_of in A. rewrite (comment_lua d C), C in *. pose proof (proj1 (xbottom_block d (line + inc)%Z)). eapply IH; eauto; try lia; try discriminate.
  - rewrite andb_false_r in *. rewrite (xrows_stmt on_line k L d d) by auto. cbn [List.concat]. rewrite xreread_stmt by auto. cbn [app]. rewrite (xrows_stmt on_line k L' d) by (auto using xagain_not).
    destruct (xbottom_block d (line + inc)%Z) as (B1 & B3). unfold lua_spot in *. destruct (lua_dir d) eqn:LD.
    + f_equal. eapply IH; eauto; try lia; discriminate.
    + rewrite D by auto. f_equal. cbn [d_line xagain]. eapply IH; eauto; try lia. unfold spot_of in *. rewrite C in *. destruct (d_block d); [discriminate|]. intros _. split; auto. symmetry. auto.
Qed.
Lemma xrows_same_all : forall d, lua_writable pr on_line d = true -> xrows_same d.
Proof.
  intros d. induction d as [d IH] using dir_ind'. intros W k mp line C L. destruct (lw_inv pr on_line d W C L) as (_ & _ & _ & WB). destruct d as [nm ln args file inc blk cm mp0].
  unfold xagain. cbn [d_name d_args d_block d_line d_comment rows] in *. rewrite C. unfold is_comment at 1. cbn [d_name d_comment]. rewrite andb_false_r.
  destruct blk as [b|]; [|reflexivity]. destruct (WB b eq_refl) as [A W']. cbn [opt_list] in IH. unfold head_text. cbn [d_name d_args]. f_equal. f_equal.
  eapply xrows_again; eauto; try lia. rewrite forallb_forall in W'. rewrite Forall_forall in *. auto.
Qed.
(** Without comments: the lines do not matter. *)
Definition xquiet_same (d : directive) : Prop := forall k L L' r r' mp line, (forall l l', rows_loop bo (rows bo k) k l r = rows_loop bo (rows bo k) k l' r') ->
  rows_loop bo (rows bo k) k L (xreread false lab mp line d ++ r) = rows_loop bo (rows bo k) k L' (quiet d ++ r').
Lemma xquiet_loop : forall k ds, Forall xquiet_same ds -> forall mp m inc La line L L',
  rows_loop bo (rows bo k) k L (List.concat (xplace (xreread false lab mp) xbottom m inc La line ds)) = rows_loop bo (rows bo k) k L' (flat_map quiet ds).
Proof.
  intros k ds F. induction F as [|d ds D F IH]; intros mp m inc La line L L'; [reflexivity|]. cbn [xplace flat_map]. destruct (_ && _)%bool; cbn [List.concat]; apply D; intros; apply IH.
Qed.
Lemma xquiet_all : forall ok d, lua_writable pr ok d = true -> xquiet_same d.
Proof.
  intros ok d. induction d as [d IH] using dir_ind'. intros W k L L' r r' mp line H. destruct (is_comment d) eqn:C.
  - assert (R : xreread false lab mp line d = []) by (destruct d; cbn [xreread]; now rewrite C). assert (Q : quiet d = []) by (destruct d; cbn [quiet]; now rewrite C). rewrite R, Q. apply H.
  - rewrite xreread_stmt, quiet_stmt by auto. cbn [app]. rewrite (xrows_stmt ok k L d) by (auto using xagain_not).
    assert (C' : is_comment (Dir (d_name d) (d_line d) (d_args d) (d_file d) (d_includes d) (match d_block d with Some b => Some (flat_map quiet b) | None => None end) (d_comment d) (d_ismap d)) = false) by (revert C; now destruct d).
    rewrite (xrows_stmt ok k L' d) by auto. destruct (lua_dir d) eqn:LD; [f_equal; apply H|]. destruct (lw_inv pr ok d W C LD) as (_ & _ & _ & WB).
    rewrite (H _ (d_line d)). cbn [d_line]. f_equal. unfold xagain. cbn [rows d_name d_args d_block d_line d_comment]. unfold is_comment at 1. cbn [d_name d_comment]. rewrite andb_false_r.
    rewrite C'. unfold head_text. cbn [d_name d_args]. destruct (d_block d) as [b|]; [|reflexivity]. cbn [opt_list] in IH. f_equal. f_equal. apply xquiet_loop. destruct (WB b eq_refl) as [_ WB']. rewrite forallb_forall in WB'. rewrite Forall_forall in *. auto.
Qed.
End Rebuild.
Lemma lw_weak : forall pr (ok ok' : spot -> bool), (forall s, ok s = true -> ok' s = true) ->
  (forall ds la s, lua_apart ok la s ds = true -> lua_apart ok' la s ds = true) /\ (forall d, lua_writable pr ok d = true -> lua_writable pr ok' d = true).
Proof.
  intros pr ok ok' H. assert (A : forall ds la s, lua_apart ok la s ds = true -> lua_apart ok' la s ds = true).
  { induction ds as [|d ds IH]; intros la s X; auto. cbn [lua_apart] in *. destruct (_ && _)%bool; auto. apply andb_true_iff in X as [X Y]. apply andb_true_iff. auto. }
  split; auto. intros d. induction d as [d IH] using dir_ind'. destruct d as [nm ln args file inc blk cm mp]. cbn [lua_writable d_block] in *. destruct (is_comment _); auto. destruct (lua_dir _); auto. rewrite !andb_true_iff.
  intros [X [Z Y]]. split; auto. split; auto. destruct blk as [b|]; auto. apply andb_true_iff in Y as [Y1 Y2]. apply andb_true_iff. split; auto. cbn [opt_list] in IH. rewrite forallb_forall in *. rewrite Forall_forall in IH. auto.
Qed.
Lemma xround_rows : forall bo keep lab ds, ascii_right (b_print bo) -> b_ext bo = lua_builders -> (b_header bo && keep)%bool = false ->
  lua_writables (b_print bo) (if keep then on_line else not_note) ds = true -> all_rows bo (xround_tree keep (b_header bo) lab ds) = all_rows bo (kept_tree keep ds).
Proof.
  intros bo keep lab ds AR NE HK W0. unfold lua_writables in W0. apply andb_true_iff in W0 as [A W0]. unfold all_rows, kept_tree, xround_tree. destruct keep.
  - destruct (b_header bo); [discriminate|]. eapply (xrows_again bo (b_print bo) AR eq_refl NE); eauto; try lia; try discriminate. rewrite forallb_forall in W0. apply Forall_forall. intros d I. eapply xrows_same_all; eauto.
  - rewrite forallb_forall in W0. destruct (b_header bo); cbn [head_dirs app]; apply xquiet_loop; apply Forall_forall; intros; eapply xquiet_all; eauto.
Qed.
Lemma lua_again : forall bo o f ds, ascii_right (b_print bo) -> b_ext bo = apply_builders [(lua_build, lua_names)] -> (0 <= b_indent bo)%Z -> o_lexers o = apply_lexers [(lua_lex, lua_names)] ->
  (b_header bo && o_comments o)%bool = false ->
  lua_writables (b_print bo) (if o_comments o then on_line else not_note) ds = true -> Forall (legal o []) ds ->
  exists text, build bo ds = Some text /\ (o_open o f = inl text ->
    exists n ds', (forall k, n <= k -> parse_main k o f = ROk (Pay "ok" [] [Cfg f "ok" [] ds'])) /\
      build bo ds' = if o_comments o then Some text else build bo (flat_map quiet ds)).
Proof.
  intros bo o f ds AR NE IN NL HK W LG. pose proof W as W0.
  assert (W' : lua_writables (b_print bo) not_note ds = true).
  { unfold lua_writables in *. apply andb_true_iff in W as [A W]. destruct (lw_weak (b_print bo) (if o_comments o then on_line else not_note) not_note) as [X Y]. { destruct (o_comments o); auto. apply on_not. }
    apply andb_true_iff. split; auto. rewrite forallb_forall in *. auto. }
  destruct (xbuilt_text bo ds AR NE IN W') as (text & B & LX & WF). exists text. split; auto. intros OP.
  unfold lua_writables in W'. apply andb_true_iff in W' as [_ W']. destruct (xround_parse (b_print bo) not_note o f text (b_header bo) ds AR W' LG OP ltac:(rewrite NL; exact LX) WF) as [n N].
  exists n. eexists. split; [exact N|]. rewrite (tree_of_rows bo _ (kept_tree (o_comments o) ds) IN).
  - unfold kept_tree. now destruct (o_comments o).
  - apply xround_rows; auto.
Qed.
