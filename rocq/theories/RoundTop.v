(** C09: the whole text. *)
From Verif Require Export RoundTokens.
Local Open Scope string_scope.

Definition eff_indent (o : bopts) : Z := if Z.eqb (b_indent o) 0 then 4%Z else b_indent o.
Definition margin_gap (o : bopts) (k : nat) : gap := if b_tabs o then repeat s_tab k else repeat s_sp (k * Z.to_nat (eff_indent o)).
Lemma concat_repeat : forall n s, concat_str (repeat s n) = times n s.
Proof. induction n as [|n IH]; intros s; cbn; auto. now rewrite IH. Qed.
Lemma margin_text : forall o k, concat_str (margin_gap o k) = blanks (eff_indent o) (b_tabs o) k.
Proof. intros o k. unfold margin_gap, blanks. destruct (b_tabs o); rewrite concat_repeat; auto. apply times_mul. Qed.
Lemma margin_ok : forall o k, gap_ok (margin_gap o k) = true /\ newl (margin_gap o k) = 0%Z.
Proof.
  intros o k. unfold margin_gap, newl. assert (G : forall n s, (one_char s && white s)%bool = true -> newlines s = 0%Z -> gap_ok (repeat s n) = true /\ newlines (concat_str (repeat s n)) = 0%Z).
  { induction n as [|n IH]; intros s A B; [split; reflexivity|]. destruct (IH s A B) as [I1 I2]. cbn [repeat gap_ok forallb concat_str]. rewrite newlines_app_s, A, B, I2. split; [exact I1|reflexivity]. }
  destruct (b_tabs o); apply G; reflexivity.
Qed.
Lemma suffix_iff : forall s, has_suffix s s_nl = true <-> exists t, s = t ++ s_nl.
Proof. intros s. apply has_suffix_iff. Qed.
Lemma suffix_right : forall a b t, a ++ b = t ++ s_nl -> b <> "" -> exists t', b = t' ++ s_nl.
Proof.
  induction a as [|c a IH]; intros b t E N; [eauto|]. destruct t as [|x t]; cbn in E; inversion E as [[E1 E2]].
  - destruct a; [|discriminate]. cbn in E2. congruence.
  - eauto.
Qed.
Lemma lastl_split : forall L prev x, L <> [] -> lastl prev L = Some x -> exists a g, L = (a ++ [(g, x)])%list.
Proof.
  induction L as [|[g y] L IH]; intros prev x N E; [congruence|]. cbn [lastl] in E. destruct L as [|i L].
  - inversion E; subst. exists [], g. reflexivity.
  - destruct (IH (Some y) x) as (a & g' & ->); auto; [discriminate|]. now exists ((g, y) :: a), g'.
Qed.
Lemma chain_last : forall a prev g x, chain prev (a ++ [(g, x)]) = true -> lexeme_ok x = true.
Proof. intros a prev g x H. rewrite chain_app in H. cbn [chain] in H. rewrite !andb_true_iff in H. tauto. Qed.
Lemma no_chomp : forall L x prev, L <> [] -> chain prev L = true -> lastl prev L = Some x -> match x with Word _ | Quoted _ _ => False | _ => True end ->
  chomp (rtext L) = rtext L.
Proof.
  intros L x prev N C E M. destruct (lastl_split L prev x N E) as (a & g & ->). apply chain_last in C. unfold chomp.
  destruct (has_suffix (rtext (a ++ [(g, x)])) s_nl) eqn:H; auto. exfalso. apply suffix_iff in H as [t H]. rewrite rtext_app, rtext_cons in H. change (rtext []) with "" in H. rewrite app_nil_r_s in H.
  rewrite <- app_assoc_s in H. apply suffix_right in H as [t' H].
  - apply (f_equal newlines) in H. rewrite newlines_app_s in H. change (newlines s_nl) with 1%Z in H. assert (P : (0 <= newlines t')%Z) by (unfold newlines; lia).
    assert (Z0 : newlines (lexeme_src x) = 0%Z); [|lia]. destruct x as [ps|q ps|c|ps]; try contradiction; cbn [lexeme_ok lexeme_src] in *.
    + apply mem_In in C. cbn in C. destruct C as [<-|[<-|[<-|[]]]]; reflexivity.
    + rewrite newlines_app_s, one_line_nls; auto; revert C; apply forallb_weaken; intros p X; now apply andb_true_iff in X.
  - destruct x as [ps|q ps|c|ps]; try contradiction; cbn [lexeme_ok lexeme_src] in *; [|discriminate]. apply mem_In in C. cbn in C. destruct C as [<-|[<-|[<-|[]]]]; discriminate.
Qed.

Definition head_notes : list item_ := match map (fun c => Note (arg_pieces c)) header_notes with
  | [a; b; c] => [([], a); ([s_nl], b); ([s_nl], c)] | _ => [] end.
Definition head_stmts : list stmt := match header_notes with
  | [a; b; c] => [SCom (Tok ("#" ++ a) 1 false None); SCom (Tok ("#" ++ b) 2 false None); SCom (Tok ("#" ++ c) 3 false None)] | _ => [] end.
Lemma head_facts : chain None head_notes = true /\ (exists ps, lastl None head_notes = Some (Note ps)) /\ tokens_of 1 head_notes = flat head_stmts /\ after 1 head_notes = 3%Z /\ Forall wf_stmt head_stmts /\
  rtext head_notes ++ s_nl ++ s_nl = header.
Proof.
  repeat split; try (vm_compute; reflexivity).
  - eexists. vm_compute. reflexivity.
  - repeat constructor; unfold hash; cbn; eauto.
Qed.
Definition forest_of (header : bool) (ds : list directive) : list stmt :=
  if header then (head_stmts ++ place plant bottom 2 2 0 3 ds)%list else place plant bottom 0 0 0 1 ds.
Lemma render_last : forall L tl, render L tl = rtext L ++ concat_str tl.
Proof. induction L as [|[g x] L IH]; intros tl; [reflexivity|]. rewrite rtext_cons. cbn [render]. now rewrite IH, !app_assoc_s. Qed.
Definition top_items (o : bopts) (gm g : gap) (ds : list directive) : list item_ := iloop (items (margin_gap o) 0) (nlg (margin_gap o) 0) gm g 0 ds.
(** The text, with or without a line break behind it; it ends with the last directive. *)
Lemma built_full : forall o ds, ascii_right (b_print o) -> b_ext o = [] -> (0 <= b_indent o)%Z -> writables (b_print o) not_note ds = true ->
  exists text, build o ds = Some text /\ (forall tl, tl = [] \/ tl = [s_nl] -> lex [] (text ++ concat_str tl) = flat (forest_of (b_header o) ds)) /\ Forall wf_stmt (forest_of (b_header o) ds) /\
    (ds = [] -> text = if b_header o then header else "") /\ (ds <> [] -> exists a gm g, text = a ++ rtext (top_items o gm g ds)).
Proof.
  intros o ds AR NE IN W. unfold writables in W. apply andb_true_iff in W as [AP W]. rewrite (build_rows o ds IN). fold (eff_indent o).
  pose proof (fun pre N => top_text o (b_print o) AR eq_refl NE (eff_indent o) (b_tabs o) (margin_gap o) (margin_text o) not_note ds pre W N) as TT.
  assert (SP : Forall (item_spec (margin_gap o)) ds).
  { rewrite forallb_forall in W. apply Forall_forall. intros d I. apply (items_spec (b_print o) AR (margin_gap o) (margin_ok o)). auto. }
  assert (NO : Forall (fun d => is_comment d = true -> note_ok (comment_text d) = true) ds).
  { rewrite forallb_forall in W. apply Forall_forall. intros d I. apply (writable_note (b_print o) not_note). auto. }
  pose proof (loop_spec (margin_gap o) (margin_ok o) ds 0 SP NO) as LS.
  assert (WF : forall m inc la l, Forall wf_stmt (place plant bottom m inc la l ds)) by (intros; eapply place_wf; eauto).
  assert (CH : chomp (rows_text (eff_indent o) (b_tabs o) (all_rows o ds)) = rows_text (eff_indent o) (b_tabs o) (all_rows o ds)).
  { destruct ds as [|d ds]; [reflexivity|]. specialize (TT [] ltac:(discriminate)). cbn [concat_str String.append app] in TT. rewrite <- TT.
    destruct (LS one [] 0%Z Top None 0%Z AP eq_refl eq_refl I (fun _ => I)) as (C & M & _).
    assert (NN : iloop (items (margin_gap o) 0) (nlg (margin_gap o) 0) one [] 0 (d :: ds) <> []).
    { cbn [iloop]. destruct (_ && _)%bool; [discriminate|]. destruct d as [nm ln args file inc blk cm mp]. cbn [items]. destruct (is_comment _); [discriminate|]. cbn [d_block]. destruct blk; discriminate. }
    destruct (lastl None (iloop (items (margin_gap o) 0) (nlg (margin_gap o) 0) one [] 0 (d :: ds))) as [x|] eqn:E.
    - apply (no_chomp _ x None NN C E). destruct x; auto.
    - exfalso. destruct (iloop (items (margin_gap o) 0) (nlg (margin_gap o) 0) one [] 0 (d :: ds)) as [|[g y] L]; [congruence|]. cbn [lastl] in E. clear - E. revert y E. induction L as [|[g z] L IH]; intros y E; [discriminate|]. cbn [lastl] in E. eauto. }
  rewrite CH. eexists. split; [reflexivity|]. destruct head_facts as (H1 & (ps & H2) & H3 & H4 & H5 & H6). unfold forest_of.
  assert (TG : forall tl, tl = [] \/ tl = [s_nl] -> gap_ok tl = true /\ forall x, match x with Some (Word _) | Some (Quoted _ _) => False | _ => True end -> fits x tl None = true).
  { intros tl [->| ->]; (split; [reflexivity|]); intros [[| | |]|]; (contradiction || reflexivity). }
  destruct (b_header o).
  - assert (FW : Forall wf_stmt (head_stmts ++ place plant bottom 2 2 0 3 ds)) by (apply Forall_app; auto).
    destruct ds as [|d ds].
    + change (all_rows o []) with (@nil row). cbn [rows_text map concat_str]. rewrite app_nil_r_s. split; [|split; [auto|split; [auto|congruence]]]. intros tl [->| ->]; vm_compute; reflexivity.
    + assert (EQ : header ++ rows_text (eff_indent o) (b_tabs o) (all_rows o (d :: ds)) = rtext head_notes ++ rtext (top_items o ([s_nl; s_nl] ++ one)%list [s_nl; s_nl] (d :: ds))).
      { rewrite <- H6. specialize (TT [s_nl; s_nl] ltac:(discriminate)). cbn [concat_str] in TT. rewrite app_nil_r_s in TT. rewrite !app_assoc_s in *. rewrite <- TT. reflexivity. }
      split; [|split; [auto|split; [discriminate|intros _; do 3 eexists; exact EQ]]]. intros tl TL. destruct (TG tl TL) as [TG1 TG2]. rewrite EQ, <- rtext_app, <- render_last. unfold top_items.
      destruct (LS ([s_nl; s_nl] ++ one)%list [s_nl; s_nl] 0%Z Top (Some (Note ps)) 3%Z AP eq_refl eq_refl) as (C & M & T & _).
      { cbn. eauto. }
      { intros _. cbn. eauto. }
      change (newl ([s_nl; s_nl] ++ one)%list) with 2%Z in T. change (newl [s_nl; s_nl]) with 2%Z in T.
      assert (TK : tokens_of 1 (head_notes ++ iloop (items (margin_gap o) 0) (nlg (margin_gap o) 0) ([s_nl; s_nl] ++ one)%list [s_nl; s_nl] 0 (d :: ds)) = flat (head_stmts ++ place plant bottom 2 2 0 3 (d :: ds))).
      { rewrite tokens_app, H3, H4, T. unfold flat. now rewrite flat_map_app. }
      rewrite <- TK. apply lex_layout; [|rewrite TK; now apply flat_proper]. rewrite laid_chain, chain_app, lastl_app, H1, H2, C. cbn [laid andb]. rewrite TG1, TG2; auto.
  - change ("" ++ ?x) with x. destruct ds as [|d ds].
    + split; [|split; [auto|split; [auto|congruence]]]. intros tl [->| ->]; vm_compute; reflexivity.
    + specialize (TT [] ltac:(discriminate)). change (concat_str [] ++ ?x) with x in TT. cbn [app] in TT.
      split; [|split; [auto|split; [discriminate|intros _; exists "", one, []; symmetry; exact TT]]]. intros tl TL. destruct (TG tl TL) as [TG1 TG2]. rewrite <- TT, <- render_last.
      destruct (LS one [] 0%Z Top None 1%Z AP eq_refl eq_refl I (fun _ => I)) as (C & M & T & _). change (newl one) with 0%Z in T. change (newl []) with 0%Z in T. rewrite <- T.
      apply lex_layout; [|rewrite T; now apply flat_proper]. rewrite laid_chain, C. cbn [laid andb]. rewrite TG1, TG2; auto.
Qed.
Lemma built_text : forall o ds, ascii_right (b_print o) -> b_ext o = [] -> (0 <= b_indent o)%Z -> writables (b_print o) not_note ds = true ->
  exists text, build o ds = Some text /\ lex [] text = flat (forest_of (b_header o) ds) /\ Forall wf_stmt (forest_of (b_header o) ds).
Proof.
  intros o ds AR NE IN W. destruct (built_full o ds AR NE IN W) as (text & B & L & F & _). exists text. repeat split; auto. specialize (L [] (or_introl eq_refl)). cbn [concat_str] in L. now rewrite app_nil_r_s in L.
Qed.
