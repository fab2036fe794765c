(** Registrations of external lexers and builders. *)
From Verif Require Export LuaProofs TreeFacts.
Local Open Scope string_scope.

Lemma reg_names : forall A (f : A) names m n,
  assoc n (fold_left (fun m s => assoc_set s f m) names m) = if existsb (String.eqb n) names then Some f else assoc n m.
Proof.
  induction names as [|k names IH]; intros m n; auto. cbn [fold_left existsb]. rewrite IH. destruct (existsb (String.eqb n) names); [now rewrite orb_true_r|].
  rewrite orb_false_r. destruct (String.eqb_spec n k) as [E|E]. - rewrite E. apply assoc_set_same. - apply assoc_set_other. auto.
Qed.
Lemma reg_fold : forall A (rs : list (A * list string)) m n,
  assoc n (fold_left (fun m r => fold_left (fun m s => assoc_set s (fst r) m) (snd r) m) rs m) = registered n rs (assoc n m).
Proof.
  induction rs as [|r rs IH]; intros m n; auto. cbn [fold_left registered]. rewrite IH, reg_names. reflexivity.
Qed.
Lemma reg_lexers : forall rs n, assoc n (apply_lexers rs) = registered n rs None.
Proof. intros rs n. apply (reg_fold ext_lexer rs [] n). Qed.
Lemma reg_builders : forall rs n, assoc n (apply_builders rs) = registered n rs None.
Proof. intros rs n. apply (reg_fold builder rs [] n). Qed.

(** Lexing depends on the looked up lexers only. *)
Lemma body_lookup : forall ext ext' s la rest, (forall n, assoc n ext = assoc n ext') -> lex_body ext s la rest = lex_body ext' s la rest.
Proof. intros ext ext' s la rest H. unfold lex_body. now rewrite H. Qed.
Lemma run_lookup : forall ext ext' rs k s, (forall n, assoc n ext = assoc n ext') -> lex_run ext k s rs = lex_run ext' k s rs.
Proof.
  induction rs as [|la rs IH]; intros k s H; auto. cbn [lex_run]. destruct k as [|k]; [|auto]. unfold lex_step. rewrite (body_lookup ext ext') by auto.
  destruct (lex_body ext' (lex_read s la) la rs) as [r n]. destruct (r_ctl r) as [|la'|] eqn:E; try (rewrite E; now rewrite ?IH).
  rewrite (body_lookup ext ext') by auto. destruct (lex_body ext' (r_st r) la' rs) as [r' n']. cbn [r_ctl r_toks r_st]. now rewrite IH.
Qed.
Lemma lex_lookup : forall ext ext' s, (forall n, assoc n ext = assoc n ext') -> lex ext s = lex ext' s.
Proof. intros. now apply run_lookup. Qed.

Lemma margin_ext : forall o e depth, margin (with_ext o e) depth = margin o depth.
Proof. reflexivity. Qed.
Lemma head_ext : forall o e d, build_head (with_ext o e) d = build_head o d.
Proof. reflexivity. Qed.
Lemma loop_ext : forall o e depth f g ds nl last, (forall d, In d ds -> f d = g d) ->
  (forall d, In d ds -> assoc (enquote (b_print o) (d_name d)) (b_ext o) = assoc (enquote (b_print o) (d_name d)) e) ->
  build_loop o depth f nl last ds = build_loop (with_ext o e) depth g nl last ds.
Proof.
  intros o e depth f g. induction ds as [|d ds IH]; intros nl last F A; auto. cbn [build_loop]. rewrite (margin_ext o e).
  assert (I1 : forall nl last, build_loop o depth f nl last ds = build_loop (with_ext o e) depth g nl last ds) by (intros; apply IH; intros; [apply F|apply A]; now right).
  rewrite !I1. destruct (_ && _)%bool; auto. cbn [with_ext b_print b_ext]. rewrite (A d) by now left. rewrite (F d) by now left. destruct (margin o depth); auto.
Qed.
Lemma stmt_ext : forall o e d depth, (forall n, In n (asked (b_print o) d) -> assoc n (b_ext o) = assoc n e) -> build_stmt o depth d = build_stmt (with_ext o e) depth d.
Proof.
  intros o e d. induction d as [d IH] using dir_ind'. intros depth H. destruct d as [nm line args file incl block cmt mp]. cbn [build_stmt d_block d_line] in *.
  destruct (is_comment _); auto. destruct block as [b|]; [|reflexivity]. cbn [with_ext]. rewrite (margin_ext o e).
  rewrite (loop_ext o e (depth + 1) (build_stmt o (depth + 1)) (build_stmt (with_ext o e) (depth + 1))); [reflexivity| |].
  - intros d I. cbn [opt_list] in IH. rewrite Forall_forall in IH. apply IH; auto. intros n N. apply H. cbn [asked d_block d_name]. right. apply in_concat. exists (asked (b_print o) d). split; auto. now apply in_map.
  - intros d I. apply H. cbn [asked d_block d_name]. right. apply in_concat. exists (asked (b_print o) d). split; [now apply in_map|]. destruct d. now left.
Qed.
Lemma build_ext : forall o e ds, (forall d n, In d ds -> In n (asked (b_print o) d) -> assoc n (b_ext o) = assoc n e) -> build o ds = build (with_ext o e) ds.
Proof.
  intros o e ds H. unfold build, build_block. change (default_indent (with_ext o e)) with (with_ext (default_indent o) e).
  rewrite (loop_ext (default_indent o) e 0 (build_stmt (default_indent o) 0) (build_stmt (with_ext (default_indent o) e) 0)); [reflexivity| |].
  - intros d I. apply stmt_ext. intros n N. now apply (H d).
  - intros d I. apply (H d); auto. destruct d. now left.
Qed.
Lemma build_one : forall o d f, assoc (enquote (b_print o) (d_name d)) (b_ext o) = Some f -> d_line d <> 0%Z ->
  build o [d] = Some ((if b_header o then header else "") ++ chomp (f d)).
Proof.
  intros o d f A L. unfold build, build_block. cbn [build_loop]. rewrite (proj2 (Z.eqb_neq _ _) L). cbn [andb].
  assert (M : margin (default_indent o) 0 = Some "") by (unfold margin; cbn [Z.mul]; cbn; destruct (b_tabs o); reflexivity).
  rewrite M. cbn [obind default_indent b_print b_ext b_header]. rewrite A. cbn [obind String.append]. now rewrite app_nil_r_s.
Qed.
