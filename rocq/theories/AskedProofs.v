(** C87: the names Parse asks about. *)
From Verif Require Export SpecAsked ElsewhereProofs.
Local Open Scope string_scope.

Lemma mem_same : forall n l m, (In n l <-> In n m) -> mem_str n l = mem_str n m.
Proof.
  intros n l m H. assert (M : forall l, mem_str n l = true <-> In n l).
  { clear. intros l. unfold mem_str. rewrite existsb_exists. split; [intros (x & I & E); apply String.eqb_eq in E; now subst|intros I; exists n; split; [auto|apply String.eqb_refl]]. }
  apply eq_iff_eq_true. rewrite !M. exact H.
Qed.
Lemma source_masks_map : forall name l m, map (fun f : match_func => f name) l = map (fun f => f name) m -> source_masks l name = source_masks m name.
Proof.
  intros name l m. unfold source_masks. generalize (@nil N, false) as a. revert m. induction l as [|f l IH]; intros [|g m] a E; try discriminate; [reflexivity|].
  injection E as E1 E2. cbn [fold_left]. rewrite E1. now apply IH.
Qed.
Lemma find_masks_about : forall o o' name, same_about o o' name -> find_masks o' name = find_masks o name.
Proof.
  intros o o' name (_ & S & D). unfold find_masks. rewrite (source_masks_map name _ _ S), D.
  destruct (o_sources o), (o_sources o'); try discriminate; reflexivity.
Qed.

Section Asked.
  Variables (o : popts) (ignore : list string) (sources : list match_func) (default : match_func).
  Let o' := with_names o ignore sources default.
  Lemma decide_about : forall dir ctx d term st, same_about o o' (d_name d) -> decide o' dir ctx d term st = decide o dir ctx d term st.
  Proof.
    intros dir ctx d term st S. unfold decide. change (o_stop o') with (o_stop o). change (o_single o') with (o_single o). change (handle_error o') with (handle_error o).
    rewrite <- (mem_same (d_name d) (o_ignore o) (o_ignore o') (proj1 S)).
    assert (AN : forall f cl, analyze o' f d term cl = analyze o f d term cl) by (intros f cl; unfold analyze; rewrite (find_masks_about o o' _ S); reflexivity).
    rewrite AN. reflexivity.
  Qed.
  Lemma run_about : forall dir ctx toks st r, Run o dir ctx toks st r -> (forall t, In t toks -> same_about o o' (t_val t)) -> Run o' dir ctx toks st r.
  Proof.
    intros dir ctx toks st r H.
    induction H as
      [ctx st|ctx st t r e TE|ctx st t r TE TC|ctx st t r res TE TC TM H IH|ctx st t r ST RA
      |ctx st t r args cs term rest ST RA D|ctx st t r args cs term rest e st' ST RA D
      |ctx st t r args cs term rest st' ST RA D|ctx st t r args cs term rest eat st' res ST RA D H IH
      |ctx st t r args cs term rest d res ST RA D H IH
      |ctx st t r args cs term rest d st' res ST RA D TB H IH
      |ctx st t r args cs term rest d st' h inner blk rest' st'' res ST RA D TB EB H1 IH1 H2 IH2
      |ctx st t r args cs term rest d st' h inner res ST RA D TB EB H IH F];
      intros HT;
      try (assert (TR : forall x, In x r -> same_about o o' (t_val x)) by (intros x X; apply HT; now right));
      try (assert (TA : forall x, In x rest -> same_about o o' (t_val x)) by (intros x X; destruct (read_args_suffix _ _ _ _ _ _ RA) as [pre E]; apply TR; rewrite E; apply in_app_iff; now right));
      try (rewrite <- decide_about in D by (cbn [d_name fresh]; apply HT; now left)).
    - constructor.
    - exact (R_tokerr o' dir ctx st t r e TE).
    - exact (R_close o' dir ctx st t r TE TC).
    - exact (R_comment o' dir ctx st t r res TE TC TM (IH TR)).
    - exact (R_premature o' dir ctx st t r ST RA).
    - exact (R_panic o' dir ctx st t r args cs term rest ST RA D).
    - exact (R_err o' dir ctx st t r args cs term rest e st' ST RA D).
    - exact (R_break o' dir ctx st t r args cs term rest st' ST RA D).
    - apply (R_skip o' dir ctx st t r args cs term rest eat st' res ST RA D). apply IH.
      destruct eat; auto. intros x X. destruct (consume_suffix rest 0) as [pre E]. apply TA. rewrite E. apply in_app_iff. now right.
    - exact (R_map o' dir ctx st t r args cs term rest d res ST RA D (IH TA)).
    - exact (R_simple o' dir ctx st t r args cs term rest d st' res ST RA D TB (IH TA)).
    - apply (R_block o' dir ctx st t r args cs term rest d st' h inner blk rest' st'' res ST RA D TB EB (IH1 TA)).
      apply IH2. intros x X. destruct (run_suffix _ _ _ _ _ _ H1) as [pre E]. apply TA. rewrite E. apply in_app_iff. now right.
    - exact (R_blockfail o' dir ctx st t r args cs term rest d st' h inner res ST RA D TB EB (IH TA) F).
  Qed.
  Hypothesis A : forall name, a_word o name -> same_about o o' name.
  Lemma file_about : forall dir path ctx st, parse_file o' dir path ctx st = parse_file o dir path ctx st.
  Proof.
    intros dir path ctx st. unfold parse_file. change (o_open o') with (o_open o). change (o_lexers o') with (o_lexers o).
    destruct (o_open o path) as [content|msg] eqn:OP; [|reflexivity]. set (toks := lex (o_lexers o) content).
    match goal with |- context [parse o dir _ ctx toks ?s] => set (st0 := s) end.
    assert (W : forall t, In t toks -> same_about o o' (t_val t)) by (intros t T; apply A; exists path, content, t; auto).
    rewrite (run_parse o' dir ctx toks st0 _ (S (List.length toks)) (Nat.lt_succ_diag_r _)
      (run_about dir ctx toks st0 _ (parse_run o dir ctx toks st0) W)). reflexivity.
  Qed.
  Lemma main_about : forall fuel filename, parse_main fuel o' filename = parse_main fuel o filename.
  Proof.
    intros fuel filename. unfold parse_main, collect.
    assert (R : forall k st, run_files k o' (dir_name filename) st = run_files k o (dir_name filename) st).
    { induction k as [|k IH]; intros st; cbn [run_files]; destruct (p_queue st) as [|[path ctx] q]; auto.
      rewrite file_about. destruct (parse_file o _ path ctx _); auto. }
    rewrite R. reflexivity.
  Qed.
End Asked.
Lemma ignore_set : forall fuel o names filename, (forall n, In n (o_ignore o) <-> In n names) ->
  parse_main fuel (with_ignore o names) filename = parse_main fuel o filename.
Proof. intros fuel o names filename S. apply (main_about o names (o_sources o) (o_default o)). intros n _. split; [apply S|split; reflexivity]. Qed.
Lemma ignore_absent : forall fuel o names filename, (forall n, In n names -> ~ a_word o n) ->
  parse_main fuel (with_ignore o (names ++ o_ignore o)) filename = parse_main fuel o filename.
Proof.
  intros fuel o names filename S. apply (main_about o (names ++ o_ignore o) (o_sources o) (o_default o)). intros n W. split; [|split; reflexivity].
  cbn. rewrite in_app_iff. split; [auto|]. intros [I|I]; [exfalso; exact (S n I W)|exact I].
Qed.
