(** Proofs for C88. *)
From Verif Require Export SpecTrigger ElsewhereProofs.
Local Open Scope string_scope.

Section Two.
Variables ext ext' : ext_lexers.
Definition agrees (l l' : list token) : Prop := forall t, In t l \/ In t l' -> assoc (t_val t) ext = assoc (t_val t) ext'.

Lemma body_same : forall s la rest, agrees (r_toks (fst (lex_body ext s la rest))) (r_toks (fst (lex_body ext' s la rest))) ->
  lex_body ext s la rest = lex_body ext' s la rest.
Proof.
  intros s la rest. unfold lex_body. destruct (String.eqb la s_cr || String.eqb la ("\" ++ s_cr))%bool; [reflexivity|].
  destruct (String.eqb la "\" && negb (l_esc s))%bool; [reflexivity|]. cbv zeta.
  set (s0 := set_esc s false). set (la0 := if l_esc s then "\" ++ la else la). set (t0 := emit_tok s0 (l_start s0) (lex_state_eqb (l_st s0) InQuote) None).
  destruct (str_nonempty (l_tok s0) && l_ntd s0)%bool; [|reflexivity]. intros A.
  assert (T : forall (e : ext_lexers) f, assoc (l_tok s0) e = Some f ->
    In t0 (r_toks (fst (match assoc (l_tok s0) e with
    | Some f => let '(etoks, n) := f (l_tok s0) (l_line s0) rest in
      if (lex_state_eqb (l_st s0) InQuote && String.eqb la0 (l_quote (set_line (emit_st s0) (l_line s0 + count_eol (firstn n rest)))))%bool then
        (LRes (set_line (emit_st s0) (l_line s0 + count_eol (firstn n rest))) (t0 :: etoks) Next, n)
      else (LRes (r_st (lex_switch (set_line (emit_st s0) (l_line s0 + count_eol (firstn n rest))) la0))
                 (t0 :: etoks ++ r_toks (lex_switch (set_line (emit_st s0) (l_line s0 + count_eol (firstn n rest))) la0))%list
                 (r_ctl (lex_switch (set_line (emit_st s0) (l_line s0 + count_eol (firstn n rest))) la0)), n)
    | None => (lex_switch s0 la0, 0) end)))).
  { intros e f E. rewrite E. destruct (f (l_tok s0) (l_line s0) rest) as [etoks n].
    destruct (lex_state_eqb (l_st s0) InQuote && _)%bool; cbn [fst r_toks]; now left. }
  assert (E : assoc (l_tok s0) ext = assoc (l_tok s0) ext').
  { assert (O : forall e : ext_lexers, assoc (l_tok s0) e = None \/ exists f, assoc (l_tok s0) e = Some f) by (intros e; clear; destruct (assoc (l_tok s0) e); eauto).
    destruct (O ext) as [E1|[f E1]]; [|apply (A t0); left; exact (T ext f E1)].
    destruct (O ext') as [E2|[f E2]]; [congruence|apply (A t0); right; exact (T ext' f E2)]. }
  now rewrite E.
Qed.
Lemma step_same : forall s la rest, agrees (r_toks (fst (lex_step ext s la rest))) (r_toks (fst (lex_step ext' s la rest))) ->
  lex_step ext s la rest = lex_step ext' s la rest.
Proof.
  intros s la rest A.
  assert (P : forall e t, In t (r_toks (fst (lex_body e (lex_read s la) la rest))) -> In t (r_toks (fst (lex_step e s la rest)))).
  { intros e t I. unfold lex_step. destruct (lex_body e (lex_read s la) la rest) as [r n]. cbn [fst] in I.
    destruct (r_ctl r); try exact I. destruct (lex_body e (r_st r) la0 rest). cbn [fst r_toks]. apply in_or_app. now left. }
  assert (B : lex_body ext (lex_read s la) la rest = lex_body ext' (lex_read s la) la rest).
  { apply body_same. intros t [I|I]; apply A; [left|right]; apply P; exact I. }
  clear P. unfold lex_step in *. rewrite <- B in *. destruct (lex_body ext (lex_read s la) la rest) as [r n]. destruct (r_ctl r) as [|la'|]; try reflexivity.
  assert (C : lex_body ext (r_st r) la' rest = lex_body ext' (r_st r) la' rest).
  { apply body_same. intros t I. apply A. destruct (lex_body ext (r_st r) la' rest), (lex_body ext' (r_st r) la' rest). cbn [fst r_toks] in *.
    destruct I; [left|right]; apply in_or_app; now right. }
  now rewrite C.
Qed.
Lemma run_same : forall rs skip s, agrees (lex_run ext skip s rs) (lex_run ext' skip s rs) -> lex_run ext skip s rs = lex_run ext' skip s rs.
Proof.
  induction rs as [|la rest IH]; intros skip s A; [reflexivity|]. cbn [lex_run] in *. destruct skip as [|k]; [|now apply IH].
  assert (P : forall (e : ext_lexers) t, In t (r_toks (fst (lex_step e s la rest))) ->
    In t (let '(r, n) := lex_step e s la rest in match r_ctl r with Stop => r_toks r | _ => (r_toks r ++ lex_run e n (r_st r) rest)%list end)).
  { intros e t I. destruct (lex_step e s la rest) as [r n]. cbn [fst] in I. destruct (r_ctl r); auto using in_or_app. }
  assert (B : lex_step ext s la rest = lex_step ext' s la rest).
  { apply step_same. intros t [I|I]; apply A; [left|right]; apply P; exact I. }
  clear P. rewrite <- B in *. destruct (lex_step ext s la rest) as [r n].
  destruct (r_ctl r); try reflexivity; f_equal; apply IH; intros t I; apply A; destruct I; [left|right|left|right]; apply in_or_app; now right.
Qed.
End Two.
Lemma lex_asked : forall ext ext' s, (forall t, read_with ext ext' s t -> same_lexer ext ext' (t_val t)) -> lex ext s = lex ext' s.
Proof. intros ext ext' s A. apply (run_same ext ext'). exact A. Qed.
Lemma lex_map : forall ext ext' s, (forall name, same_lexer ext ext' name) -> lex ext s = lex ext' s.
Proof. intros ext ext' s A. apply lex_asked. auto. Qed.

Section Main.
  Variables (o : popts) (ext : ext_lexers).
  Let o' := with_lexers o ext.
  Lemma decide_with : forall dir ctx d term st, decide o' dir ctx d term st = decide o dir ctx d term st.
  Proof. reflexivity. Qed.
  Lemma run_with : forall dir ctx toks st r, Run o dir ctx toks st r -> Run o' dir ctx toks st r.
  Proof.
    intros dir ctx toks st r H.
    induction H as
      [ctx st|ctx st t r e TE|ctx st t r TE TC|ctx st t r res TE TC TM H IH|ctx st t r ST RA
      |ctx st t r args cs term rest ST RA D|ctx st t r args cs term rest e st' ST RA D
      |ctx st t r args cs term rest st' ST RA D|ctx st t r args cs term rest eat st' res ST RA D H IH
      |ctx st t r args cs term rest d res ST RA D H IH
      |ctx st t r args cs term rest d st' res ST RA D TB H IH
      |ctx st t r args cs term rest d st' h inner blk rest' st'' res ST RA D TB EB H1 IH1 H2 IH2
      |ctx st t r args cs term rest d st' h inner res ST RA D TB EB H IH F].
    - constructor.
    - exact (R_tokerr o' dir ctx st t r e TE).
    - exact (R_close o' dir ctx st t r TE TC).
    - exact (R_comment o' dir ctx st t r res TE TC TM IH).
    - exact (R_premature o' dir ctx st t r ST RA).
    - exact (R_panic o' dir ctx st t r args cs term rest ST RA D).
    - exact (R_err o' dir ctx st t r args cs term rest e st' ST RA D).
    - exact (R_break o' dir ctx st t r args cs term rest st' ST RA D).
    - exact (R_skip o' dir ctx st t r args cs term rest eat st' res ST RA D IH).
    - exact (R_map o' dir ctx st t r args cs term rest d res ST RA D IH).
    - exact (R_simple o' dir ctx st t r args cs term rest d st' res ST RA D TB IH).
    - exact (R_block o' dir ctx st t r args cs term rest d st' h inner blk rest' st'' res ST RA D TB EB IH1 IH2).
    - exact (R_blockfail o' dir ctx st t r args cs term rest d st' h inner res ST RA D TB EB IH F).
  Qed.
  Hypothesis A : forall f text t, o_open o f = inl text -> read_with (o_lexers o) ext text t -> same_lexer (o_lexers o) ext (t_val t).
  Lemma file_with : forall dir path ctx st, parse_file o' dir path ctx st = parse_file o dir path ctx st.
  Proof.
    intros dir path ctx st. unfold parse_file. change (o_open o') with (o_open o). change (o_lexers o') with ext.
    destruct (o_open o path) as [content|msg] eqn:OP; [|reflexivity]. rewrite <- (lex_asked (o_lexers o) ext content (fun t => A path content t OP)).
    set (toks := lex (o_lexers o) content).
    match goal with |- context [parse o dir _ ctx toks ?s] => set (st0 := s) end.
    rewrite (run_parse o' dir ctx toks st0 _ (S (List.length toks)) (Nat.lt_succ_diag_r _) (run_with dir ctx toks st0 _ (parse_run o dir ctx toks st0))). reflexivity.
  Qed.
  Lemma main_with : forall fuel filename, parse_main fuel o' filename = parse_main fuel o filename.
  Proof.
    intros fuel filename. unfold parse_main, collect.
    assert (R : forall k st, run_files k o' (dir_name filename) st = run_files k o (dir_name filename) st).
    { induction k as [|k IH]; intros st; cbn [run_files]; destruct (p_queue st) as [|[path ctx] q]; auto.
      rewrite file_with. destruct (parse_file o _ path ctx _); auto. }
    rewrite R. reflexivity.
  Qed.
End Main.
