(** C72: Parse depends on the files include directives lead to, and on nothing else. *)
From Verif Require Import ReadProofs.
From Verif Require Export SpecElsewhere IncludeProofs.
Local Open Scope string_scope.

Lemma sort_alike : forall l m, Permutation l m -> sort_strings l = sort_strings m.
Proof.
  intros l m P. apply sorted_same; auto using sort_sorted.
  eapply Permutation_trans; [apply Permutation_sym, sort_perm|]. eapply Permutation_trans; [exact P|apply sort_perm].
Qed.

Section Else.
Variables (o : popts) (filename : string) (open : string -> string + string) (glob : string -> (list string) + string).
Hypothesis A : agree o filename open glob.
Let o' := elsewhere o open glob.
Let dir := dir_name filename.

Section File.
Variables (file content : string).
Hypothesis file_open : o_open o file = inl content.
Hypothesis file_reach : reach o filename file.

Lemma decide_else : forall ctx t r args cs term rest st, here o content (t :: r) -> starts t ->
  read_args (o_comments o) r = Some (args, cs, term, rest) ->
  decide o' dir ctx (fresh o st t args) term st = decide o dir ctx (fresh o st t args) term st.
Proof.
  intros ctx t r args cs term rest st HT ST RA. unfold decide.
  destruct (match read_slice (p_heap st) ctx with [] => None | _ => _ end) as [m|]; [reflexivity|].
  change (o_ignore o') with (o_ignore o). destruct (mem_str _ _); [reflexivity|].
  change (analyze o') with (analyze o). destruct (analyze o _ _ _ _); [reflexivity|].
  destruct (String.eqb (d_name (fresh o st t args)) "if") eqn:IF.
  { destruct (prepare_if _) as [a|]; [|reflexivity]. apply String.eqb_eq in IF.
    change (t_val t = "if") in IF. change (o_single o') with (o_single o).
    replace (String.eqb (d_name (set_args (fresh o st t args) a)) "include") with false
      by (change (false = String.eqb (t_val t) "include"); rewrite IF; reflexivity).
    rewrite andb_false_r. reflexivity. }
  change (o_single o') with (o_single o).
  destruct (o_single o) eqn:SG; [reflexivity|]. cbn [negb andb].
  destruct (String.eqb (d_name (set_args _ _)) "include") eqn:N; [|reflexivity].
  apply String.eqb_eq in N. change (t_val t = "include") in N.
  unfold do_include. cbn [d_args set_args fresh]. destruct args as [|arg more]; [reflexivity|].
  pose proof (here_mention o content t r _ cs term rest arg more HT ST N RA eq_refl) as M.
  destruct (has_magic (resolve dir arg)) eqn:HM.
  - assert (AK : alike (o_glob o (resolve dir arg)) (glob (resolve dir arg))).
    { apply A. split; [exact SG|]. split; [now apply has_magic_iff|]. exists file, content, arg. auto. }
    change (o_glob o') with glob. destruct AK as [l m P|e]; [|reflexivity].
    rewrite (sort_alike _ _ P). reflexivity.
  - assert (RE : reach o filename (resolve dir arg)).
    { apply reach_step with file; auto. apply is_file with content arg; auto. rewrite <- has_magic_iff.
      change (path_of (dir_name filename) arg) with (resolve dir arg). congruence. }
    change (o_open o') with open. rewrite (proj1 A _ RE). reflexivity.
Qed.

Lemma run_else : forall ctx toks st r, Run o dir ctx toks st r -> here o content toks -> Run o' dir ctx toks st r.
Proof.
  intros ctx toks st r H.
  induction H as
    [ctx st|ctx st t r e TE|ctx st t r TE TC|ctx st t r res TE TC TM H IH|ctx st t r ST RA
    |ctx st t r args cs term rest ST RA D|ctx st t r args cs term rest e st' ST RA D
    |ctx st t r args cs term rest st' ST RA D|ctx st t r args cs term rest eat st' res ST RA D H IH
    |ctx st t r args cs term rest d res ST RA D H IH
    |ctx st t r args cs term rest d st' res ST RA D TB H IH
    |ctx st t r args cs term rest d st' h inner blk rest' st'' res ST RA D TB EB H1 IH1 H2 IH2
    |ctx st t r args cs term rest d st' h inner res ST RA D TB EB H IH F];
    intros HT;
    try (pose proof (suffix_cons _ _ _ HT) as TR);
    try (pose proof (suffix_trans _ _ _ (read_args_suffix _ _ _ _ _ _ RA) TR) as TA);
    try (rewrite <- (decide_else ctx t r args cs term rest st HT ST RA) in D).
  - constructor.
  - exact (R_tokerr o' dir ctx st t r e TE).
  - exact (R_close o' dir ctx st t r TE TC).
  - exact (R_comment o' dir ctx st t r res TE TC TM (IH TR)).
  - exact (R_premature o' dir ctx st t r ST RA).
  - exact (R_panic o' dir ctx st t r args cs term rest ST RA D).
  - exact (R_err o' dir ctx st t r args cs term rest e st' ST RA D).
  - exact (R_break o' dir ctx st t r args cs term rest st' ST RA D).
  - apply (R_skip o' dir ctx st t r args cs term rest eat st' res ST RA D). apply IH.
    destruct eat; auto. eapply suffix_trans; [apply consume_suffix|exact TA].
  - exact (R_map o' dir ctx st t r args cs term rest d res ST RA D (IH TA)).
  - exact (R_simple o' dir ctx st t r args cs term rest d st' res ST RA D TB (IH TA)).
  - apply (R_block o' dir ctx st t r args cs term rest d st' h inner blk rest' st'' res ST RA D TB EB (IH1 TA)).
    apply IH2. eapply suffix_trans; [exact (run_suffix _ _ _ _ _ _ H1)|exact TA].
  - exact (R_blockfail o' dir ctx st t r args cs term rest d st' h inner res ST RA D TB EB (IH TA) F).
Qed.
End File.

Lemma file_else : forall path ctx st, reach o filename path ->
  parse_file o' dir path ctx st = parse_file o dir path ctx st.
Proof.
  intros path ctx st RP. unfold parse_file. change (o_open o') with open. rewrite (proj1 A _ RP).
  destruct (o_open o path) as [content|msg] eqn:OP; [|reflexivity].
  change (o_lexers o') with (o_lexers o). set (toks := lex (o_lexers o) content).
  match goal with |- context [parse o dir _ ctx toks ?s] => set (st0 := s) end.
  rewrite (run_parse o' dir ctx toks st0 _ (S (List.length toks)) (Nat.lt_succ_diag_r _)
    (run_else path content OP RP ctx toks st0 _ (parse_run o dir ctx toks st0) (suffix_refl _))).
  reflexivity.
Qed.

Lemma files_else : forall fuel st, between o filename st -> run_files fuel o' dir st = run_files fuel o dir st.
Proof.
  induction fuel as [|fuel IH]; intros st B; cbn [run_files]; destruct (p_queue st) as [|[path ctx] q] eqn:Q; auto.
  assert (RP : reach o filename path).
  { destruct B as [V _]. pose proof (iv_reach _ _ _ _ V) as RA. rewrite Forall_forall in RA. apply RA.
    rewrite <- (iv_files _ _ _ _ V), Q. apply in_app_iff. right. left. reflexivity. }
  rewrite (file_else path ctx (set_queue st q) RP).
  pose proof (between_file o filename path ctx q st B Q) as BF. fold dir in BF.
  destruct (parse_file o dir path ctx (set_queue st q)); auto. apply IH. apply BF.
Qed.

Lemma main_else : forall fuel, parse_main fuel o' filename = parse_main fuel o filename.
Proof.
  intros fuel. unfold parse_main, collect. fold dir. rewrite (files_else fuel _ (between_init o filename)). reflexivity.
Qed.
End Else.

(** The arguments a file mentions, for examples. *)
Fixpoint leading (toks : list token) : list string :=
  match toks with
  | [] => []
  | t :: r => if (negb (t_quoted t) && has_prefix (t_val t) "#")%bool then leading r else [t_val t]
  end.
Fixpoint candidates (toks : list token) : list string :=
  match toks with
  | [] => []
  | t :: r => ((if String.eqb (t_val t) "include" then leading r else []) ++ candidates r)%list
  end.
Lemma first_leading : forall r a, first_arg r a -> In a (leading r).
Proof.
  intros r a H. induction H as [t r N1 N2|t r a Q P H IH]; cbn.
  - destruct (negb (t_quoted t) && has_prefix (t_val t) "#")%bool eqn:E; [|now left].
    apply andb_prop in E. destruct E as [E1 E2]. exfalso. apply N2. destruct (t_quoted t); auto.
  - rewrite Q, P. exact IH.
Qed.
Lemma mentions_candidates : forall o content arg, mentions o content arg -> In arg (candidates (lex (o_lexers o) content)).
Proof.
  intros o content arg (pre & t & r & L & V & _ & F). rewrite L. clear L. induction pre as [|x pre IH]; cbn.
  - apply in_or_app. left. rewrite V. now apply first_leading.
  - apply in_or_app. now right.
Qed.
