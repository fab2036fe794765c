(** Words of parsed configs (C48). *)
From Verif Require Export SpecWords Effects SpecLex.
From Verif Require Import LexProofs.
Local Open Scope string_scope.

Lemma spelled_skips : forall a ws b, spelled ws b -> spelled ws (a ++ b).
Proof. induction a as [|t a IH]; intros ws b H; cbn; auto. apply sp_skip. auto. Qed.
Lemma spelled_app : forall a x b y, spelled a x -> spelled b y -> spelled (a ++ b) (x ++ y).
Proof.
  intros a x b y H. revert b y. induction H as [ts|w ws t ts W H IH|ws t ts H IH]; intros b y K; cbn.
  - now apply spelled_skips.
  - apply sp_word; auto.
  - apply sp_skip; auto.
Qed.

Lemma has_prefix_prefix : forall p s, has_prefix s p = prefix p s.
Proof.
  induction p as [|c p IH]; intros [|d s]; cbn; auto.
Qed.
Lemma not_mark : forall t, is_term t = false -> tok_comment t = false -> mark t = false.
Proof.
  intros t A B. unfold is_term, tok_is, tok_comment, mark in *. rewrite has_prefix_prefix in B.
  destruct (t_quoted t); cbn in *; auto. rewrite andb_true_r in B. rewrite B.
  destruct (String.eqb (t_val t) "{"), (String.eqb (t_val t) ";"), (String.eqb (t_val t) "}"); cbn in *; auto; discriminate.
Qed.
Lemma read_args_spelled : forall cm toks args cs term rest,
  read_args cm toks = Some (args, cs, term, rest) ->
  exists used, toks = (used ++ rest)%list /\ spelled (map Arg args) used.
Proof.
  intros cm. induction toks as [|t toks IH]; intros args cs term rest H; [discriminate|]. cbn [read_args] in H.
  destruct (is_term t) eqn:TT.
  - inversion H; subst. exists [t]. split; auto. constructor.
  - destruct (read_args cm toks) as [[[[a c] tm] rs]|] eqn:E; [|discriminate].
    destruct (IH _ _ _ _ eq_refl) as (u & -> & S).
    destruct (tok_comment t) eqn:TC; cbn [negb] in H.
    + exists (t :: u). destruct cm; inversion H; subst; (split; [reflexivity|now apply sp_skip]).
    + inversion H; subst. exists (t :: u). split; [reflexivity|]. cbn. apply sp_word; auto.
      split; auto. now apply not_mark.
Qed.

Lemma decide_args : forall o dir ctx d term st d' st',
  decide o dir ctx d term st = DKeep d' st' -> d_name d <> "if" -> d_args d' = d_args d.
Proof.
  intros o dir ctx d term st d' st' H N. unfold decide in H.
  destruct (match read_slice (p_heap st) ctx with [] => None | _ => _ end) as [m|].
  { destruct (analyze_map_body _ _ _ _); [destruct (o_stop o)|]; discriminate. }
  destruct (mem_str _ _); [discriminate|].
  destruct (analyze _ _ _ _ _) as [e|].
  { destruct (o_stop o); [discriminate|].
    destruct (has_suffix _ _); [destruct (negb _)|]; discriminate. }
  apply String.eqb_neq in N. rewrite N in H.
  destruct (_ && _)%bool eqn:INC.
  2:{ inversion H; subst. reflexivity. }
  unfold do_include in H. cbn [d_args set_args] in H. destruct (d_args d) as [|a0 args] eqn:DA; [discriminate|].
  destruct (has_magic _).
  - destruct (o_glob o _) as [fs|msg]; [|discriminate].
    destruct (add_includes _ _ _) as [s is]. inversion H; subst. reflexivity.
  - destruct (o_open o _) as [c|msg].
    + destruct (add_includes _ _ _) as [s is]. inversion H; subst. reflexivity.
    + destruct (o_stop o); [discriminate|]. inversion H; subst. reflexivity.
Qed.

Lemma words_eq : forall d, words d =
  match d_comment d with
  | Some _ => []
  | None => (Name (d_name d) (d_line d) ::
      (if (String.eqb (d_name d) "if" && negb (d_ismap d))%bool then [] else map Arg (d_args d)) ++
      flat_map words (opt_list (d_block d)))%list
  end.
Proof. intros [n l a f i b c m]. cbn. destruct c, b; reflexivity. Qed.
Lemma comments_words : forall o st line cs, flat_map words (comments_of o st line cs) = [].
Proof. intros o st line cs. induction cs as [|c cs IH]; auto. Qed.

(** One statement: name, arguments, then what is in the block. *)
Lemma stmt_words : forall o dir ctx st t r args cs term rest d st' blk bt,
  starts t -> read_args (o_comments o) r = Some (args, cs, term, rest) ->
  decide o dir ctx (fresh o st t args) term st = DKeep d st' ->
  spelled (flat_map words blk) bt ->
  exists used, (t :: r = used ++ rest)%list /\ spelled (words d) used /\ spelled (words (set_block d blk)) (used ++ bt).
Proof.
  intros o dir ctx st t r args cs term rest d st' blk bt ST RA D B.
  destruct (read_args_spelled _ _ _ _ _ _ RA) as (u & -> & S).
  pose proof (decide_shape _ _ _ _ _ _ _ _ D) as (N & L & _ & BK & C & M). cbn in N, L, BK, C, M.
  exists (t :: u). split; [reflexivity|].
  assert (A : spelled (if (String.eqb (d_name d) "if" && negb (d_ismap d))%bool then [] else map Arg (d_args d)) u).
  { rewrite M, andb_true_r. destruct (String.eqb (d_name d) "if") eqn:E; [constructor|].
    apply String.eqb_neq in E. rewrite N in E. now rewrite (decide_args _ _ _ _ _ _ _ _ D E). }
  assert (W : spells (Name (d_name d) (d_line d)) t) by (destruct ST as (TE & _); cbn; auto).
  split.
  - rewrite words_eq, C, BK. cbn [opt_list flat_map]. rewrite app_nil_r. apply sp_word; auto.
  - rewrite words_eq. cbn [set_block d_comment d_name d_line d_ismap d_args d_block opt_list]. rewrite C.
    cbn [app]. apply sp_word; auto. now apply spelled_app.
Qed.

Lemma run_words : forall o dir ctx toks st r, Run o dir ctx toks st r ->
  match r with
  | POk ds rest _ => exists used, toks = (used ++ rest)%list /\ spelled (flat_map words ds) used
  | _ => True
  end.
Proof.
  assert (PA : forall ds res used toks rest, toks = (used ++ rest)%list -> spelled (flat_map words ds) used ->
    match res with POk ds rest' _ => exists u, rest = (u ++ rest')%list /\ spelled (flat_map words ds) u | _ => True end ->
    match padd ds res with POk ds rest' _ => exists u, toks = (u ++ rest')%list /\ spelled (flat_map words ds) u | _ => True end).
  { intros ds [ds' r' s'|e' r' s'| |] used toks rest -> S K; cbn; auto. destruct K as (u & -> & K).
    exists (used ++ u)%list. rewrite app_assoc, flat_map_app. split; auto. now apply spelled_app. }
  intros o dir ctx toks st r H.
  induction H as
    [ctx st|ctx st t r e TE|ctx st t r TE TC|ctx st t r res TE TC TM H IH|ctx st t r ST RA
    |ctx st t r args cs term rest ST RA D|ctx st t r args cs term rest e st' ST RA D
    |ctx st t r args cs term rest st' ST RA D|ctx st t r args cs term rest eat st' res ST RA D H IH
    |ctx st t r args cs term rest d res ST RA D H IH
    |ctx st t r args cs term rest d st' res ST RA D TB H IH
    |ctx st t r args cs term rest d st' h inner blk rest' st'' res ST RA D TB EB H1 IH1 H2 IH2
    |ctx st t r args cs term rest d st' h inner res ST RA D TB EB H IH F]; auto.
  - exists []. split; auto. constructor.
  - exists [t]. split; auto. constructor.
  - eapply PA with (used := [t]); [reflexivity| |exact IH]. destruct (o_comments o); constructor.
  - destruct (read_args_spelled _ _ _ _ _ _ RA) as (u & -> & _). exists (t :: u). split; auto. constructor.
  - destruct (read_args_spelled _ _ _ _ _ _ RA) as (u & -> & _). destruct res as [ds rest' s| | |]; auto.
    destruct IH as (v & E & S). assert (SU : exists p, rest = (p ++ v ++ rest')%list).
    { destruct eat; [destruct (consume_suffix rest 0) as (p & ->); exists p; now rewrite <- E|exists []; auto]. }
    destruct SU as (p & ->). exists (t :: u ++ p ++ v)%list. split; [cbn; now rewrite !app_assoc|].
    apply sp_skip, spelled_skips, spelled_skips, S.
  - destruct (read_args_spelled _ _ _ _ _ _ RA) as (u & -> & S).
    eapply PA with (used := t :: u); [reflexivity| |exact IH]. apply decide_map in D. subst d. cbn.
    rewrite andb_false_r, !app_nil_r. apply sp_word; auto. destruct ST as (TE & _). cbn. auto.
  - destruct (stmt_words _ _ _ _ _ _ _ _ _ _ _ _ [] [] ST RA D (sp_nil [])) as (u & E & S & _).
    eapply PA; [exact E| |exact IH]. cbn [flat_map]. now rewrite comments_words, app_nil_r.
  - cbn in IH1. destruct IH1 as (v & -> & B).
    destruct (stmt_words _ _ _ _ _ _ _ _ _ _ _ _ _ _ ST RA D B) as (u & E & _ & S).
    eapply PA with (used := (u ++ v)%list); [rewrite E; now rewrite app_assoc| |exact IH2].
    cbn [flat_map]. now rewrite comments_words, app_nil_r.
  - destruct res; auto. contradiction.
Qed.

(** ** Whole files *)
Definition worded (o : popts) (c : config) : Prop :=
  exists content, o_open o (cf_file c) = inl content /\
    spelled (flat_map words (cf_parsed c)) (lex (o_lexers o) content).
Definition keeps (a b : pst) : Prop :=
  pl_config (p_pay b) = pl_config (p_pay a) /\ cf_file (p_cur b) = cf_file (p_cur a) /\ cf_parsed (p_cur b) = cf_parsed (p_cur a).
Lemma effect_keeps : forall o ctx st st', effect o ctx st st' -> keeps st st'.
Proof.
  intros o ctx st st' H. destruct H as [|e _|p _|p e _ _|p c _ _|p fs _ _]; try (repeat split; reflexivity).
  - destruct (add_includes_frame ctx [p] (log_open st p)) as (_ & C & P & _). unfold keeps. rewrite C, P. repeat split.
  - destruct (add_includes_frame ctx (sort_strings fs) st) as (_ & C & P & _). unfold keeps. rewrite C, P. repeat split.
Qed.
Lemma run_keeps : forall o dir ctx toks st r, Run o dir ctx toks st r ->
  match r with POk _ _ st' => keeps st st' | PErr _ _ st' => keeps st st' | _ => True end.
Proof.
  intros o dir. apply run_state_rel.
  - intros st. repeat split.
  - intros a b c (A1 & A2 & A3) (B1 & B2 & B3). repeat split; congruence.
  - apply effect_keeps.
  - intros st h. repeat split.
Qed.
Lemma file_worded : forall o dir path ctx st st', parse_file o dir path ctx st = FDone st' ->
  Forall (worded o) (pl_config (p_pay st)) -> Forall (worded o) (pl_config (p_pay st')).
Proof.
  intros o dir path ctx st st' H F. unfold parse_file in H.
  destruct (o_open o path) as [content|msg] eqn:OP; [|discriminate].
  set (toks := lex (o_lexers o) content) in *.
  match type of H with context [parse o dir (S (List.length toks)) ctx toks ?s] => set (s0 := s) in * end.
  destruct (parse o dir (S (List.length toks)) ctx toks s0) as [ds rest s|e rest s| |] eqn:P; try discriminate.
  - pose proof (parse_run o dir ctx toks s0) as R. rewrite P in R.
    destruct (run_keeps _ _ _ _ _ _ R) as (K1 & K2 & _). destruct (run_words _ _ _ _ _ _ R) as (u & E & S).
    inversion H; subst st'. cbn. rewrite K1. apply Forall_app. split; auto. constructor; [|constructor].
    exists content. cbn. rewrite K2. cbn. split; auto. fold toks. rewrite E.
    rewrite <- (app_nil_r (flat_map words ds)). apply spelled_app; auto. constructor.
  - pose proof (parse_run o dir ctx toks s0) as R. rewrite P in R.
    destruct (run_keeps _ _ _ _ _ _ R) as (K1 & K2 & K3).
    destruct (o_stop o); [discriminate|]. inversion H; subst st'. cbn. rewrite K1. apply Forall_app. split; auto.
    constructor; [|constructor]. exists content. cbn. rewrite K2, K3. cbn. split; auto. constructor.
Qed.
Lemma files_worded : forall fuel o dir st st', run_files fuel o dir st = FDone st' ->
  Forall (worded o) (pl_config (p_pay st)) -> Forall (worded o) (pl_config (p_pay st')).
Proof.
  induction fuel as [|fuel IH]; intros o dir st st' H F; cbn [run_files] in H.
  - destruct (p_queue st) as [|[path ctx] q]; inversion H; now subst.
  - destruct (p_queue st) as [|[path ctx] q]; [inversion H; now subst|].
    destruct (parse_file o dir path ctx (set_queue st q)) eqn:E; try discriminate.
    eapply IH; eauto. eapply file_worded; eauto.
Qed.
Lemma parse_words : forall fuel o filename p, o_combine o = false -> parse_main fuel o filename = ROk p ->
  forall c, In c (pl_config p) -> exists content, o_open o (cf_file c) = inl content /\
    spelled (flat_map words (cf_parsed c)) (lex (o_lexers o) content).
Proof.
  intros fuel o filename p NC H. unfold parse_main in H.
  destruct (collect fuel o filename) as [st| | |] eqn:C; try discriminate.
  unfold finish in H. destruct (has_cycle _ _ _); [discriminate|]. rewrite NC in H. inversion H; subst.
  apply Forall_forall. unfold collect in C. eapply files_worded; [exact C|constructor].
Qed.

(** Lines *)
Lemma ascending_weak : forall lo lo' hi ts, (lo' <= lo)%Z -> ascending lo hi ts -> ascending lo' hi ts.
Proof. intros lo lo' hi ts L H. inversion H; subst; constructor; auto; lia. Qed.
Lemma spelled_rising : forall ws ts, spelled ws ts -> forall lo hi, ascending lo hi ts -> rising lo hi (name_lines ws).
Proof.
  assert (HB : forall ts lo hi, ascending lo hi ts -> (lo <= hi)%Z).
  { induction ts as [|t ts IH]; intros lo hi A; inversion A as [|t' ts' L1 L2]; subst; auto. specialize (IH _ _ L2). lia. }
  induction 1 as [ts|w ws t ts W H IH|ws t ts H IH]; intros lo hi A.
  - constructor. eauto.
  - inversion A; subst. destruct w as [s l|s]; cbn in *.
    + destruct W as (_ & <- & _). constructor; auto.
    + apply IH. eapply ascending_weak; eauto.
  - inversion A; subst. apply IH. eapply ascending_weak; eauto.
Qed.
Lemma parse_lines : forall fuel o filename p, o_combine o = false -> o_lexers o = [] -> parse_main fuel o filename = ROk p ->
  forall c, In c (pl_config p) -> exists content, o_open o (cf_file c) = inl content /\
    rising 1 (1 + newlines content) (name_lines (flat_map words (cf_parsed c))).
Proof.
  intros fuel o filename p NC NL H c I. destruct (parse_words _ _ _ _ NC H c I) as (content & O & S).
  exists content. split; auto. rewrite NL in S. eapply spelled_rising; [exact S|apply lex_lines].
Qed.
