(** C55: Parse follows the rules of SpecTotal.v on every configuration, and they cover every configuration. *)
From Verif Require Export SpecTotal ReadProofs StrayProofs PathProofs.
Local Open Scope string_scope.

(** ** Validation in a path with odd names *)
Lemma meant_accepted : forall o path p file st h args term, meant path p -> accepts o p (stm_dir h args) term ->
  analyze o file (fresh o st h (arg_vals args)) term path = None.
Proof.
  intros o path p file st h args term M A. destruct (meant_plain _ _ M) as (q & PQ & B & E).
  rewrite (analyze_place _ _ _ _ _ _ E). apply (accepts_bit o p q) in A; [|congruence].
  now rewrite (accepted o q file st h args term PQ A).
Qed.
Lemma meant_says : forall o path p file st h args term what, meant path p -> objects o p (stm_dir h args) term what ->
  exists e, analyze o file (fresh o st h (arg_vals args)) term path = Some e /\
    EParse e = objection file path (stm_dir h args) what /\ pe_what e = what.
Proof.
  intros o path p file st h args term what M A. destruct (meant_plain _ _ M) as (q & PQ & B & E).
  rewrite (analyze_place _ _ _ _ _ _ E). apply (objects_bit o p q) in A; [|congruence].
  destruct (says o file st h args term q what PQ A) as (e & AN & _ & EW). rewrite AN. cbn [option_map]. rewrite EW.
  eexists. split; [reflexivity|]. split; [|reflexivity]. unfold objection, stmt_error, stm_dir, dir_string. rewrite <- block_name. cbn [d_name d_line d_args d_block fresh opt_list]. now rewrite words_vals.
Qed.
(** ** Tokens *)
Lemma ends_tok : forall z term, ends_with z term -> tok_is z term = true.
Proof. intros z term (Q & V & _). unfold tok_is. rewrite Q, V, String.eqb_refl. reflexivity. Qed.
Lemma tok_ends : forall z term, In term ["{"; ";"; "}"] -> tok_is z term = true -> ends_with z term.
Proof.
  intros z term I T. unfold tok_is in T. apply andb_true_iff in T as [T1 T2]. apply negb_true_iff in T1. apply String.eqb_eq in T2. now repeat split.
Qed.
Lemma not_ends_tok : forall z term, In term ["{"; ";"; "}"] -> ~ ends_with z term -> tok_is z term = false.
Proof. intros z term I N. apply not_true_iff_false. intros T. apply N. now apply tok_ends. Qed.
Lemma in_close : In "}" ["{"; ";"; "}"]. Proof. cbn. auto. Qed.
Lemma in_open : In "{" ["{"; ";"; "}"]. Proof. cbn. auto. Qed.
Lemma heads_starts : forall h, heads h -> starts h.
Proof.
  intros h (E & N & C). split; auto. split; [|now apply not_hash]. apply not_ends_tok; auto using in_close.
Qed.
Lemma starts_heads : forall h, starts h -> heads h.
Proof.
  intros h (E & C & N). split; auto. split; [now apply not_hash|]. intros X. apply ends_tok in X. congruence.
Qed.
Lemma ends_term : forall z term, ends_with z term -> is_term z = true.
Proof.
  intros z term E. pose proof E as (_ & _ & [<-|[<-|[<-|[]]]]); apply ends_tok in E; unfold is_term; rewrite E; now rewrite ?orb_true_r.
Qed.
Lemma sentence_args : forall cm args z term rest, Forall plain args -> ends_with z term ->
  read_args cm (args ++ z :: rest)%list = Some (arg_vals args, arg_coms cm args, term, rest).
Proof.
  intros cm args z term rest F E. induction F as [|a args P F IH]; cbn [app read_args].
  - rewrite (ends_term _ _ E). destruct E as (_ & -> & _). unfold arg_coms. cbn. now destruct cm.
  - rewrite (plain_not_term _ P), IH. unfold arg_vals, arg_coms. cbn [filter]. destruct (tok_comment a); cbn [negb]; [|reflexivity]. now destruct cm.
Qed.
Lemma not_plain : forall t, ~ plain t -> exists term, ends_with t term.
Proof.
  intros t N. unfold plain in N. destruct (t_quoted t) eqn:Q; [exfalso; apply N; auto|].
  destruct (in_dec string_dec (t_val t) ["{"; "}"; ";"]) as [I|I]; [|exfalso; apply N; auto].
  exists (t_val t). split; auto. split; auto. cbn in *. tauto.
Qed.
Lemma plain_dec : forall t, plain t \/ ~ plain t.
Proof.
  intros t. unfold plain. destruct (t_quoted t); auto.
  destruct (in_dec string_dec (t_val t) ["{"; "}"; ";"]) as [I|I]; auto. right. intros [X|X]; [discriminate|contradiction].
Qed.
Lemma divide : forall r, Forall plain r \/ exists args z term rest, r = (args ++ z :: rest)%list /\ Forall plain args /\ ends_with z term.
Proof.
  induction r as [|t r IH]; [left; constructor|]. destruct (plain_dec t) as [P|P].
  - destruct IH as [IH|(args & z & term & rest & -> & F & E)]; [left; now constructor|]. right. exists (t :: args), z, term, rest. split; [reflexivity|]. split; auto.
  - right. destruct (not_plain _ P) as [term E]. exists [], t, term, r. split; [reflexivity|]. split; auto.
Qed.
Lemma skip_consume : forall n r r', skipped n r r' -> consume n r = r'.
Proof.
  intros n r r' H. induction H as [n|t r E|n t r r' E H IH|n t r r' TE E H IH|n t r r' TE N1 N2 H IH]; cbn [consume].
  - reflexivity.
  - destruct E as [E|E]; [destruct (t_err t); [reflexivity|congruence]|]. rewrite (ends_tok _ _ E). now destruct (t_err t).
  - rewrite IH. destruct E as [E|E]; [destruct (t_err t); [reflexivity|congruence]|]. rewrite (ends_tok _ _ E). now destruct (t_err t).
  - rewrite TE, (ends_tok _ _ E), IH. destruct E as (Q & V & _). unfold tok_is. rewrite V. cbn. now rewrite andb_false_r.
  - rewrite TE, (not_ends_tok _ _ in_close N2), (not_ends_tok _ _ in_open N1). exact IH.
Qed.
Lemma skip_total : forall r n, exists r', skipped n r r'.
Proof.
  induction r as [|t r IH]; intros n; [exists []; constructor|].
  destruct (t_err t) as [e|] eqn:TE.
  - destruct n as [|n]; [exists r; apply sk_out; left; congruence|]. destruct (IH n) as [r' H]. exists r'. apply sk_up; auto. left. congruence.
  - destruct (tok_is t "}") eqn:C.
    + apply (tok_ends _ _ in_close) in C. destruct n as [|n]; [exists r; apply sk_out; auto|]. destruct (IH n) as [r' H]. exists r'. apply sk_up; auto.
    + assert (NC : ~ ends_with t "}") by (intros X; apply ends_tok in X; congruence).
      destruct (tok_is t "{") eqn:O.
      * apply (tok_ends _ _ in_open) in O. destruct (IH (S n)) as [r' H]. exists r'. apply sk_down; auto.
      * assert (NO : ~ ends_with t "{") by (intros X; apply ends_tok in X; congruence).
        destruct (IH n) as [r' H]. exists r'. apply sk_on; auto.
Qed.

(** ** One statement *)
Definition done (o : popts) (dir first : string) (ctx : slice) (h : token) (args : list token) (term : string) (K : known) (st : pst) (a : act) : Prop :=
  let r := decide o dir ctx (fresh o st h (arg_vals args)) term st in
  match a with
  | Kept d es ls K' => exists st', r = DKeep d st' /\ met first K' st' /\ moved st st' es ls
  | Entered d => r = DMap d
  | Dropped b es => exists st', r = DSkip b st' /\ met first K st' /\ moved st st' es []
  | Closed es => exists st', r = DBreak st' /\ met first K st' /\ moved st st' es []
  | Refused e => exists st', r = DErr e st' /\ met first K st' /\ moved st st' [] []
  | Crashed => r = DPanic
  end.
Lemma treats_done : forall o dir f path K h args term a, treats o dir f path K h args term a ->
  forall first ctx st, read_slice (p_heap st) ctx = path -> f = cf_file (p_cur st) -> met first K st ->
  done o dir first ctx h args term K st a.
Proof.
  intros o dir f path K h args term a H first ctx st RD LB MT. subst path f. unfold done.
  assert (ER : forall e, met first K (handle_error o st e)) by (intros e; eapply met_same; eauto).
  destruct H as [M TM FI|what e M BAD ->|M IG|p what e M NI MP OB NU ->|p what e M NI MP OB UN NT ->|p what e M NI MP OB UN TT ->
    |p M NI MP AC NM BP|p args' M NI MP AC NF FA|p arg more fs is K' M NI MP AC FO WO TG LIVE NU
    |p arg more m e M NI MP AC FO WO NMG OP ->|p arg more m M NI MP AC FO WO MG GL|p M NI MP AC FO WO].
  - destruct M as [N MB]. rewrite (decide_map_exact _ _ _ _ _ _ _ eq_refl) by auto.
    assert (A : analyze_map_body (cf_file (p_cur st)) (fresh o st h (arg_vals args)) term (last (read_slice (p_heap st) ctx) EmptyString) = None).
    { apply analyze_map_body_iff; auto. split; auto. cbn. now rewrite <- words_vals. }
    rewrite A. now rewrite words_vals.
  - pose proof M as [N MB]. rewrite (decide_map_exact _ _ _ _ _ _ _ eq_refl) by auto.
    destruct (says_entry o (cf_file (p_cur st)) st h args _ _ _ M BAD) as (e & AM & EE). rewrite AM, EE. unfold unless_stop.
    destruct (o_stop o); eexists; (split; [reflexivity|]); (split; [auto|]); [apply moved_refl|apply moved_error].
  - assert (MM : is_map (read_slice (p_heap st) ctx) = false).
    { destruct (is_map _) eqn:X; auto. apply is_map_iff in X. contradiction. }
    assert (II : mem_str (d_name (fresh o st h (arg_vals args))) (o_ignore o) = true) by now apply mem_str_iff.
    rewrite (decide_ignored o dir) by auto. exists st. split; [reflexivity|]. split; auto. apply moved_refl.
  - rewrite decide_outside by auto. destruct (meant_says o _ p (cf_file (p_cur st)) st h args term what MP OB) as (e & AN & EE & EW).
    rewrite AN, EE, EW. cbv zeta. unfold unless_stop.
    assert (SU : has_suffix what not_terminated = false) by (apply not_true_iff_false; now rewrite <- unfinished_suffix). rewrite SU.
    destruct (o_stop o); eexists; (split; [reflexivity|]); (split; [auto|]); [apply moved_refl|apply moved_error].
  - rewrite decide_outside by auto. destruct (meant_says o _ p (cf_file (p_cur st)) st h args term what MP OB) as (e & AN & EE & EW).
    rewrite AN, EE, EW. cbv zeta. unfold unless_stop. rewrite (proj1 (unfinished_suffix what) UN). apply String.eqb_neq in NT. rewrite NT.
    destruct (o_stop o); eexists; (split; [reflexivity|]); (split; [auto|]); [apply moved_refl|apply moved_error].
  - rewrite decide_outside by auto. destruct (meant_says o _ p (cf_file (p_cur st)) st h args term what MP OB) as (e & AN & EE & EW).
    rewrite AN, EE, EW. cbv zeta. unfold unless_stop. rewrite (proj1 (unfinished_suffix what) UN). subst term.
    destruct (o_stop o); eexists; (split; [reflexivity|]); (split; [auto|]); [apply moved_refl|apply moved_error].
  - rewrite decide_outside by auto. rewrite (meant_accepted _ _ _ _ _ _ _ _ MP AC). cbn [d_name d_args fresh].
    rewrite NM. change (String.eqb "if" "if") with true. cbv iota. rewrite <- words_vals, (proj2 (prepare_if_panics _) BP). reflexivity.
  - rewrite decide_outside by auto. rewrite (meant_accepted _ _ _ _ _ _ _ _ MP AC). cbn [d_name d_args fresh].
    rewrite <- words_vals, (final_prepared _ _ _ FA). cbv zeta. cbn [d_name set_args fresh]. rewrite (not_followed _ _ NF).
    exists st. split; [reflexivity|]. split; auto. apply moved_refl.
  - pose proof (decide_outside o dir ctx (fresh o st h (arg_vals args)) term st M NI) as DE.
    rewrite (meant_accepted _ _ _ _ _ _ _ _ MP AC) in DE. cbn [d_name d_args fresh] in DE.
    destruct (include_prepared o (t_val h) (arg_vals args) FO) as [I1 I2]. rewrite I1 in DE. cbv zeta in DE. cbn [d_name set_args fresh] in DE.
    rewrite I2 in DE. unfold do_include in DE. cbn [d_args set_args fresh] in DE. rewrite <- words_vals, WO in DE.
    change (resolve dir arg) with (path_of dir arg) in DE.
    inversion TG as [lst ? MG OG PE SO|cc NMG OG|m NMG OG]; subst.
    + apply has_magic_iff in MG. rewrite MG, OG in DE.
      assert (SS : fs = sort_strings lst).
      { apply sorted_same; auto using sort_sorted. eapply Permutation_trans; [apply Permutation_sym; eauto|apply sort_perm]. }
      rewrite <- SS in DE. destruct (met_add first _ _ _ _ _ NU ctx st MT eq_refl) as (A1 & A2 & A3 & A4).
      pose proof (moved_added ctx st st fs (fun _ _ => iff_refl _) eq_refl eq_refl A3 A4) as MV.
      destruct (add_includes ctx st fs) as [s1 js]. cbn [fst snd] in *. subst js. exists s1. rewrite <- words_vals, WO, DE. split.
      * unfold set_includes. cbn. unfold unless_none. now destruct is.
      * split; auto.
    + rewrite <- has_magic_iff in NMG. apply not_true_iff_false in NMG. rewrite NMG, OG in DE.
      destruct (met_add first _ _ _ _ _ NU ctx (log_open st (path_of dir arg))) as (A1 & A2 & A3 & A4); [eapply met_same; eauto|reflexivity|].
      pose proof (moved_added ctx st (log_open st (path_of dir arg)) [path_of dir arg] (fun _ _ => iff_refl _) eq_refl eq_refl A3 A4) as MV.
      destruct (add_includes ctx (log_open st (path_of dir arg)) [path_of dir arg]) as [s1 js]. cbn [fst snd] in *. subst js. exists s1. rewrite <- words_vals, WO, DE. split.
      * unfold set_includes. cbn. unfold unless_none. now destruct is.
      * split; auto.
    + destruct LIVE; [contradiction|congruence].
  - pose proof (decide_outside o dir ctx (fresh o st h (arg_vals args)) term st M NI) as DE.
    rewrite (meant_accepted _ _ _ _ _ _ _ _ MP AC) in DE. cbn [d_name d_args fresh] in DE.
    destruct (include_prepared o (t_val h) (arg_vals args) FO) as [I1 I2]. rewrite I1 in DE. cbv zeta in DE. cbn [d_name set_args fresh] in DE.
    rewrite I2 in DE. unfold do_include in DE. cbn [d_args set_args fresh] in DE. rewrite <- words_vals, WO in DE.
    change (resolve dir arg) with (path_of dir arg) in DE.
    rewrite <- has_magic_iff in NMG. apply not_true_iff_false in NMG. rewrite NMG, OP in DE.
    unfold unless_stop, objection, stm_dir. cbn [d_line d_name d_args]. rewrite WO, <- block_name.
    destruct (o_stop o).
    + eexists. rewrite <- words_vals, WO, DE. split; [reflexivity|]. split; [eapply met_same; eauto|]. apply moved_same; reflexivity.
    + eexists. rewrite <- words_vals, WO, DE. split; [reflexivity|]. split; [eapply met_same; eauto|].
      apply (moved_error o (log_open st (path_of dir arg))).
  - pose proof (decide_outside o dir ctx (fresh o st h (arg_vals args)) term st M NI) as DE.
    rewrite (meant_accepted _ _ _ _ _ _ _ _ MP AC) in DE. cbn [d_name d_args fresh] in DE.
    destruct (include_prepared o (t_val h) (arg_vals args) FO) as [I1 I2]. rewrite I1 in DE. cbv zeta in DE. cbn [d_name set_args fresh] in DE.
    rewrite I2 in DE. unfold do_include in DE. cbn [d_args set_args fresh] in DE. rewrite <- words_vals, WO in DE.
    change (resolve dir arg) with (path_of dir arg) in DE. apply has_magic_iff in MG. rewrite MG, GL in DE.
    exists st. rewrite <- words_vals, WO. split; [exact DE|]. split; auto. apply moved_refl.
  - pose proof (decide_outside o dir ctx (fresh o st h (arg_vals args)) term st M NI) as DE.
    rewrite (meant_accepted _ _ _ _ _ _ _ _ MP AC) in DE. cbn [d_name d_args fresh] in DE.
    destruct (include_prepared o (t_val h) (arg_vals args) FO) as [I1 I2]. rewrite I1 in DE. cbv zeta in DE. cbn [d_name set_args fresh] in DE.
    rewrite I2 in DE. unfold do_include in DE. cbn [d_args set_args fresh] in DE. rewrite <- words_vals, WO in DE.
    exists st. rewrite <- words_vals, WO. split.
    + eapply eq_trans; [exact DE|]. unfold objection, stm_dir. cbn [d_line d_name d_args]. rewrite WO, <- block_name. destruct FO as [EQ _].
      unfold no_pattern, fresh, set_args, dir_string. cbn [d_name d_line d_args d_block opt_list]. rewrite EQ. reflexivity.
    + split; auto. apply moved_refl.
Qed.
Lemma treats_name : forall o dir f path K h args term a, treats o dir f path K h args term a ->
  match a with Kept d _ _ _ => d_name d = t_val h | _ => True end.
Proof. intros o dir f path K h args term a H. destruct H; unfold unless_stop; try destruct (o_stop o); cbn; auto. Qed.
Lemma targets_total : forall o dir arg, (exists fs, targets o dir arg fs /\ (magic (path_of dir arg) \/ fs <> [])) \/
  (~ magic (path_of dir arg) /\ exists m, o_open o (path_of dir arg) = inr m) \/
  (magic (path_of dir arg) /\ exists m, o_glob o (path_of dir arg) = inr m).
Proof.
  intros o dir arg. destruct (has_magic (path_of dir arg)) eqn:M.
  - apply has_magic_iff in M. destruct (o_glob o (path_of dir arg)) as [l|m] eqn:G; [|right; right; eauto].
    left. exists (sort_strings l). split; auto. eapply tg_glob; eauto using sort_perm, sort_sorted.
  - assert (NM : ~ magic (path_of dir arg)) by (rewrite <- has_magic_iff; congruence).
    destruct (o_open o (path_of dir arg)) as [c|m] eqn:G; [|right; left; eauto].
    left. exists [path_of dir arg]. split; [eapply tg_file; eauto|]. right. discriminate.
Qed.
Lemma numbers_total : forall path fs K, exists is K', numbers path K fs is K'.
Proof.
  intros path. induction fs as [|f fs IH]; intros K; [exists [], K; constructor|].
  destruct (in_dec string_dec f (map fst K)) as [I|I].
  - apply in_map_iff in I as ([f' q] & E & I). cbn in E. subst f'. apply In_nth_error in I as [i N].
    destruct (IH K) as (is & K' & H). exists (Z.of_nat i :: is), K'. econstructor; eauto.
  - destruct (IH (K ++ [(f, path)])%list) as (is & K' & H). exists (Z.of_nat (List.length K) :: is), K'. now constructor.
Qed.
Lemma treats_total : forall o dir f path K h args term, In term ["{"; ";"; "}"] -> exists a, treats o dir f path K h args term a.
Proof.
  intros o dir f path K h args term IT. destruct (is_map path) eqn:IM.
  - apply is_map_iff in IM.
    destruct (string_dec term ";") as [E|N].
    + destruct (analyze_map_body "" (stm_dir h args) term (last path "")) as [e|] eqn:A.
      * apply map_says in A as (w & W & _); auto. eexists. eapply tr_bad_entry; eauto.
      * apply analyze_map_body_iff in A as [_ A]; [|apply IM]. eexists. eapply tr_entry; eauto.
    + eexists. eapply tr_bad_entry; eauto. now apply oe_end.
  - assert (NM : ~ inside_map path) by (rewrite <- is_map_iff; congruence).
    destruct (in_dec string_dec (t_val h) (o_ignore o)) as [I|NI]; [eexists; now apply tr_ignored|].
    destruct (meant_total path) as [p MP]. destruct (meant_verdict o path p (stm_dir h args) term eq_refl MP) as [AC|(what & OB)].
    + destruct (negb (o_single o) && String.eqb (t_val h) "include")%bool eqn:FO.
      * assert (FL : followed o (t_val h)).
        { apply andb_true_iff in FO as [F1 F2]. split; [now apply String.eqb_eq|now apply negb_true_iff]. }
        destruct (words args) as [|arg more] eqn:WO; [eexists; eapply tr_nothing; eauto|].
        destruct (targets_total o dir arg) as [(fs & TG & LV)|[(NMG & m & OP)|(MG & m & GL)]].
        -- destruct (numbers_total path fs K) as (is & K' & NU). eexists. eapply tr_include; eauto.
        -- eexists. eapply tr_missing; eauto.
        -- eexists. eapply tr_pattern; eauto.
      * assert (NF : ~ followed o (t_val h)).
        { intros [E S]. rewrite E, S in FO. discriminate. }
        destruct (string_dec (t_val h) "if") as [E|NE].
        -- destruct (prepare_if (words args)) as [args'|] eqn:PI.
           ++ apply prepare_if_result in PI. eexists. apply (tr_plain o dir f path K h args term p args'); auto. split; [auto|congruence].
           ++ apply prepare_if_panics in PI. eexists. eapply tr_crash; eauto.
        -- eexists. apply (tr_plain o dir f path K h args term p (words args)); auto. split; [congruence|reflexivity].
    + destruct (has_suffix what not_terminated) eqn:SU.
      * apply unfinished_suffix in SU. destruct (string_dec term "}") as [E|N].
        -- eexists. eapply tr_closed; eauto.
        -- eexists. eapply tr_skipped; eauto.
      * eexists. eapply tr_rejected; eauto. rewrite unfinished_suffix. congruence.
Qed.

(** ** Blocks and files *)
Definition shows (o : popts) (dir first : string) (ctx : slice) (toks : list token) (st : pst) (x : outcome) : Prop :=
  match x with
  | Ends ds es ls K rest => exists st', Run o dir ctx toks st (POk ds rest st') /\ met first K st' /\ moved st st' es ls
  | Fails es e ls K => exists st' rest, Run o dir ctx toks st (PErr e rest st') /\ met first K st' /\ moved st st' es ls
  | Crashes => Run o dir ctx toks st PPanic
  end.
Lemma shows_more : forall o dir first ctx toks rest st st1 ds es ls x, moved st st1 es ls -> shows o dir first ctx rest st1 x ->
  (forall res, Run o dir ctx rest st1 res -> Run o dir ctx toks st (padd ds res)) ->
  shows o dir first ctx toks st (more ds es ls x).
Proof.
  intros o dir first ctx toks rest st st1 ds es ls x MV SH R. destruct x as [ds' es' ls' K r|es' e ls' K|]; cbn [shows more] in *.
  - destruct SH as (st' & RN & MT & MV'). exists st'. split; [exact (R _ RN)|]. split; auto. eapply moved_trans; eauto.
  - destruct SH as (st' & r & RN & MT & MV'). exists st', r. split; [exact (R _ RN)|]. split; auto. eapply moved_trans; eauto.
  - exact (R _ SH).
Qed.
Lemma padd_nil : forall r, padd [] r = r.
Proof. now intros []. Qed.
Lemma gives_run : forall o dir f first path K toks x, gives o dir f path K toks x ->
  forall ctx st, good (p_heap st) ctx -> read_slice (p_heap st) ctx = path -> f = cf_file (p_cur st) -> met first K st ->
  shows o dir first ctx toks st x.
Proof.
  intros o dir f first path K toks x H.
  induction H as [path K|path K t r TE EW|path K t e r TE|path K t c r x TE TQ TV H IH|path K h r HD FP
    |path K toks h args term rest d x SE TR H IH|path K toks h args term rest block es rest' x SE TR SK H IH
    |path K toks h args term rest es SE TR|path K toks h args term rest e SE TR|path K toks h args term rest SE TR
    |path K toks h args term rest d es ls K1 ns x SE NB TR NS H IH
    |path K toks h args rest d es ls K1 ns ds2 es2 ls2 K2 rest2 x SE TR NS H1 IH1 H2 IH2
    |path K toks h args rest d es ls K1 es2 e ls2 K2 SE TR H IH
    |path K toks h args rest d es ls K1 SE TR H IH]; intros ctx st G RD LB MT;
    try (destruct SE as (z & -> & HD & FA & EW); pose proof (heads_starts _ HD) as ST; pose proof (sentence_args (o_comments o) args z _ rest FA EW) as RA;
         pose proof (treats_done _ _ _ _ _ _ _ _ _ TR first ctx st RD LB MT) as D; unfold done in D; cbn iota in D).
  - exists st. split; [constructor|]. split; auto. apply moved_refl.
  - exists st. split; [|split; [auto|apply moved_refl]]. apply R_close; auto. now apply ends_tok.
  - exists st, r. split; [|split; [auto|apply moved_refl]].
    eapply eq_rect with (P := fun x => Run _ _ _ _ _ (PErr x _ _)); [apply R_tokerr; exact TE|]. rewrite RD, <- LB, block_name. now destruct e.
  - eapply shows_more; [apply moved_refl|apply IH; auto|]. intros res RN.
    assert (HC : hash t) by (split; eauto). destruct (hash_not_close _ HC) as [C1 C2]. apply hash_comment in HC.
    pose proof (R_comment o dir ctx st t r res TE C1 HC RN) as X. rewrite TV in X. unfold file_label in X. rewrite <- LB in X. exact X.
  - exists st, []. split; [|split; [auto|apply moved_refl]]. unfold end_of_file. rewrite <- block_name, <- RD, LB.
    apply R_premature; [now apply heads_starts|now apply plain_unfinished].
  - eapply shows_more; [apply moved_refl|apply IH; auto|]. intros res RN. eapply R_map; eauto.
  - destruct D as (st' & D & MT' & MV).
    assert (HP : p_heap st' = p_heap st) by (pose proof (decide_heap o dir ctx (fresh o st h (arg_vals args)) term st) as DH; now rewrite D in DH).
    eapply shows_more; [exact MV|apply IH; rewrite ?HP; auto; rewrite (moved_file _ _ _ _ MV); auto|]. intros res RN. rewrite padd_nil.
    eapply R_skip; eauto. destruct block; [now rewrite (skip_consume _ _ _ SK)|congruence].
  - destruct D as (st' & D & MT' & MV). exists st'. split; [|auto]. eapply R_break; eauto.
  - destruct D as (st' & D & MT' & MV). exists st', rest. split; [|auto]. eapply R_err; eauto.
  - eapply R_panic; eauto.
  - destruct D as (st' & D & MT' & MV).
    assert (HP : p_heap st' = p_heap st) by (pose proof (decide_heap o dir ctx (fresh o st h (arg_vals args)) term st) as DH; now rewrite D in DH).
    eapply shows_more; [exact MV|apply IH; rewrite ?HP; auto; rewrite (moved_file _ _ _ _ MV); auto|]. intros res RN.
    rewrite LB in NS. rewrite <- (notes_of _ _ _ _ _ NS). eapply R_simple; eauto. now apply String.eqb_neq.
  - destruct D as (st' & D & MT' & MV). pose proof (treats_name _ _ _ _ _ _ _ _ _ TR) as NM. cbn in NM.
    assert (HP : p_heap st' = p_heap st) by (pose proof (decide_heap o dir ctx (fresh o st h (arg_vals args)) "{" st) as DH; now rewrite D in DH).
    assert (G' : good (p_heap st') ctx) by now rewrite HP.
    destruct (enter_block (p_heap st') ctx (d_name d)) as [h' inner] eqn:EB.
    destruct (enter_block_spec _ _ _ _ _ G' EB) as (GI & RI & FE & CE). rewrite <- below_enter in RI.
    assert (RI' : read_slice (p_heap (set_heap st' h')) inner = below path (t_val h)) by (cbn; rewrite RI, HP, RD, NM; reflexivity).
    assert (LB' : f = cf_file (p_cur (set_heap st' h'))) by (cbn; rewrite (moved_file _ _ _ _ MV); auto).
    assert (MT1 : met first K1 (set_heap st' h')) by (eapply met_same; eauto).
    destruct (IH1 inner (set_heap st' h') GI RI' LB' MT1) as (s2 & R2 & MT2 & MV2).
    assert (F2 : frame ctx (p_heap st') (p_heap s2)).
    { pose proof (run_frame _ _ _ _ _ _ R2 GI) as F2. cbn in F2. eapply frame_weaken; eauto. }
    assert (MV3 : moved st s2 (es ++ es2) (ls ++ ls2)) by (eapply moved_trans; [exact MV|exact MV2]).
    eapply shows_more; [exact MV3|apply IH2|].
    + exact (good_frame _ _ _ _ G' F2).
    + rewrite (read_frame _ _ _ F2), HP. exact RD.
    + rewrite (moved_file _ _ _ _ MV3). exact LB.
    + exact MT2.
    + intros res RN. rewrite LB in NS. rewrite <- (notes_of _ _ _ _ _ NS). eapply R_block; eauto.
  - destruct D as (st' & D & MT' & MV). pose proof (treats_name _ _ _ _ _ _ _ _ _ TR) as NM. cbn in NM.
    assert (HP : p_heap st' = p_heap st) by (pose proof (decide_heap o dir ctx (fresh o st h (arg_vals args)) "{" st) as DH; now rewrite D in DH).
    assert (G' : good (p_heap st') ctx) by now rewrite HP.
    destruct (enter_block (p_heap st') ctx (d_name d)) as [h' inner] eqn:EB.
    destruct (enter_block_spec _ _ _ _ _ G' EB) as (GI & RI & FE & CE). rewrite <- below_enter in RI.
    assert (RI' : read_slice (p_heap (set_heap st' h')) inner = below path (t_val h)) by (cbn; rewrite RI, HP, RD, NM; reflexivity).
    assert (LB' : f = cf_file (p_cur (set_heap st' h'))) by (cbn; rewrite (moved_file _ _ _ _ MV); auto).
    assert (MT1 : met first K1 (set_heap st' h')) by (eapply met_same; eauto).
    destruct (IH inner (set_heap st' h') GI RI' LB' MT1) as (s2 & r2 & R2 & MT2 & MV2).
    exists s2, r2. split; [|split; [auto|eapply moved_trans; [exact MV|exact MV2]]].
    eapply R_blockfail; eauto. exact I.
  - destruct D as (st' & D & MT' & MV). pose proof (treats_name _ _ _ _ _ _ _ _ _ TR) as NM. cbn in NM.
    assert (HP : p_heap st' = p_heap st) by (pose proof (decide_heap o dir ctx (fresh o st h (arg_vals args)) "{" st) as DH; now rewrite D in DH).
    assert (G' : good (p_heap st') ctx) by now rewrite HP.
    destruct (enter_block (p_heap st') ctx (d_name d)) as [h' inner] eqn:EB.
    destruct (enter_block_spec _ _ _ _ _ G' EB) as (GI & RI & FE & CE). rewrite <- below_enter in RI.
    assert (RI' : read_slice (p_heap (set_heap st' h')) inner = below path (t_val h)) by (cbn; rewrite RI, HP, RD, NM; reflexivity).
    assert (LB' : f = cf_file (p_cur (set_heap st' h'))) by (cbn; rewrite (moved_file _ _ _ _ MV); auto).
    assert (MT1 : met first K1 (set_heap st' h')) by (eapply met_same; eauto).
    pose proof (IH inner (set_heap st' h') GI RI' LB' MT1) as R2. cbn [shows] in R2 |- *.
    eapply R_blockfail; eauto. exact I.
Qed.
Lemma skip_short : forall n r r', skipped n r r' -> List.length r' <= List.length r.
Proof. intros n r r' H. rewrite <- (skip_consume _ _ _ H). apply consume_len. Qed.
Definition rest_of (x : outcome) : list token := match x with Ends _ _ _ _ r => r | _ => [] end.
Lemma rest_more : forall ds es ls x, rest_of (more ds es ls x) = rest_of x.
Proof. now intros ds es ls []. Qed.
Lemma notes_total : forall cm label line args, exists ns, notes cm label line args ns.
Proof.
  intros cm label line args. assert (R : exists cs, remarks args cs).
  { induction args as [|t args [cs IH]]; [exists []; constructor|]. destruct (tok_comment t) eqn:T.
    - apply hash_comment in T as [Q [c E]]. exists (c :: cs). eapply rm_comment; eauto.
    - exists cs. apply rm_word; auto. now apply not_hash. }
  destruct R as [cs R]. eexists. exists cs. split; [exact R|reflexivity].
Qed.
Lemma gives_total : forall o dir f n toks path K, List.length toks < n ->
  exists x, gives o dir f path K toks x /\ List.length (rest_of x) <= List.length toks.
Proof.
  intros o dir f. induction n as [|n IH]; intros toks path K L; [lia|].
  destruct toks as [|t r]; [eexists; split; [apply gv_end|cbn; lia]|]. cbn [List.length] in L.
  destruct (t_err t) as [e|] eqn:TE; [eexists; split; [eapply gv_token; exact TE|cbn; lia]|].
  destruct (tok_is t "}") eqn:TC; [eexists; split; [apply gv_close; auto; now apply (tok_ends _ _ in_close)|cbn; lia]|].
  destruct (tok_comment t) eqn:TM.
  { apply hash_comment in TM as [Q [c E]]. destruct (IH r path K ltac:(lia)) as (x & GX & LX).
    eexists. split; [eapply gv_comment; eauto|rewrite rest_more; cbn; lia]. }
  assert (HD : heads t) by (apply starts_heads; now repeat split).
  destruct (divide r) as [FP|(args & z & term & rest & -> & FA & EW)]; [eexists; split; [now apply gv_unfinished|cbn; lia]|].
  assert (SE : sentence (t :: args ++ z :: rest) t args term rest) by (exists z; auto).
  assert (LR : List.length rest < n) by (rewrite app_length in L; cbn in L; lia).
  assert (LT : List.length rest <= List.length (t :: args ++ z :: rest)) by (cbn; rewrite app_length; cbn; lia).
  destruct (treats_total o dir f path K t args term) as [a TR]; [apply EW|].
  destruct a as [d es ls K1|d|block es|es|e|].
  - destruct (notes_total (o_comments o) (label_of o f) (t_line t) args) as [ns NS].
    destruct (string_dec term "{") as [->|NB].
    + destruct (IH rest (below path (t_val t)) K1 LR) as ([ds2 es2 ls2 K2 rest2|es2 e ls2 K2|] & GX & LX).
      * cbn in LX. destruct (IH rest2 path K2 ltac:(lia)) as (x & GX2 & LX2).
        eexists. split; [eapply gv_block; eauto|]. rewrite rest_more. lia.
      * eexists. split; [eapply gv_inside; eauto|]. cbn. lia.
      * eexists. split; [eapply gv_crashes; eauto|]. cbn. lia.
    + destruct (IH rest path K1 LR) as (x & GX & LX). eexists. split; [eapply gv_simple; eauto|]. rewrite rest_more. lia.
  - destruct (IH rest path K LR) as (x & GX & LX). eexists. split; [eapply gv_entered; eauto|]. rewrite rest_more. lia.
  - assert (S : exists rest', (if block then skipped 0 rest rest' else rest' = rest) /\ List.length rest' <= List.length rest).
    { destruct block; [|exists rest; auto]. destruct (skip_total rest 0) as [r' S]. exists r'. split; auto. eapply skip_short; eauto. }
    destruct S as (rest' & S & LS). destruct (IH rest' path K ltac:(lia)) as (x & GX & LX). eexists. split; [eapply gv_dropped; eauto|]. rewrite rest_more. lia.
  - eexists. split; [eapply gv_closed; eauto|]. exact LT.
  - eexists. split; [eapply gv_refused; eauto|]. cbn. lia.
  - eexists. split; [eapply gv_crashed; eauto|]. cbn. lia.
Qed.

Lemma gives_always : forall o dir f path K toks, exists x, gives o dir f path K toks x.
Proof. intros o dir f path K toks. destruct (gives_total o dir f _ toks path K (Nat.lt_succ_diag_r _)) as (x & H & _). eauto. Qed.
(** ** All files *)
Lemma two_length : forall A B (R : A -> B -> Prop) l m, Forall2 R l m -> List.length l = List.length m.
Proof. intros A B R l m H. induction H; cbn; congruence. Qed.
Lemma queue_alike : forall first i K st f path, qinv first st -> met first K st -> List.length (p_used st) = i ->
  nth_error K i = Some (f, path) ->
  exists ctx q, p_queue st = (f, ctx) :: q /\ alike (read_slice (p_heap st) ctx) path /\ good (p_heap st) ctx.
Proof.
  intros first i K st f path [Q V] [_ _ _ AK] LU N. rewrite <- AK in V. clear AK.
  apply nth_error_split in N as (a & b & E & LA). subst K. apply Forall2_app_inv_r in V as (u & w & V1 & V2 & E).
  apply two_length in V1 as LV. inversion V2 as [|v ? w' ? [E1 A] V3]; subst.
  assert (X : p_used st = u /\ views st = v :: w').
  { assert (L : List.length (p_used st) = List.length u) by lia. clear - E L. revert u L E.
    induction (p_used st) as [|x l IH]; intros [|y u] L E; try discriminate L; cbn in E; [auto|].
    inversion E as [[E1 E2]]. inversion L as [L']. destruct (IH u L' E2) as [-> ?]. auto. }
  destruct X as [_ X]. unfold views in X. destruct (p_queue st) as [|[g c] q]; [discriminate|]. cbn in X. inversion X; subst. cbn in *. subst g.
  inversion Q as [|? ? [G _] _]; subst. eauto 6.
Qed.
Lemma queue_done : forall first K st, qinv first st -> met first K st -> (p_queue st = [] <-> List.length (p_used st) = List.length K).
Proof.
  intros first K st [_ V] [_ _ _ AK]. rewrite <- AK in V. apply two_length in V. rewrite app_length in V. unfold views in V. rewrite map_length in V.
  destruct (p_queue st); cbn in V; split; intros H; try discriminate; auto; lia.
Qed.
Definition after (o : popts) (first f : string) (i : nat) (past : list page) (r : fres) (x : outcome) : Prop :=
  let goes K g := exists s, r = FDone s /\ qinv first s /\ met first K s /\ List.length (p_used s) = S i /\ shown s (past ++ [g])%list in
  match x with
  | Ends ds es ls K rest => goes K (Page f ds es ls)
  | Fails es e ls K => if o_stop o then exists s, r = FErr e s else goes K (Page f [] (es ++ [e]) ls)
  | Crashes => r = FPanic
  end.
Lemma one_file : forall o dir first i K st past f path, qinv first st -> met first K st -> List.length (p_used st) = i ->
  nth_error K i = Some (f, path) -> shown st past ->
  exists ctx q p, p_queue st = (f, ctx) :: q /\ alike p path /\
    (forall m, o_open o f = inr m -> exists s, parse_file o dir f ctx (set_queue st q) = FErr (EOther m) s) /\
    (forall text x, o_open o f = inl text -> gives o dir f p K (lex (o_lexers o) text) x ->
       after o first f i past (parse_file o dir f ctx (set_queue st q)) x).
Proof.
  intros o dir first i K st past f path Q MT LU N SW.
  destruct (queue_alike _ _ _ _ _ _ Q MT LU N) as (ctx & q & EQ & AL & G). exists ctx, q, (read_slice (p_heap st) ctx).
  split; [exact EQ|]. split; [exact AL|]. split.
  { intros m O. unfold parse_file. rewrite O. eauto. }
  intros text x O GV.
  pose proof (ctx_file first o dir f ctx q st Q EQ) as CF.
  pose proof (file_used o dir f ctx (set_queue st q)) as FU.
  set (st1 := set_cur (log_use (log_open (set_queue st q) f) f ctx) (Cfg f "ok" [] [])) in *.
  assert (MT1 : met first K st1) by (eapply met_same; eauto).
  pose proof (gives_run _ _ _ first _ _ _ _ GV ctx st1 G eq_refl eq_refl MT1) as SH.
  destruct x as [ds es ls K' rest|es e ls K'|]; cbn [shows after] in *; cbv zeta.
  - destruct SH as (s2 & RN & MT2 & MV). pose proof MV as (_ & _ & M1 & _ & M3).
    assert (PF : parse_file o dir f ctx (set_queue st q) =
      FDone (set_pay s2 (Pay (pl_status (p_pay s2)) (pl_errors (p_pay s2))
        (pl_config (p_pay s2) ++ [Cfg (cf_file (p_cur s2)) (cf_status (p_cur s2)) (cf_errors (p_cur s2)) ds])%list))).
    { unfold parse_file. rewrite O. cbv zeta. fold st1. now rewrite (run_parse o dir ctx _ st1 _ (S (List.length (lex (o_lexers o) text))) (Nat.lt_succ_diag_r _) RN). }
    rewrite PF in *. destruct CF as [Q3 _]. specialize (FU _ eq_refl). eexists. split; [reflexivity|].
    match goal with |- qinv _ ?s /\ _ => set (s3 := s) in * end.
    split; [exact Q3|]. split; [eapply met_same; eauto|]. split.
    + rewrite FU. cbn. rewrite app_length. cbn. lia.
    + eapply (shown_push st1 s2); [reflexivity|reflexivity|exact SW|exact MV| | | |intros; reflexivity|reflexivity]; auto.
  - destruct SH as (s2 & rest & RN & MT2 & MV). pose proof MV as (M0 & M4 & M1 & _ & M3).
    destruct (o_stop o) eqn:ST.
    { unfold parse_file. rewrite O. cbv zeta. fold st1. rewrite (run_parse o dir ctx _ st1 _ (S (List.length (lex (o_lexers o) text))) (Nat.lt_succ_diag_r _) RN), ST. eauto. }
    assert (PF : parse_file o dir f ctx (set_queue st q) =
      FDone (set_pay (handle_error o s2 e) (Pay (pl_status (p_pay (handle_error o s2 e))) (pl_errors (p_pay (handle_error o s2 e)))
        (pl_config (p_pay (handle_error o s2 e)) ++ [p_cur (handle_error o s2 e)])%list))).
    { unfold parse_file. rewrite O. cbv zeta. fold st1. rewrite (run_parse o dir ctx _ st1 _ (S (List.length (lex (o_lexers o) text))) (Nat.lt_succ_diag_r _) RN). now rewrite ST. }
    rewrite PF in *. destruct CF as [Q3 _]. specialize (FU _ eq_refl). eexists. split; [reflexivity|].
    match goal with |- qinv _ ?s /\ _ => set (s3 := s) in * end.
    split; [exact Q3|]. split; [eapply met_same; eauto|]. split.
    + rewrite FU. cbn. rewrite app_length. cbn. lia.
    + eapply (shown_push st1 s2); [reflexivity|reflexivity|exact SW|exact MV| | | |intros; reflexivity|reflexivity]; auto.
      cbn. rewrite M3. unfold listed. now rewrite map_app.
  - unfold parse_file. rewrite O. cbv zeta. fold st1. now rewrite (run_parse o dir ctx _ st1 _ (S (List.length (lex (o_lexers o) text))) (Nat.lt_succ_diag_r _) SH).
Qed.
Definition read_all (r : fres) (past : list page) (z : ending) : Prop :=
  match z with
  | Complete => exists st', r = FDone st' /\ shown st' past
  | Stopped e => exists st', r = FErr e st'
  | Broken => r = FPanic
  end.
Lemma treats_grow : forall o dir f path K h args term a, treats o dir f path K h args term a ->
  match a with Kept _ _ _ K' => exists m, K' = (K ++ m)%list | _ => True end.
Proof.
  assert (R : forall K : known, exists m, K = (K ++ m)%list) by (intros K; exists []; now rewrite app_nil_r).
  intros o dir f path K h args term a H. destruct H; unfold unless_stop; try destruct (o_stop o); cbn; auto.
  all: match goal with X : numbers _ _ _ _ _ |- _ => exact (numbers_grow _ _ _ _ _ X) end.
Qed.
Definition grows (K : known) (x : outcome) : Prop :=
  match x with Ends _ _ _ K' _ | Fails _ _ _ K' => exists m, K' = (K ++ m)%list | Crashes => True end.
Lemma grow_trans : forall K K1 K2 : known, (exists m, K1 = (K ++ m)%list) -> (exists m, K2 = (K1 ++ m)%list) -> exists m, K2 = (K ++ m)%list.
Proof. intros K K1 K2 [m ->] [n ->]. exists (m ++ n)%list. now rewrite app_assoc. Qed.
Lemma grows_more : forall K K1 ds es ls x, (exists m, K1 = (K ++ m)%list) -> grows K1 x -> grows K (more ds es ls x).
Proof. intros K K1 ds es ls [] L H; cbn in *; eauto using grow_trans. Qed.
Lemma gives_grow : forall o dir f path K toks x, gives o dir f path K toks x -> grows K x.
Proof.
  assert (R : forall K : known, exists m, K = (K ++ m)%list) by (intros K; exists []; now rewrite app_nil_r).
  intros o dir f path K toks x H.
  induction H; cbn [grows] in *; auto; try (match goal with X : treats _ _ _ _ _ _ _ _ (Kept _ _ _ _) |- _ => apply treats_grow in X end);
    try (eapply grows_more; [|eassumption]; eauto using grow_trans); eauto using grow_trans.
Qed.
Lemma volumes_grow : forall o dir i K l z K', volumes o dir i K l z K' -> exists m, K' = (K ++ m)%list.
Proof.
  assert (R : forall K : known, exists m, K = (K ++ m)%list) by (intros K; exists []; now rewrite app_nil_r).
  intros o dir i K l z K' H. induction H; auto; match goal with X : gives _ _ _ _ _ _ _ |- _ => apply gives_grow in X; cbn in X end; eauto using grow_trans.
Qed.
Lemma volumes_run : forall o dir first i K l z Kz, volumes o dir i K l z Kz -> short Kz ->
  forall st past fuel, qinv first st -> met first K st -> List.length (p_used st) = i -> shown st past ->
  List.length l < fuel -> read_all (run_files fuel o dir st) (past ++ l)%list z.
Proof.
  intros o dir first i K l z Kz H SZ.
  assert (SK : short K).
  { destruct (volumes_grow _ _ _ _ _ _ _ H) as [m ->]. now apply Forall_app in SZ. }
  revert SK.
  induction H as [K|i K f path m N O|i K f path p text ds es ls K' rest l z Kz N O AL GV H IH
    |i K f path p text es e ls K' l z Kz N O AL GV ST H IH|i K f path p text es e ls K' N O AL GV ST|i K f path p text N O AL GV];
    intros SK st past fuel Q MT LU SW LF;
    try (destruct (one_file o dir first _ _ _ _ _ _ Q MT LU N SW) as (ctx & q & p' & EQ & AL' & NO & OK));
    (destruct fuel as [|fuel]; [lia|]); cbn [run_files List.length] in *;
    try (assert (PP : p' = p) by
      (assert (LP : List.length path <= 3) by (apply (proj1 (Forall_forall _ _) SK (f, path)); eapply nth_error_In; eauto);
       rewrite (alike_short _ _ AL LP), (alike_short _ _ AL' LP); reflexivity); subst p').
  - rewrite (proj2 (queue_done _ _ _ Q MT) LU), app_nil_r. cbn. eauto.
  - rewrite EQ. destruct (NO _ O) as (s & ->). cbn. eauto.
  - rewrite EQ. specialize (OK _ _ O GV). cbn [after] in OK. destruct OK as (s & -> & Q3 & MT3 & U & SW3).
    replace (past ++ Page f ds es ls :: l)%list with ((past ++ [Page f ds es ls]) ++ l)%list by now rewrite <- app_assoc.
    assert (SK' : short K') by (destruct (volumes_grow _ _ _ _ _ _ _ H) as [m ->]; now apply Forall_app in SZ).
    apply IH; auto. lia.
  - rewrite EQ. specialize (OK _ _ O GV). cbn [after] in OK. rewrite ST in OK. destruct OK as (s & -> & Q3 & MT3 & U & SW3).
    replace (past ++ Page f [] (es ++ [e]) ls :: l)%list with ((past ++ [Page f [] (es ++ [e]) ls]) ++ l)%list by now rewrite <- app_assoc.
    assert (SK' : short K') by (destruct (volumes_grow _ _ _ _ _ _ _ H) as [m ->]; now apply Forall_app in SZ).
    apply IH; auto. lia.
  - rewrite EQ. specialize (OK _ _ O GV). cbn [after] in OK. rewrite ST in OK. destruct OK as (s & ->). cbn. eauto.
  - rewrite EQ. specialize (OK _ _ O GV). cbn [after] in OK. rewrite OK. reflexivity.
Qed.
Lemma volumes_total : forall o dir first fuel i K st past, qinv first st -> met first K st -> shown st past -> List.length (p_used st) = i ->
  run_files fuel o dir st <> FFuel -> exists l z Kz, volumes o dir i K l z Kz /\ read_all (run_files fuel o dir st) (past ++ l)%list z.
Proof.
  intros o dir first. induction fuel as [|fuel IH]; intros i K st past Q MT SW LU NF; cbn [run_files] in *.
  - assert (E : p_queue st = []) by (destruct (p_queue st) as [|[? ?] ?]; congruence).
    rewrite E in *. apply (queue_done _ _ _ Q MT) in E. rewrite <- LU, E. exists [], Complete, K. split; [constructor|]. rewrite app_nil_r. cbn. eauto.
  - destruct (nth_error K i) as [[f path]|] eqn:N.
    2: { assert (E : p_queue st = []).
         { apply (queue_done _ _ _ Q MT). apply nth_error_None in N. destruct Q as [_ V], MT as [_ _ _ AK]. rewrite <- AK in V. apply two_length in V.
           rewrite app_length in V. lia. }
         rewrite E in *. apply (queue_done _ _ _ Q MT) in E. rewrite <- LU, E. exists [], Complete, K. split; [constructor|]. rewrite app_nil_r. cbn. eauto. }
    destruct (one_file o dir first _ _ _ _ _ _ Q MT LU N SW) as (ctx & q & p & EQ & AL & NO & OK). rewrite EQ in *.
    destruct (o_open o f) as [text|m] eqn:O.
    2: { destruct (NO _ eq_refl) as [s PF]. rewrite PF. exists [], (Stopped (EOther m)), K. split; [eapply vo_unopened; eauto|]. cbn. eauto. }
    destruct (gives_total o dir f (S (List.length (lex (o_lexers o) text))) (lex (o_lexers o) text) p K (Nat.lt_succ_diag_r _)) as (x & GV & _).
    specialize (OK _ _ eq_refl GV).
    destruct x as [ds es ls K' rest|es e ls K'|]; cbn [after] in OK.
    + destruct OK as (s & PF & Q3 & MT3 & U & SW3). rewrite PF in *.
      destruct (IH _ K' s _ Q3 MT3 SW3 U NF) as (l & z & Kz & V & RA). eexists _, z, Kz. split; [eapply vo_whole; eauto|]. now rewrite <- app_assoc in RA.
    + destruct (o_stop o) eqn:ST.
      * destruct OK as (s & PF). rewrite PF. exists [], (Stopped e), K. split; [eapply vo_stopped; eauto|]. cbn. eauto.
      * destruct OK as (s & PF & Q3 & MT3 & U & SW3). rewrite PF in *.
        destruct (IH _ K' s _ Q3 MT3 SW3 U NF) as (l & z & Kz & V & RA). eexists _, z, Kz. split; [eapply vo_failed; eauto|]. now rewrite <- app_assoc in RA.
    + rewrite OK. exists [], Broken, K. split; [eapply vo_broken; eauto|]. reflexivity.
Qed.
Lemma met_init : forall filename, met filename [(filename, [])] (init_state filename).
Proof.
  intros filename. constructor; auto.
  - intros i k v H. destruct i as [|[|i]]; cbn in H; inversion H; reflexivity.
  - constructor; [intros []|constructor].
Qed.
Lemma shown_init : forall filename, shown (init_state filename) [].
Proof.
  intros filename. split; [reflexivity|]. intros a b. split; [intros (x & E & _); discriminate|intros (x & [] & _)].
Qed.
Lemma library_run : forall o filename l z K fuel, library o filename l z K -> short K -> List.length l < fuel ->
  read_all (collect fuel o filename) l z.
Proof.
  intros o filename l z K fuel B S L. unfold collect.
  apply (volumes_run o (dir_name filename) filename 0 [(filename, [])] l z K B S (init_state filename) [] fuel); auto using qinv_init, met_init, shown_init.
Qed.
Lemma library_total : forall o filename fuel, collect fuel o filename <> FFuel ->
  exists l z K, library o filename l z K /\ read_all (collect fuel o filename) l z.
Proof.
  intros o filename fuel NF.
  apply (volumes_total o (dir_name filename) filename fuel 0 [(filename, [])] (init_state filename) []); auto using qinv_init, met_init, shown_init.
Qed.
Lemma combination_one : forall old p q c0, combination old p c0 -> combination old q c0 -> p = q.
Proof.
  intros old p q c0 [(ds & X & C & _) E S] [(ds' & X' & C' & _) E' S'].
  pose proof (proj1 (expand_det (pl_config old)) _ _ X' _ X) as D. subst ds'.
  destruct p as [s e c], q as [s' e' c']. cbn in *. congruence.
Qed.
Lemma library_first : forall o filename l K, library o filename l Complete K -> exists g0 r, l = g0 :: r.
Proof.
  intros o filename l K B. destruct l as [|g0 l]; eauto. exfalso. unfold library in B. inversion B as [K' E| | | | |]. subst K'. discriminate E.
Qed.
Theorem returns_main : forall o filename K r, returns o filename K r -> short K ->
  exists n, forall fuel, n <= fuel -> parse_main fuel o filename = r.
Proof.
  intros o filename K r H SK. destruct H as [l e B|l B|l B LO|l B NL NC|l g0 p B NL CB HD CO].
  - exists (S (List.length l)). intros fuel LE. destruct (library_run _ _ _ _ _ fuel B SK LE) as (st & C). unfold parse_main. now rewrite C.
  - exists (S (List.length l)). intros fuel LE. pose proof (library_run _ _ _ _ _ fuel B SK LE) as C. cbn in C. unfold parse_main. now rewrite C.
  - exists (S (List.length l)). intros fuel LE. destruct (library_run _ _ _ _ _ fuel B SK LE) as (st & C & SH).
    apply (proj2 (parse_cycle_iff _ _ _ _ C)). now apply (loops_cyclic _ _ _ _ _ C SH).
  - exists (S (List.length l)). intros fuel LE. destruct (library_run _ _ _ _ _ fuel B SK LE) as (st & C & SH).
    rewrite (loops_cyclic _ _ _ _ _ C SH), <- (parse_cycle_iff _ _ _ _ C) in NL.
    rewrite <- (shown_payload o st l SH (collect_settled _ _ _ _ C)).
    unfold parse_main in *. rewrite C in *. unfold finish in *. rewrite NC in *.
    destruct (has_cycle _ _ _); [congruence|]. reflexivity.
  - destruct (library_run _ _ _ _ _ (S (List.length l)) B SK (le_n _)) as (st & C & SH).
    pose proof NL as NL'. rewrite (loops_cyclic _ _ _ _ _ C SH) in NL'.
    destruct (collect_combines _ _ _ _ C NL') as (n & p' & P).
    exists (Nat.max n (S (List.length l))). intros fuel LE.
    assert (C' : collect fuel o filename = FDone st).
    { replace fuel with (fuel - S (List.length l) + S (List.length l)) by lia. rewrite collect_more; congruence. }
    specialize (P fuel ltac:(lia)). pose proof (combined_is_combination _ _ _ P) as CI.
    rewrite (shown_payload o st l SH (collect_settled _ _ _ _ C)) in *.
    destruct l as [|g l]; [discriminate|]. inversion HD; subst g.
    change (pl_config (payload_of o (g0 :: l))) with (config_of g0 :: map config_of l) in CI. cbv iota in CI.
    rewrite (combination_one _ _ _ _ CO CI).
    pose proof (parse_cycle_iff _ _ _ _ C') as CY. unfold parse_main in *. rewrite C' in *. unfold finish in *. rewrite CB in *.
    rewrite (shown_payload o st (g0 :: l) SH (collect_settled _ _ _ _ C)) in *.
    destruct (has_cycle _ _ _).
    + exfalso. apply NL'. now apply CY.
    + now rewrite P.
Qed.
(** Every run follows the rules. *)
Theorem main_returns : forall o filename fuel, parse_main fuel o filename <> RFuel ->
  exists K, returns o filename K (parse_main fuel o filename).
Proof.
  intros o filename fuel H.
  assert (NF : collect fuel o filename <> FFuel) by (intros E; unfold parse_main in H; rewrite E in H; congruence).
  destruct (library_total _ _ _ NF) as (l & z & K & B & RA). exists K. unfold parse_main in *. destruct z as [|e|]; cbn [read_all] in RA.
  - destruct RA as (st & C & SH). rewrite C in *. destruct (library_first _ _ _ _ B) as (g0 & r & EL).
    pose proof (loops_cyclic _ _ _ _ _ C SH) as LC. rewrite <- (combine_acyclic _ _ _ _ C) in LC. unfold finish in *.
    destruct (has_cycle (map fst (p_indeg st)) (p_edges st) (p_indeg st)) eqn:HC.
    { eapply rt_loop; eauto. now apply LC. }
    assert (NL : ~ loops l) by (intros X; apply LC in X; discriminate).
    destruct (o_combine o) eqn:CB.
    2: { rewrite (shown_payload o st l SH (collect_settled _ _ _ _ C)). eapply rt_payload; eauto. }
    assert (AC : ~ cyclic (p_edges st)) by (rewrite <- (combine_acyclic _ _ _ _ C); congruence).
    destruct (collect_combines _ _ _ _ C AC) as (n & p & P). specialize (P (n + fuel) ltac:(lia)).
    assert (X : combined fuel (p_pay st) = CbOk p).
    { rewrite <- P. symmetry. unfold combined in *. destruct (pl_config (p_pay st)) as [|c0 cs]; auto.
      rewrite perform_more; auto. intros E. rewrite E in H. congruence. }
    rewrite X. pose proof (combined_is_combination _ _ _ X) as CI.
    rewrite (shown_payload o st l SH (collect_settled _ _ _ _ C)) in CI. subst l.
    apply (rt_combined o filename K (g0 :: r) g0 p); auto.
  - destruct RA as (st & C). rewrite C. eapply rt_stopped; eauto.
  - rewrite RA. eapply rt_broken; eauto.
Qed.
Theorem returns_one : forall o filename K K' r r', returns o filename K r -> returns o filename K' r' -> short K -> short K' -> r = r'.
Proof.
  intros o filename K K' r r' A B SA SB. destruct (returns_main _ _ _ _ A SA) as [n N], (returns_main _ _ _ _ B SB) as [m M].
  rewrite <- (N (n + m)), <- (M (n + m)) by lia. reflexivity.
Qed.
