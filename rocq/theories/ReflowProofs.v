(** C78: the same statements on other lines. *)
From Verif Require Export SpecReflow ScanProofs Util.
Local Open Scope string_scope.

(** ** Texts *)
Lemma plain_marks : forall v, ~ special v ->
  existsb (String.eqb v) ["{"; "}"; ";"] = false /\ String.eqb v "{" = false /\ String.eqb v "}" = false /\ String.eqb v ";" = false /\
  match v with String "#"%char _ => true | _ => false end = false /\ has_prefix v "#" = false.
Proof.
  intros v N.
  assert (A : forall x, In x ["{"; "}"; ";"] -> String.eqb v x = false) by (intros x I; apply String.eqb_neq; intros ->; apply N; now left).
  assert (B : String.eqb v "{" = false) by (apply A; cbn; auto). assert (C : String.eqb v "}" = false) by (apply A; cbn; auto).
  assert (D : String.eqb v ";" = false) by (apply A; cbn; auto).
  assert (H : match v with String "#"%char _ => true | _ => false end = false).
  { destruct v as [|c v]; [reflexivity|]. destruct (Ascii.eqb c "#") eqn:E.
    - apply Ascii.eqb_eq in E. subst c. exfalso. apply N. right. now exists v.
    - apply Ascii.eqb_neq in E. destruct c as [[] [] [] [] [] [] [] []]; try reflexivity. now destruct E. }
  assert (P : has_prefix v "#" = false).
  { destruct (has_prefix v "#") eqn:E; [|reflexivity]. apply has_prefix_iff in E. exfalso. apply N. now right. }
  repeat split; auto. cbn [existsb]. now rewrite B, C, D.
Qed.
Lemma same_marks : forall v l l' q q' e e', q = q' \/ ~ special v ->
  let t := Tok v l q e in let t' := Tok v l' q' e' in
  (sepb t = sepb t' /\ noteb t = noteb t' /\ opensb t = opensb t' /\ closesb t = closesb t') /\
  is_term t = is_term t' /\ tok_comment t = tok_comment t' /\ tok_is t "}" = tok_is t' "}" /\ tok_is t "{" = tok_is t' "{".
Proof.
  intros v l l' q q' e e' [<-|N]; [repeat split; reflexivity|]. destruct (plain_marks v N) as (A & B & C & D & H & P).
  unfold sepb, noteb, opensb, closesb, is_term, tok_comment, tok_is. cbn [t_val t_quoted]. rewrite A, B, C, D, H, P.
  repeat split; destruct q, q'; reflexivity.
Qed.
Lemma same_sep : forall t t', same_token t t' -> sepb t = sepb t' /\ noteb t = noteb t' /\ opensb t = opensb t' /\ closesb t = closesb t' /\ t_val t = t_val t'.
Proof. intros t t' [v l l' q q' Q|v l l' q q' e e' Q SE]; destruct (same_marks v l l' q q' None None Q) as [(A & B & C & D) _]; repeat split; assumption || reflexivity. Qed.
Lemma same_net : forall a b, Forall2 same_token a b -> net a = net b.
Proof.
  induction 1 as [|t t' a b T F IH]; [reflexivity|]. destruct (same_sep _ _ T) as (_ & _ & O & C & _). cbn [net]. now rewrite O, C, IH.
Qed.
Lemma same_after : forall a b, Forall2 same_token a b -> forall x, after_sep x a = after_sep x b.
Proof.
  induction 1 as [|t t' a b T F IH]; intros x; [reflexivity|]. destruct (same_sep _ _ T) as (S1 & N1 & _). cbn [after_sep]. now rewrite S1, N1, IH.
Qed.
Lemma same_orderly : forall a b, Forall2 same_token a b -> orderly a -> orderly b.
Proof.
  intros a b F [NE SP]. split.
  - intros x y E. rewrite E in F. apply Forall2_app_inv_r in F. destruct F as (x0 & y0 & FX & _ & E0).
    rewrite <- (same_net _ _ FX). now apply (NE x0 y0).
  - intros x t y E S1 AF. rewrite E in F. apply Forall2_app_inv_r in F. destruct F as (x0 & y0 & FX & FY & E0).
    inversion FY as [|t0 t1 y1 y2 T FY2]; subst. destruct (same_sep _ _ T) as (A & _ & _ & _ & V). rewrite <- V.
    apply (SP x0 t0 y1 eq_refl); [now rewrite A|]. now rewrite (same_after _ _ FX).
Qed.

Definition same_entry (a b : token * Z) : Prop := same_token (fst a) (fst b).
Lemma same_entries : forall L L' e e', Forall2 same_item (map snd L) (map snd L') -> same_ending e e' ->
  forall line line' prev prev', Forall2 same_entry (entries line prev L e) (entries line' prev' L' e').
Proof.
  induction L as [|[g x] L IH]; intros [|[g' x'] L'] e e' M E line line' prev prev'; try (now inversion M).
  - destruct E as [g g'|g g' x x' [V Q]]; cbn [entries]; [constructor|]. rewrite <- V. destruct (String.eqb _ _); constructor; [|constructor]. now constructor.
  - cbn [map snd] in M. inversion M as [|y y' l l' [V Q] M2]; subst. cbn [entries]. rewrite <- V. constructor; [now constructor|]. now apply IH.
Qed.
Lemma same_fst : forall a b, Forall2 same_entry a b -> Forall2 same_token (map fst a) (map fst b).
Proof. induction 1; constructor; auto. Qed.
Lemma same_failure : forall s l s' l' w, same_token (failure s l w) (failure s' l' w).
Proof. intros. apply st_error; [now left|]. constructor; [split; discriminate|constructor]. Qed.
Lemma same_outcome : forall s l s' l' a b toks, Forall2 same_entry a b -> outcome s l a toks ->
  exists toks', outcome s' l' b toks' /\ Forall2 same_token toks toks'.
Proof.
  intros s l s' l' a b toks F O. destruct O as [a OR N|a t n r OR S1 V AF|a t n r OR C N|a OR N].
  - exists (map fst b). apply same_fst in F. split; [|exact F]. apply oc_good; [now apply (same_orderly (map fst a))|].
    now rewrite <- (same_net _ _ F).
  - apply Forall2_app_inv_l in F. destruct F as (a' & r' & FA & FR & ->). inversion FR as [|x [t' n'] y z T FZ]; subst.
    unfold same_entry in T. cbn in T. apply same_fst in FA. destruct (same_sep _ _ T) as (A & _ & _ & _ & V').
    eexists. split; [apply oc_twice|].
    + now apply (same_orderly (map fst a)).
    + congruence.
    + congruence.
    + now rewrite <- (same_after _ _ FA).
    + rewrite V'. apply Forall2_app; [exact FA|]. constructor; [apply same_failure|constructor].
  - apply Forall2_app_inv_l in F. destruct F as (a' & r' & FA & FR & ->). inversion FR as [|x [t' n'] y z T FZ]; subst.
    unfold same_entry in T. cbn in T. apply same_fst in FA. destruct (same_sep _ _ T) as (_ & _ & _ & A & V').
    eexists. split; [apply oc_close|].
    + now apply (same_orderly (map fst a)).
    + congruence.
    + now rewrite <- (same_net _ _ FA).
    + apply Forall2_app; [exact FA|]. constructor; [apply same_failure|constructor].
  - apply same_fst in F. exists (map fst b ++ [failure s' l' "unexpected end of file, expecting ""}"""])%list. split.
    + apply oc_open; [now apply (same_orderly (map fst a))|]. now rewrite <- (same_net _ _ F).
    + apply Forall2_app; [exact F|]. constructor; [apply same_failure|constructor].
Qed.
Lemma reflowed_tokens : forall s s', reflowed s s' -> Forall2 same_token (lex [] s) (lex [] s').
Proof.
  intros s s' (L & e & L' & e' & D & D' & M & E).
  pose proof (proj2 (scan_exact s L e (lex [] s) D) eq_refl) as R. unfold read_as in R.
  destruct (same_outcome _ _ (last_shown 1 None L' e') (1 + newlines (text_of L' e')) _ _ _ (same_entries L L' e e' M E 1 1 None None) R) as (toks' & O & F).
  apply (scan_exact s' L' e' toks' D') in O. now subst toks'.
Qed.

(** ** The parser *)
Lemma both_some : forall a b, both_lines (Some a) (Some b).
Proof. intros; split; discriminate. Qed.
Lemma both_refl : forall l, both_lines l l.
Proof. intros; split; auto. Qed.
Lemma same_line : forall e e', same_err e e' -> both_lines (err_line e) (err_line e').
Proof. intros e e' []; cbn; [assumption|apply both_refl]. Qed.
Lemma trees_app : forall a a' b b', same_trees a a' -> same_trees b b' -> same_trees (a ++ b) (a' ++ b').
Proof. unfold same_trees. intros. rewrite !map_app. congruence. Qed.

Definition same_st (s s' : pst) : Prop :=
  p_queue s = p_queue s' /\ p_included s = p_included s' /\ p_edges s = p_edges s' /\ p_indeg s = p_indeg s' /\
  p_heap s = p_heap s' /\ same_config (p_cur s) (p_cur s') /\ same_payload (p_pay s) (p_pay s') /\
  p_opens s = p_opens s' /\ p_asked s = p_asked s' /\ p_used s = p_used s'.
Inductive same_dec : decision -> decision -> Prop :=
| sd_keep : forall d d' s s', placeless d = placeless d' -> same_st s s' -> same_dec (DKeep d s) (DKeep d' s')
| sd_map : forall d d', placeless d = placeless d' -> same_dec (DMap d) (DMap d')
| sd_skip : forall b s s', same_st s s' -> same_dec (DSkip b s) (DSkip b s')
| sd_break : forall s s', same_st s s' -> same_dec (DBreak s) (DBreak s')
| sd_err : forall e e' s s', same_err e e' -> same_st s s' -> same_dec (DErr e s) (DErr e' s')
| sd_panic : same_dec DPanic DPanic.
Inductive same_pres : pres -> pres -> Prop :=
| sp_ok : forall ds ds' r r' s s', same_trees ds ds' -> Forall2 same_token r r' -> same_st s s' -> same_pres (POk ds r s) (POk ds' r' s')
| sp_err : forall e e' r r' s s', same_err e e' -> same_st s s' -> same_pres (PErr e r s) (PErr e' r' s')
| sp_panic : same_pres PPanic PPanic
| sp_fuel : same_pres PFuel PFuel.
Inductive same_fres : fres -> fres -> Prop :=
| ss_done : forall s s', same_st s s' -> same_fres (FDone s) (FDone s')
| ss_err : forall e e' s s', same_err e e' -> same_st s s' -> same_fres (FErr e s) (FErr e' s')
| ss_panic : same_fres FPanic FPanic
| ss_fuel : same_fres FFuel FFuel.

Lemma check_masks_line : forall v l l' a f i b c m term ms what,
  check_masks (Dir v l a f i b c m) term what ms = check_masks (Dir v l' a f i b c m) term what ms.
Proof.
  intros v l l' a f i b c m term ms. induction ms as [|x ms IH]; intros what; [reflexivity|]. cbn [check_masks d_args d_name].
  rewrite !IH. reflexivity.
Qed.
Definition reline (l : Z) (e : parse_error) : parse_error := PE (pe_what e) (pe_file e) (Some l) (pe_stmt e) (pe_block e) (pe_orig e).
Lemma analyze_line : forall o fname v l l' a f i b c m term cl,
  analyze o fname (Dir v l' a f i b c m) term cl = option_map (reline l') (analyze o fname (Dir v l a f i b c m) term cl).
Proof.
  intros. unfold analyze. cbn [d_name]. destruct (find_masks o v) as [ms known].
  destruct (o_strict o && negb known)%bool; [reflexivity|]. destruct (assoc _ contexts) as [cm|]; [|reflexivity].
  destruct (negb known); [reflexivity|]. destruct (negb (o_skipctx o) && _)%bool; [reflexivity|].
  destruct (o_skipargs o); [reflexivity|]. rewrite (check_masks_line v l' l). destruct (check_masks _ _ _ _); reflexivity.
Qed.
Lemma analyze_map_line : forall fname v l l' a f i b c m term cl,
  analyze_map_body fname (Dir v l' a f i b c m) term cl = option_map (reline l') (analyze_map_body fname (Dir v l a f i b c m) term cl).
Proof.
  intros. unfold analyze_map_body. destruct (assoc cl map_bodies) as [mm|]; [|reflexivity]. cbn [d_name d_args].
  destruct (negb _); [reflexivity|]. destruct (assoc v _); destruct (valid_args _ _); reflexivity.
Qed.
Lemma analyze_has_line : forall o fname d term cl e, analyze o fname d term cl = Some e -> exists l, pe_line e = Some l.
Proof.
  intros o fname d term cl e. unfold analyze. destruct (find_masks o (d_name d)) as [ms known].
  destruct (o_strict o && negb known)%bool; [intros [= <-]; now eexists|]. destruct (assoc _ contexts) as [cm|]; [|discriminate].
  destruct (negb known); [discriminate|]. destruct (negb (o_skipctx o) && _)%bool; [intros [= <-]; now eexists|].
  destruct (o_skipargs o); [discriminate|]. destruct (check_masks _ _ _ _); [intros [= <-]; now eexists|discriminate].
Qed.
Lemma analyze_map_has_line : forall fname d term m e, analyze_map_body fname d term m = Some e -> exists l, pe_line e = Some l.
Proof.
  intros fname d term m e. unfold analyze_map_body. destruct (assoc m map_bodies) as [mm|]; [|discriminate].
  destruct (negb _); [intros [= <-]; now eexists|]. destruct (assoc _ _); destruct (valid_args _ _); try discriminate; intros [= <-]; now eexists.
Qed.
Lemma same_reline : forall e l, (exists a, pe_line e = Some a) -> same_err (EParse e) (EParse (reline l e)).
Proof. intros [w f li s b og] l [a H]. cbn in H. subst li. unfold reline. cbn. constructor; [apply both_some|constructor]. Qed.

Section Reflow.
Variables (o : popts) (op : string -> string + string).
Hypothesis files : forall f, same_file (o_lexers o) (o_open o f) (op f).
Let o' := with_open o op.

Lemma rf_handle : forall s s' e e', same_st s s' -> same_err e e' -> same_st (handle_error o s e) (handle_error o' s' e').
Proof.
  intros s s' e e' (Q & I & E & D & H & (C1 & C2 & C3 & C4) & (P1 & P2 & P3) & O & A & U) SE. pose proof (same_line _ _ SE) as SL.
  unfold handle_error, same_st. cbn. repeat (split; [assumption|]). split; [|split; [|auto]].
  - split; [exact C1|]. split; [reflexivity|]. split; [|exact C4]. cbn. apply Forall2_app; [exact C3|]. constructor; [now split|constructor].
  - split; [reflexivity|]. split; [|exact P3]. cbn. apply Forall2_app; [exact P2|]. constructor; [|constructor].
    split; [exact C1|]. split; [exact SL|]. split; [exact SE|]. cbn. destruct (o_callback o); [split; discriminate|reflexivity].
Qed.
Lemma rf_add : forall ctx f s s', same_st s s' ->
  same_st (fst (add_include ctx s f)) (fst (add_include ctx s' f)) /\ snd (add_include ctx s f) = snd (add_include ctx s' f).
Proof.
  intros ctx f s s' (Q & I & E & D & H & C & P & O & A & U). unfold add_include. rewrite <- Q, <- I, <- E, <- D, <- H, <- A, <- (proj1 C).
  destruct (assoc f (p_included s)); cbn; split; try reflexivity; unfold same_st; cbn; rewrite ?Q, ?I, ?A; repeat (split; [first [assumption|reflexivity]|]); auto.
Qed.
Lemma rf_adds : forall ctx fs s s', same_st s s' ->
  same_st (fst (add_includes ctx s fs)) (fst (add_includes ctx s' fs)) /\ snd (add_includes ctx s fs) = snd (add_includes ctx s' fs).
Proof.
  intros ctx fs. induction fs as [|f fs IH]; intros s s' SS; [now split|]. cbn [add_includes].
  destruct (rf_add ctx f s s' SS) as [A B]. destruct (add_include ctx s f) as [s1 i1]. destruct (add_include ctx s' f) as [s2 i2]. cbn in A, B.
  destruct (IH s1 s2 A) as [A2 B2]. destruct (add_includes ctx s1 fs) as [s3 j1]. destruct (add_includes ctx s2 fs) as [s4 j2]. cbn in *. split; [exact A2|congruence].
Qed.
Lemma rf_include : forall dir ctx v l l' a f s s', same_st s s' ->
  same_dec (do_include o dir ctx (Dir v l a f None None None false) s) (do_include o' dir ctx (Dir v l' a f None None None false) s').
Proof.
  intros dir ctx v l l' a f s s' SS. pose proof SS as (Q & I & E & D & H & C & P & O & A & U). unfold do_include. cbn [d_args d_name d_line].
  rewrite <- H, <- (proj1 C). destruct a as [|a0 a].
  { constructor; [|exact SS]. constructor; [apply both_some|].
    assert (X : forall p, "invalid number of arguments in " ++ s_dq ++ v ++ s_dq ++ " directive in " ++ cf_file (p_cur s) ++ ":" ++ p
      = ("invalid number of arguments in " ++ s_dq ++ v ++ s_dq ++ " directive in " ++ cf_file (p_cur s)) ++ ":" ++ p) by (intros p; now rewrite !app_assoc_s).
    rewrite !X. now apply sw_place. }
  change (o_glob o') with (o_glob o). change (o_open o') with op. change (o_stop o') with (o_stop o). destruct (has_magic _).
  - destruct (o_glob o _) as [fs|msg]; [|constructor; [constructor|exact SS]].
    destruct (rf_adds ctx (sort_strings fs) s s' SS) as [X Y].
    destruct (add_includes ctx s (sort_strings fs)). destruct (add_includes ctx s' (sort_strings fs)). cbn in X, Y. subst. constructor; [reflexivity|exact X].
  - assert (SL : same_st (log_open s (resolve dir a0)) (log_open s' (resolve dir a0))) by (unfold same_st; cbn; rewrite O; repeat (split; [assumption|]); auto).
    destruct (files (resolve dir a0)) as [t t' _|msg].
    + destruct (rf_adds ctx [resolve dir a0] _ _ SL) as [X Y].
      destruct (add_includes ctx (log_open s _) _). destruct (add_includes ctx (log_open s' _) _). cbn in X, Y. subst. constructor; [reflexivity|exact X].
    + assert (SE : forall b, same_err (EParse (PE msg (Some (cf_file (p_cur s))) (Some l) (dir_string (Dir v l (a0 :: a) f None None None false)) b None))
        (EParse (PE msg (Some (cf_file (p_cur s))) (Some l') (dir_string (Dir v l' (a0 :: a) f None None None false)) b None)))
        by (intros b; constructor; [apply both_some|constructor]).
      destruct (o_stop o); constructor; auto. now apply rf_handle.
Qed.
Lemma rf_decide : forall dir ctx v l l' a f term s s', same_st s s' ->
  same_dec (decide o dir ctx (Dir v l a f None None None false) term s) (decide o' dir ctx (Dir v l' a f None None None false) term s').
Proof.
  intros dir ctx v l l' a f term s s' SS. pose proof SS as (Q & I & E & D & H & C & P & O & A & U). unfold decide. cbn [d_name d_args set_args].
  rewrite <- H, <- (proj1 C). change (o_stop o') with (o_stop o). change (o_ignore o') with (o_ignore o). change (analyze o') with (analyze o). change (o_single o') with (o_single o).
  destruct (match read_slice (p_heap s) ctx with [] => None | _ => _ end) as [m|].
  { rewrite (analyze_map_line _ v l l'). destruct (analyze_map_body _ _ term m) as [e|] eqn:AM; cbn [option_map]; [|constructor; reflexivity].
    pose proof (same_reline e l' (analyze_map_has_line _ _ _ _ _ AM)) as SE.
    destruct (o_stop o); constructor; auto. now apply rf_handle. }
  destruct (mem_str _ _); [now constructor|].
  rewrite (analyze_line o _ v l l'). destruct (analyze o _ _ term _) as [e|] eqn:AN; cbn [option_map].
  { pose proof (same_reline e l' (analyze_has_line _ _ _ _ _ _ AN)) as SE. change (pe_what (reline l' e)) with (pe_what e).
    destruct (o_stop o); [now constructor|]. pose proof (rf_handle _ _ _ _ SS SE).
    destruct (has_suffix _ _); [destruct (negb _)|]; now constructor. }
  destruct (if String.eqb v "if" then prepare_if a else Some a) as [args|]; [|constructor].
  destruct (negb (o_single o) && _)%bool; [now apply rf_include|now constructor].
Qed.

Lemma read_args_same : forall b ts ts', Forall2 same_token ts ts' ->
  match read_args b ts, read_args b ts' with
  | None, None => True
  | Some (a, c, t, r), Some (a', c', t', r') => a = a' /\ c = c' /\ t = t' /\ Forall2 same_token r r'
  | _, _ => False
  end.
Proof.
  intros b. induction 1 as [|t t' ts ts' T F IH]; [exact I|]. cbn [read_args].
  assert (X : is_term t = is_term t' /\ tok_comment t = tok_comment t' /\ t_val t = t_val t')
    by (destruct T as [v l l' q q' Q|v l l' q q' e e' Q SE]; destruct (same_marks v l l' q q' None None Q) as (_ & A & B & _); repeat split; assumption || reflexivity). destruct X as (X1 & X2 & X3).
  rewrite <- X1, <- X2, <- X3. destruct (is_term t); [auto|].
  destruct (read_args b ts) as [[[[a c] tm] r]|]; destruct (read_args b ts') as [[[[a' c'] tm'] r']|]; try contradiction; [|exact I].
  destruct IH as (-> & -> & -> & FR). destruct (negb (tok_comment t)); [auto|]. destruct b; auto.
Qed.
Lemma consume_same : forall ts ts', Forall2 same_token ts ts' -> forall n, Forall2 same_token (consume n ts) (consume n ts').
Proof.
  induction 1 as [|t t' ts ts' T F IH]; intros n; [constructor|]. cbn [consume].
  destruct T as [v l l' q q' Q|v l l' q q' e e' Q SE]; cbn [t_err].
  - destruct (same_marks v l l' q q' None None Q) as (_ & _ & _ & C1 & C2). rewrite <- C1, <- C2. destruct (tok_is _ "}"); [destruct n; auto|]. destruct (tok_is _ "{"); auto.
  - destruct n; auto.
Qed.
Lemma padd_same : forall ds ds' r r', same_trees ds ds' -> same_pres r r' -> same_pres (padd ds r) (padd ds' r').
Proof. intros ds ds' r r' S1 []; cbn [padd]; constructor; auto. now apply trees_app. Qed.
Lemma rf_parse : forall dir fuel ctx ts ts' s s', Forall2 same_token ts ts' -> same_st s s' ->
  same_pres (parse o dir fuel ctx ts s) (parse o' dir fuel ctx ts' s').
Proof.
  intros dir. induction fuel as [|fuel IH]; intros ctx ts ts' s s' F SS; [constructor|]. cbn [parse].
  destruct F as [|t t' ts ts' T F]; [constructor; [reflexivity|constructor|exact SS]|].
  pose proof SS as (QU & I & E & D & H & C & P & O & A & U). rewrite <- H, <- (proj1 C).
  assert (FL : file_label o' s' = file_label o s) by (unfold file_label, o'; cbn; now rewrite (proj1 C)). rewrite FL.
  change (o_comments o') with (o_comments o).
  destruct T as [v l l' q q' Q|v l l' q q' e e' Q' SE]; cbn [t_err t_val t_line].
  2:{ constructor; [|exact SS]. destruct SE as [w w' fi li li' st b og BL SW|m]; constructor; auto using both_some. constructor. }
  destruct (same_marks v l l' q q' None None Q) as (_ & _ & C2 & C1 & _). rewrite <- C1, <- C2.
  destruct (tok_is _ "}"); [constructor; [reflexivity|exact F|exact SS]|].
  destruct (tok_comment _).
  { apply padd_same; [destruct (o_comments o); reflexivity|]. now apply IH. }
  pose proof (read_args_same (o_comments o) ts ts' F) as RA.
  destruct (read_args (o_comments o) ts) as [[[[a c] tm] r]|]; destruct (read_args (o_comments o) ts') as [[[[a' c'] tm'] r']|]; try contradiction.
  2:{ constructor; [|exact SS]. constructor; [apply both_some|constructor]. }
  destruct RA as (<- & <- & <- & FR).
  assert (CD : same_trees (map (comment_dir (file_label o s) l) c) (map (comment_dir (file_label o s) l') c)) by (unfold same_trees; rewrite !map_map; reflexivity).
  destruct (rf_decide dir ctx v l l' a (file_label o s) tm s s' SS) as [d d' s1 s1' PD S1|d d' PD|b s1 s1' S1|s1 s1' S1|e e' s1 s1' SE S1|].
  - assert (NM : d_name d = d_name d') by (destruct d, d'; cbn in PD; injection PD; auto).
    pose proof S1 as (_ & _ & _ & _ & H1 & _).
    destruct (String.eqb tm "{").
    + rewrite <- NM, <- H1. destruct (enter_block (p_heap s1) ctx (d_name d)) as [h inner].
      assert (S2 : same_st (set_heap s1 h) (set_heap s1' h)) by (destruct S1 as (? & ? & ? & ? & _ & ? & ? & ? & ? & ?); unfold same_st; cbn; repeat (split; [first [assumption|reflexivity]|]); auto).
      destruct (IH inner r r' _ _ FR S2) as [ds ds' q1 q1' s2 s2' TD FQ S3|e e' q1 q1' s2 s2' SE S3| |]; try (constructor; auto).
      apply padd_same; [|now apply IH]. change (set_block d ds :: ?x) with ([set_block d ds] ++ x)%list. change (set_block d' ds' :: ?x) with ([set_block d' ds'] ++ x)%list.
      apply trees_app; [|exact CD]. unfold same_trees in *. cbn. rewrite TD. f_equal. destruct d, d'; cbn in *. congruence.
    + apply padd_same; [|now apply IH]. apply (trees_app [d] [d']); [|exact CD]. unfold same_trees. cbn. now rewrite PD.
  - apply padd_same; [unfold same_trees; cbn; now rewrite PD|]. now apply IH.
  - apply IH; [|exact S1]. destruct b; [now apply consume_same|exact FR].
  - constructor; [reflexivity|exact FR|exact S1].
  - now constructor.
  - constructor.
Qed.
Lemma same_length : forall a b, Forall2 same_token a b -> List.length a = List.length b.
Proof. induction 1; cbn; congruence. Qed.
Lemma rf_file : forall dir path ctx s s', same_st s s' -> same_fres (parse_file o dir path ctx s) (parse_file o' dir path ctx s').
Proof.
  intros dir path ctx s s' SS. unfold parse_file. change (o_open o') with op. change (o_lexers o') with (o_lexers o). change (o_stop o') with (o_stop o).
  pose proof SS as (Q & I & E & D & H & C & P & O & A & U).
  assert (SL : same_st (log_use (log_open s path) path ctx) (log_use (log_open s' path) path ctx))
    by (unfold same_st; cbn; rewrite O, H, U; repeat (split; [first [assumption|reflexivity]|]); auto).
  destruct (files path) as [t t' F|msg]; [|constructor; [constructor|exact SL]].
  rewrite <- (same_length _ _ F).
  assert (S2 : same_st (set_cur (log_use (log_open s path) path ctx) (Cfg path "ok" [] [])) (set_cur (log_use (log_open s' path) path ctx) (Cfg path "ok" [] []))).
  { destruct SL as (? & ? & ? & ? & ? & _ & ? & ? & ? & ?). unfold same_st. cbn. repeat (split; [assumption|]). split; [|auto].
    unfold same_config. cbn. split; [reflexivity|]. split; [reflexivity|]. split; [constructor|reflexivity]. }
  destruct (rf_parse dir (S (List.length (lex (o_lexers o) t))) ctx _ _ _ _ F S2) as [ds ds' r r' s1 s1' TD _ S3|e e' r r' s1 s1' SE S3| |]; try constructor.
  - destruct S3 as (? & ? & ? & ? & ? & (C1 & C2 & C3 & C4) & (P1 & P2 & P3) & ? & ? & ?). unfold same_st. cbn.
    repeat (split; [assumption|]). split; [|split; [|auto]]; [now repeat (split; [assumption|])|]. split; [exact P1|]. split; [exact P2|].
    cbn. apply Forall2_app; [exact P3|]. constructor; [|constructor]. repeat (split; [assumption|]). exact TD.
  - destruct (o_stop o); constructor; auto. pose proof (rf_handle _ _ _ _ S3 SE) as (? & ? & ? & ? & ? & C1 & (P1 & P2 & P3) & ? & ? & ?).
    unfold same_st. cbn [set_pay p_queue p_included p_edges p_indeg p_heap p_cur p_pay p_opens p_asked p_used].
    repeat (split; [assumption|]). split; [|auto]. split; [exact P1|]. split; [exact P2|]. apply Forall2_app; [exact P3|]. constructor; [exact C1|constructor].
Qed.
Lemma rf_files : forall fuel dir s s', same_st s s' -> same_fres (run_files fuel o dir s) (run_files fuel o' dir s').
Proof.
  induction fuel as [|fuel IH]; intros dir s s' SS; cbn [run_files]; rewrite <- (proj1 SS); destruct (p_queue s) as [|[path ctx] q]; try (constructor; assumption).
  assert (S2 : same_st (set_queue s q) (set_queue s' q)) by (destruct SS as (_ & ? & ? & ? & ? & ? & ? & ? & ? & ?); unfold same_st; cbn; repeat (split; [first [assumption|reflexivity]|]); auto).
  destruct (rf_file dir path ctx _ _ S2); try (constructor; assumption). now apply IH.
Qed.
End Reflow.

(** ** Combining *)
Inductive same_cres : Combine.cres -> Combine.cres -> Prop :=
| sc_ok : forall ds ds', same_trees ds ds' -> same_cres (COk ds) (COk ds')
| sc_err : forall e e', same_err e e' -> same_cres (CErr e) (CErr e')
| sc_panic : same_cres CPanic CPanic
| sc_fuel : same_cres CFuel CFuel.
Lemma cadd_same : forall ds ds' r r', same_trees ds ds' -> same_cres r r' -> same_cres (cadd ds r) (cadd ds' r').
Proof. intros ds ds' r r' S1 []; cbn [cadd]; constructor; auto. now apply trees_app. Qed.
Lemma cseq_same : forall a a' b b', same_cres a a' -> same_cres b b' -> same_cres (cseq a b) (cseq a' b').
Proof. intros a a' b b' [] S2; cbn [cseq]; try constructor; auto. now apply cadd_same. Qed.
Lemma perform_same : forall old old', Forall2 same_config old old' -> forall fuel f ds ds', same_trees ds ds' ->
  same_cres (perform fuel old f ds) (perform fuel old' f ds').
Proof.
  intros old old' FO. induction fuel as [|fuel IH]; intros f ds ds' T; [constructor|].
  assert (LE : List.length old = List.length old') by (clear -FO; induction FO; cbn; congruence).
  assert (NT : forall n, match nth_error old n, nth_error old' n with None, None => True | Some c, Some c' => same_config c c' | _, _ => False end).
  { clear -FO. induction FO as [|x y l l2 SC FO IHF]; intros [|n]; cbn [nth_error]; first [exact I|exact SC|apply IHF]. }
  cbn [perform]. revert ds' T. induction ds as [|d ds IHds]; intros [|d' ds'] T; try discriminate T; [constructor; reflexivity|].
  unfold same_trees in T. cbn [map] in T. injection T as T1 T2. specialize (IHds ds' T2).
  assert (BL : match d_block d, d_block d' with None, None => True | Some b, Some b' => same_trees b b' | _, _ => False end).
  { destruct d as [n1 l1 a1 f1 i1 b1 c1 m1], d' as [n2 l2 a2 f2 i2 b2 c2 m2]. cbn in *. injection T1 as _ _ _ _ T1 _ _.
    destruct b1, b2; try discriminate T1; [injection T1 as T1; exact T1|exact I]. }
  assert (IN : forall x y, placeless x = placeless y -> is_include x = is_include y /\ d_includes x = d_includes y /\ dir_string x = dir_string y).
  { intros x y E. destruct x as [n1 l1 a1 f1 i1 b1 c1 m1], y as [n2 l2 a2 f2 i2 b2 c2 m2]. cbn in E. injection E as -> -> -> -> EB -> ->.
    split; [reflexivity|]. split; [reflexivity|]. unfold dir_string. cbn. destruct b1 as [[|]|], b2 as [[|]|]; try discriminate EB; reflexivity. }
  assert (STEP : forall x y, placeless x = placeless y -> forall is, same_cres
    ((fix go (idxs : list Z) : Combine.cres :=
        match idxs with
        | [] => COk []
        | i :: r =>
          if Z.leb (Z.of_nat (List.length old)) i then CErr (index_error f x i)
          else if Z.ltb i 0 then CPanic
          else match nth_error old (Z.to_nat i) with
               | None => CPanic
               | Some c => cseq (perform fuel old (cf_file c) (cf_parsed c)) (go r)
               end
        end) is)
    ((fix go (idxs : list Z) : Combine.cres :=
        match idxs with
        | [] => COk []
        | i :: r =>
          if Z.leb (Z.of_nat (List.length old')) i then CErr (index_error f y i)
          else if Z.ltb i 0 then CPanic
          else match nth_error old' (Z.to_nat i) with
               | None => CPanic
               | Some c => cseq (perform fuel old' (cf_file c) (cf_parsed c)) (go r)
               end
        end) is)).
  { intros x y E. destruct (IN x y E) as (_ & _ & DS). induction is as [|i is IHi]; [constructor; reflexivity|]. rewrite <- LE in *.
    destruct (Z.leb _ i); [constructor; unfold index_error; rewrite DS; constructor; [apply both_some|constructor]|].
    destruct (Z.ltb i 0); [constructor|]. specialize (NT (Z.to_nat i)).
    destruct (nth_error old (Z.to_nat i)) as [c|], (nth_error old' (Z.to_nat i)) as [c'|]; try contradiction; [|constructor].
    destruct NT as (CF & _ & _ & CP). apply cseq_same; [rewrite <- CF; now apply IH|]. exact IHi. }
  assert (GO : forall x y, placeless x = placeless y -> same_cres
    (if negb (is_include x) then cadd [x] (perform (S fuel) old f ds) else
       cseq ((fix go (idxs : list Z) : Combine.cres :=
        match idxs with
        | [] => COk []
        | i :: r =>
          if Z.leb (Z.of_nat (List.length old)) i then CErr (index_error f x i)
          else if Z.ltb i 0 then CPanic
          else match nth_error old (Z.to_nat i) with
               | None => CPanic
               | Some c => cseq (perform fuel old (cf_file c) (cf_parsed c)) (go r)
               end
        end) (opt_list (d_includes x))) (perform (S fuel) old f ds))
    (if negb (is_include y) then cadd [y] (perform (S fuel) old' f ds') else
       cseq ((fix go (idxs : list Z) : Combine.cres :=
        match idxs with
        | [] => COk []
        | i :: r =>
          if Z.leb (Z.of_nat (List.length old')) i then CErr (index_error f y i)
          else if Z.ltb i 0 then CPanic
          else match nth_error old' (Z.to_nat i) with
               | None => CPanic
               | Some c => cseq (perform fuel old' (cf_file c) (cf_parsed c)) (go r)
               end
        end) (opt_list (d_includes y))) (perform (S fuel) old' f ds'))).
  { intros x y E. destruct (IN x y E) as (A & B & _). rewrite <- A, <- B. destruct (negb _).
    - apply cadd_same; [unfold same_trees; cbn; now rewrite E|exact IHds].
    - apply cseq_same; [now apply STEP|exact IHds]. }
  destruct (d_block d) as [b|] eqn:EB, (d_block d') as [b'|] eqn:EB'; try contradiction.
  - pose proof (IH f b b' BL) as X. destruct X as [nb nb' TB|e e' SE| |]; try (constructor; assumption).
    apply (GO (with_block d nb) (with_block d' nb')). unfold same_trees in TB. destruct d, d'; cbn in *. congruence.
  - exact (GO d d' T1).
Qed.

Lemma reflow_main : forall fuel o op filename, (forall f, same_file (o_lexers o) (o_open o f) (op f)) ->
  same_result (parse_main fuel o filename) (parse_main fuel (with_open o op) filename).
Proof.
  intros fuel o op filename FI. unfold parse_main, collect.
  assert (S0 : same_st (init_state filename) (init_state filename)).
  { unfold same_st. cbn. repeat (split; [reflexivity|]). split; [|split; [|auto]].
    - split; [reflexivity|]. split; [reflexivity|]. split; [constructor|reflexivity].
    - split; [reflexivity|]. split; constructor. }
  destruct (rf_files o op FI fuel (dir_name filename) _ _ S0) as [s s' SS|e e' s s' SE _| |]; try (constructor; assumption).
  pose proof SS as (_ & _ & E & D & _ & _ & (P1 & P2 & P3) & _). unfold finish. rewrite <- E, <- D.
  destruct (has_cycle _ _ _); [constructor; constructor|]. change (o_combine (with_open o op)) with (o_combine o).
  destruct (o_combine o); [|constructor; now split].
  unfold combined. destruct (pl_config (p_pay s)) as [|c0 cs] eqn:EC, (pl_config (p_pay s')) as [|c0' cs'] eqn:EC'; try (now inversion P3).
  { constructor. split; [exact P1|]. split; [exact P2|]. now rewrite EC, EC'. }
  inversion P3 as [|x1 x2 x3 x4 (F0 & _ & _ & T0) P4]; subst.
  pose proof (perform_same _ _ P3 fuel (cf_file c0) _ _ T0) as X. rewrite F0 in X at 2.
  destruct X as [ds ds' TD|e e' SE| |]; constructor; try assumption. rewrite <- P1.
  split; [reflexivity|]. split; [exact P2|]. constructor; [|constructor].
  assert (ES : forall l l', Forall2 same_config l l' -> existsb (fun c => String.eqb (cf_status c) "failed") l = existsb (fun c => String.eqb (cf_status c) "failed") l').
  { induction 1 as [|x y l l' (_ & S1 & _) F IH]; [reflexivity|]. cbn. now rewrite S1, IH. }
  assert (EE : forall l l', Forall2 same_config l l' -> Forall2 same_cerr (flat_map cf_errors l) (flat_map cf_errors l')).
  { induction 1 as [|x y l l' (_ & _ & S1 & _) F IH]; [constructor|]. cbn. now apply Forall2_app. }
  split; [exact F0|]. split; [cbn [cf_status]; now rewrite (ES _ _ P3)|]. split; [exact (EE _ _ P3)|exact TD].
Qed.
Lemma reflow_texts : forall fuel o op filename, o_lexers o = [] ->
  (forall f, match o_open o f, op f with inl s, inl s' => reflowed s s' | inr m, inr m' => m = m' | _, _ => False end) ->
  same_result (parse_main fuel o filename) (parse_main fuel (with_open o op) filename).
Proof.
  intros fuel o op filename L H. apply reflow_main. intros f. specialize (H f). rewrite L.
  destruct (o_open o f), (op f); try contradiction; [constructor; now apply reflowed_tokens|subst; constructor].
Qed.
