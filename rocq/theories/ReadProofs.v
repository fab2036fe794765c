(** C51: Parse returns the pages of its specification. *)
From Verif Require Export SpecRead ComplainProofs EdgeProofs StatusProofs.
From Coq Require Export Relations.
Local Open Scope string_scope.

Lemma le_antisym : forall a b, bytes_le a b -> bytes_le b a -> a = b.
Proof.
  unfold bytes_le. intros a b H1 H2. rewrite (String.compare_antisym b a) in H2.
  destruct (String.compare a b) eqn:E; cbn in *; try congruence. now apply String.compare_eq_iff.
Qed.
Lemma sorted_same : forall a b, StronglySorted bytes_le a -> StronglySorted bytes_le b -> Permutation a b -> a = b.
Proof.
  induction a as [|x a IH]; intros b A B P; [apply Permutation_nil in P; auto|].
  destruct b as [|y b]; [apply Permutation_sym, Permutation_nil in P; discriminate|].
  inversion A as [|? ? A1 A2]; subst. inversion B as [|? ? B1 B2]; subst. rewrite Forall_forall in A2, B2.
  assert (E : x = y).
  { apply le_antisym.
    - assert (I : In y (x :: a)) by (apply (Permutation_in _ (Permutation_sym P)); now left).
      destruct I as [->|I]; [|auto]. destruct (bytes_le_total y y); auto.
    - assert (I : In x (y :: b)) by (apply (Permutation_in _ P); now left).
      destruct I as [->|I]; [|auto]. destruct (bytes_le_total x x); auto. }
  subst y. f_equal. apply IH; auto. eapply Permutation_cons_inv; eauto.
Qed.

Lemma remarks_coms : forall args cs, remarks args cs -> arg_coms true args = cs.
Proof.
  intros args cs H. unfold arg_coms. induction H as [|t args cs N H IH|t c args cs Q E H IH]; cbn [filter]; auto.
  - apply not_hash in N. now rewrite N.
  - assert (T : tok_comment t = true) by (apply hash_comment; split; eauto).
    rewrite T. cbn [map]. rewrite E, IH. reflexivity.
Qed.
Lemma notes_of : forall o st line args ns, notes (o_comments o) (file_label o st) line args ns ->
  comments_of o st line (arg_coms (o_comments o) args) = ns.
Proof.
  intros o st line args ns (cs & R & ->). apply remarks_coms in R. unfold comments_of.
  destruct (o_comments o); [now rewrite R|reflexivity].
Qed.
Lemma label_file : forall o st, file_label o st = label_of o (cf_file (p_cur st)).
Proof. reflexivity. Qed.
Lemma unfinished_suffix : forall what, unfinished what <-> has_suffix what not_terminated = true.
Proof. intros what. unfold unfinished. rewrite has_suffix_iff. reflexivity. Qed.
Lemma says : forall o file st h args term path what, plain_path path -> objects o path (stm_dir h args) term what ->
  exists e, analyze o file (fresh o st h (arg_vals args)) term path = Some e /\ EParse e = objection file path (stm_dir h args) what /\ pe_what e = what.
Proof.
  intros o file st h args term path what PP O.
  assert (O' : objects o path (fresh o st h (arg_vals args)) term what).
  { eapply objects_dir; [| |exact O]; [reflexivity|]. cbn. symmetry. apply words_vals. }
  pose proof (analyze_objects o file (fresh o st h (arg_vals args)) _ _ PP eq_refl _ O') as A. destruct (analyze _ _ _ _ _) as [e|]; [|discriminate]. cbn [option_map] in A. exists e.
  split; auto. split; [|inversion A; reflexivity]. inversion A. unfold objection, stm_dir. cbn [d_line d_name d_args fresh]. now rewrite words_vals.
Qed.
Lemma says_entry : forall o file st h args term path what, inside_map path -> objects_entry (last path "") (stm_dir h args) term what ->
  exists e, analyze_map_body file (fresh o st h (arg_vals args)) term (last path "") = Some e /\ EParse e = objection file path (stm_dir h args) what.
Proof.
  intros o file st h args term path what M O.
  assert (O' : objects_entry (last path "") (fresh o st h (arg_vals args)) term what).
  { eapply entry_dir; [| |exact O]; [reflexivity|]. cbn. symmetry. apply words_vals. }
  pose proof (map_objects file (fresh o st h (arg_vals args)) _ _ M eq_refl _ O') as A. destruct (analyze_map_body _ _ _ _) as [e|]; [|discriminate]. cbn [option_map] in A. exists e.
  split; auto. inversion A. unfold objection, stm_dir. cbn [d_line d_name d_args fresh]. now rewrite words_vals.
Qed.
Lemma block_name : forall path, last_block path = innermost path.
Proof.
  intros [|x p]; [reflexivity|]. unfold last_block, innermost. revert x. induction p as [|y p IH]; intros x; [reflexivity|]. cbn [last] in *. apply IH.
Qed.

(** The files met, as the state has them. *)
Record met (first : string) (K : known) (st : pst) : Prop := {
  mt_keys : keys (p_included st) = map fst K;
  mt_num : numbered (p_included st);
  mt_nodup : NoDup (map fst K);
  mt_asked : K = (first, []) :: p_asked st }.
Definition moved (st st' : pst) (es : list goerr) (ls : list string) : Prop :=
  (forall a b, edge st' a b <-> edge st a b \/ a = cf_file (p_cur st) /\ In b ls) /\ cf_parsed (p_cur st') = cf_parsed (p_cur st) /\
  cf_file (p_cur st') = cf_file (p_cur st) /\ pl_config (p_pay st') = pl_config (p_pay st) /\
  cf_errors (p_cur st') = (cf_errors (p_cur st) ++ listed es)%list.
Lemma moved_refl : forall st, moved st st [] [].
Proof. intros st. unfold moved. cbn. rewrite app_nil_r. repeat split; auto. intros [H|[_ []]]; auto. Qed.
Lemma moved_trans : forall a b c e f l m, moved a b e l -> moved b c f m -> moved a c (e ++ f) (l ++ m).
Proof.
  intros a b c e f l m (A0 & A4 & A1 & A2 & A3) (B0 & B4 & B1 & B2 & B3). unfold moved.
  unfold listed in *. rewrite B1, B2, B3, B4, A3, map_app, app_assoc. repeat split; auto.
  - intros E. apply B0 in E as [E|[-> I]]; [apply A0 in E as [E|[-> I]]; auto|rewrite A1]; right; (split; auto); apply in_or_app; auto.
  - intros H. apply B0. rewrite A1. destruct H as [H|[-> H]]; [left; apply A0; auto|].
    apply in_app_iff in H as [H|H]; [left; apply A0; auto|auto].
Qed.
Lemma moved_same : forall st st', p_edges st' = p_edges st -> p_cur st' = p_cur st -> p_pay st' = p_pay st -> moved st st' [] [].
Proof.
  intros st st' A B C. unfold moved, edge. rewrite A, B, C. cbn. rewrite app_nil_r. repeat split; auto. intros [H|[_ []]]; auto.
Qed.
Lemma moved_error : forall o st e, moved st (handle_error o st e) [e] [].
Proof.
  intros o st e. unfold moved, handle_error. cbn. repeat split; auto. intros [H|[_ []]]; auto.
Qed.
Lemma moved_file : forall a b es ls, moved a b es ls -> cf_file (p_cur b) = cf_file (p_cur a).
Proof. intros a b es ls (_ & _ & E & _). exact E. Qed.

Lemma met_index : forall first K st i f q, met first K st -> nth_error K i = Some (f, q) ->
  assoc f (p_included st) = Some (Z.of_nat i).
Proof.
  intros first K st i f q [A B C _] N.
  assert (M : nth_error (map fst K) i = Some f) by now rewrite nth_error_map, N.
  destruct (assoc f (p_included st)) as [z|] eqn:E.
  - destruct (numbered_nth _ _ _ B E) as [Z0 Z1]. rewrite A in Z1.
    rewrite NoDup_nth_error in C. f_equal.
    assert (X : i = Z.to_nat z). { apply C; [apply nth_error_Some; congruence|congruence]. }
    lia.
  - apply assoc_None in E. exfalso. apply E. fold (keys (p_included st)). rewrite A. eapply nth_error_In; eauto.
Qed.
Lemma met_add_old : forall first K st ctx i f q, met first K st -> nth_error K i = Some (f, q) ->
  snd (add_include ctx st f) = Z.of_nat i /\ met first K (fst (add_include ctx st f)).
Proof.
  intros first K st ctx i f q M N. pose proof (met_index _ _ _ _ _ _ M N) as A.
  unfold add_include. rewrite A. cbn. split; [unfold get_z; now rewrite A|].
  destruct M. constructor; auto.
Qed.
Lemma met_add_new : forall first K st ctx f path, met first K st -> ~ In f (map fst K) ->
  read_slice (p_heap st) ctx = path ->
  snd (add_include ctx st f) = Z.of_nat (List.length K) /\ met first (K ++ [(f, path)])%list (fst (add_include ctx st f)).
Proof.
  intros first K st ctx f path [A B C D] N R.
  assert (E : assoc f (p_included st) = None) by (apply assoc_None; fold (keys (p_included st)); now rewrite A).
  assert (L : List.length (p_included st) = List.length K).
  { apply (f_equal (@List.length string)) in A. unfold keys in A. now rewrite !map_length in A. }
  unfold add_include. rewrite E. cbn [fst snd]. rewrite assoc_set_fresh by auto. split.
  - unfold get_z. rewrite <- assoc_set_fresh by auto. rewrite assoc_set_same. now rewrite L.
  - constructor; cbn [p_included p_asked].
    + unfold keys in *. rewrite !map_app, A. reflexivity.
    + now apply numbered_snoc.
    + rewrite map_app. now apply NoDup_snoc.
    + now rewrite D, R.
Qed.
Lemma add_include_same : forall ctx st f, let st' := fst (add_include ctx st f) in
  p_heap st' = p_heap st /\ p_cur st' = p_cur st /\ p_pay st' = p_pay st.
Proof. intros ctx st f. unfold add_include. destruct (assoc f (p_included st)); cbn; auto. Qed.
Lemma met_add : forall first path K fs is K', numbers path K fs is K' -> forall ctx st, met first K st ->
  read_slice (p_heap st) ctx = path ->
  snd (add_includes ctx st fs) = is /\ met first K' (fst (add_includes ctx st fs)) /\
  p_cur (fst (add_includes ctx st fs)) = p_cur st /\ p_pay (fst (add_includes ctx st fs)) = p_pay st.
Proof.
  intros first path K fs is K' H. induction H as [K|K i f q fs is K' N H IH|K f fs is K' N H IH]; intros ctx st M R; cbn [add_includes].
  - auto.
  - destruct (met_add_old _ _ _ ctx _ _ _ M N) as [A B]. pose proof (add_include_same ctx st f) as (S1 & S2 & S3).
    destruct (add_include ctx st f) as [st1 j]. cbn [fst snd] in *. destruct (IH ctx st1 B) as (C1 & C2 & C3 & C4); [congruence|].
    destruct (add_includes ctx st1 fs) as [st2 js]. cbn [fst snd] in *. subst. repeat split; congruence || apply C2.
  - destruct (met_add_new _ _ _ ctx _ _ M N R) as [A B]. pose proof (add_include_same ctx st f) as (S1 & S2 & S3).
    destruct (add_include ctx st f) as [st1 j]. cbn [fst snd] in *. destruct (IH ctx st1 B) as (C1 & C2 & C3 & C4); [congruence|].
    destruct (add_includes ctx st1 fs) as [st2 js]. cbn [fst snd] in *. subst. repeat split; congruence || apply C2.
Qed.

Lemma add_include_links : forall ctx st f a b,
  edge (fst (add_include ctx st f)) a b <-> edge st a b \/ a = cf_file (p_cur st) /\ b = f.
Proof.
  intros ctx st f a b. split; [apply (add_include_edges ctx st f)|].
  assert (X : p_edges (fst (add_include ctx st f)) = assoc_set (cf_file (p_cur st)) (old_edges st ++ [f])%list (p_edges st)).
  { unfold add_include, old_edges. destruct (assoc f (p_included st)); reflexivity. }
  unfold edge, edge_of. rewrite X. intros [(l & E & I)|[-> ->]].
  - destruct (string_dec (cf_file (p_cur st)) a) as [<-|N].
    + rewrite assoc_set_same. unfold old_edges. rewrite E. eexists. split; [reflexivity|]. apply in_or_app. auto.
    + rewrite assoc_set_other by auto. eauto.
  - rewrite assoc_set_same. eexists. split; [reflexivity|]. apply in_or_app. right. now left.
Qed.
Lemma add_links : forall ctx fs st a b,
  edge (fst (add_includes ctx st fs)) a b <-> edge st a b \/ a = cf_file (p_cur st) /\ In b fs.
Proof.
  intros ctx. induction fs as [|f fs IH]; intros st a b; cbn [add_includes].
  - cbn. split; auto. intros [H|[_ []]]; auto.
  - pose proof (add_include_links ctx st f a b) as L. pose proof (add_include_same ctx st f) as (_ & SC & _).
    destruct (add_include ctx st f) as [st1 i]. cbn [fst snd] in *. specialize (IH st1 a b). rewrite SC in IH.
    destruct (add_includes ctx st1 fs) as [st2 is]. cbn [fst snd] in *. rewrite IH, L. cbn [In]. split.
    + intros [[H|[-> ->]]|[-> H]]; auto.
    + intros [H|[-> [<-|H]]]; auto.
Qed.
Lemma moved_added : forall ctx st s fs, (forall a b, edge st a b <-> edge s a b) -> p_cur st = p_cur s -> p_pay st = p_pay s ->
  p_cur (fst (add_includes ctx s fs)) = p_cur s -> p_pay (fst (add_includes ctx s fs)) = p_pay s ->
  moved st (fst (add_includes ctx s fs)) [] fs.
Proof.
  intros ctx st s fs E A B C D. unfold moved. rewrite C, D, A, B. cbn. rewrite app_nil_r.
  repeat split; auto; intros H; [apply add_links in H|apply add_links]; rewrite E in *; auto.
Qed.

Lemma final_prepared : forall name args args', final_args name args args' ->
  (if String.eqb name "if" then prepare_if args else Some args) = Some args'.
Proof.
  intros name args args' [A B]. destruct (String.eqb_spec name "if") as [E|E].
  - apply prepare_if_result; auto.
  - now rewrite B.
Qed.
Lemma include_prepared : forall o h args, followed o h ->
  (if String.eqb h "if" then prepare_if args else Some args) = Some args /\
  (negb (o_single o) && String.eqb h "include")%bool = true.
Proof. intros o h args [-> S]. rewrite S. auto. Qed.
Lemma not_followed : forall o h, ~ followed o h -> (negb (o_single o) && String.eqb h "include")%bool = false.
Proof.
  intros o h N. destruct (o_single o) eqn:S; auto. cbn. apply String.eqb_neq. intros ->. apply N. now split.
Qed.
Lemma eadd_nil : forall r, eadd [] r = r.
Proof. now intros []. Qed.
Lemma met_same : forall first K st st', met first K st -> p_included st' = p_included st -> p_asked st' = p_asked st -> met first K st'.
Proof. intros first K st st' [A B C D] E F. constructor; rewrite ?E, ?F; auto. Qed.

Lemma read_eval : forall o dir f first path K F ds es ls K', reads o dir f path K F ds es ls K' ->
  Forall wf_stmt F -> o_stop o = false \/ es = [] ->
  forall ctx st, plain_path path -> good (p_heap st) ctx -> read_slice (p_heap st) ctx = path ->
  f = cf_file (p_cur st) -> met first K st ->
  exists st', eval_forest o dir ctx F st = EOk ds st' /\ met first K' st' /\ moved st st' es ls.
Proof.
  intros o dir f first path K F ds es ls K' H. unfold eval_forest.
  induction H as [path K|path K t c F ds es ls K' TV H IH|path K h args l F ds es ls K' M FI H IH
    |path K h args l body what F ds es ls K' M BAD H IH|path K h args l body F ds es ls K' M IG H IH
    |path K h args l body what F ds es ls K' M NI RJ QU H IH
    |path K h args l args' ns F ds es ls K' M NI AC NF FA NS H IH
    |path K h args l args' b c ns ds1 es1 ls1 K1 F ds es ls K' M NI AC NF FA NS PL H1 IH1 H2 IH2
    |path K h args l arg more fs is ns K1 F ds es ls K' M NI AC FO WO TG LIVE NU NS H IH
    |path K h args l arg more m ns F ds es ls K' M NI AC FO WO NM OP NS H IH];
    intros W ST ctx st PP G RD LB MT; try (inversion W as [|? ? W1 W2]; subst); auto.
  - exists st. split; [reflexivity|]. split; auto. apply moved_refl.
  - destruct (IH W2 ST ctx st PP G eq_refl eq_refl MT) as (st' & E & R). exists st'. split; auto.
    cbn [eseq eval_stmt]. rewrite E, TV. reflexivity.
  - destruct (IH W2 ST ctx st PP G eq_refl eq_refl MT) as (st' & E & R). exists st'. split; auto.
    cbn [eseq eval_stmt]. destruct M as [N MB]. rewrite (decide_map_exact _ _ _ _ _ _ _ eq_refl) by auto.
    assert (A : analyze_map_body (cf_file (p_cur st)) (fresh o st h (arg_vals args)) ";" (last (read_slice (p_heap st) ctx) EmptyString) = None).
    { apply analyze_map_body_iff; auto. split; auto. cbn. now rewrite <- words_vals. }
    rewrite A, E. cbn [eadd app]. now rewrite words_vals.
  - destruct ST as [ST|ST]; [|discriminate].
    cbn [eseq eval_stmt]. destruct M as [N MB]. rewrite (decide_map_exact _ _ _ _ _ _ _ eq_refl) by auto.
    set (term := match body with None => ";" | Some _ => "{" end).
    set (d := fresh o st h (arg_vals args)).
    destruct (says_entry o (cf_file (p_cur st)) st h args _ _ _ (conj N MB) BAD) as (e & AM & EE). change (ender body) with term in AM. fold d in AM.
    rewrite AM, ST.
    assert (T : Bool.eqb (String.eqb term "{") (match body with None => false | Some _ => true end) = true).
    { unfold term. now destruct body. }
    rewrite T, eadd_nil.
    rewrite EE.
    destruct (IH W2 (or_introl ST) ctx (handle_error o st (objection (cf_file (p_cur st)) (read_slice (p_heap st) ctx) (stm_dir h args) what)) PP G eq_refl eq_refl) as (st' & E & R1 & R2).
    { eapply met_same; eauto. }
    exists st'. split; [exact E|]. split; auto. exact (moved_trans _ _ _ _ _ _ _ (moved_error o st _) R2).
  - destruct (IH W2 ST ctx st PP G eq_refl eq_refl MT) as (st' & E & R). exists st'. split; auto.
    assert (MM : is_map (read_slice (p_heap st) ctx) = false).
    { destruct (is_map _) eqn:X; auto. apply is_map_iff in X. contradiction. }
    assert (II : mem_str (t_val h) (o_ignore o) = true) by now apply mem_str_iff.
    assert (EV : eval_stmt o dir ctx (SStm h args l body) st = EOk [] st).
    { cbn [eval_stmt]. rewrite (decide_ignored o dir) by auto. now destruct body. }
    cbn [eseq]. now rewrite EV, E.
  - destruct ST as [ST|ST]; [|discriminate].
    cbn [eseq eval_stmt]. rewrite decide_outside by auto.
    set (d := fresh o st h (arg_vals args)).
    destruct (says o (cf_file (p_cur st)) st h args _ _ _ PP RJ) as (e & AN & EE & EW). fold d in AN.
    assert (SU : has_suffix (pe_what e) not_terminated = match body with None => false | Some _ => true end).
    { rewrite EW. destruct body as [bd|]; [apply unfinished_suffix, QU; discriminate|]. apply not_true_iff_false. rewrite <- unfinished_suffix, QU. congruence. }
    change (ender body) with (match body with None => ";" | Some _ => "{" end) in AN.
    rewrite AN, ST. cbv zeta. rewrite SU.
    rewrite EE.
    destruct (IH W2 (or_introl ST) ctx (handle_error o st (objection (cf_file (p_cur st)) (read_slice (p_heap st) ctx) (stm_dir h args) what)) PP G eq_refl eq_refl) as (st' & E & R1 & R2).
    { eapply met_same; eauto. }
    exists st'. split; [|split; auto; exact (moved_trans _ _ _ _ _ _ _ (moved_error o st _) R2)].
    destruct body as [[b c]|]; [change (negb (String.eqb "{" "}")) with true|]; cbn [Bool.eqb]; rewrite eadd_nil; exact E.
  - destruct (IH W2 ST ctx st PP G eq_refl eq_refl MT) as (st' & E & R). exists st'. split; auto.
    cbn [eseq eval_stmt]. rewrite decide_outside by auto. rewrite (accepted _ _ _ _ _ _ _ PP AC).
    rewrite (notes_of _ _ _ _ _ NS). cbn [d_name d_args fresh].
    rewrite <- words_vals, (final_prepared _ _ _ FA). cbv zeta. cbn [d_name set_args fresh]. rewrite (not_followed _ _ NF), E.
    reflexivity.
  - assert (ST1 : o_stop o = false \/ es1 = []).
    { destruct ST as [ST|ST]; auto. apply app_eq_nil in ST as [ST _]. auto. }
    assert (ST2 : o_stop o = false \/ es = []).
    { destruct ST as [ST|ST]; auto. apply app_eq_nil in ST as [_ ST]. auto. }
    pose proof (decide_outside o dir ctx (fresh o st h (arg_vals args)) "{" st M NI) as DE.
    rewrite (accepted _ _ _ _ _ _ _ PP AC) in DE. cbn [d_name d_args fresh] in DE.
    rewrite <- words_vals, (final_prepared _ _ _ FA) in DE. cbv zeta in DE. cbn [d_name set_args fresh] in DE. rewrite (not_followed _ _ NF) in DE.
    destruct (enter_block (p_heap st) ctx (t_val h)) as [h' inner] eqn:EB.
    destruct (enter_block_spec _ _ _ _ _ G EB) as (GI & RI & _ & _). rewrite <- below_enter in RI.
    apply wf_stm_inv in W1 as W1'. destruct W1' as (TE & P & NH & FAA & FB).
    destruct (IH1 FB ST1 inner (set_heap st h') PL GI RI eq_refl) as (s1 & E1 & MT1 & MV1); [eapply met_same; eauto|].
    assert (EV : eval_stmt o dir ctx (SStm h args l (Some (b, c))) st =
                 EOk (Dir (t_val h) (t_line h) args' (file_label o st) None (Some ds1) None false :: ns) s1).
    { cbn [eval_stmt]. unfold fresh in *. rewrite <- words_vals, DE. cbn [d_name set_args fresh]. rewrite EB, E1, (notes_of _ _ _ _ _ NS). reflexivity. }
    pose proof (eval_stmt_frame _ _ _ _ _ _ _ W1 EV G) as FR.
    assert (MV : moved st s1 es1 ls1) by exact MV1.
    destruct (IH2 W2 ST2 ctx s1) as (s2 & E2 & MT2 & MV2); auto.
    { exact (good_frame _ _ _ _ G FR). }
    { exact (read_frame _ _ _ FR). }
    { symmetry. eapply moved_file; eauto. }
    exists s2. split; [|split; auto; exact (moved_trans _ _ _ _ _ _ _ MV MV2)].
    cbn [eseq]. rewrite EV, E2. reflexivity.
  - pose proof (decide_outside o dir ctx (fresh o st h (arg_vals args)) ";" st M NI) as DE.
    rewrite (accepted _ _ _ _ _ _ _ PP AC) in DE. cbn [d_name d_args fresh] in DE.
    destruct (include_prepared o (t_val h) (arg_vals args) FO) as [I1 I2]. rewrite I1 in DE. cbv zeta in DE. cbn [d_name set_args fresh] in DE.
    rewrite I2 in DE. unfold do_include in DE. cbn [d_args set_args fresh] in DE. rewrite <- words_vals, WO in DE.
    assert (X : exists s1, decide o dir ctx (fresh o st h (arg_vals args)) ";" st =
        DKeep (Dir (t_val h) (t_line h) (words args) (file_label o st) (unless_none is) None None false) s1 /\
        met first K1 s1 /\ moved st s1 [] fs).
    { change (resolve dir arg) with (path_of dir arg) in DE.
      inversion TG as [lst ? MG OG PE SO|cc NMG OG|m NMG OG]; subst.
      - apply has_magic_iff in MG. rewrite MG, OG in DE.
        assert (SS : fs = sort_strings lst).
        { apply sorted_same; auto using sort_sorted. eapply Permutation_trans; [apply Permutation_sym; eauto|apply sort_perm]. }
        rewrite <- SS in DE. destruct (met_add first _ _ _ _ _ NU ctx st MT eq_refl) as (A1 & A2 & A3 & A4).
        pose proof (moved_added ctx st st fs (fun _ _ => iff_refl _) eq_refl eq_refl A3 A4) as MV.
        destruct (add_includes ctx st fs) as [s1 js]. cbn [fst snd] in *. subst js. exists s1. rewrite <- words_vals, WO, DE. split.
        + unfold set_includes. cbn. unfold unless_none. now destruct is.
        + split; auto.
      - rewrite <- has_magic_iff in NMG. apply not_true_iff_false in NMG. rewrite NMG, OG in DE.
        destruct (met_add first _ _ _ _ _ NU ctx (log_open st (path_of dir arg))) as (A1 & A2 & A3 & A4); [eapply met_same; eauto|reflexivity|].
        pose proof (moved_added ctx st (log_open st (path_of dir arg)) [path_of dir arg] (fun _ _ => iff_refl _) eq_refl eq_refl A3 A4) as MV.
        destruct (add_includes ctx (log_open st (path_of dir arg)) [path_of dir arg]) as [s1 js]. cbn [fst snd] in *. subst js. exists s1. rewrite <- words_vals, WO, DE. split.
        + unfold set_includes. cbn. unfold unless_none. now destruct is.
        + split; auto.
      - destruct LIVE; [contradiction|congruence]. }
    destruct X as (s1 & D & MT1 & MV1).
    assert (EV : eval_stmt o dir ctx (SStm h args l None) st =
                 EOk (Dir (t_val h) (t_line h) (words args) (file_label o st) (unless_none is) None None false :: ns) s1).
    { cbn [eval_stmt]. rewrite D, (notes_of _ _ _ _ _ NS). reflexivity. }
    pose proof (eval_stmt_frame _ _ _ _ _ _ _ W1 EV G) as FR.
    destruct (IH W2 ST ctx s1) as (s2 & E2 & MT2 & MV2); auto.
    { exact (good_frame _ _ _ _ G FR). }
    { exact (read_frame _ _ _ FR). }
    { symmetry. eapply moved_file; eauto. }
    exists s2. split; [|split; auto; exact (moved_trans _ _ _ _ _ _ _ MV1 MV2)].
    cbn [eseq]. rewrite EV, E2. reflexivity.
  - destruct ST as [ST|ST]; [|discriminate].
    pose proof (decide_outside o dir ctx (fresh o st h (arg_vals args)) ";" st M NI) as DE.
    rewrite (accepted _ _ _ _ _ _ _ PP AC) in DE. cbn [d_name d_args fresh] in DE.
    destruct (include_prepared o (t_val h) (arg_vals args) FO) as [I1 I2]. rewrite I1 in DE. cbv zeta in DE. cbn [d_name set_args fresh] in DE.
    rewrite I2 in DE. unfold do_include in DE. cbn [d_args set_args fresh] in DE. rewrite <- words_vals, WO in DE.
    assert (X : exists s1, decide o dir ctx (fresh o st h (arg_vals args)) ";" st =
        DKeep (Dir (t_val h) (t_line h) (words args) (file_label o st) None None None false) s1 /\
        met first K s1 /\ moved st s1 [objection (cf_file (p_cur st)) (read_slice (p_heap st) ctx) (stm_dir h args) m] [] /\ p_heap s1 = p_heap st).
    { change (resolve dir arg) with (path_of dir arg) in DE.
      rewrite <- has_magic_iff in NM. apply not_true_iff_false in NM. rewrite NM in DE.
      rewrite OP, ST in DE. eexists. rewrite <- words_vals, WO, DE. split; [reflexivity|]. split; [eapply met_same; eauto|].
      split; [|reflexivity]. unfold objection, stm_dir. cbn [d_line d_name d_args]. rewrite WO, <- block_name.
      apply (moved_error o (log_open st (path_of dir arg))). }
    destruct X as (s1 & D & MT1 & MV1 & HP).
    destruct (IH W2 (or_introl ST) ctx s1) as (s2 & E2 & MT2 & MV2); rewrite ?HP; auto.
    { symmetry. eapply moved_file; eauto. }
    exists s2. split; [|split; auto; exact (moved_trans _ _ _ _ _ _ _ MV1 MV2)].
    cbn [eseq eval_stmt]. rewrite D, (notes_of _ _ _ _ _ NS), E2. reflexivity.
Qed.

(** ** Files that end in an error *)
Lemma plain_start : forall h, t_err h = None -> plain h -> ~ hash h -> starts h.
Proof.
  intros h E P N. split; auto. split; [|now apply not_hash]. apply plain_not_term in P. unfold is_term in P.
  now apply orb_false_iff in P as [_ P].
Qed.
Lemma plain_unfinished : forall cm r, Forall plain r -> read_args cm r = None.
Proof.
  intros cm r F. induction F as [|t r P F IH]; cbn; auto. now rewrite (plain_not_term _ P), IH.
Qed.
Lemma break_run : forall o dir f first path K toks es e ls K', breaks o dir f path K toks es e ls K' ->
  o_stop o = false -> forall ctx st, plain_path path -> good (p_heap st) ctx -> read_slice (p_heap st) ctx = path ->
  f = cf_file (p_cur st) -> met first K st ->
  exists st' rest, Run o dir ctx toks st (PErr e rest st') /\ met first K' st' /\ moved st st' es ls.
Proof.
  intros o dir f first path K toks es e ls K' H NS.
  induction H as [path K t x r TE|path K h r TE P NH FP
    |path K h args l arg more m r TE P NH FA M NI AC FO WO MG GL
    |path K h args l r TE P NH FA M NI AC FO WO
    |path K h args l args' r es e ls K' TE P NH FA M NI AC NF FI PL H IH
    |path K F ds es1 ls1 K1 r es e ls K' W R H IH]; intros ctx st PP G RD LB MT; subst path f.
  - exists st, r. split; [|split; [exact MT|apply moved_refl]]. eapply eq_rect with (P := fun x => Run _ _ _ _ _ (PErr x _ _)); [apply R_tokerr; exact TE|].
    rewrite block_name. now destruct x.
  - exists st, []. split; [|split; [exact MT|apply moved_refl]]. unfold end_of_file. rewrite <- block_name.
    apply R_premature; [now apply plain_start|now apply plain_unfinished].
  - pose proof (decide_outside o dir ctx (fresh o st h (arg_vals args)) ";" st M NI) as DE.
    rewrite (accepted _ _ _ _ _ _ _ PP AC) in DE. cbn [d_name d_args fresh] in DE.
    destruct (include_prepared o (t_val h) (arg_vals args) FO) as [I1 I2]. rewrite I1 in DE. cbv zeta in DE. cbn [d_name set_args fresh] in DE.
    rewrite I2 in DE. unfold do_include in DE. cbn [d_args set_args fresh] in DE. rewrite <- words_vals, WO in DE.
    change (resolve dir arg) with (path_of dir arg) in DE. apply has_magic_iff in MG. rewrite MG, GL in DE.
    exists st, r. split.
    { eapply R_err; [now apply plain_start|apply read_args_flat; cbn; auto|]. rewrite <- words_vals, WO. exact DE. }
    split; [exact MT|apply moved_refl].
  - pose proof (decide_outside o dir ctx (fresh o st h (arg_vals args)) ";" st M NI) as DE.
    rewrite (accepted _ _ _ _ _ _ _ PP AC) in DE. cbn [d_name d_args fresh] in DE.
    destruct (include_prepared o (t_val h) (arg_vals args) FO) as [I1 I2]. rewrite I1 in DE. cbv zeta in DE. cbn [d_name set_args fresh] in DE.
    rewrite I2 in DE. unfold do_include in DE. cbn [d_args set_args fresh] in DE. rewrite <- words_vals, WO in DE.
    exists st, r. split.
    { eapply R_err; [now apply plain_start|apply read_args_flat; cbn; auto|]. rewrite <- words_vals, WO.
      eapply eq_trans; [exact DE|]. unfold objection, stm_dir. cbn [d_line d_name d_args]. rewrite WO, <- block_name. destruct FO as [EQ _].
      unfold no_pattern, fresh, set_args, dir_string. cbn [d_name d_line d_args d_block opt_list]. rewrite EQ. reflexivity. }
    split; [exact MT|apply moved_refl].
  - pose proof (decide_outside o dir ctx (fresh o st h (arg_vals args)) "{" st M NI) as DE.
    rewrite (accepted _ _ _ _ _ _ _ PP AC) in DE. cbn [d_name d_args fresh] in DE.
    rewrite <- words_vals, (final_prepared _ _ _ FI) in DE. cbv zeta in DE. cbn [d_name set_args fresh] in DE. rewrite (not_followed _ _ NF) in DE.
    destruct (enter_block (p_heap st) ctx (t_val h)) as [h' inner] eqn:EB.
    destruct (enter_block_spec _ _ _ _ _ G EB) as (GI & RI & _ & _). rewrite <- below_enter in RI.
    destruct (IH inner (set_heap st h') PL GI RI eq_refl) as (s1 & rest & R1 & MT1 & MV1); [eapply met_same; eauto|].
    exists s1, rest. split; [|auto].
    eapply R_blockfail; [now apply plain_start|apply read_args_flat; cbn; auto| |reflexivity| |exact R1|exact I].
    + rewrite <- words_vals. exact DE.
    + exact EB.
  - destruct (read_eval _ _ _ first _ _ _ _ _ _ _ R W (or_introl NS) ctx st PP G eq_refl eq_refl MT) as (s1 & EV & MT1 & MV1).
    pose proof (eval_frame _ _ _ _ _ _ _ W EV G) as FR.
    destruct (IH ctx s1 PP) as (s2 & rest & R2 & MT2 & MV2); auto.
    { exact (good_frame _ _ _ _ G FR). }
    { exact (read_frame _ _ _ FR). }
    { symmetry. eapply moved_file; eauto. }
    exists s2, rest. split; [|split; auto; exact (moved_trans _ _ _ _ _ _ _ MV1 MV2)].
    pose proof (eval_like o dir F W ctx st) as EL'. rewrite EV in EL'. cbn [run_like] in EL'.
    exact (EL' _ _ R2).
Qed.

(** ** The files *)
Lemma numbers_grow : forall path K fs is K', numbers path K fs is K' -> exists m, K' = (K ++ m)%list.
Proof.
  intros p B fs is B' N. induction N as [B|B j f q fs is B' N1 N IH|B f fs is B' N1 N IH]; auto.
  - exists []. now rewrite app_nil_r.
  - destruct IH as [m ->]. exists ((f, p) :: m). now rewrite <- app_assoc.
Qed.
Lemma reads_grow : forall o dir label path K F ds es ls K', reads o dir label path K F ds es ls K' -> exists m, K' = (K ++ m)%list.
Proof.
  intros o dir label path K F ds es ls K' R. induction R; auto.
  - exists []. now rewrite app_nil_r.
  - destruct IHR1 as [m1 ->], IHR2 as [m2 ->]. exists (m1 ++ m2)%list. now rewrite app_assoc.
  - destruct IHR as [m1 ->]. match goal with X : numbers _ _ _ _ _ |- _ => destruct (numbers_grow _ _ _ _ _ X) as [m2 ->] end.
    exists (m2 ++ m1)%list. now rewrite app_assoc.
Qed.
Lemma breaks_grow : forall o dir label path K toks es e ls K', breaks o dir label path K toks es e ls K' -> exists m, K' = (K ++ m)%list.
Proof.
  intros o dir label path K toks es e ls K' R. induction R; auto; try (exists []; now rewrite app_nil_r).
  destruct IHR as [m1 ->]. match goal with X : reads _ _ _ _ _ _ _ _ _ _ |- _ => destruct (reads_grow _ _ _ _ _ _ _ _ _ _ X) as [m2 ->] end.
  exists (m2 ++ m1)%list. now rewrite app_assoc.
Qed.
Lemma skip_next : forall (Q : string * list string -> Prop) i (K m : known) x, nth_error K i = Some x -> Q x ->
  Forall Q (skipn (S i) (K ++ m)) -> Forall Q (skipn i K).
Proof.
  intros Q i K m x N QX IH. destruct (nth_error_split _ _ N) as (a & b & -> & LA). subst i.
  rewrite skipn_app, skipn_all, Nat.sub_diag. cbn [app skipn].
  rewrite <- app_assoc in IH. cbn [app] in IH.
  replace (S (List.length a)) with (List.length (a ++ [x])) in IH by (rewrite app_length; cbn; lia).
  replace (a ++ x :: b ++ m)%list with ((a ++ [x]) ++ b ++ m)%list in IH by now rewrite <- app_assoc.
  rewrite skipn_app, skipn_all, Nat.sub_diag in IH. cbn [app skipn] in IH. apply Forall_app in IH as [IH _].
  constructor; auto.
Qed.
Lemma pages_short : forall o dir i K l, pages o dir i K l -> Forall (fun e => List.length (snd e) <= 3) (skipn i K).
Proof.
  intros o dir i K l H.
  induction H as [K|i K f path text F ds es ls K' l N O LX W PP SH R H IH|i K f path text es e ls K' l N O PP SH R H IH].
  - rewrite skipn_all. constructor.
  - destruct (reads_grow _ _ _ _ _ _ _ _ _ _ R) as [m ->]. eapply skip_next; eauto.
  - destruct (breaks_grow _ _ _ _ _ _ _ _ _ _ R) as [m ->]. eapply skip_next; eauto.
Qed.

(** What the state shows of the pages read so far: configs and edges. *)
Definition plain_config (c : config) := (cf_file c, cf_parsed c, cf_errors c).
Definition plain_page (g : page) := (pg_file g, pg_tree g, listed (pg_errors g)).
Definition shown (st : pst) (past : list page) : Prop :=
  map plain_config (pl_config (p_pay st)) = map plain_page past /\
  forall a b, edge st a b <-> leads past a b.
Lemma leads_snoc : forall past g a b, leads (past ++ [g]) a b <-> leads past a b \/ a = pg_file g /\ In b (pg_links g).
Proof.
  intros past g a b. unfold leads. split.
  - intros (x & I & F & L). apply in_app_iff in I as [I|[<-|[]]]; [left; eauto|auto].
  - intros [(x & I & F & L)|[-> L]]; [exists x|exists g]; (split; [apply in_or_app; cbn; auto|auto]).
Qed.
(** One file, given what parsing it does. *)
Lemma shown_push : forall st1 s2 past f ds es ls c, cf_file (p_cur st1) = f -> cf_errors (p_cur st1) = [] ->
  shown st1 past -> moved st1 s2 es ls -> cf_file c = f -> cf_parsed c = ds ->
  forall es' s3, cf_errors c = listed es' -> (forall a b, edge s3 a b <-> edge s2 a b) ->
  pl_config (p_pay s3) = (pl_config (p_pay s2) ++ [c])%list ->
  shown s3 (past ++ [Page f ds es' ls])%list.
Proof.
  intros st1 s2 past f ds es ls c CF CE [SW1 SW2] (M0 & M4 & M1 & M2 & M3) EF ED es' s3 ER EE PC. split.
  - rewrite PC, !map_app, M2, SW1. f_equal. cbn [map]. f_equal. unfold plain_config, plain_page. cbn. now rewrite EF, ED, ER.
  - intros a b. rewrite EE, M0, leads_snoc, SW2, CF. reflexivity.
Qed.

Lemma queue_head : forall first i K st f path, qinv first st -> met first K st -> List.length (p_used st) = i ->
  short K -> nth_error K i = Some (f, path) ->
  exists ctx q, p_queue st = (f, ctx) :: q /\ read_slice (p_heap st) ctx = path /\ good (p_heap st) ctx.
Proof.
  intros first i K st f path Q MT LU SK N.
  assert (V : (p_used st ++ views st)%list = K).
  { destruct MT as [_ _ _ AK]. rewrite AK. apply qinv_short; auto. rewrite AK in SK. now inversion SK. }
  pose proof N as N'. rewrite <- V, nth_error_app2, LU, Nat.sub_diag in N' by lia. unfold views in N'.
  destruct Q as [Q _]. destruct (p_queue st) as [|[g c] q]; [discriminate|]. cbn in N'. inversion N'; subst.
  inversion Q as [|? ? [G _] _]; subst. eauto 6.
Qed.
Lemma short_next : forall i (K m : known), i < List.length K -> short K -> short (firstn (S i) (K ++ m)).
Proof.
  intros i K m L SK. rewrite firstn_app. apply Forall_app.
  replace (S i - List.length K) with 0 by lia. split; [|constructor].
  apply Forall_forall. intros e E. apply (proj1 (Forall_forall _ _) SK).
  rewrite <- (firstn_skipn (S i) K). apply in_or_app. auto.
Qed.

Lemma read_files : forall o dir first i K l, pages o dir i K l -> uninterrupted o l ->
  forall st past fuel, qinv first st -> met first K st -> List.length (p_used st) = i -> short (firstn i K) ->
  List.length l <= fuel -> shown st past ->
  exists st', run_files fuel o dir st = FDone st' /\ shown st' (past ++ l)%list.
Proof.
  intros o dir first i K l H.
  induction H as [K|i K f path text F ds es ls K' l N O LX W PP SH R H IH|i K f path text es e ls K' l N O PP SH R H IH];
    intros ST st past fuel Q MT LU SI LF SW.
  - assert (E : p_queue st = []).
    { rewrite firstn_all in SI. destruct MT as [_ _ _ AK].
      assert (SA : short (p_asked st)) by (rewrite AK in SI; now inversion SI).
      pose proof (qinv_short _ _ Q SA) as V. rewrite <- AK in V. apply (f_equal (@List.length _)) in V. rewrite app_length in V.
      unfold views in V. rewrite map_length in V. destruct (p_queue st); auto. cbn in V. lia. }
    exists st. rewrite app_nil_r. split; auto. destruct fuel; cbn [run_files]; now rewrite E.
  - pose proof (pages_short _ _ _ _ _ (pg_whole _ _ _ _ _ _ _ _ _ _ _ _ _ N O LX W PP SH R H)) as SS.
    assert (SK : short K) by (rewrite <- (firstn_skipn i K); apply Forall_app; auto).
    assert (LK : i < List.length K) by (apply nth_error_Some; congruence).
    destruct (queue_head _ _ _ _ _ _ Q MT LU SK N) as (ctx & q & EQ & RD & G).
    pose proof (ctx_file first o dir f ctx q st Q EQ) as CF.
    pose proof (file_used o dir f ctx (set_queue st q)) as FU.
    destruct fuel as [|fuel]; [cbn in LF; lia|]. cbn [run_files]. rewrite EQ.
    assert (ST1 : o_stop o = false \/ es = []).
    { destruct ST as [ST|ST]; auto. inversion ST as [|? ? X Y]; subst. cbn in X. now destruct es; auto. }
    assert (ST2 : uninterrupted o l).
    { destruct ST as [ST|ST]; [now left|]. inversion ST; subst. now right. }
    set (st1 := set_cur (log_use (log_open (set_queue st q) f) f ctx) (Cfg f "ok" [] [])) in *.
    destruct (read_eval _ _ _ first _ _ _ _ _ _ _ R W ST1 ctx st1 PP) as (s2 & EV & MT2 & MV); auto.
    { eapply met_same; eauto. }
    pose proof MV as (_ & _ & M1 & _ & M3).
    assert (PF : parse_file o dir f ctx (set_queue st q) =
      FDone (set_pay s2 (Pay (pl_status (p_pay s2)) (pl_errors (p_pay s2))
        (pl_config (p_pay s2) ++ [Cfg (cf_file (p_cur s2)) (cf_status (p_cur s2)) (cf_errors (p_cur s2)) ds])%list))).
    { unfold parse_file. rewrite O. cbv zeta. fold st1. rewrite LX.
      pose proof (eval_parse o dir F ctx st1 (S (List.length (flat F))) W) as P. rewrite EV in P.
      rewrite P by lia. reflexivity. }
    rewrite PF in *. destruct CF as [Q3 _]. specialize (FU _ eq_refl).
    match goal with |- context [run_files fuel o dir ?s] => set (s3 := s) in * end.
    assert (MT3 : met first K' s3) by (eapply met_same; eauto).
    assert (U : p_used s3 = (p_used st ++ [(f, path)])%list) by (rewrite FU; cbn; now rewrite RD).
    assert (SW3 : shown s3 (past ++ [Page f ds es ls])%list).
    { eapply (shown_push st1 s2); [reflexivity|reflexivity|exact SW|exact MV| | | |intros; reflexivity|reflexivity]; auto. }
    replace (past ++ Page f ds es ls :: l)%list with ((past ++ [Page f ds es ls]) ++ l)%list by now rewrite <- app_assoc.
    destruct (reads_grow _ _ _ _ _ _ _ _ _ _ R) as [m EK]. subst K'.
    apply (IH ST2 s3 _ fuel Q3 MT3); auto using short_next.
    + rewrite U, app_length. cbn. lia.
    + cbn in LF. lia.
  - pose proof (pages_short _ _ _ _ _ (pg_broken _ _ _ _ _ _ _ _ _ _ _ _ N O PP SH R H)) as SS.
    assert (SK : short K) by (rewrite <- (firstn_skipn i K); apply Forall_app; auto).
    assert (LK : i < List.length K) by (apply nth_error_Some; congruence).
    destruct (queue_head _ _ _ _ _ _ Q MT LU SK N) as (ctx & q & EQ & RD & G).
    pose proof (ctx_file first o dir f ctx q st Q EQ) as CF.
    pose proof (file_used o dir f ctx (set_queue st q)) as FU.
    destruct fuel as [|fuel]; [cbn in LF; lia|]. cbn [run_files]. rewrite EQ.
    assert (ST1 : o_stop o = false).
    { destruct ST as [ST|ST]; auto. inversion ST as [|? ? X Y]; subst. cbn in X. now destruct es. }
    set (st1 := set_cur (log_use (log_open (set_queue st q) f) f ctx) (Cfg f "ok" [] [])) in *.
    destruct (break_run _ _ _ first _ _ _ _ _ _ _ R ST1 ctx st1 PP) as (s2 & rest & RN & MT2 & MV); auto.
    { eapply met_same; eauto. }
    pose proof MV as (M0 & M4 & M1 & _ & M3).
    assert (PF : parse_file o dir f ctx (set_queue st q) =
      FDone (set_pay (handle_error o s2 e) (Pay (pl_status (p_pay (handle_error o s2 e))) (pl_errors (p_pay (handle_error o s2 e)))
        (pl_config (p_pay (handle_error o s2 e)) ++ [p_cur (handle_error o s2 e)])%list))).
    { unfold parse_file. rewrite O. cbv zeta. fold st1. rewrite (run_parse o dir ctx _ st1 _ (S (List.length (lex (o_lexers o) text))) (Nat.lt_succ_diag_r _) RN). now rewrite ST1. }
    rewrite PF in *. destruct CF as [Q3 _]. specialize (FU _ eq_refl).
    match goal with |- context [run_files fuel o dir ?s] => set (s3 := s) in * end.
    assert (MT3 : met first K' s3) by (eapply met_same; eauto).
    assert (U : p_used s3 = (p_used st ++ [(f, path)])%list) by (rewrite FU; cbn; now rewrite RD).
    assert (SW3 : shown s3 (past ++ [Page f [] (es ++ [e]) ls])%list).
    { eapply (shown_push st1 s2); [reflexivity|reflexivity|exact SW|exact MV| | | |intros; reflexivity|reflexivity]; auto.
      cbn. rewrite M3. unfold listed. now rewrite map_app. }
    replace (past ++ Page f [] (es ++ [e]) ls :: l)%list with ((past ++ [Page f [] (es ++ [e]) ls]) ++ l)%list by now rewrite <- app_assoc.
    destruct (breaks_grow _ _ _ _ _ _ _ _ _ _ R) as [m EK]. subst K'.
    apply (IH (or_introl ST1) s3 _ fuel Q3 MT3); auto using short_next.
    + rewrite U, app_length. cbn. lia.
    + cbn in LF. lia.
Qed.

Lemma collect_book : forall o filename l fuel, book o filename l ->
  uninterrupted o l -> List.length l <= fuel ->
  exists st, collect fuel o filename = FDone st /\ shown st l.
Proof.
  intros o filename l fuel B ST L. unfold collect.
  apply (read_files o (dir_name filename) filename 0 [(filename, [])] l B ST (init_state filename) [] fuel); auto.
  - apply qinv_init.
  - constructor; auto.
    + intros i k z H. destruct i as [|[|i]]; cbn in H; inversion H; reflexivity.
    + constructor; [intros []|constructor].
  - constructor.
  - split; [reflexivity|]. intros a b. split; [intros (x & E & _); discriminate|intros (x & [] & _)].
Qed.
Lemma loops_cyclic : forall fuel o filename st l, collect fuel o filename = FDone st -> shown st l ->
  (loops l <-> cyclic (p_edges st)).
Proof.
  intros fuel o filename st l C S.
  assert (A : forall a b, clos_trans string (leads l) a b -> path (p_edges st) a b).
  { intros a b H. apply clos_trans_t1n in H. induction H as [b H|b c H H' IH].
    - apply p_one. now apply (proj2 S).
    - eapply p_step; eauto. now apply (proj2 S). }
  assert (B : forall a b, path (p_edges st) a b -> clos_trans string (leads l) a b).
  { intros a b H. induction H as [a b H|a b c H H' IH].
    - apply t_step. now apply (proj2 S).
    - eapply t_trans; [|exact IH]. apply t_step. now apply (proj2 S). }
  split; intros [x H]; exists x; auto.
Qed.
Lemma book_loop : forall o filename l fuel, book o filename l ->
  uninterrupted o l -> List.length l <= fuel ->
  (parse_main fuel o filename = RErr cycle_error <-> loops l).
Proof.
  intros o filename l fuel B ST L. destruct (collect_book _ _ _ _ B ST L) as (st & C & S).
  rewrite (loops_cyclic _ _ _ _ _ C S). now apply parse_cycle_iff.
Qed.
(** The payload is determined by what is shown of it. *)
Lemma flat_map_app_err : forall (l : list page), flat_map (fun g => map (fun e => (pg_file g, line_of e, e)) (pg_errors g)) l = [] -> flat_map pg_errors l = [].
Proof.
  induction l as [|g l IH]; [reflexivity|]. cbn. intros H. apply app_eq_nil in H as [A B]. rewrite IH by auto. destruct (pg_errors g); [reflexivity|discriminate].
Qed.
Lemma shown_payload : forall o st l, shown st l -> settled o st -> p_pay st = payload_of o l.
Proof.
  intros o st l [SH _] [[C1 C2 C3] EF]. destruct (p_pay st) as [status errors configs]. cbn in *. unfold payload_of. unfold payload_labels in C3. cbn in C3.
  assert (CF : configs = map config_of l).
  { clear - SH C2. revert l SH C2. induction configs as [|c cs IH]; intros [|g l] SH C2; try discriminate; [reflexivity|]. cbn in SH. inversion SH. inversion C2 as [|? ? S1 S2]; subst.
    cbn [map]. rewrite <- (IH l) by auto. f_equal. unfold config_of. destruct c as [f s e p]. cbn in *. subst. f_equal.
    unfold status_fits in S1. unfold verdict, listed in *. destruct (pg_errors g); cbn in *; intuition. }
  assert (LB : map (fun e => (py_file e, py_line e, py_err e)) errors = flat_map (fun g => map (fun e => (pg_file g, line_of e, e)) (pg_errors g)) l).
  { rewrite C3, CF. clear. induction l as [|g l IH]; [reflexivity|]. cbn. rewrite IH. f_equal. unfold labelled, listed. cbn. now rewrite map_map. }
  assert (ER : errors = flat_map (page_errors o) l).
  { unfold err_fields in EF. cbn in EF.
    assert (X : errors = map (fun x : string * option Z * goerr => PyE (fst (fst x)) (snd (fst x)) (snd x) (option_map (fun call => call (snd x)) (o_callback o)))
                           (map (fun e => (py_file e, py_line e, py_err e)) errors)).
    { clear - EF. induction EF as [|e es [_ H] F IH]; [reflexivity|]. cbn. rewrite <- IH. f_equal. destruct e as [f l e cb]. cbn in *. rewrite H. now destruct (o_callback o). }
    rewrite LB in X. rewrite X. clear. induction l as [|g l IH]; [reflexivity|]. cbn. rewrite map_app, IH. f_equal. unfold page_errors. rewrite map_map. reflexivity. }
  rewrite CF. f_equal; auto.
  unfold status_fits in C1. destruct (flat_map pg_errors l) eqn:E.
  - assert (Z : errors = []). { rewrite ER. clear - E. induction l as [|g l IH]; [reflexivity|]. cbn in *. apply app_eq_nil in E as [A B]. rewrite IH by auto. unfold page_errors. now rewrite A. }
    subst errors. unfold verdict. rewrite Z in *. intuition.
  - assert (Z : errors <> []).
    { intros Z. rewrite Z in LB. cbn in LB. symmetry in LB. apply flat_map_app_err in LB. rewrite LB in E. discriminate. }
    unfold verdict. destruct errors; intuition.
Qed.
Lemma book_pages : forall o filename l fuel, book o filename l ->
  uninterrupted o l -> List.length l <= fuel -> o_combine o = false -> ~ loops l ->
  parse_main fuel o filename = ROk (payload_of o l).
Proof.
  intros o filename l fuel B ST L NC NL. destruct (collect_book _ _ _ _ B ST L) as (st & C & S).
  rewrite (loops_cyclic _ _ _ _ _ C S), <- (parse_cycle_iff _ _ _ _ C) in NL.
  rewrite <- (shown_payload o st l S (collect_settled _ _ _ _ C)).
  unfold parse_main in *. rewrite C in *. unfold finish in *. rewrite NC in *.
  destruct (has_cycle _ _ _); [congruence|]. reflexivity.
Qed.
Lemma book_combined : forall o filename l, book o filename l ->
  uninterrupted o l -> o_combine o = true -> ~ loops l ->
  exists n, forall fuel, n <= fuel -> exists p g0, hd_error l = Some g0 /\
    parse_main fuel o filename = ROk p /\ combination (payload_of o l) p (config_of g0).
Proof.
  intros o filename l B ST NC NL. destruct (collect_book _ _ _ (List.length l) B ST (le_n _)) as (st & C & S).
  pose proof NL as NL'. rewrite (loops_cyclic _ _ _ _ _ C S) in NL'.
  destruct (collect_combines _ _ _ _ C NL') as (n & p & P).
  exists (Nat.max n (List.length l)). intros fuel LE.
  assert (C' : collect fuel o filename = FDone st).
  { replace fuel with (fuel - List.length l + List.length l) by lia. rewrite collect_more; congruence. }
  specialize (P fuel ltac:(lia)). pose proof (combined_is_combination _ _ _ P) as CI.
  rewrite (shown_payload o st l S (collect_settled _ _ _ _ C)) in *.
  destruct l as [|g0 l].
  { exfalso. unfold book in B. remember 0 as z eqn:Z. remember [(filename, @nil string)] as K0 eqn:K1. remember (@nil page) as l0 eqn:L0. destruct B; try discriminate L0. subst K. discriminate Z. }
  exists p, g0. split; [reflexivity|]. split; [|exact CI].
  pose proof (parse_cycle_iff _ _ _ _ C') as CY. unfold parse_main in *. rewrite C' in *. unfold finish in *. rewrite NC in *.
  rewrite (shown_payload o st (g0 :: l) S (collect_settled _ _ _ _ C)) in *.
  destruct (has_cycle _ _ _).
  - exfalso. apply NL'. now apply CY.
  - now rewrite P.
Qed.
