(** C31: block contexts of included files. *)
From Verif Require Export HeapFacts SpecContext Main SpecRun.
Local Open Scope string_scope.

Lemma below_enter : forall p n, below p n = enter_path p n.
Proof.
  intros [|c0 r] n; [reflexivity|]. unfold enter_path. destruct (String.eqb_spec c0 "http") as [->|N].
  - cbn. now destruct (String.eqb n "location").
  - cbn [andb]. unfold below.
    repeat match goal with |- context [match ?x with _ => _ end] => is_var x; destruct x; auto end; congruence.
Qed.
Lemma at_stmt_path : forall o dir ctx p toks st c q d s, at_stmt o dir ctx p toks st c q d s ->
  good (p_heap st) ctx -> read_slice (p_heap st) ctx = p -> read_slice (p_heap s) c = q.
Proof.
  intros o dir ctx p toks st c q d s H.
  induction H as [ctx p st t r args cs term rest ST RA
    |ctx p st t r c q d s TE TC TM H IH
    |ctx p st t r args cs term rest eat st' c q d s ST RA D H IH
    |ctx p st t r args cs term rest d' c q d s ST RA D H IH
    |ctx p st t r args cs term rest d' st' c q d s ST RA D TN H IH
    |ctx p st t r args cs rest d' st' h inner c q d s ST RA D EB H IH
    |ctx p st t r args cs rest d' st' h inner blk rest' st'' c q d s ST RA D EB R H IH]; intros G P; auto;
    match type of D with decide _ _ _ _ ?term _ = _ =>
      pose proof (decide_heap o dir ctx (fresh o st t args) term st) as DH; rewrite D in DH; cbn [decision_state] in DH end.
  - apply IH; now rewrite DH.
  - apply IH; now rewrite DH.
  - rewrite <- DH in G, P. destruct (enter_block_spec _ _ _ _ _ G EB) as (GI & RI & _ & _).
    apply IH; [exact GI|]. cbn [p_heap set_heap]. rewrite RI, P. symmetry. apply below_enter.
  - rewrite <- DH in G, P. destruct (enter_block_spec _ _ _ _ _ G EB) as (GI & RI & FE & C).
    pose proof (run_frame _ _ _ _ _ _ R GI) as F2. cbn [res_heap p_heap set_heap] in F2.
    assert (F1 : frame ctx (p_heap st') (p_heap st'')) by (eapply frame_weaken; eauto).
    apply IH; [exact (good_frame _ _ _ _ G F1)|]. now rewrite (read_frame _ _ _ F1).
Qed.

(** In-place appends never touch the first three elements of an array. *)
Definition tight (h : heap) (s : slice) : Prop :=
  sl_len s = List.length (arr_of h (sl_arr s)) \/ 3 <= sl_len s.
Record low (h h' : heap) : Prop := {
  lo_len : List.length h <= List.length h';
  lo_size : forall i, i < List.length h -> List.length (arr_of h' i) = List.length (arr_of h i);
  lo_low : forall i, i < List.length h -> firstn 3 (arr_of h' i) = firstn 3 (arr_of h i) }.
Lemma low_refl : forall h, low h h.
Proof. intros. constructor; auto. Qed.
Lemma low_trans : forall a b c, low a b -> low b c -> low a c.
Proof.
  intros a b c [A1 A2 A3] [B1 B2 B3]. constructor; [lia| |]; intros i I.
  - rewrite B2, A2; auto; lia.
  - rewrite B3, A3; auto; lia.
Qed.
Lemma low_app : forall h x, low h (h ++ x)%list.
Proof.
  intros. constructor; [rewrite app_length; lia| |]; intros i I; now rewrite arr_of_app_l.
Qed.
Lemma set_nth_low : forall A n (x : A) l, 3 <= n -> firstn 3 (set_nth n x l) = firstn 3 l.
Proof.
  intros A n x l H. destruct n as [|[|[|n]]]; try lia. destruct l as [|a [|b [|c l]]]; reflexivity.
Qed.
Lemma good_low : forall h h' s, low h h' -> good h s -> good h' s.
Proof. intros h h' s [L1 L2 _] [G1 G2]. split; [lia|]. now rewrite L2. Qed.
Lemma tight_low : forall h h' s, low h h' -> good h s -> tight h s -> tight h' s.
Proof. intros h h' s [L1 L2 _] [G1 G2] [T|T]; [left; now rewrite L2|now right]. Qed.
Lemma read_low : forall h h' s, low h h' -> good h s -> sl_len s <= 3 -> read_slice h' s = read_slice h s.
Proof.
  intros h h' s [_ _ L3] [G1 _] L. unfold read_slice. specialize (L3 _ G1).
  apply (f_equal (firstn (sl_len s))) in L3. rewrite !firstn_firstn in L3. now rewrite Nat.min_l in L3 by lia.
Qed.
Lemma read_length : forall h s, good h s -> List.length (read_slice h s) = sl_len s.
Proof. intros h s [_ G]. unfold read_slice. rewrite firstn_length. lia. Qed.

Lemma append_low : forall h s x h' s', good h s -> tight h s -> append_slice h s x = (h', s') ->
  low h h' /\ tight h' s'.
Proof.
  intros h s x h' s' [G1 G2] T H. unfold append_slice in H.
  destruct (Nat.ltb (sl_len s) (List.length (arr_of h (sl_arr s)))) eqn:L; inversion H; subst; clear H.
  - apply Nat.ltb_lt in L. destruct T as [T|T]; [lia|]. split; [|right; cbn; lia].
    assert (A : forall i, i < List.length h ->
      arr_of (set_nth (sl_arr s) (set_nth (sl_len s) x (arr_of h (sl_arr s))) h) i =
      if Nat.eqb i (sl_arr s) then set_nth (sl_len s) x (arr_of h i) else arr_of h i).
    { intros i I. unfold arr_of at 1. destruct (Nat.eqb_spec i (sl_arr s)) as [->|N].
      - now rewrite set_nth_nth_eq.
      - rewrite set_nth_nth_neq by auto. reflexivity. }
    constructor; [rewrite set_nth_length; lia| |]; intros i I; rewrite A by auto;
      destruct (Nat.eqb i (sl_arr s)); auto using set_nth_length, set_nth_low.
  - apply Nat.ltb_ge in L. split; [apply low_app|]. unfold tight. cbn [sl_arr sl_len]. rewrite arr_of_new.
    assert (E : sl_len s = List.length (arr_of h (sl_arr s))) by lia. rewrite E, firstn_all.
    rewrite !app_length, repeat_length. cbn [List.length]. unfold grow_cap.
    destruct (Nat.eqb_spec (List.length (arr_of h (sl_arr s))) 0); lia.
Qed.
Lemma enter_low : forall h s x h' s', good h s -> tight h s -> enter_block h s x = (h', s') ->
  low h h' /\ tight h' s'.
Proof.
  intros h s x h' s' G T H. unfold enter_block in H. destruct (read_slice h s) as [|c0 r].
  - eapply append_low; eauto.
  - destruct (String.eqb c0 "http" && String.eqb x "location")%bool; [|eapply append_low; eauto].
    inversion H; subst. split; [apply low_app|]. left. cbn [sl_arr sl_len]. now rewrite arr_of_new.
Qed.

Definition okc (st : pst) (c : slice) : Prop := good (p_heap st) c /\ tight (p_heap st) c.
Definition views (st : pst) : list (string * list string) :=
  map (fun fc => (fst fc, read_slice (p_heap st) (snd fc))) (p_queue st).
(** Sound queue; and the contexts used so far with those still to be used are those
    asked for, up to the names behind the third. *)
Definition kin (u a : string * list string) : Prop := fst u = fst a /\ alike (snd u) (snd a).
Definition qinv (first : string) (st : pst) : Prop :=
  Forall (fun fc => okc st (snd fc)) (p_queue st) /\
  Forall2 kin (p_used st ++ views st)%list ((first, []) :: p_asked st).
Lemma alike_short : forall p q, alike p q -> List.length q <= 3 -> p = q.
Proof.
  intros p q [L F] S. rewrite !firstn_all2 in F by lia. exact F.
Qed.
Lemma alike_refl : forall p, alike p p.
Proof. split; auto. Qed.
Lemma kin_short : forall l m, Forall2 kin l m -> short m -> l = m.
Proof.
  intros l m H S. induction H as [|[f p] [g q] l m [E A] H IH]; [reflexivity|]. inversion S as [|? ? S1 S2]; subst. cbn in *.
  subst g. rewrite (alike_short _ _ A S1), IH by auto. reflexivity.
Qed.
Lemma qinv_short : forall first st, qinv first st -> short (p_asked st) -> (p_used st ++ views st = (first, []) :: p_asked st)%list.
Proof. intros first st [_ V] S. apply kin_short; auto. constructor; [cbn; lia|exact S]. Qed.
Definition grown (st st' : pst) : Prop := low (p_heap st) (p_heap st') /\ exists l, p_asked st' = (p_asked st ++ l)%list.
Lemma grown_refl : forall st, grown st st.
Proof. intros. split; [apply low_refl|]. exists []. now rewrite app_nil_r. Qed.
Lemma grown_trans : forall a b c, grown a b -> grown b c -> grown a c.
Proof.
  intros a b c [A1 [l A2]] [B1 [m B2]]. split; [eapply low_trans; eauto|].
  exists (l ++ m)%list. now rewrite B2, A2, app_assoc.
Qed.
Lemma okc_grown : forall a b c, grown a b -> okc a c -> okc b c.
Proof. intros a b c [L _] [G T]. split; [eapply good_low; eauto|eapply tight_low; eauto]. Qed.

Lemma read_alike : forall h h' s, low h h' -> good h s -> alike (read_slice h' s) (read_slice h s).
Proof.
  intros h h' s L G. pose proof (good_low _ _ _ L G) as G'. split; [now rewrite !read_length|].
  unfold read_slice. rewrite !firstn_firstn, !(Nat.min_comm 3), <- !firstn_firstn. destruct L as [_ _ L3], G as [G1 _]. now rewrite L3.
Qed.
Lemma kin_low : forall (st : pst) h q m, Forall (fun fc => okc st (snd fc)) q -> low (p_heap st) h ->
  Forall2 kin (map (fun fc => (fst fc, read_slice (p_heap st) (snd fc))) q) m ->
  Forall2 kin (map (fun fc => (fst fc, read_slice h (snd fc))) q) m.
Proof.
  intros st h q m F L. revert m. induction F as [|[f c] q OK F IH]; intros m K; inversion K as [|? ? ? ? [K1 K2] K3]; subst; [constructor|].
  constructor; auto. split; [exact K1|]. cbn [snd] in *. destruct OK as [G T]. destruct (read_alike _ _ _ L G) as [A1 A2], K2 as [B1 B2].
  split; congruence.
Qed.
Lemma qinv_heap : forall first st h, qinv first st -> low (p_heap st) h -> qinv first (set_heap st h).
Proof.
  intros first st h [Q V] L. split; cbn.
  - eapply Forall_impl; [|exact Q]. intros [f c] [G T]. split; cbn; [eapply good_low; eauto|eapply tight_low; eauto].
  - apply Forall2_app_inv_l in V as (m1 & m2 & V1 & V2 & ->). apply Forall2_app; auto. eapply kin_low; eauto.
Qed.
Lemma qinv_include : forall first st ctx f, okc st ctx -> qinv first st ->
  let st' := fst (add_include ctx st f) in qinv first st' /\ grown st st'.
Proof.
  intros first st ctx f OK [Q V]. unfold add_include, qinv, grown, views.
  destruct (assoc f (p_included st)); cbn.
  - split; auto. split; [apply low_refl|]. exists []. now rewrite app_nil_r.
  - split; [|split; [apply low_refl|eauto]]. split.
    + apply Forall_app. split; auto.
    + rewrite map_app, app_assoc. change ((first, []) :: p_asked st ++ [(f, read_slice (p_heap st) ctx)])%list with (((first, []) :: p_asked st) ++ [(f, read_slice (p_heap st) ctx)])%list.
      apply Forall2_app; auto. constructor; [|constructor]. split; [reflexivity|apply alike_refl].
Qed.
Lemma qinv_includes : forall first ctx fs st, okc st ctx -> qinv first st ->
  let st' := fst (add_includes ctx st fs) in qinv first st' /\ grown st st'.
Proof.
  intros first ctx. induction fs as [|f fs IH]; intros st OK Q; cbn [add_includes].
  - cbn. auto using grown_refl.
  - destruct (qinv_include first st ctx f OK Q) as [Q1 G1]. destruct (add_include ctx st f) as [st1 i]. cbn [fst] in *.
    destruct (IH st1 (okc_grown _ _ _ G1 OK) Q1) as [Q2 G2]. destruct (add_includes ctx st1 fs) as [st2 is].
    cbn [fst] in *. split; auto. eapply grown_trans; eauto.
Qed.
Lemma qinv_effect : forall first o ctx st st', effect o ctx st st' -> okc st ctx -> qinv first st ->
  qinv first st' /\ grown st st'.
Proof.
  intros first o ctx st st' E OK Q. destruct E as [|e|p|p e|p c|p fs].
  - auto using grown_refl.
  - split; [exact Q|]. exact (grown_refl st).
  - split; [exact Q|]. exact (grown_refl st).
  - split; [exact Q|]. exact (grown_refl st).
  - exact (qinv_includes first ctx [p] (log_open st p) OK Q).
  - exact (qinv_includes first ctx (sort_strings fs) st OK Q).
Qed.
Definition rinv (first : string) (st : pst) (r : pres) : Prop :=
  match r with POk _ _ st' | PErr _ _ st' => qinv first st' /\ grown st st' | _ => True end.
Lemma rinv_padd : forall first st ds r, rinv first st (padd ds r) <-> rinv first st r.
Proof. now intros first st ds []. Qed.
Lemma rinv_trans : forall first a b r, grown a b -> rinv first b r -> rinv first a r.
Proof. intros first a b [] G H; cbn in *; auto; split; try tauto; eapply grown_trans; intuition eauto. Qed.

Lemma run_ctx : forall first o dir ctx toks st r, Run o dir ctx toks st r -> okc st ctx -> qinv first st ->
  rinv first st r.
Proof.
  intros first o dir ctx toks st r H.
  induction H as [ctx st|ctx st t r e TE|ctx st t r TE TC|ctx st t r res TE TC TM H IH|ctx st t r ST RA|ctx st t r args cs term rest ST RA D|ctx st t r args cs term rest e st' ST RA D|ctx st t r args cs term rest st' ST RA D|ctx st t r args cs term rest eat st' res ST RA D H IH|ctx st t r args cs term rest d res ST RA D H IH|ctx st t r args cs term rest d st' res ST RA D TB H IH|ctx st t r args cs term rest d st' h inner blk rest' st'' res ST RA D TB EB H1 IH1 H2 IH2|ctx st t r args cs term rest d st' h inner res ST RA D TB EB H IH FL];
    intros OK Q; rewrite ?rinv_padd; cbn [rinv]; auto using grown_refl;
    pose proof (decide_effect o dir ctx (fresh o st t args) term st) as EF; rewrite D in EF; cbn [decision_state] in EF;
    destruct (qinv_effect first _ _ _ _ EF OK Q) as [Q' G'].
  - auto.
  - auto.
  - eapply rinv_trans; eauto. apply IH; auto. eapply okc_grown; eauto.
  - eapply rinv_trans; eauto. apply IH; auto. eapply okc_grown; eauto.
  - eapply rinv_trans; eauto. pose proof (okc_grown _ _ _ G' OK) as OK'. destruct OK' as [G T].
    destruct (enter_low _ _ _ _ _ G T EB) as [L TI]. destruct (enter_block_spec _ _ _ _ _ G EB) as (GI & _ & _ & _).
    destruct (IH1 (conj GI TI) (qinv_heap _ _ _ Q' L)) as [Q2 G2].
    assert (G3 : grown st' st'').
    { eapply grown_trans; [|exact G2]. split; [exact L|]. exists []. cbn. now rewrite app_nil_r. }
    eapply rinv_trans; [exact G3|]. apply IH2; auto. eapply okc_grown; [exact G3|]. split; auto.
  - eapply rinv_trans; eauto. pose proof (okc_grown _ _ _ G' OK) as OK'. destruct OK' as [G T].
    destruct (enter_low _ _ _ _ _ G T EB) as [L TI]. destruct (enter_block_spec _ _ _ _ _ G EB) as (GI & _ & _ & _).
    eapply rinv_trans; [|exact (IH (conj GI TI) (qinv_heap _ _ _ Q' L))].
    split; [exact L|]. exists []. cbn. now rewrite app_nil_r.
Qed.

(** The loop over the queued files. *)
Lemma ctx_file : forall first o dir path ctx q st, qinv first st -> p_queue st = (path, ctx) :: q ->
  match parse_file o dir path ctx (set_queue st q) with
  | FDone st' => qinv first st' /\ grown st st'
  | FErr _ st' => qinv first st' /\ grown st st'
  | _ => True
  end.
Proof.
  intros first o dir path ctx q st [Q V] E. unfold parse_file. cbv zeta.
  rewrite E in Q. inversion Q as [|? ? OK Q']; subst. cbn [snd] in OK.
  set (st0 := log_use (log_open (set_queue st q) path) path ctx).
  assert (Q0 : qinv first st0).
  { split; [exact Q'|]. unfold views in V. rewrite E in V. cbn in *.
    rewrite <- app_assoc. exact V. }
  assert (G0 : grown st st0) by (split; [apply low_refl|exists []; cbn; now rewrite app_nil_r]).
  destruct (o_open o path) as [content|msg]; [|auto].
  set (toks := lex (o_lexers o) content). set (st1 := set_cur st0 (Cfg path "ok" [] [])).
  pose proof (run_ctx first _ _ _ _ _ _ (parse_run o dir ctx toks st1) OK Q0) as R.
  destruct (parse o dir (S (List.length toks)) ctx toks st1) as [ds rest st2|e rest st2| |]; cbn [rinv] in R; try exact I.
  - destruct R as [R1 R2]. split; [exact R1|]. exact (grown_trans _ _ _ G0 R2).
  - destruct R as [R1 R2]. destruct (o_stop o); (split; [exact R1|exact (grown_trans _ _ _ G0 R2)]).
Qed.
Lemma ctx_files : forall first o dir fuel st, qinv first st ->
  match run_files fuel o dir st with
  | FDone st' => qinv first st' /\ p_queue st' = []
  | FErr _ st' => qinv first st'
  | _ => True
  end.
Proof.
  intros first o dir. induction fuel as [|fuel IH]; intros st Q; cbn [run_files].
  - destruct (p_queue st) as [|[path ctx] q] eqn:E; auto.
  - destruct (p_queue st) as [|[path ctx] q] eqn:E; auto.
    pose proof (ctx_file first o dir path ctx q st Q E) as F.
    destruct (parse_file o dir path ctx (set_queue st q)) as [st'|e st'| |]; auto.
    + apply IH. exact (proj1 F).
    + exact (proj1 F).
Qed.
Lemma qinv_init : forall f, qinv f (init_state f).
Proof.
  intros f. split; cbn.
  - constructor; auto. split; [split; cbn; lia|]. left. reflexivity.
  - constructor; [|constructor]. split; [reflexivity|apply alike_refl].
Qed.
Lemma collect_kin : forall fuel o filename st, collect fuel o filename = FDone st ->
  Forall2 kin (p_used st) ((filename, []) :: p_asked st).
Proof.
  intros fuel o filename st C. pose proof (ctx_files filename o (dir_name filename) fuel _ (qinv_init filename)) as F.
  unfold collect in C. rewrite C in F. destruct F as [[_ V] Q]. unfold views in V. rewrite Q in V.
  now rewrite app_nil_r in V.
Qed.
Lemma collect_contexts : forall fuel o filename st, collect fuel o filename = FDone st ->
  short (p_asked st) -> p_used st = (filename, []) :: p_asked st.
Proof. intros fuel o filename st C S. apply kin_short; [eapply collect_kin; eauto|]. constructor; [cbn; lia|exact S]. Qed.
