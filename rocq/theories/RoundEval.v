(** C09: what the parser makes of the planted forest. *)
From Verif Require Export RoundTop ForestEval CtxProofs IfProofs ValidateProofs.
Local Open Scope string_scope.

(** ** "if" *)
Lemma bare_start : forall s, bare_word s = true -> s <> "" /\ ~ starts_blank s.
Proof.
  intros s B. unfold bare_word in B. rewrite !andb_true_iff in B. destruct B as [[V _] B]. split; [intros ->; discriminate|].
  intros (r & l & E & SP). unfold runes in E. destruct (scan s) as [|i its] eqn:SC; [discriminate|]. inversion E; subst. assert (I : In i (scan s)) by (rewrite SC; now left).
  unfold valid_utf8 in V. rewrite forallb_forall in V. specialize (V i I). pose proof (scan_items s i I) as (NE & OK & _). specialize (OK V).
  unfold scan_runes in B. rewrite SC in B. cbn [map] in B. unfold it_text in B at 1. rewrite V in B. cbn [pieces_of] in B.
  destruct (it_raw i =? "\") eqn:BS.
  - apply String.eqb_eq in BS. rewrite BS in OK. cbn in OK. inversion OK as [X]. rewrite <- X in SP. discriminate.
  - destruct (pieces_of false (map it_text its)) as [ps []]; [discriminate|]. apply andb_true_iff in B as [B _]. cbn [starts_word] in B. apply andb_true_iff in B as [B _].
    unfold white in B. rewrite OK in B. rewrite SP in B. discriminate.
Qed.
Lemma ends_white_not : forall s, ends_white s = false -> ~ ends_blank s.
Proof. intros s H (r & l & E & SP). unfold ends_white in H. rewrite E, rev_unit in H. congruence. Qed.
Lemma trimmed_l : forall s, ~ starts_blank s -> ltrimmed s s.
Proof. intros s H. exists "". repeat split; auto. constructor. Qed.
Lemma trimmed_r : forall s, ~ ends_blank s -> rtrimmed s s.
Proof. intros s H. exists "". repeat split; auto; [now rewrite app_nil_r_s|]. constructor. Qed.
Lemma close_snoc : forall r l, close (r ++ [l]) = (r ++ (if needs_quote l then [l; ")"] else [(l ++ ")")%string]))%list.
Proof.
  induction r as [|a r IH]; intros l; [reflexivity|]. cbn [app]. destruct (r ++ [l])%list as [|b x] eqn:E; [destruct r; discriminate|]. change (close (a :: b :: x)) with (a :: close (b :: x)). now rewrite <- E, IH.
Qed.
Lemma parens_back : forall pr args, forallb (kept pr) args = true -> if_ok args = true -> prepare_if (parens args) = Some args.
Proof.
  intros pr args K I. apply prepare_if_result. destruct args as [|a args]; [discriminate|]. cbn [forallb] in K. apply andb_true_iff in K as [K1 K2]. cbn [if_ok] in I. apply andb_true_iff in I as [N I]. apply negb_true_iff in N.
  unfold kept in K1. rewrite N in K1. apply andb_true_iff in K1 as [B _]. apply bare_start in B as [NE SB]. destruct args as [|b args].
  - cbn [last] in I. rewrite N in I. cbn [orb] in I. apply negb_true_iff in I. cbn [parens]. apply if_one; auto. exists a. split; [now apply trimmed_l|apply trimmed_r; now apply ends_white_not].
  - destruct (exists_last (l := b :: args)) as (r & l & E); [discriminate|].
    change (parens (a :: b :: args)) with (("(" ++ a) :: close (b :: args)).
    assert (LA : last (a :: b :: args) "" = l) by (rewrite E; change (a :: (r ++ [l]))%list with ((a :: r) ++ [l])%list; apply last_last). rewrite LA in I.
    rewrite E in *. rewrite close_snoc. assert (UA : unless_empty a = [a]) by (unfold unless_empty; apply String.eqb_neq in NE; now rewrite NE).
    destruct (needs_quote l) eqn:NQ.
    + pose proof (if_many a (r ++ [l])%list "" a "") as X. rewrite UA in X. cbn [unless_empty String.eqb] in X. rewrite app_nil_r in X. rewrite <- app_assoc in X. cbn [app] in X. apply X; [now apply trimmed_l|]. apply trimmed_r. intros (x & y & Z & _). destruct y; discriminate.
    + cbn [orb] in I. apply negb_true_iff in I. pose proof (if_many a r l a l) as X. rewrite UA in X. assert (NL : l <> "") by (intros ->; discriminate). assert (UL : unless_empty l = [l]) by (unfold unless_empty; apply String.eqb_neq in NL; now rewrite NL).
      rewrite UL in X. cbn [app] in X. apply X; [now apply trimmed_l|]. apply trimmed_r. now apply ends_white_not.
Qed.

(** ** Trees as read back *)
Definition mapb (n : string) : bool := existsb (String.eqb n) map_like.
Section Reread.
  Variables (keep : bool) (lab : string).
  Fixpoint reread (m : bool) (line : Z) (d : directive) {struct d} : list directive :=
    if is_comment d then (if keep then [comment_dir lab line (comment_text d)] else [])
    else [Dir (d_name d) line (d_args d) lab None
            (match d_block d with None => None | Some b => Some (List.concat (place (reread (mapb (d_name d))) bottom 0 1 (d_line d) line b)) end) None m].
End Reread.
Lemma accepts_ext : forall o path d d' term, d_name d = d_name d' -> d_args d = d_args d' -> accepts o path d term -> accepts o path d' term.
Proof.
  intros o path d d' term N A H. destruct H as [U S|ms K P|ms K C S|ms mask b K P I C F].
  - apply acc_unknown; auto. now rewrite <- N.
  - apply (acc_path _ _ _ _ ms); auto. now rewrite <- N.
  - apply (acc_unchecked _ _ _ _ ms); auto. now rewrite <- N.
  - apply (acc_mask _ _ _ _ ms mask b); auto; [now rewrite <- N|]. destruct F as [F|F]; auto. right. unfold form_fits in *. now rewrite <- A.
Qed.
Lemma arg_vals_map : forall A line, like_items A -> arg_vals (map (fun gx => atok line (snd gx)) A) = map (fun gx : item_ => lexeme_val (snd gx)) A /\ forall c, arg_coms c (map (fun gx => atok line (snd gx)) A) = [].
Proof.
  intros A line L. pose proof (like_plain A line L) as F. unfold arg_vals, arg_coms. induction A as [|[g x] A IH]; [split; [reflexivity|now intros []]|]. inversion L; subst. cbn [map] in F. inversion F as [|? ? (_ & _ & NH) F']; subst.
  apply not_hash in NH. cbn [map filter snd] in *. rewrite NH. cbn [negb map]. destruct IH as [I1 I2]; auto. now rewrite I1.
Qed.
Lemma mapb_iff : forall n, mapb n = true <-> map_block n.
Proof. intros n. unfold mapb, map_block. rewrite existsb_exists. change map_like with ["charset_map"; "geo"; "map"; "match"; "types"; "split_clients"; "geoip2"; "otel_exporter"]. split; [intros (x & I & E); apply String.eqb_eq in E; now subst|intros I; exists n; split; auto; apply String.eqb_refl]. Qed.
Lemma below_last : forall p n, last (below p n) "" = n.
Proof. intros p n. rewrite below_enter. unfold enter_path. destruct p as [|c r]; [reflexivity|]. destruct (String.eqb c "http" && String.eqb n "location")%bool eqn:E; [apply andb_true_iff in E as [_ E]; apply String.eqb_eq in E; now subst|apply last_last]. Qed.
Lemma below_plain : forall p n, plain_path p -> plain_path [n] -> plain_path (below p n).
Proof.
  intros p n P N. rewrite below_enter. unfold enter_path. destruct p as [|c r]; auto. destruct (_ && _)%bool; [|apply Forall_app; split; auto].
  repeat constructor; discriminate.
Qed.

Section Eval.
Variables (pr : N -> bool) (AR : ascii_right pr) (ok : spot -> bool) (o : popts) (dir : string).
Definition planted (line : Z) (d : directive) (st : pst) : directive := fresh o st (atok line (arg_lex (d_name d))) (d_args (written d)).
Lemma decide_legal : forall d path ctx st line, writable pr ok d = true -> is_comment d = false -> legal o path d -> read_slice (p_heap st) ctx = path -> plain_path path ->
  (mapb (last path "") = true /\ d_block d = None /\ d_name d <> "if" /\ decide o dir ctx (planted line d st) (term_of d) st = DMap (set_ismap (planted line d st))) \/
  (mapb (last path "") = false /\ (forall b, d_block d = Some b -> plain_path [d_name d] /\ Forall (legal o (below path (d_name d))) b) /\
   decide o dir ctx (planted line d st) (term_of d) st = DKeep (set_args (planted line d st) (d_args d)) st).
Proof.
  intros d path ctx st line W C LG RD PP. destruct (stmt_args pr ok d AR C W) as (S & _).
  assert (NM : d_name (planted line d st) = d_name d) by (unfold planted, fresh, atok; cbn [d_name t_val]; apply (as_val _ _ S)).
  assert (AG : d_args (planted line d st) = d_args (written d)) by reflexivity.
  destruct LG as [path d C'|path m d C' MB NI NB FA|path d C' NM' NIG INC ACC BLK]; [congruence| |].
  - left. assert (L : last (path ++ [m]) "" = m) by apply last_last. rewrite L. split; [now apply mapb_iff|]. split; auto. split; auto.
    unfold decide. rewrite RD. destruct (path ++ [m])%list as [|c r] eqn:E; [destruct path; discriminate|]. rewrite L.
    pose proof (proj1 (map_block_iff m) MB) as A. destruct (assoc m map_bodies) eqn:AM; [|congruence].
    assert (X : analyze_map_body (cf_file (p_cur st)) (planted line d st) (term_of d) m = None).
    { apply analyze_map_body_iff; auto. unfold term_of. rewrite NB, NM, AG. split; auto. unfold written. apply String.eqb_neq in NI. rewrite NI. exact FA. }
    rewrite X. reflexivity.
  - right. assert (MF : mapb (last path "") = false) by (apply not_true_iff_false; intros H; apply mapb_iff in H; auto). split; auto. split; auto.
    unfold decide. rewrite RD.
    assert (IM : match path with [] => None | _ :: _ => match assoc (last path "") map_bodies with Some _ => Some (last path "") | None => None end end = None).
    { destruct path as [|c r]; auto. destruct (assoc (last (c :: r) "") map_bodies) eqn:A; auto. destruct NM'. apply map_block_iff. rewrite A. discriminate. }
    rewrite IM, NM. destruct (mem_str (d_name d) (o_ignore o)) eqn:IG; [apply mem_str_iff in IG; contradiction|].
    assert (X : analyze o (cf_file (p_cur st)) (planted line d st) (term_of d) path = None).
    { apply analyze_accepts; auto. eapply accepts_ext; [| |exact ACC]; auto. }
    rewrite X, AG. assert (Y : (if d_name d =? "if" then prepare_if (d_args (written d)) else Some (d_args (written d))) = Some (d_args d)).
    { unfold written. destruct d as [nm ln args file inc blk cm mp]. cbn [writable] in W. rewrite C in W. rewrite !andb_true_iff in W. destruct W as [[[_ KA] IF] _]. cbn [d_name d_args mkd] in *.
      destruct (nm =? "if"); auto. eapply parens_back; eauto. }
    rewrite Y. assert (Z0 : (negb (o_single o) && (d_name (set_args (planted line d st) (d_args d)) =? "include"))%bool = false).
    { change (d_name (set_args (planted line d st) (d_args d))) with (d_name (planted line d st)). rewrite NM. destruct (String.eqb_spec (d_name d) "include") as [E|E]; [rewrite (INC E); reflexivity|apply andb_false_r]. }
    rewrite Z0. reflexivity.
Qed.
Definition eval_spec (d : directive) : Prop := forall path ctx st line, legal o path d -> read_slice (p_heap st) ctx = path -> good (p_heap st) ctx -> plain_path path ->
  exists h', eval_stmt o dir ctx (plant line d) st = EOk (reread (o_comments o) (file_label o st) (mapb (last path "")) line d) (set_heap st h').
Lemma eval_loop : forall ds, Forall eval_spec ds -> forallb (writable pr ok) ds = true -> forall path ctx m inc last line st, Forall (legal o path) ds -> read_slice (p_heap st) ctx = path -> good (p_heap st) ctx -> plain_path path ->
  exists h', eval_forest o dir ctx (place plant bottom m inc last line ds) st =
    EOk (List.concat (place (reread (o_comments o) (file_label o st) (mapb (List.last path ""))) bottom m inc last line ds)) (set_heap st h').
Proof.
  intros ds SP. induction SP as [|d ds S SP IH]; intros W path ctx m inc last line st LG RD G PP.
  - exists (p_heap st). destruct st. reflexivity.
  - cbn [forallb] in W. apply andb_true_iff in W as [W1 W2]. inversion LG as [|? ? L1 L2]; subst. specialize (IH W2).
    assert (STEP : forall l last' line', exists h', eval_forest o dir ctx (plant l d :: place plant bottom 0 1 last' line' ds) st =
      EOk (reread (o_comments o) (file_label o st) (mapb (List.last (read_slice (p_heap st) ctx) "")) l d ++ List.concat (place (reread (o_comments o) (file_label o st) (mapb (List.last (read_slice (p_heap st) ctx) ""))) bottom 0 1 last' line' ds)) (set_heap st h')).
    { intros l last' line'. destruct (S _ ctx st l L1 eq_refl G PP) as [h1 E1].
      assert (FR : frame ctx (p_heap st) h1).
      { pose proof (eval_frame o dir [plant l d] ctx st) as F. unfold eval_forest in F. cbn [eseq] in F. rewrite E1 in F. cbn [eadd] in F.
        specialize (F _ _ (Forall_cons _ (plant_wf pr AR ok d W1 l) (Forall_nil _)) eq_refl G). exact F. }
      pose proof (read_frame _ _ _ FR) as RF.
      destruct (IH (read_slice (p_heap st) ctx) ctx 0%Z 1%Z last' line' (set_heap st h1) L2 RF (good_frame _ _ _ _ G FR) PP) as [h2 E2].
      exists h2. unfold eval_forest in *. cbn [eseq]. rewrite E1. change (file_label o (set_heap st h1)) with (file_label o st) in E2. rewrite E2. cbn [eadd]. reflexivity. }
    cbn [place]. destruct (Z.eqb (d_line d) last && is_comment d)%bool; cbn [List.concat]; apply STEP.
Qed.
Lemma eval_plant : forall d, writable pr ok d = true -> eval_spec d.
Proof.
  intros d. induction d as [d IH] using dir_ind'. intros W path ctx st line LG RD G PP. destruct (is_comment d) eqn:C.
  - exists (p_heap st). assert (SS : set_heap st (p_heap st) = st) by now destruct st. rewrite SS. destruct d as [nm ln args file inc blk cm mp]. cbn [plant reread]. rewrite C. cbn [eval_stmt t_line t_val]. destruct (o_comments o); reflexivity.
  - destruct (stmt_args pr ok d AR C W) as (S & t & [A1 _ A3 _] & _). pose proof (decide_legal d path ctx st line W C LG RD PP) as D.
    destruct (arg_vals_map _ line A1) as [AV AC]. rewrite A3 in AV.
    assert (PL : plant line d = SStm (atok line (arg_lex (d_name d))) (map (fun gx => atok line (snd gx)) (arg_items d)) line
         (match d_block d with None => None | Some b => Some (place plant bottom 0 1 (d_line d) line b, bottom line d) end)) by (destruct d; cbn [plant]; now rewrite C).
    assert (RR : forall m, reread (o_comments o) (file_label o st) m line d = [Dir (d_name d) line (d_args d) (file_label o st) None
            (match d_block d with None => None | Some b => Some (List.concat (place (reread (o_comments o) (file_label o st) (mapb (d_name d))) bottom 0 1 (d_line d) line b)) end) None m]) by (intros; destruct d; cbn [reread]; now rewrite C).
    rewrite PL, RR. cbn [eval_stmt]. rewrite AC, AV. fold (planted line d st).
    assert (TM : match (match d_block d with None => None | Some b => Some (place plant bottom 0 1 (d_line d) line b, bottom line d) end) with None => ";" | Some _ => "{" end = term_of d) by (unfold term_of; now destruct (d_block d)).
    rewrite TM. destruct D as [(MB & NB & NI & D)|(MB & BL & D)]; rewrite D, MB.
    + exists (p_heap st). rewrite NB. assert (SS : set_heap st (p_heap st) = st) by now destruct st. rewrite SS. f_equal. unfold set_ismap, planted, fresh, atok. cbn. rewrite (as_val _ _ S). unfold written. apply String.eqb_neq in NI. rewrite NI. reflexivity.
    + assert (WB : forall b, d_block d = Some b -> forallb (writable pr ok) b = true).
      { intros b B. destruct d as [nm ln args file inc blk cm mp]. cbn [writable] in W. rewrite C in W. cbn [d_block] in *. subst blk. rewrite !andb_true_iff in W. tauto. }
      assert (SA : set_args (planted line d st) (d_args d) = Dir (d_name d) line (d_args d) (file_label o st) None None None false) by (unfold set_args, planted, fresh, atok; cbn; now rewrite (as_val _ _ S)).
      rewrite SA. destruct (d_block d) as [b|] eqn:B.
      * cbn [d_name]. destruct (enter_block (p_heap st) ctx (d_name d)) as [h1 inner] eqn:EB. destruct (enter_block_spec _ _ _ _ _ G EB) as (G1 & R1 & _ & _). rewrite RD, <- below_enter in R1.
        destruct (BL b eq_refl) as [PN LB]. specialize (WB b eq_refl). cbn [opt_list] in IH. rewrite forallb_forall in WB.
        assert (SP : Forall eval_spec b) by (rewrite Forall_forall in *; intros e I; apply IH; auto). apply forallb_forall in WB.
        destruct (eval_loop b SP WB (below path (d_name d)) inner 0%Z 1%Z (d_line d) line (set_heap st h1) LB R1 G1 (below_plain _ _ PP PN)) as [h2 E2].
        exists h2. unfold eval_forest in E2. rewrite E2, below_last. reflexivity.
      * exists (p_heap st). assert (SS : set_heap st (p_heap st) = st) by now destruct st. rewrite SS. reflexivity.
Qed.
End Eval.
