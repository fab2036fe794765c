(** C09: the layout is sound and its tokens are the planted forest. *)
From Verif Require Export RoundLayout.
Local Open Scope string_scope.

Definition newl (g : gap) : Z := newlines (concat_str g).
Definition row_ok (prev : option lexeme) (g : gap) : Prop :=
  match prev with
  | Some (Word _) | Some (Quoted _ _) => False
  | Some (Note _) => exists r, core g = s_nl :: r
  | _ => True
  end.
Lemma row_fits : forall prev g y, row_ok prev g -> fits prev g (Some y) = true.
Proof. intros [[ps|q ps|c|ps]|] g y H; cbn in *; try contradiction; auto. destruct H as [r ->]. reflexivity. Qed.
Lemma lastl_like : forall A x, like_items A -> arglike x -> exists y, lastl (Some x) A = Some y /\ arglike y.
Proof. induction A as [|[g y] A IH]; intros x L X; [cbn; eauto|]. inversion L as [|? ? [H _] L']; subst. cbn [lastl]. cbn [snd] in H. now apply IH. Qed.
Lemma like_tokens : forall A line, like_items A -> tokens_of line A = map (fun gx => atok line (snd gx)) A /\ after line A = line.
Proof.
  induction A as [|[g y] A IH]; intros line L; [split; reflexivity|]. inversion L as [|? ? [(_ & H & _) G] L']; subst. cbn [fst snd] in *.
  cbn [tokens_of after map snd]. destruct (IH line L') as [I1 I2]. rewrite G, H, !Z.add_0_r. split; [|exact I2]. unfold atok. now rewrite I1.
Qed.
Section Spec.
Variables (pr : N -> bool) (AR : ascii_right pr).
Lemma head_chain : forall ok d g prev line, is_comment d = false -> writable pr ok d = true -> gap_ok g = true -> row_ok prev g ->
  chain prev (head_items g d) = true /\ (exists x, lastl prev (head_items g d) = Some x /\ arglike x) /\
  tokens_of line (head_items g d) = atok (line + newl g) (arg_lex (d_name d)) :: map (fun gx => atok (line + newl g) (snd gx)) (arg_items d) /\
  after line (head_items g d) = (line + newl g)%Z.
Proof.
  intros ok d g prev line C W G R. destruct (stmt_args pr ok d AR C W) as (S & t & [A1 A2 A3 A4] & _). pose proof (kept_like pr _ S) as L.
  unfold head_items. cbn [chain lastl tokens_of after]. rewrite G, (row_fits _ _ _ R), (A2 _ L). destruct L as (L1 & L2 & L3). rewrite L1, L2, Z.add_0_r. fold (newl g).
  destruct (like_tokens _ (line + newl g) A1) as [T1 T2]. rewrite T1, T2. repeat split; auto. apply lastl_like; auto. repeat split; auto.
Qed.

Variables (mg : nat -> gap) (MG : forall k, gap_ok (mg k) = true /\ newl (mg k) = 0%Z).
Lemma nlg_ok : forall k prev, gap_ok (nlg mg k) = true /\ newl (nlg mg k) = 1%Z /\ (match prev with Some (Word _) | Some (Quoted _ _) => False | _ => True end -> row_ok prev (nlg mg k)).
Proof.
  intros k prev. destruct (MG k) as [A B]. unfold nlg. split; [|split].
  - cbn [gap_ok forallb]. unfold gap_ok in A. rewrite A. reflexivity.
  - unfold newl in *. cbn [concat_str]. now rewrite newlines_app_s, B.
  - intros P. destruct prev as [[| | |]|]; cbn; eauto.
Qed.
Definition item_spec (d : directive) : Prop := forall depth g prev line, gap_ok g = true -> row_ok prev g ->
  chain prev (items mg depth g d) = true /\
  (exists x, lastl prev (items mg depth g d) = Some x /\ match x with Sep _ => is_comment d = false | Note _ => is_comment d = true | _ => False end) /\
  tokens_of line (items mg depth g d) = stmt_toks (plant (line + newl g) d) /\
  after line (items mg depth g d) = bottom (line + newl g) d.
Lemma spot_note : forall d, not_note (spot_of d) = true -> is_comment d = false.
Proof. intros d. unfold spot_of. destruct (is_comment d); auto. Qed.
Lemma loop_spec : forall ds depth, Forall item_spec ds -> Forall (fun d => is_comment d = true -> note_ok (comment_text d) = true) ds ->
  forall gm g last s prev line, apart not_note last s ds = true -> gap_ok gm = true -> gap_ok g = true ->
  row_ok prev g -> (not_note s = true -> row_ok prev gm) ->
  let L := iloop (items mg depth) (nlg mg depth) gm g last ds in
  chain prev L = true /\ match lastl prev L with Some (Word _) | Some (Quoted _ _) => False | _ => True end /\
  tokens_of line L = flat (place plant bottom (newl gm) (newl g) last line ds) /\
  after line L = pend bottom (newl gm) (newl g) last line ds.
Proof.
  intros ds depth SP. induction SP as [|d ds S SP IH]; intros NO gm g last s prev line AP GM G R RM.
  - cbn. repeat split. destruct prev as [[| | |]|]; auto.
  - inversion NO as [|? ? N NO']; subst. specialize (IH NO'). cbv zeta in *. cbn [iloop apart place pend] in *.
    assert (ONE : newl one = 0%Z) by reflexivity. assert (OK1 : gap_ok one = true) by reflexivity. destruct (nlg_ok depth None) as (GN & NN & _).
    destruct (Z.eqb (d_line d) last && is_comment d)%bool eqn:M.
    + apply andb_true_iff in M as [_ C]. apply andb_true_iff in AP as [S1 AP]. destruct (note_arg _ (N C)) as (E & OK & NL & _).
      cbn [chain lastl tokens_of after]. rewrite GM, OK, (row_fits _ _ _ (RM S1)).
      destruct (IH one (nlg mg depth) last AfterNote (Some (Note (arg_pieces (comment_text d)))) (line + newl gm)%Z AP OK1 GN) as (I1 & I2 & I3 & I4).
      { now apply nlg_ok. }
      { discriminate. }
      rewrite ONE, NN in I3, I4. fold (newl gm). rewrite E, NL, Z.add_0_r, I3, I4. repeat split; auto.
      assert (PL : plant (line + newl gm) d = SCom (Tok ("#" ++ comment_text d) (line + newl gm) false None)) by (destruct d; cbn [plant]; now rewrite C).
      unfold flat. cbn [flat_map]. rewrite PL. cbn [stmt_toks app]. f_equal. f_equal. exact E.
    + destruct (S depth g prev line G R) as (S1 & (x & S2 & SX) & S3 & S4). rewrite chain_app, lastl_app, tokens_app, after_app, S1, S2, S3, S4.
      destruct (IH one (nlg mg depth) (d_line d) (spot_of d) (Some x) (bottom (line + newl g) d) AP OK1 GN) as (I1 & I2 & I3 & I4).
      { apply nlg_ok. destruct x; auto. }
      { intros NT. apply spot_note in NT. destruct x; cbn; auto; congruence. }
      rewrite ONE, NN in I3, I4. rewrite I1, I3, I4. repeat split; auto.
Qed.
Lemma writable_note : forall ok d, writable pr ok d = true -> is_comment d = true -> note_ok (comment_text d) = true.
Proof. intros ok d W C. destruct d as [nm ln args file inc blk cm mp]. cbn [writable] in W. rewrite C in W. now rewrite !andb_true_iff in W. Qed.
Lemma bottom_block : forall line d b, is_comment d = false -> d_block d = Some b -> bottom line d = (pend bottom 0 1 (d_line d) line b + 1)%Z.
Proof. intros line d b C B. destruct d as [nm ln args file inc blk cm mp]. cbn [bottom]. rewrite C. cbn [d_block d_line] in *. now rewrite B. Qed.
Lemma items_spec : forall d, writable pr not_note d = true -> item_spec d.
Proof.
  intros d. induction d as [d IH] using dir_ind'. intros W depth g prev line G R. destruct (is_comment d) eqn:C.
  - destruct (note_arg _ (writable_note _ d W C)) as (E & OK & NL & _). destruct d as [nm ln args file inc blk cm mp]. cbn [items plant bottom]. rewrite C.
    cbn [chain lastl tokens_of after]. rewrite G, OK, (row_fits _ _ _ R). rewrite E, NL, Z.add_0_r. fold (newl g). split; [reflexivity|]. split; [eexists; split; [reflexivity|exact eq_refl]|]. split; [|reflexivity].
    cbn [stmt_toks]. match goal with |- context [lexeme_val (Note ?x)] => change (lexeme_val (Note x)) with (lexeme_src (Note x)) end. now rewrite E.
  - destruct (head_chain not_note d g prev line C W G R) as (H1 & (x & H2 & LX) & H3 & H4). pose proof (kept_like pr) as KL.
    assert (FS : fits (Some x) [] (Some (Sep ";")) = true) by (destruct x as [ps|q ps|c|ps], LX as (_ & _ & LX); cbn in *; auto; rewrite LX; cbn; now rewrite andb_false_r).
    assert (FB : fits (Some x) one (Some (Sep "{")) = true) by now apply one_fits.
    destruct d as [nm ln args file inc blk cm mp]. pose proof W as W0. cbn [writable] in W. rewrite C in W. rewrite !andb_true_iff in W. destruct W as [_ WB]. cbn [d_block d_line] in *.
    cbn [items]. rewrite C. cbn [d_block d_line]. destruct blk as [b|].
    + apply andb_true_iff in WB as [AP WB]. rewrite forallb_forall in WB. cbn [opt_list] in IH.
      assert (SP : Forall item_spec b) by (rewrite Forall_forall in *; intros e I; apply IH; auto).
      assert (NO : Forall (fun d => is_comment d = true -> note_ok (comment_text d) = true) b) by (rewrite Forall_forall; intros e I; apply (writable_note not_note); auto).
      destruct (nlg_ok (S depth) (Some (Sep "{"))) as (GN & NN & RN). destruct (nlg_ok depth None) as (GN0 & NN0 & _).
      rewrite chain_app, lastl_app, tokens_app, after_app, H1, H2, H3, H4. cbn [chain lastl tokens_of after]. rewrite FB.
      change (newlines (concat_str one)) with 0%Z. change (newlines (lexeme_src (Sep "{"))) with 0%Z. rewrite !Z.add_0_r.
      set (L := (line + newl g)%Z) in *.
      destruct (loop_spec b (S depth) SP NO one (nlg mg (S depth)) ln Opening (Some (Sep "{")) L AP eq_refl GN (RN I) (fun _ => I)) as (I1 & I2 & I3 & I4).
      rewrite NN in I3, I4. change (newl one) with 0%Z in I3, I4.
      rewrite chain_app, lastl_app, tokens_app, after_app, I1, I3, I4. cbn [chain lastl tokens_of after]. rewrite GN0.
      assert (RO : row_ok (lastl (Some (Sep "{")) (iloop (items mg (S depth)) (nlg mg (S depth)) one (nlg mg (S depth)) ln b)) (nlg mg depth)) by (now apply nlg_ok).
      rewrite (row_fits _ _ (Sep "}") RO). fold (newl (nlg mg depth)). rewrite NN0. change (newlines (lexeme_src (Sep "}"))) with 0%Z. rewrite Z.add_0_r.
      split; [reflexivity|]. split; [eexists; split; reflexivity|].
      cbn [plant bottom]; rewrite C; cbn [d_block d_line]. split; reflexivity.
    + rewrite chain_app, lastl_app, tokens_app, after_app, H1, H2, H3, H4. cbn [chain lastl tokens_of after]. rewrite FS.
      change (newlines (concat_str [])) with 0%Z. change (newlines (lexeme_src (Sep ";"))) with 0%Z. rewrite !Z.add_0_r.
      split; [reflexivity|]. split; [eexists; split; reflexivity|]. cbn [plant bottom]; rewrite C; cbn [d_block]. split; reflexivity.
Qed.
End Spec.

(** ** The text *)
Section Text.
Variables (o : bopts) (pr : N -> bool) (AR : ascii_right pr) (PR : b_print o = pr) (NE : b_ext o = []).
Variables (ind : Z) (tabs : bool) (mg : nat -> gap) (MT : forall k, concat_str (mg k) = blanks ind tabs k).
Definition txt (rs : list row) : string := concat_str (map (row_text ind tabs) rs).
Lemma txt_app : forall a b, txt (a ++ b) = txt a ++ txt b.
Proof. intros. unfold txt. now rewrite map_app, concat_app_s. Qed.
Definition text_spec (d : directive) : Prop := forall depth g, exists t rs, rows o depth d = Row depth t :: rs /\ rtext (items mg depth g d) = concat_str g ++ t ++ txt rs.
Lemma loop_text : forall ds depth, Forall text_spec ds -> Forall (fun d => is_comment d = true -> note_ok (comment_text d) = true) ds ->
  forall last, rtext (iloop (items mg depth) (nlg mg depth) one (nlg mg depth) last ds) = txt (rows_loop o (rows o depth) depth last ds).
Proof.
  intros ds depth SP. induction SP as [|d ds S SP IH]; intros NO last; [reflexivity|]. inversion NO as [|? ? N NO']; subst. specialize (IH NO'). cbn [iloop rows_loop].
  destruct (Z.eqb (d_line d) last && is_comment d)%bool eqn:M.
  - apply andb_true_iff in M as [_ C]. destruct (note_arg _ (N C)) as (E & _). rewrite rtext_cons, E, IH. unfold txt. cbn [map concat_str row_text]. change (concat_str one) with " ". change " #" with (" " ++ "#"). now rewrite !app_assoc_s.
  - rewrite NE. cbn [assoc]. destruct (S depth (nlg mg depth)) as (t & rs & R & T). rewrite rtext_app, T, IH, R, txt_app. unfold txt at 3. cbn [map concat_str row_text]. fold (txt rs). unfold nlg. cbn [concat_str]. now rewrite MT, !app_assoc_s.
Qed.
Lemma items_text : forall ok d, writable pr ok d = true -> text_spec d.
Proof.
  intros ok d. induction d as [d IH] using dir_ind'. intros W depth g. destruct (is_comment d) eqn:C.
  - destruct (note_arg _ (writable_note _ _ d W C)) as (E & _). destruct d as [nm ln args file inc blk cm mp]. cbn [items rows]. rewrite C. exists ("#" ++ comment_text {| d_name := nm; d_line := ln; d_args := args; d_file := file; d_includes := inc; d_block := blk; d_comment := cm; d_ismap := mp |}), [].
    split; auto. rewrite rtext_cons, E. reflexivity.
  - destruct (stmt_args pr ok d AR C W) as (S & t & [_ _ _ A4] & BH). specialize (BH o PR).
    assert (HT : rtext (head_items g d) = concat_str g ++ head_text o d) by (unfold head_items; rewrite rtext_cons, (as_src _ _ S), A4, <- BH; reflexivity).
    destruct d as [nm ln args file inc blk cm mp]. cbn [writable] in W. rewrite C in W. rewrite !andb_true_iff in W. destruct W as [_ WB]. cbn [d_block d_line] in *.
    cbn [items rows]. rewrite C. cbn [d_block d_line]. destruct blk as [b|].
    + apply andb_true_iff in WB as [AP WB]. rewrite forallb_forall in WB. cbn [opt_list] in IH.
      assert (SP : Forall text_spec b) by (rewrite Forall_forall in *; intros e I; apply IH; auto).
      assert (NO : Forall (fun d => is_comment d = true -> note_ok (comment_text d) = true) b) by (rewrite Forall_forall; intros e I; apply (writable_note pr ok); auto).
      do 2 eexists. split; [reflexivity|]. rewrite rtext_app, HT, rtext_cons, rtext_app, (loop_text b (Datatypes.S depth) SP NO ln), rtext_cons, txt_app.
      unfold nlg, txt. cbn [concat_str map row_text lexeme_src rtext render]. rewrite MT. change (concat_str one) with " ". change " {" with (" " ++ "{"). rewrite !app_assoc_s. unfold rtext. cbn [render concat_str]. rewrite ?app_nil_r_s. reflexivity.
    + do 2 eexists. split; [reflexivity|]. rewrite rtext_app, HT, rtext_cons. unfold rtext, txt. cbn [map concat_str render lexeme_src]. now rewrite !app_assoc_s.
Qed.
Lemma top_text : forall ok ds pre, forallb (writable pr ok) ds = true -> ds <> [] ->
  rtext (iloop (items mg 0) (nlg mg 0) (pre ++ one)%list pre 0 ds) = concat_str pre ++ rows_text ind tabs (all_rows o ds).
Proof.
  intros ok ds pre W N. destruct ds as [|d ds]; [congruence|]. unfold all_rows. cbn [iloop rows_loop]. cbn [forallb] in W. apply andb_true_iff in W as [W1 W2]. rewrite forallb_forall in W2.
  assert (SP : Forall text_spec ds) by (rewrite Forall_forall; intros e I; apply (items_text ok); auto).
  assert (NO : Forall (fun d => is_comment d = true -> note_ok (comment_text d) = true) ds) by (rewrite Forall_forall; intros e I; apply (writable_note pr ok); auto).
  destruct (Z.eqb (d_line d) 0 && is_comment d)%bool eqn:M.
  - apply andb_true_iff in M as [_ C]. destruct (note_arg _ (writable_note pr ok d W1 C)) as (E & _). rewrite rtext_cons, E, (loop_text ds 0 SP NO). unfold rows_text, txt. cbn [map concat_str row_text].
    rewrite concat_app_s. change (concat_str one) with " ". change " #" with (" " ++ "#"). now rewrite !app_assoc_s.
  - rewrite NE. cbn [assoc]. destruct (items_text ok d W1 0 pre) as (t & rs & R & T). rewrite rtext_app, T, R, (loop_text ds 0 SP NO). cbn [app rows_text]. fold (txt (rs ++ rows_loop o (rows o 0) 0 (d_line d) ds)). rewrite txt_app.
    assert (B0 : blanks ind tabs 0 = "") by (unfold blanks; now destruct tabs). rewrite B0. now rewrite !app_assoc_s.
Qed.
End Text.

(** ** Forests *)
Lemma atok_plain : forall x line, arglike x -> SpecForest.plain (atok line x) /\ ~ hash (atok line x).
Proof.
  intros [ps|q ps|c|ps] line (L1 & _ & L3); try contradiction; unfold atok; cbn [lexeme_val lexeme_quoted].
  - pose proof (word_like_srcs ps L1) as W. destruct (word_notsep _ line false None W) as (A & B & _). split.
    + right. intros I. unfold sepb in A. cbn [t_quoted t_val negb andb] in A. apply not_true_iff_false in A. apply A. apply existsb_exists. exists (srcs ps). split; auto. apply String.eqb_refl.
    + intros [_ [r E]]. cbn [t_val] in E. unfold noteb in B. cbn [t_quoted t_val negb andb] in B. rewrite E in B. discriminate.
  - split; [now left|]. intros [H _]. discriminate.
Qed.
Lemma like_plain : forall A line, like_items A -> Forall (fun a => t_err a = None /\ SpecForest.plain a /\ ~ hash a) (map (fun gx => atok line (snd gx)) A).
Proof. intros A line L. apply Forall_map. eapply Forall_impl; [|exact L]. intros [g x] [H _]. cbn [snd] in *. destruct (atok_plain x line H). repeat split; auto. Qed.
Lemma plant_wf : forall pr, ascii_right pr -> forall ok d, writable pr ok d = true -> forall line, wf_stmt (plant line d).
Proof.
  intros pr AR ok d. induction d as [d IH] using dir_ind'. intros W line. destruct (is_comment d) eqn:C.
  - destruct d as [nm ln args file inc blk cm mp]. cbn [plant]. rewrite C. constructor; auto. split; auto. eexists. reflexivity.
  - destruct (stmt_args pr ok d AR C W) as (S & t & [A1 _ _ _] & _). destruct (atok_plain _ line (kept_like pr _ S)) as [P H].
    pose proof (like_plain _ line A1) as F. assert (F' : Forall (fun a => t_err a = None /\ SpecForest.plain a) (map (fun gx => atok line (snd gx)) (arg_items d))) by (eapply Forall_impl; [|exact F]; cbn; tauto).
    destruct d as [nm ln args file inc blk cm mp]. cbn [writable] in W. rewrite C in W. rewrite !andb_true_iff in W. destruct W as [_ WB]. cbn [plant]. rewrite C. cbn [d_block d_line d_name] in *.
    destruct blk as [b|]; constructor; auto. apply andb_true_iff in WB as [_ WB]. rewrite forallb_forall in WB. cbn [opt_list] in IH. rewrite Forall_forall in IH.
    assert (G : forall bs m inc last l, (forall e, In e bs -> In e b) -> Forall wf_stmt (place plant bottom m inc last l bs)).
    { induction bs as [|e bs IHb]; intros m i la l IN; [constructor|]. cbn [place]. assert (E : In e b) by (apply IN; now left). destruct (_ && _)%bool; constructor; auto; apply IHb; intros x X; apply IN; now right. }
    now apply G.
Qed.
Lemma place_wf : forall pr, ascii_right pr -> forall ok ds, forallb (writable pr ok) ds = true -> forall m inc last l, Forall wf_stmt (place plant bottom m inc last l ds).
Proof.
  intros pr AR ok ds. induction ds as [|d ds IH]; intros W m inc last l; [constructor|]. cbn [forallb] in W. apply andb_true_iff in W as [W1 W2]. cbn [place].
  destruct (_ && _)%bool; constructor; auto; eapply plant_wf; eauto.
Qed.

(** Well-formed forests satisfy the lexer's rules. *)
Fixpoint scanb (n : nat) (s : bool) (toks : list token) : option (nat * bool) :=
  match toks with
  | [] => Some (n, s)
  | t :: r =>
    if noteb t then scanb n s r
    else if opensb t then if s then None else scanb (S n) true r
    else if closesb t then match n with O => None | S n => scanb n true r end
    else if sepb t then if s then None else scanb n true r
    else scanb n false r
  end.
Lemma scanb_app : forall a n s b, scanb n s (a ++ b) = match scanb n s a with Some (n', s') => scanb n' s' b | None => None end.
Proof.
  induction a as [|t a IH]; intros n s b; auto. cbn [app scanb]. destruct (noteb t); auto. destruct (opensb t); [destruct s; auto|]. destruct (closesb t); [destruct n; auto|].
  destruct (sepb t); [destruct s; auto|]. auto.
Qed.
Lemma note_sep : forall t, noteb t = true -> sepb t = false /\ opensb t = false /\ closesb t = false.
Proof.
  intros [v l q e]. unfold noteb, sepb, opensb, closesb. cbn [t_quoted t_val]. destruct q; [discriminate|]. cbn [negb andb]. destruct v as [|c v]; [discriminate|].
  intros H. assert (c = "#"%char) as -> by (destruct c as [[] [] [] [] [] [] [] []]; (discriminate || reflexivity)). repeat split; reflexivity.
Qed.
Lemma open_sep : forall t, sepb t = false -> opensb t = false /\ closesb t = false.
Proof.
  intros t H. unfold sepb, opensb, closesb in *. destruct (t_quoted t); auto. cbn [negb andb existsb] in *. rewrite !orb_false_iff in H. tauto.
Qed.
Lemma scanb_net : forall toks n s n' s', scanb n s toks = Some (n', s') -> (Z.of_nat n + net toks = Z.of_nat n')%Z /\ after_sep s toks = s'.
Proof.
  induction toks as [|t r IH]; intros n s n' s' H; cbn [scanb net after_sep] in *; [inversion H; subst; split; [lia|reflexivity]|].
  destruct (noteb t) eqn:N. { destruct (note_sep t N) as (_ & -> & ->). now apply IH. }
  destruct (opensb t) eqn:O. { destruct s; [discriminate|]. apply IH in H as [A B]. split; [lia|]. destruct (sepb t) eqn:S; auto. apply open_sep in S as [S _]. congruence. }
  destruct (closesb t) eqn:C. { destruct n; [discriminate|]. apply IH in H as [A B]. split; [lia|]. destruct (sepb t) eqn:S; auto. apply open_sep in S as [_ S]. congruence. }
  destruct (sepb t) eqn:S. { destruct s; [discriminate|]. now apply IH in H. }
  now apply IH in H.
Qed.
Lemma scanb_proper : forall toks s, scanb 0 false toks = Some (0, s) -> proper toks.
Proof.
  intros toks s H. split; [|split].
  - intros a b ->. rewrite scanb_app in H. destruct (scanb 0 false a) as [[n' s']|] eqn:E; [|discriminate]. apply scanb_net in E as [E _]. lia.
  - intros a t b -> S A. rewrite scanb_app in H. destruct (scanb 0 false a) as [[n' s']|] eqn:E; [|discriminate]. apply scanb_net in E as [_ E]. rewrite A in E. subst s'. cbn [scanb] in H.
    destruct (noteb t) eqn:N; [apply note_sep in N as [N _]; congruence|]. destruct (opensb t); [discriminate|]. destruct (closesb t) eqn:C; [|rewrite S in H; discriminate].
    unfold closesb in C. apply andb_true_iff in C as [_ C]. now apply String.eqb_eq.
  - apply scanb_net in H as [H _]. lia.
Qed.
Lemma plain_sepb : forall t, SpecForest.plain t -> sepb t = false.
Proof.
  intros t [Q|N]; unfold sepb; [now rewrite Q|]. destruct (t_quoted t); auto. cbn [negb andb]. apply not_true_iff_false. intros H. apply existsb_exists in H as (x & I & E). apply String.eqb_eq in E. subst x. auto.
Qed.
Lemma scanb_args : forall args n b, Forall (fun a => t_err a = None /\ SpecForest.plain a) args -> scanb n false (args ++ b) = scanb n false b.
Proof.
  induction args as [|a args IH]; intros n b F; auto. inversion F as [|? ? [_ P] F']; subst. cbn [app scanb]. pose proof (plain_sepb a P) as S. destruct (open_sep a S) as [-> ->]. rewrite S. destruct (noteb a); now apply IH.
Qed.
Lemma noteb_hash : forall t, noteb t = true -> hash t.
Proof.
  intros [v l q e]. unfold noteb, hash. cbn [t_quoted t_val]. destruct q; [discriminate|]. cbn [negb andb]. destruct v as [|c v]; [discriminate|].
  intros H. assert (c = "#"%char) as -> by (destruct c as [[] [] [] [] [] [] [] []]; (discriminate || reflexivity)). split; auto. exists v. reflexivity.
Qed.
Lemma scanb_stmt : forall st, wf_stmt st -> forall n s, exists s', scanb n s (stmt_toks st) = Some (n, s').
Proof.
  intros st. induction st as [t|h args l|h args l b c IH] using stmt_ind2; intros W n s.
  - apply wf_com_inv in W as [_ [Q [r E]]]. cbn [stmt_toks scanb]. unfold noteb. rewrite Q, E. cbn. eauto.
  - apply wf_stm_inv in W as (_ & P & NH & FA & _). cbn [stmt_toks scanb]. pose proof (plain_sepb h P) as S. destruct (open_sep h S) as [O C]. rewrite O, C, S.
    assert (N : noteb h = false) by (apply not_true_iff_false; intros N; apply NH; now apply noteb_hash).
    rewrite N, scanb_args by auto. cbn. eauto.
  - apply wf_stm_inv in W as (_ & P & NH & FA & FB). cbn [stmt_toks scanb]. pose proof (plain_sepb h P) as S. destruct (open_sep h S) as [O C]. rewrite O, C, S.
    assert (N : noteb h = false) by (apply not_true_iff_false; intros N; apply NH; now apply noteb_hash).
    rewrite N, scanb_args by auto. cbn [scanb noteb opensb t_quoted t_val negb andb String.eqb Ascii.eqb eqb].
    assert (G : forall n s, exists s', scanb n s (flat_map stmt_toks b) = Some (n, s')).
    { clear - IH FB. induction b as [|x b IHb]; intros n s; [cbn; eauto|]. inversion IH; inversion FB; subst. cbn [flat_map]. destruct (H1 H5 n s) as [s' E]. rewrite scanb_app, E. now apply IHb. }
    destruct (G (Datatypes.S n) true) as [s' E]. rewrite scanb_app, E. cbn. eauto.
Qed.
Lemma flat_proper : forall F, Forall wf_stmt F -> proper (flat F).
Proof.
  intros F W. assert (G : forall n s, exists s', scanb n s (flat F) = Some (n, s')).
  { unfold flat. induction W as [|x F X W IH]; intros n s; [cbn; eauto|]. cbn [flat_map]. destruct (scanb_stmt x X n s) as [s' E]. rewrite scanb_app, E. apply IH. }
  destruct (G 0 false) as [s E]. eapply scanb_proper; eauto.
Qed.
