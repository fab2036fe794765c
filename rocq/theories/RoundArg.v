(** C09: names, arguments and comments as lexical items. *)
From Verif Require Export EnquoteProofs BuildFacts SpecRound.
Local Open Scope string_scope.

Definition arg_pieces (s : string) : list piece := fst (pieces_of false (scan_runes s)).
(** Inside single quotes. *)
Definition qp (single : bool) (p : piece) : piece :=
  match p with Raw r => if (single && String.eqb r s_sq)%bool then Esc r else p | Esc _ => p end.
Definition arg_lex (s : string) : lexeme :=
  if needs_quote s then Quoted (quote_of (has_dq s)) (map (qp (has_dq s)) (arg_pieces s)) else Word (arg_pieces s).

Lemma one_raw : forall i s, In i (scan s) -> it_ok i = true -> one_char (it_raw i) = true /\ it_text i = it_raw i.
Proof.
  intros i s I O. pose proof (scan_items s i I) as (NE & OK & _). split; [|unfold it_text; now rewrite O].
  apply one_char_text. split; auto. eauto.
Qed.
Definition in_quotes (q : string) (p : piece) : bool :=
  (piece_ok p && match p with Raw r => negb (String.eqb r q) | Esc _ => true end && negb (is_nl (char_of p)))%bool.
Lemma quoted_pieces : forall pr s, ascii_right pr -> forall single l, (forall i, In i l -> In i (scan s)) -> (single = false -> ~ In KQ (map (kind_of pr) l)) ->
  forall odd ps d, good_kinds single odd (map (kind_of pr) l) = true -> pieces_of odd (map it_text l) = (ps, d) ->
  let q := quote_of single in let qs := map (qp single) ps in
  d = false /\ bs odd ++ cat (tq single) (map (kind_of pr) l) = srcs qs /\
  bs odd ++ cat raw (map (kind_of pr) l) = concat_str (map (unquote q) qs) /\ forallb (in_quotes q) qs = true.
Proof.
  intros pr s AR single l. cbv zeta. induction l as [|i l IH]; intros IN NK odd ps d G P.
  - cbn in G, P. inversion P; subst. destruct d; [discriminate|]. repeat split.
  - assert (I : In i (scan s)) by (apply IN; now left). specialize (IH (fun j J => IN j (or_intror J))).
    specialize (IH (fun S X => NK S (or_intror X))). pose proof (quote_item_kind pr s i AR I) as (_ & KO & RW).
    cbn [map] in *. rewrite !cat_cons. pose proof (one_raw i s I) as OT.
    assert (KK : forall k, k = kind_of pr i -> match k with KE _ _ => True | _ => it_ok i = true end).
    { intros k ->. unfold kind_of. destruct (it_ok i); cbn [negb]; auto. destruct (it_rune i =? 34)%N; auto. destruct (it_rune i =? 92)%N; auto. destruct (pr (it_rune i)); auto. destruct (it_rune i =? 39)%N; auto. }
    specialize (KK _ eq_refl).
    assert (NLX : match kind_of pr i with KE _ _ => True | _ => is_nl (it_raw i) = false end).
    { destruct (kind_of pr i) eqn:K; auto; cbn [raw] in RW; rewrite <- RW; auto.
      unfold kind_of in K. rewrite KK in K. cbn [negb] in K. destruct (it_rune i =? 34)%N, (it_rune i =? 92)%N; try discriminate. destruct (pr (it_rune i)) eqn:PI; try discriminate.
      destruct (it_rune i =? 39)%N; [discriminate|]. inversion K; subst r. unfold is_nl. apply String.eqb_neq. intros E. pose proof (scan_items s i I) as (_ & OK & _). specialize (OK KK). rewrite E in OK. cbn in OK. inversion OK as [Y].
      rewrite <- Y, AR in PI by reflexivity. discriminate. }
    destruct (kind_of pr i) as [| | |r|c b] eqn:K; cbn [good_kinds raw tq] in *; try discriminate; destruct (OT KK) as [OC TX]; rewrite TX, <- RW in P; rewrite <- RW in OC, NLX.
    + assert (SG : single = true) by (destruct single; auto; destruct (NK eq_refl); now left). subst single. cbn [pieces_of] in P. destruct odd.
      * destruct (pieces_of false (map it_text l)) as [ps' d'] eqn:E. inversion P; subst. destruct (IH false ps' d G E) as (-> & A & B & C).
        cbn [bs String.append] in A, B. rewrite A, B. cbn [map qp]. unfold srcs. cbn [map concat_str src unquote]. repeat split. cbn [forallb]. rewrite C. reflexivity.
      * change (""""  =? "\") with false in P. cbv iota in P. destruct (pieces_of false (map it_text l)) as [ps' d'] eqn:E. inversion P; subst. destruct (IH false ps' d G E) as (-> & A & B & C).
        cbn [bs String.append] in A, B. rewrite A, B. cbn [map qp]. unfold srcs. cbn [map concat_str src unquote]. repeat split. cbn [forallb]. rewrite C. reflexivity.
    + cbn [pieces_of] in P. destruct odd.
      * destruct (pieces_of false (map it_text l)) as [ps' d'] eqn:E. inversion P; subst. cbn [negb] in G. destruct (IH false ps' d G E) as (-> & A & B & C).
        cbn [bs String.append] in A, B. rewrite A, B. cbn [map qp]. unfold srcs. cbn [map concat_str src unquote]. repeat split; [destruct single; reflexivity|]. cbn [forallb]. rewrite C. now destruct single.
      * cbn [String.eqb Ascii.eqb eqb] in P. cbn [negb] in G. destruct (IH true ps d G P) as (-> & A & B & C). repeat split; auto.
    + destruct single; cbn [andb] in *.
      * apply andb_true_iff in G as [O G]. apply negb_true_iff in O. subst odd. cbn [pieces_of] in P. change ("'" =? "\") with false in P. cbv iota in P.
        destruct (pieces_of false (map it_text l)) as [ps' d'] eqn:E. inversion P; subst. destruct (IH false ps' d G E) as (-> & A & B & C).
        cbn [bs String.append] in A, B. cbn [bs String.append]. rewrite A, B. repeat split. cbn [map forallb]. rewrite C. reflexivity.
      * cbn [negb andb] in G. cbn [pieces_of] in P. change ("'" =? "\") with false in P.
        destruct (pieces_of false (map it_text l)) as [ps' d'] eqn:E. destruct (fun d => IH false ps' d G) with d' as (-> & A & B & C); auto. cbn [bs String.append] in A, B.
        destruct odd; inversion P; subst; cbn [bs String.append]; rewrite A, B; repeat split; cbn [map forallb]; rewrite C; reflexivity.
    + cbn [kind_ok] in KO. destruct KO as (CA & RT & NC). assert (NB : r =? "\" = false).
      { apply String.eqb_neq. intros ->. destruct CA as [_ CA]. destruct (CA "\"%char); [now left|congruence]. }
      assert (NQ : r =? quote_of single = false).
      { apply String.eqb_neq. intros ->. destruct CA as [_ CA]. destruct single; [destruct (CA "'"%char)|destruct (CA """"%char)]; try (now left); intuition congruence. }
      assert (NS : (single && (r =? s_sq))%bool = false) by (destruct single; auto).
      assert (PO : piece_ok (Raw r) = true /\ piece_ok (Esc r) = true).
      { unfold piece_ok, is_cr. rewrite OC, NB. apply String.eqb_neq in NC. now rewrite NC. }
      cbn [pieces_of] in P. rewrite NB in P. destruct (pieces_of false (map it_text l)) as [ps' d'] eqn:E. destruct (IH false ps' d' G E) as (-> & A & B & C). cbn [bs String.append] in A, B.
      destruct odd; inversion P; subst; cbn [bs map qp]; rewrite ?NS; rewrite A, B; unfold srcs; cbn [map concat_str src unquote]; rewrite ?NQ; repeat split; cbn [forallb]; rewrite C; unfold in_quotes; cbn [char_of]; rewrite NLX; destruct PO as [PO1 PO2]; rewrite ?PO1, ?PO2, ?NQ; auto.
Qed.

Lemma pieces_chars : forall rs esc ps d, pieces_of esc rs = (ps, d) -> forall p, In p ps -> In (char_of p) rs.
Proof.
  induction rs as [|r rs IH]; intros esc ps d P p I; cbn [pieces_of] in P; [inversion P; subst; destruct I|]. destruct esc; [|destruct (r =? "\")].
  - destruct (pieces_of false rs) as [ps' d'] eqn:E. inversion P; subst. destruct I as [<-|I]; [now left|right; eauto].
  - right; eauto.
  - destruct (pieces_of false rs) as [ps' d'] eqn:E. inversion P; subst. destruct I as [<-|I]; [now left|right; eauto].
Qed.
Lemma runes_one_line : forall s, valid_utf8 s = true -> has_nl s = false -> forall r, In r (scan_runes s) -> is_nl r = false.
Proof.
  intros s V N r I. destruct (scan_texts s V) as [T E]. unfold has_nl in N. rewrite <- E in N. clear E V. induction T as [|x rs T1 T IH]; [destruct I|].
  cbn [concat_str] in N. rewrite str_exists_app, orb_false_iff in N. destruct N as [N1 N2]. destruct I as [->|I]; auto.
  unfold is_nl. apply String.eqb_neq. intros ->. discriminate N1.
Qed.
Lemma arg_pieces_facts : forall s, valid_utf8 s = true -> str_exists (Ascii.eqb "013"%char) s = false -> has_nl s = false -> snd (pieces_of false (scan_runes s)) = false ->
  srcs (arg_pieces s) = s /\ forallb piece_ok (arg_pieces s) = true /\ one_line (arg_pieces s) = true.
Proof.
  intros s V C N D. unfold arg_pieces. destruct (pieces_of false (scan_runes s)) as [ps d] eqn:P. cbn [fst snd] in *. subst d.
  destruct (scan_texts s V) as [T E]. destruct (pieces_units _ _ _ _ T (proj2 (cr_in s V) C) P) as (A & _ & B).
  cbn [bs String.append] in A. rewrite E, app_nil_r_s in A. repeat split; auto. unfold one_line. apply forallb_forall. intros p I. apply negb_true_iff.
  apply (runes_one_line s V N). eapply pieces_chars; eauto.
Qed.
Lemma one_line_nls : forall ps, forallb piece_ok ps = true -> one_line ps = true -> newlines (srcs ps) = 0%Z.
Proof.
  intros ps P O. rewrite newlines_srcs by auto. apply note_nls. unfold one_line in O. rewrite forallb_forall in *. intros p I. now rewrite P, O.
Qed.
Lemma nl_free : forall s, has_nl s = false -> newlines s = 0%Z.
Proof.
  intros s. unfold has_nl, newlines, str_exists. induction (list_of_str s) as [|c l IH]; auto. cbn [existsb filter].
  destruct (Ascii.eqb "010" c); [discriminate|]. exact IH.
Qed.
Lemma newlines_app_s : forall a b, newlines (a ++ b) = (newlines a + newlines b)%Z.
Proof. intros a b. unfold newlines. rewrite list_of_app, filter_app, app_length. lia. Qed.

(** Arguments. *)
Lemma kept_quoted : forall pr s, ascii_right pr -> needs_quote s = true -> quotable pr s = true ->
  let single := has_dq s in let qs := map (qp single) (arg_pieces s) in
  enquote pr s = quote_of single ++ srcs qs ++ quote_of single /\ concat_str (map (unquote (quote_of single)) qs) = s /\ forallb (in_quotes (quote_of single)) qs = true.
Proof.
  intros pr s AR NQ Q. cbv zeta. pose proof (enquote_form pr s AR NQ) as E. cbv zeta in E. rewrite dq_runes in E. rewrite E. clear E. change (if has_dq s then s_sq else s_dq) with (quote_of (has_dq s)).
  assert (G : good_kinds (has_dq s) false (map (kind_of pr) (scan s)) = true).
  { unfold quotable in Q. now rewrite (good_even pr s AR), unscan_scan by auto. }
  unfold arg_pieces. destruct (pieces_of false (scan_runes s)) as [ps d] eqn:P. cbn [fst].
  destruct (quoted_pieces pr s AR (has_dq s) (scan s) (fun i I => I)) with (odd := false) (ps := ps) (d := d) as (_ & A & B & C); auto.
  { intros S X. apply (kinds_KQ pr s) in X. rewrite dq_runes in X. congruence. }
  cbn [bs String.append] in A, B. fold (kinds pr s) in A, B. rewrite kinds_raw in B by auto. rewrite A, <- B. auto.
Qed.
Record arg_spec (pr : N -> bool) (s : string) : Prop := {
  as_src : lexeme_src (arg_lex s) = enquote pr s;
  as_val : lexeme_val (arg_lex s) = s;
  as_ok : lexeme_ok (arg_lex s) = true;
  as_line : newlines (lexeme_src (arg_lex s)) = 0%Z;
  as_word : forall ps, arg_lex s = Word ps -> one_line ps = true /\ word_ok ps = true /\ srcs ps = s /\ (exists p r, ps = p :: r /\ starts_word p = true) }.
Lemma kept_arg : forall pr s, ascii_right pr -> kept pr s = true -> arg_spec pr s.
Proof.
  intros pr s AR K. unfold kept in K. unfold arg_lex. destruct (needs_quote s) eqn:NQ.
  - destruct (kept_quoted pr s AR NQ K) as (A & B & C). constructor; unfold arg_lex; rewrite NQ; cbn [lexeme_src lexeme_val lexeme_ok]; auto; try discriminate.
    + apply andb_true_iff. split; [destruct (has_dq s); reflexivity|]. revert C. apply forallb_weaken. intros p H. unfold in_quotes in H. now apply andb_true_iff in H as [-> _].
    + rewrite !newlines_app_s. assert (X : newlines (srcs (map (qp (has_dq s)) (arg_pieces s))) = 0%Z).
      { apply one_line_nls; revert C; apply forallb_weaken; intros p H; unfold in_quotes in H; rewrite !andb_true_iff in H; tauto. }
      rewrite X. destruct (has_dq s); reflexivity.
  - apply andb_true_iff in K as [B N]. apply negb_true_iff in N. unfold bare_word in B. rewrite !andb_true_iff, negb_true_iff in B. destruct B as [[V C] B].
    assert (D : snd (pieces_of false (scan_runes s)) = false) by (destruct (pieces_of false (scan_runes s)) as [[|p ps] []]; try discriminate; reflexivity).
    destruct (arg_pieces_facts s V C N D) as (E & P & O).
    assert (W : word_ok (arg_pieces s) = true /\ exists p r, arg_pieces s = p :: r /\ starts_word p = true).
    { revert E P O. unfold arg_pieces. destruct (pieces_of false (scan_runes s)) as [[|p ps] []]; try discriminate. cbn [fst]. intros E P O. apply andb_true_iff in B as [B1 B2]. split; eauto.
      cbn [forallb] in P. apply andb_true_iff in P as [P1 P2]. cbn [forallb one_line] in O. apply andb_true_iff in O as [O1 O2]. destruct p as [r|r]; cbn [word_ok starts_word char_of] in *.
      - apply andb_true_iff in B1 as [B3 B4]. now rewrite P1, B3, B4, B2.
      - now rewrite P1, O1, B2. }
    destruct W as [W1 W2]. constructor; unfold arg_lex, enquote; rewrite NQ; cbn [negb lexeme_src lexeme_val lexeme_ok]; auto.
    + now apply one_line_nls.
    + intros ps H. inversion H; subst. auto.
Qed.
Lemma note_arg : forall c, note_ok c = true -> lexeme_src (Note (arg_pieces c)) = "#" ++ c /\ lexeme_ok (Note (arg_pieces c)) = true /\ newlines ("#" ++ c) = 0%Z /\ has_nl c = false.
Proof.
  intros c H. unfold note_ok in H. rewrite !andb_true_iff, !negb_true_iff in H. destruct H as [[[V C] N] D]. destruct (arg_pieces_facts c V C N D) as (E & P & O).
  cbn [lexeme_src lexeme_ok]. rewrite E. repeat split; auto.
  - unfold one_line in O. rewrite forallb_forall in *. intros p I. now rewrite P, O.
  - apply (nl_free ("#" ++ c)). exact N.
Qed.
