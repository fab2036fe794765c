(** C01: lexing a layout gives its items back. *)
From Verif Require Export LexProofs SpecLayout.
Local Open Scope string_scope.

(** ** Characters *)
Lemma one_char_text : forall r, one_char r = true <-> rune_text r.
Proof.
  intros r. unfold one_char, rune_text. destruct (decode_rune r) as [[n w] ok]. rewrite !andb_true_iff, negb_true_iff, String.eqb_neq, Nat.eqb_eq. split.
  - intros [[-> N] ->]. split; eauto.
  - intros [N [m E]]. inversion E; subst. auto.
Qed.
Lemma white_space : forall r, rune_text r -> is_space r = white r.
Proof. intros r [N [n D]]. unfold white. rewrite (rune_space r n N D), D. reflexivity. Qed.
Lemma esc_not_space : forall r, rune_text r -> is_space ("\" ++ r) = false.
Proof.
  intros r R. unfold is_space, trim_space, trim_left.
  assert (S : scan ("\" ++ r) = (Item 92 "\" true :: scan r)%list) by (rewrite scan_app_valid by reflexivity; reflexivity).
  rewrite S. cbn [drop_while it_rune]. change (is_space_rune 92) with false. cbv iota.
  unfold trim_right. rewrite <- S, unscan_scan, S. cbn [rev].
  destruct R as [N [n D]]. rewrite (rune_scan r n N D). cbn [rev app drop_while it_rune].
  destruct (is_space_rune n); cbn [drop_while it_rune rev app]; [reflexivity|reflexivity].
Qed.
Lemma eol_nl : forall r, rune_text r -> is_eol r = is_nl r.
Proof. intros r R. apply eq_iff_eq_true. rewrite eol_rune by auto. unfold is_nl. now rewrite String.eqb_eq. Qed.
Lemma newlines_rune : forall r, rune_text r -> newlines r = (if is_eol r then 1 else 0)%Z.
Proof.
  intros r R. pose proof (count_scan r) as C. rewrite (rune_scan_runes r R) in C. rewrite <- C. reflexivity.
Qed.
Definition piece_text (p : piece) (H : piece_ok p = true) : rune_text (char_of p).
Proof. destruct p; cbn in H; rewrite ?andb_true_iff in H; apply one_char_text; tauto. Qed.
Lemma src_eol : forall p, piece_ok p = true -> is_eol (src p) = is_nl (char_of p).
Proof.
  intros p H. pose proof (piece_text p H) as T. destruct p; cbn [src char_of] in *; [|rewrite is_eol_app by apply T]; now apply eol_nl.
Qed.
Lemma newlines_src : forall p, piece_ok p = true -> newlines (src p) = (if is_eol (src p) then 1 else 0)%Z.
Proof.
  intros p H. pose proof (piece_text p H) as T. destruct p; cbn [src char_of] in *; [now apply newlines_rune|].
  rewrite newlines_app, is_eol_app by apply T. change (newlines "\") with 0%Z. now apply newlines_rune.
Qed.
Lemma src_unit : forall p, piece_ok p = true -> src p <> "".
Proof. intros p H. pose proof (piece_text p H) as T. destruct p; cbn [src char_of] in *; [apply T|discriminate]. Qed.
Lemma suffix_rune : forall r c, rune_text r -> (bval c < 128)%N -> has_suffix r (str1 c) = String.eqb r (str1 c).
Proof.
  intros r c R B. apply eq_iff_eq_true. rewrite String.eqb_eq. split; [|intros ->; apply (has_suffix_app "")].
  intros H. apply has_suffix_iff in H as [x E]. rewrite (rune_byte r c R); auto. rewrite E, in_str_app. right. now left.
Qed.
Lemma src_suffix : forall p c, piece_ok p = true -> (bval c < 128)%N -> has_suffix (src p) (str1 c) = String.eqb (char_of p) (str1 c).
Proof.
  intros p c H B. pose proof (piece_text p H) as T. destruct p; cbn [src char_of] in *; [|rewrite suffix1_app by apply T]; now apply suffix_rune.
Qed.

(** ** Units of a text *)
Definition U (s : string) : list string := units false (scan_runes s).
Lemma U_piece : forall p s, piece_ok p = true -> U (src p ++ s) = src p :: U s.
Proof.
  intros p s H. pose proof (piece_text p H) as T. unfold U. destruct p as [r|r]; cbn [src char_of piece_ok] in *.
  - rewrite !andb_true_iff, !negb_true_iff in H. destruct H as [[_ C] B].
    rewrite scan_runes_app_valid by now apply rune_valid. rewrite rune_scan_runes by auto. cbn [app units].
    unfold is_cr in C. now rewrite C, B.
  - rewrite andb_true_iff, negb_true_iff in H. destruct H as [_ C]. unfold is_cr in C.
    rewrite app_assoc_s, (scan_runes_app_valid "\") by reflexivity. change (scan_runes "\") with ["\"].
    rewrite scan_runes_app_valid by now apply rune_valid. rewrite rune_scan_runes by auto. cbn [app units].
    change ("\" =? s_cr) with false. change ("\" =? "\") with true. cbv iota. cbn [negb andb]. rewrite C, andb_false_r. reflexivity.
Qed.
Lemma U_pieces : forall ps s, forallb piece_ok ps = true -> U (srcs ps ++ s) = (map src ps ++ U s)%list.
Proof.
  induction ps as [|p ps IH]; intros s H; auto. cbn [forallb] in H. apply andb_true_iff in H as [H1 H2].
  unfold srcs in *. cbn [map concat_str app]. rewrite app_assoc_s, U_piece, IH by auto. reflexivity.
Qed.
Lemma U_gap : forall g s, gap_ok g = true -> U (concat_str g ++ s) = (core g ++ U s)%list.
Proof.
  induction g as [|r g IH]; intros s H; auto. cbn [gap_ok forallb] in H. rewrite !andb_true_iff in H. destruct H as [[C W] H2].
  apply one_char_text in C. cbn [concat_str]. rewrite app_assoc_s. unfold U. rewrite scan_runes_app_valid by now apply rune_valid.
  rewrite rune_scan_runes by auto. cbn [app units core filter]. unfold is_cr. destruct (String.eqb_spec r s_cr) as [->|N]; cbn [negb]; [now apply IH|].
  destruct (String.eqb_spec r "\") as [->|NB]; [discriminate W|]. cbn [andb app]. f_equal. now apply IH.
Qed.
Lemma ascii_piece : forall c, In c (separators ++ quotes ++ ["#"])%list -> piece_ok (Raw c) = true.
Proof. intros c H. cbn in H. intuition (subst; reflexivity). Qed.
Lemma mem_In : forall x l, mem x l = true <-> In x l.
Proof. intros. unfold mem. rewrite existsb_exists. split; [intros (y & I & E); apply String.eqb_eq in E; now subst|intros I; exists x; rewrite String.eqb_refl; auto]. Qed.
Definition lexeme_units (x : lexeme) : list string :=
  match x with
  | Word ps => map src ps
  | Quoted q ps => q :: map src ps ++ [q]
  | Sep c => [c]
  | Note ps => "#" :: map src ps
  end.
Lemma word_rest_pieces : forall ps v d, word_rest v d ps = true -> forallb piece_ok ps = true.
Proof.
  induction ps as [|p ps IH]; intros v d H; auto. cbn [word_rest forallb] in *. apply andb_true_iff in H as [-> H]. cbn [andb].
  destruct v.
  - destruct (_ || _)%bool; eauto.
  - destruct p; eauto. destruct (_ && _)%bool; eauto. apply andb_true_iff in H as [_ H]. eauto.
Qed.
Lemma word_pieces : forall ps, word_ok ps = true -> forallb piece_ok ps = true.
Proof.
  intros [|[r|r] ps] H; auto; cbn [word_ok forallb] in *; rewrite !andb_true_iff in H.
  - destruct H as [[[-> _] _] H]. cbn [andb]. eapply word_rest_pieces; eauto.
  - destruct H as [[-> _] H]. cbn [andb]. eapply word_rest_pieces; eauto.
Qed.
Lemma forallb_weaken : forall A (f g : A -> bool) l, (forall x, f x = true -> g x = true) -> forallb f l = true -> forallb g l = true.
Proof. intros A f g l H F. rewrite forallb_forall in *. auto. Qed.
Lemma U_lexeme : forall x s, lexeme_ok x = true -> U (lexeme_src x ++ s) = (lexeme_units x ++ U s)%list.
Proof.
  intros [ps|q ps|c|ps] s H; cbn [lexeme_ok lexeme_src lexeme_units] in *.
  - apply U_pieces. now apply word_pieces.
  - apply andb_true_iff in H as [Q P]. apply mem_In in Q. assert (QP : piece_ok (Raw q) = true) by (apply ascii_piece; rewrite !in_app_iff; auto).
    rewrite !app_assoc_s. change q with (src (Raw q)) at 1 2. rewrite U_piece by auto.
    assert (PP : forallb piece_ok ps = true) by (eapply forallb_weaken; [|exact P]; intros x X; now apply andb_true_iff in X).
    rewrite U_pieces, U_piece by auto. cbn [src app].
    now rewrite <- app_assoc.
  - apply mem_In in H. change c with (src (Raw c)). rewrite U_piece; auto. apply ascii_piece. apply in_app_iff. auto.
  - rewrite app_assoc_s. change "#" with (src (Raw "#")) at 1. rewrite U_piece by reflexivity.
    rewrite U_pieces; auto. eapply forallb_weaken; [|exact H]. intros x X. now apply andb_true_iff in X.
Qed.

(** ** The machine on items *)
Definition nls (us : list string) : Z := count_eol us.
Lemma nls_cons : forall u us, nls (u :: us) = ((if is_eol u then 1 else 0) + nls us)%Z.
Proof. intros. unfold nls, count_eol. cbn [fold_right]. destruct (is_eol u); lia. Qed.
Lemma newlines_srcs : forall ps, forallb piece_ok ps = true -> newlines (srcs ps) = nls (map src ps).
Proof.
  induction ps as [|p ps IH]; intros H; auto. cbn [forallb] in H. apply andb_true_iff in H as [H1 H2].
  unfold srcs in *. cbn [map concat_str]. rewrite newlines_app, nls_cons, IH, newlines_src by auto. auto.
Qed.
Lemma newlines_gap : forall g, gap_ok g = true -> newlines (concat_str g) = nls (core g).
Proof.
  induction g as [|r g IH]; intros H; auto. cbn [gap_ok forallb] in H. rewrite !andb_true_iff in H. destruct H as [[C W] H2].
  apply one_char_text in C. cbn [concat_str core filter]. rewrite newlines_app, newlines_rune, IH by auto.
  unfold is_cr. destruct (String.eqb_spec r s_cr) as [->|N]; cbn [negb]; [reflexivity|]. now rewrite nls_cons.
Qed.
Lemma skip_gap : forall g line start dup depth us, gap_ok g = true ->
  crun (C MSkip line start dup depth) (core g ++ us) = crun (C MSkip (line + nls (core g)) start dup depth) us.
Proof.
  induction g as [|r g IH]; intros line start dup depth us H; [cbn; now rewrite Z.add_0_r|].
  cbn [gap_ok forallb] in H. rewrite !andb_true_iff in H. destruct H as [[C W] H2]. apply one_char_text in C.
  cbn [core filter]. destruct (negb (is_cr r)); [|now apply IH]. cbn [app crun]. unfold cstep. cbn [c_mode c_line c_start c_dup c_depth].
  rewrite (white_space r C), W. cbn [app]. fold (core g). rewrite IH by auto. rewrite nls_cons. f_equal. f_equal. destruct (is_eol r); lia.
Qed.
Lemma core_white : forall g u r, gap_ok g = true -> core g = u :: r -> is_space u = true /\ (exists g', core g' = r /\ gap_ok g' = true).
Proof.
  intros g u r H. induction g as [|x g IH]; [discriminate|]. cbn [gap_ok forallb] in H. rewrite !andb_true_iff in H. destruct H as [[C W] H2].
  apply one_char_text in C. cbn [core filter]. destruct (negb (is_cr x)); [|now apply IH]. intros E. inversion E; subst.
  rewrite (white_space u C). split; auto. now exists g.
Qed.
Lemma run_word : forall ps var dollar w line start depth us, word_rest var dollar ps = true -> w <> "" ->
  (var = false -> has_suffix w "$" = dollar) ->
  crun (C (if var then MVar w else MWord w) line start false depth) (map src ps ++ us) =
  crun (C (MWord (w ++ srcs ps)) (line + nls (map src ps)) start false depth) us.
Proof.
  induction ps as [|p ps IH]; intros var dollar w line start depth us H NW DS.
  - cbn in H. destruct var; [discriminate|]. unfold srcs. cbn [map concat_str app]. now rewrite app_nil_r_s, Z.add_0_r.
  - cbn [word_rest] in H. apply andb_true_iff in H as [PO H]. pose proof (piece_text p PO) as T.
    cbn [map app crun]. rewrite nls_cons.
    assert (E1 : w ++ srcs (p :: ps) = (w ++ src p) ++ srcs ps) by (rewrite app_assoc_s; reflexivity). rewrite E1.
    set (line' := if is_eol (src p) then (line + 1)%Z else line).
    replace (line + ((if is_eol (src p) then 1 else 0) + nls (map src ps)))%Z with (line' + nls (map src ps))%Z by (unfold line'; destruct (is_eol (src p)); lia).
    assert (NE : w ++ src p <> "") by now apply app_ne.
    assert (SD : has_suffix (w ++ src p) "$" = String.eqb (char_of p) "$").
    { change "$" with (str1 "$"%char). rewrite suffix1_app by now apply src_unit. apply src_suffix; auto. reflexivity. }
    unfold cstep. destruct var; cbn [c_mode c_line c_start c_dup c_depth]; fold line'.
    + assert (X : (has_suffix (src p) "}" || is_space (src p))%bool = (String.eqb (char_of p) "}" || match p with Raw r => white r | Esc _ => false end)%bool).
      { change "}" with (str1 "}"%char). rewrite src_suffix by (auto; reflexivity). f_equal. destruct p; cbn [src char_of] in *; [now apply white_space|now apply esc_not_space]. }
      rewrite X. destruct (_ || _)%bool eqn:CL; cbn [app].
      * apply (IH false false); auto. intros _. rewrite SD. destruct (String.eqb_spec (char_of p) "$") as [E|]; auto.
        rewrite E in CL. cbn in CL. destruct p; cbn [char_of] in *; [subst; discriminate|discriminate].
      * apply (IH true false); auto. discriminate.
    + rewrite (DS eq_refl). destruct p as [r|r]; cbn [src char_of piece_ok] in *.
      * rewrite (white_space r T). destruct (dollar && (r =? "{"))%bool eqn:DL.
        -- apply andb_true_iff in DL as [_ DL]. apply String.eqb_eq in DL. subst r. cbn. apply (IH true false); auto; discriminate.
        -- rewrite !andb_true_iff, !negb_true_iff in H. destruct H as [[W S] H]. rewrite W.
           assert (SP : is_special r = false). { unfold is_special. unfold mem, separators in S. cbn [existsb] in S. now rewrite orb_false_r, orb_assoc in S. }
           rewrite SP. cbn [app]. apply (IH false (r =? "$")); auto.
      * rewrite esc_not_space by auto. assert (NB : String.eqb ("\" ++ r) "{" = false) by reflexivity. rewrite NB, andb_false_r.
        assert (SP : is_special ("\" ++ r) = false) by reflexivity. rewrite SP. cbn [app]. apply (IH false (r =? "$")); auto.
Qed.
Lemma run_quoted : forall ps q w line start depth us, In q quotes ->
  forallb (fun p => piece_ok p && match p with Raw r => negb (String.eqb r q) | Esc _ => true end)%bool ps = true ->
  crun (C (MStr q w) line start false depth) (map src ps ++ q :: us) =
  Tok (w ++ concat_str (map (unquote q) ps)) start true None :: crun (C MSkip (line + nls (map src ps)) start false depth) us.
Proof.
  induction ps as [|p ps IH]; intros q w line start depth us Q H.
  - cbn [map app crun concat_str]. unfold cstep. cbn [c_mode]. rewrite String.eqb_refl, app_nil_r_s. cbn [c_line c_start c_dup c_depth app].
    assert (E : is_eol q = false) by (cbn in Q; intuition (subst; reflexivity)). rewrite E. cbn. now rewrite Z.add_0_r.
  - cbn [forallb] in H. rewrite !andb_true_iff in H. destruct H as [[PO NQ] H]. cbn [map app crun concat_str]. unfold cstep.
    cbn [c_mode c_line c_start c_dup c_depth].
    assert (QL : slen q = 1) by (cbn in Q; intuition (subst; reflexivity)).
    pose proof (piece_text p PO) as T.
    assert (N1 : String.eqb (src p) q = false).
    { destruct p as [r|r]; cbn [src] in *; [now apply negb_true_iff in NQ|]. apply String.eqb_neq. intros E. rewrite <- E in QL. cbn in QL.
      destruct T as [T _]. destruct r; cbn in *; [now apply T|lia]. }
    rewrite N1. cbn [app]. rewrite IH by auto. rewrite nls_cons. f_equal.
    + f_equal. rewrite app_assoc_s. f_equal. f_equal. destruct p as [r|r]; cbn [src unquote] in *.
      * assert (E : String.eqb r ("\" ++ q) = false); [|now rewrite E]. apply String.eqb_neq. intros ->. apply rune_ascii in T; [|reflexivity].
        destruct q; [discriminate|discriminate].
      * destruct (String.eqb_spec r q) as [->|N]; [now rewrite String.eqb_refl|].
        assert (E : String.eqb ("\" ++ r) ("\" ++ q) = false); [|now rewrite E]. apply String.eqb_neq. intros E. now apply (app_inv_l_s "\") in E.
    + f_equal. f_equal. destruct (is_eol (src p)); lia.
Qed.
Lemma run_note : forall ps w line start dup depth us,
  forallb (fun p => piece_ok p && negb (is_nl (char_of p)))%bool ps = true ->
  crun (C (MNote w) line start dup depth) (map src ps ++ us) = crun (C (MNote (w ++ srcs ps)) line start dup depth) us.
Proof.
  induction ps as [|p ps IH]; intros w line start dup depth us H.
  - unfold srcs. cbn. now rewrite app_nil_r_s.
  - cbn [forallb] in H. rewrite !andb_true_iff in H. destruct H as [[PO NL] H]. cbn [map app crun]. unfold cstep.
    cbn [c_mode c_line c_start c_dup c_depth]. rewrite src_eol by auto. apply negb_true_iff in NL. rewrite NL. cbn [app].
    rewrite IH by auto. unfold srcs. cbn [map concat_str]. now rewrite app_assoc_s.
Qed.
Lemma note_nls : forall ps, forallb (fun p => piece_ok p && negb (is_nl (char_of p)))%bool ps = true -> nls (map src ps) = 0%Z.
Proof.
  induction ps as [|p ps IH]; intros H; auto. cbn [forallb] in H. rewrite !andb_true_iff in H. destruct H as [[PO NL] H].
  cbn [map]. rewrite nls_cons, src_eol, IH by auto. apply negb_true_iff in NL. now rewrite NL.
Qed.

(** ** Layouts *)
Definition simple (x : option lexeme) : bool := match x with Some (Word _) | Some (Note _) => false | _ => true end.
Inductive holds : cst -> option lexeme -> Z -> list token -> list token -> Prop :=
| h_skip : forall x line start dup depth done, simple x = true -> dup = after_sep false done -> depth = net done ->
    holds (C MSkip line start dup depth) x line done []
| h_word : forall ps line start depth done, word_ok ps = true -> line = (start + nls (map src ps))%Z -> depth = net done ->
    after_sep false done = false ->
    holds (C (MWord (srcs ps)) line start false depth) (Some (Word ps)) line done [Tok (srcs ps) start false None]
| h_note : forall ps line start dup depth done, dup = after_sep false done -> depth = net done ->
    holds (C (MNote ("#" ++ srcs ps)) line start dup depth) (Some (Note ps)) line done [Tok ("#" ++ srcs ps) start false None].
Lemma gap_run : forall c prev line done pend g y us, holds c prev line done pend -> gap_ok g = true -> fits prev g y = true ->
  (exists start, crun c (core g ++ us) = (pend ++ crun (C MSkip (line + nls (core g)) start (after_sep false done) (net done)) us)%list) \/
  core g = [] /\ simple prev = false.
Proof.
  intros c prev line done pend g y us H G F. inversion H; subst.
  - left. exists start. rewrite skip_gap by auto. reflexivity.
  - cbn [fits] in F. destruct (core g) as [|u r] eqn:E; [now right|]. left. exists start.
    destruct (core_white g u r G E) as (W & g' & <- & G'). cbn [app crun]. unfold cstep. cbn [c_mode c_line c_start c_dup c_depth].
    rewrite W. cbn [app]. rewrite skip_gap by auto. rewrite nls_cons. f_equal. f_equal. f_equal; [|congruence]. destruct (is_eol u); lia.
  - cbn [fits] in F. destruct (core g) as [|u r] eqn:E; [now right|]. left. exists start.
    destruct (core_white g u r G E) as (W & g' & <- & G'). cbn [app crun]. unfold cstep. cbn [c_mode c_line c_start c_dup c_depth].
    unfold is_nl in F. apply String.eqb_eq in F. subst u. change (is_eol s_nl) with true. cbv iota. cbn [app].
    rewrite skip_gap by auto. rewrite nls_cons. change (is_eol s_nl) with true. cbv iota. f_equal. f_equal. f_equal. lia.
Qed.
Definition tok_of (x : lexeme) (line : Z) : token := Tok (lexeme_val x) line (lexeme_quoted x) None.
Lemma word_like_srcs : forall ps, word_ok ps = true -> word_like (srcs ps).
Proof.
  intros ps H. pose proof (word_pieces ps H) as P. destruct ps as [|p ps]; [discriminate|]. cbn [forallb] in P.
  apply andb_true_iff in P as [PO _]. pose proof (piece_text p PO) as T. unfold srcs. cbn [map concat_str]. destruct p as [r|r]; cbn [word_ok src char_of piece_ok] in *.
  - rewrite !andb_true_iff, !negb_true_iff in *. destruct H as [[[_ W] M] _]. destruct PO as [[_ CR] BS]. apply String.eqb_neq in CR, BS.
    constructor; [left; auto| | | |].
    + rewrite white_space; auto.
    + intros ->. discriminate.
    + unfold is_quote. destruct (r =? s_dq) eqn:E1; [apply String.eqb_eq in E1; subst; discriminate|]. destruct (r =? s_sq) eqn:E2; [apply String.eqb_eq in E2; subst; discriminate|]. reflexivity.
    + destruct (is_special r) eqn:E; auto. apply special_cases in E as [->|[->| ->]]; discriminate.
  - apply andb_true_iff in PO as [_ CR]. apply negb_true_iff, String.eqb_neq in CR. constructor; auto; try reflexivity.
    + right. exists r. auto.
    + now apply esc_not_space.
    + discriminate.
Qed.
Lemma sep_run : forall c u pre line start done (us : list string), In c separators -> u = c ->
  safe ((done ++ [Tok c start false None])) ->
  csep pre line start (after_sep false done) (net done) u =
  Go (C MSkip line start true (net (done ++ [Tok c start false None]))) (pre ++ [Tok c start false None]).
Proof.
  intros c u pre line start done us I -> (_ & NS & SP). unfold csep.
  assert (S : sepb (Tok c start false None) = true) by (cbn in I; intuition (subst; reflexivity)).
  assert (NN : (0 <= net (done ++ [Tok c start false None]))%Z) by (apply (NS _ []); now rewrite app_nil_r).
  assert (N1 : net (done ++ [Tok c start false None]) = (if String.eqb c "{" then net done + 1 else if String.eqb c "}" then net done - 1 else net done)%Z).
  { rewrite net_app. cbn [net]. unfold opensb, closesb. cbn [t_quoted t_val negb andb]. destruct (c =? "{"), (c =? "}"); lia. }
  assert (D : (after_sep false done && negb (c =? "}"))%bool = false).
  { destruct (after_sep false done) eqn:A; auto. specialize (SP done (Tok c start false None) [] eq_refl S A). cbn in SP. now subst. }
  rewrite D. cbv zeta. rewrite <- N1. rewrite (proj2 (Z.ltb_ge _ _) NN), andb_false_r. reflexivity.
Qed.
Lemma item_run : forall x line start done us, lexeme_ok x = true -> safe (done ++ [tok_of x line]) ->
  exists c' em pend, crun (C MSkip line start (after_sep false done) (net done)) (lexeme_units x ++ us) = (em ++ crun c' us)%list /\
    holds c' (Some x) (line + newlines (lexeme_src x)) (done ++ [tok_of x line]) pend /\ (em ++ pend = [tok_of x line])%list.
Proof.
  intros x line start done us H SF. unfold tok_of in *. destruct x as [ps|q ps|c|ps]; cbn [lexeme_ok lexeme_src lexeme_units lexeme_val lexeme_quoted] in *.
  - pose proof (word_like_srcs ps H) as WL. pose proof (word_pieces ps H) as P.
    destruct (word_plain (srcs ps) line WL) as [PL NT].
    assert (AF : after_sep false (done ++ [Tok (srcs ps) line false None]) = false) by (apply after_plain; [apply PL|auto]).
    assert (NN : net (done ++ [Tok (srcs ps) line false None]) = net done) by (rewrite net_app; cbn [net]; destruct PL as (_ & _ & -> & ->); lia).
    exists (C (MWord (srcs ps)) (line + nls (map src ps)) line false (net done)), [], [Tok (srcs ps) line false None].
    split; [|split; auto; rewrite newlines_srcs by auto; constructor; auto].
    destruct ps as [|p ps]; [discriminate|]. pose proof H as H'. cbn [forallb] in P. apply andb_true_iff in P as [PO P].
    pose proof (piece_text p PO) as T. cbn [map app crun]. unfold cstep. cbn [c_mode c_line c_start c_dup c_depth].
    assert (Z : is_eol (src p) = false).
    { rewrite src_eol by auto. destruct p as [r|r]; cbn [word_ok char_of] in *; rewrite !andb_true_iff, !negb_true_iff in H.
      - destruct H as [[[_ W] _] _]. unfold is_nl. destruct (String.eqb_spec r s_nl); auto. subst. discriminate.
      - tauto. }
    rewrite nls_cons, Z. cbv iota. rewrite Z.add_0_l.
    assert (FX : is_space (src p) = false /\ String.eqb (src p) "#" = false /\ is_quote (src p) = false /\ is_special (src p) = false).
    { destruct p as [r|r]; cbn [word_ok src char_of] in *; rewrite !andb_true_iff, !negb_true_iff in H.
      - destruct H as [[[_ W] M] _]. rewrite (white_space r T). split; auto. cbn [mem existsb separators quotes app] in M. rewrite !orb_false_iff in M.
        unfold is_quote, is_special. destruct M as (-> & -> & -> & -> & -> & -> & _). auto.
      - rewrite esc_not_space by auto. auto. }
    destruct FX as (-> & -> & -> & ->). cbn [app].
    assert (W : word_rest false (String.eqb (char_of p) "$") ps = true).
    { destruct p; cbn [word_ok char_of] in *; rewrite !andb_true_iff in H; tauto. }
    rewrite (run_word ps false (String.eqb (char_of p) "$")); auto.
    + now apply src_unit.
    + intros _. change "$" with (str1 "$"%char). apply src_suffix; auto. reflexivity.
  - apply andb_true_iff in H as [Q P]. apply mem_In in Q.
    set (v := concat_str (map (unquote q) ps)). set (t := Tok v line true None).
    exists (C MSkip (line + nls (map src ps)) line false (net done)), [t], []. split; [|split; auto].
    + cbn [app crun]. unfold cstep. cbn [c_mode c_line c_start c_dup c_depth].
      assert (F : is_eol q = false /\ is_space q = false /\ String.eqb q "#" = false /\ is_quote q = true) by (cbn in Q; intuition (subst; reflexivity)).
      destruct F as (-> & -> & -> & ->). cbn [app]. rewrite <- app_assoc. cbn [app]. rewrite run_quoted by auto. reflexivity.
    + rewrite !newlines_app, newlines_srcs by (eapply forallb_weaken; [|exact P]; intros y Y; now apply andb_true_iff in Y).
      assert (F : newlines q = 0%Z) by (cbn in Q; intuition (subst; reflexivity)). rewrite F, Z.add_0_l, Z.add_0_r.
      constructor; auto.
      * now rewrite after_plain.
      * rewrite net_app. cbn. lia.
  - apply mem_In in H. exists (C MSkip line line true (net (done ++ [Tok c line false None]))), [Tok c line false None], [].
    assert (F : newlines c = 0%Z /\ is_eol c = false /\ is_space c = false /\ String.eqb c "#" = false /\ is_quote c = false /\ is_special c = true) by (cbn in H; intuition (subst; reflexivity)).
    destruct F as (F0 & F1 & F2 & F3 & F4 & F5). split; [|split; auto].
    + cbn [app crun]. unfold cstep. cbn [c_mode c_line c_start c_dup c_depth]. rewrite F1, F2, F3, F4, F5. now rewrite (sep_run c c [] line line done us).
    + rewrite F0, Z.add_0_r. constructor; auto. rewrite after_sep_app. cbn [after_sep].
      unfold noteb, sepb. cbn [t_quoted t_val negb andb]. cbn in H. intuition (subst; reflexivity).
  - exists (C (MNote ("#" ++ srcs ps)) line line (after_sep false done) (net done)), [], [Tok ("#" ++ srcs ps) line false None]. split; [|split; auto].
    + cbn [app crun]. unfold cstep. cbn [c_mode c_line c_start c_dup c_depth]. change (is_eol "#") with false. change (is_space "#") with false. cbn [String.eqb Ascii.eqb eqb app].
      now rewrite run_note.
    + assert (P : forallb piece_ok ps = true) by (eapply forallb_weaken; [|exact H]; intros y Y; now apply andb_true_iff in Y).
      rewrite newlines_app, newlines_srcs, note_nls by auto. change (newlines "#") with 0%Z. rewrite Z.add_0_r. constructor.
      * now rewrite after_note.
      * rewrite net_app. cbn. lia.
Qed.
Lemma tight_run : forall ps c line start done us, word_ok ps = true -> In c separators -> one_line ps = true ->
  negb (ends_dollar ps && String.eqb c "{") = true -> line = (start + nls (map src ps))%Z -> after_sep false done = false ->
  safe (done ++ [Tok c line false None]) ->
  crun (C (MWord (srcs ps)) line start false (net done)) (c :: us) =
    Tok (srcs ps) start false None :: Tok c line false None :: crun (C MSkip line line true (net (done ++ [Tok c line false None]))) us.
Proof.
  intros ps c line start done us W I OL ND L AF SF.
  assert (NL : nls (map src ps) = 0%Z).
  { apply note_nls. apply word_pieces in W. unfold one_line in OL. rewrite forallb_forall in *. intros p P. now rewrite W, OL. }
  rewrite NL, Z.add_0_r in L. subst start.
  cbn [crun]. unfold cstep. cbn [c_mode c_line c_start c_dup c_depth].
  assert (F : is_eol c = false /\ is_space c = false /\ is_special c = true) by (cbn in I; intuition (subst; reflexivity)).
  destruct F as (-> & -> & ->).
  assert (D : (has_suffix (srcs ps) "$" && (c =? "{"))%bool = false).
  { apply negb_true_iff in ND. etransitivity; [|exact ND]. f_equal. destruct (snoc_cases _ ps) as [->|(ps' & p & ->)]; [discriminate|].
    unfold ends_dollar. rewrite rev_app_distr. cbn [rev app]. apply word_pieces in W. rewrite forallb_app in W. apply andb_true_iff in W as [_ W].
    cbn in W. rewrite andb_true_r in W. unfold srcs. rewrite map_app.
    assert (CA : forall a b, concat_str (a ++ b) = concat_str a ++ concat_str b) by (induction a as [|x a IH]; intros b; cbn; auto; rewrite IH; now rewrite app_assoc_s).
    rewrite CA. cbn [map concat_str]. rewrite app_nil_r_s. change "$" with (str1 "$"%char). rewrite suffix1_app by now apply src_unit.
    apply src_suffix; auto. reflexivity. }
  rewrite D. pose proof (sep_run c c [Tok (srcs ps) line false None] line line done us I eq_refl SF) as X. rewrite AF in X. rewrite X. reflexivity.
Qed.
Lemma prefix_safe : forall a b, proper (a ++ b) -> no_errors (a ++ b) -> safe a.
Proof.
  intros a b (N & S & _) E. repeat split.
  - apply Forall_app in E. apply E.
  - intros x y ->. apply (N x (y ++ b)%list). now rewrite app_assoc.
  - intros x t y -> ST AF. apply (S x t (y ++ b)%list); auto. now rewrite <- app_assoc.
Qed.
Lemma tokens_no_errors : forall L line, no_errors (tokens_of line L).
Proof. induction L as [|[g x] L IH]; intros line; cbn [tokens_of]; constructor; auto. apply IH. Qed.
Lemma net0 : forall c done (pend : list token), (if Z.ltb 0 (net done) then [bad_tok (c_line c) (c_start c) expecting] else []) = [] \/ (0 < net done)%Z.
Proof. intros. destruct (0 <? net done)%Z eqn:E; auto. right. now apply Z.ltb_lt. Qed.
Lemma layout_run : forall L last prev c line done pend, holds c prev line done pend -> laid prev L last = true ->
  no_errors done -> proper (done ++ tokens_of line L) ->
  crun c (U (render L last)) = (pend ++ tokens_of line L)%list.
Proof.
  induction L as [|[g x] L IH]; intros last prev c line done pend H LD NE PR; cbn [laid render tokens_of] in *.
  - apply andb_true_iff in LD as [G F]. rewrite app_nil_r in *. rewrite <- (app_nil_r_s (concat_str last)), U_gap by auto. change (U "") with (@nil string).
    assert (N0 : net done = 0%Z) by apply PR.
    destruct (gap_run c prev line done pend last None [] H G F) as [[start E]|[E _]].
    + rewrite E. cbn [crun]. unfold cfinish, cpending. cbn [c_mode c_depth app]. rewrite N0. cbn. now rewrite app_nil_r.
    + rewrite E. cbn [app crun]. unfold cfinish. inversion H; subst; cbn [c_mode c_depth cpending c_start]; rewrite N0; cbn [Z.ltb Z.compare app]; now rewrite ?app_nil_r.
  - rewrite !andb_true_iff in LD. destruct LD as [[[G LX] F] LD]. rewrite U_gap, U_lexeme by auto.
    rewrite newlines_gap in * by auto. set (l1 := (line + nls (core g))%Z) in *.
    assert (SF : safe (done ++ [tok_of x l1])).
    { apply (prefix_safe _ (tokens_of (l1 + newlines (lexeme_src x)) L)).
      - now rewrite <- app_assoc.
      - rewrite <- app_assoc. apply Forall_app. split; auto. constructor; auto. apply tokens_no_errors. }
    assert (NE' : no_errors (done ++ [tok_of x l1])) by (apply Forall_app; split; auto; constructor; auto).
    assert (PR' : proper ((done ++ [tok_of x l1]) ++ tokens_of (l1 + newlines (lexeme_src x)) L)) by (now rewrite <- app_assoc).
    destruct (gap_run c prev line done pend g (Some x) (lexeme_units x ++ U (render L last)) H G F) as [[start E]|[E SM]].
    + rewrite E. destruct (item_run x l1 start done (U (render L last)) LX SF) as (c' & em & pend' & R & H' & EP).
      fold l1. rewrite R. f_equal. rewrite (IH last (Some x) c' _ _ _ H' LD NE' PR'). rewrite app_assoc, EP. reflexivity.
    + rewrite E in *. cbn [app]. inversion H; subst; cbn [simple] in SM; try congruence; cbn [fits] in F; rewrite E in F.
      * destruct x as [|?|c|]; try discriminate. apply andb_true_iff in F as [OL ND]. cbn [lexeme_ok] in LX. apply mem_In in LX.
        cbn [lexeme_units app tok_of lexeme_val lexeme_quoted lexeme_src] in *.
        assert (L1 : l1 = (start + nls (map src ps))%Z) by (unfold l1; rewrite ?E; change (nls []) with 0%Z; lia).
        rewrite <- L1. rewrite (tight_run ps c l1 start done) by auto. f_equal. f_equal.
        assert (N0 : newlines c = 0%Z) by (cbn in LX; intuition (subst; reflexivity)).
        rewrite (IH last (Some (Sep c)) _ l1 (done ++ [Tok c l1 false None])%list []); auto.
        -- rewrite N0, Z.add_0_r. reflexivity.
        -- constructor; auto. rewrite after_sep_app. cbn [after_sep]. cbn in LX; intuition (subst; reflexivity).
        -- rewrite N0, Z.add_0_r in PR'. exact PR'.
      * discriminate.
Qed.
Lemma lex_layout : forall L last, laid None L last = true -> proper (tokens_of 1 L) -> lex [] (render L last) = tokens_of 1 L.
Proof.
  intros L last LD PR. rewrite lex_crun. apply (layout_run L last None cinit 1 [] []); auto.
  - constructor; reflexivity.
  - constructor.
Qed.
