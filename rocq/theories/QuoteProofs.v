(** C56: Enquote on any string. *)
From Verif Require Export EnquoteProofs SpecQuote.
Local Open Scope string_scope.

Lemma bad_width1 : forall c s n w, decode_rune (String c s) = (n, w, false) -> w = 1.
Proof. intros c s n w H. now destruct (dec_bad_width (String c s) n w ltac:(discriminate) H). Qed.

Lemma drop_end : forall r, drop (slen r) r = "".
Proof. intros r. pose proof (drop_app r "") as H. now rewrite app_nil_r_s in H. Qed.
(** ** Runes of encoded runes *)
Lemma runes_app : forall a b, valid_utf8 a = true -> runes (a ++ b) = (runes a ++ runes b)%list.
Proof. intros a b V. unfold runes. now rewrite scan_app_valid, map_app. Qed.
Definition proper_rune (n : N) : Prop := decode_rune (encode_rune n) = (n, slen (encode_rune n), true) /\ encode_rune n <> "".
Lemma runes_proper : forall s, Forall proper_rune (runes s).
Proof.
  intros s. apply Forall_map, Forall_forall. intros i I. pose proof (scan_items s i I) as (NE & OK & BAD). unfold proper_rune. destruct (it_ok i) eqn:O.
  - specialize (OK eq_refl). pose proof (dec_encode _ _ _ OK) as E. rewrite take_all in E by lia. rewrite E. auto.
  - destruct (BAD eq_refl) as [-> _]. split; [reflexivity|discriminate].
Qed.
Lemma proper_runes : forall n, proper_rune n -> runes (encode_rune n) = [n] /\ valid_utf8 (encode_rune n) = true.
Proof.
  intros n [D NE]. assert (R : rune_text (encode_rune n)) by (split; eauto). split; [|now apply rune_valid].
  unfold runes. rewrite (scan_eq _ NE _ _ _ D). rewrite drop_end. reflexivity.
Qed.
Definition encoded (l : list N) : string := concat_str (map encode_rune l).
Lemma runes_encoded : forall l, Forall proper_rune l -> runes (encoded l) = l.
Proof.
  induction 1 as [|n l P F IH]; [reflexivity|]. unfold encoded. cbn [map concat_str]. fold (encoded l).
  destruct (proper_runes n P) as [A V]. rewrite runes_app, A, IH; auto.
Qed.
Lemma encoded_app : forall a b, encoded (a ++ b) = encoded a ++ encoded b.
Proof. induction a as [|n a IH]; intros b; auto. cbn [app]. unfold encoded in *. cbn [map concat_str]. now rewrite IH, app_assoc_s. Qed.

(** ** escape adds at most a copy of the last character *)
Definition pending (c : N) : bool := (N.eqb c 92 || N.eqb c 36)%bool.
Definition tail_of (c : N) : list N := if pending c then [c] else [].
Lemma tail_encoded : forall c, encoded (tail_of c) = if (N.eqb c 92 || N.eqb c 36)%bool then encode_rune c else "".
Proof. intros c. unfold tail_of, pending. destruct (_ || _)%bool; auto. unfold encoded. cbn [map concat_str]. apply app_nil_r_s. Qed.
Lemma last_cons : forall (r : list N) c d, last (c :: r) d = last r c.
Proof. induction r as [|x r IH]; intros c d; auto. change (last (x :: r) d = last (x :: r) c). now rewrite !IH. Qed.
Lemma last_any : forall (r : list N) c d, r <> [] -> last r c = last r d.
Proof. intros [|x r] c d N; [congruence|]. now rewrite !last_cons. Qed.
Lemma escape_adds : forall rs pc, exists dup,
  escape_loop pc rs ++ encoded (tail_of (last rs pc)) = encoded (tail_of pc ++ rs ++ dup) /\
  (dup = [] \/ rs <> [] /\ pending (last rs 0) = true /\ dup = [last rs 0])%N.
Proof.
  induction rs as [|c r IH]; intros pc.
  - exists []. split; [|now left]. cbn [escape_loop last app String.append]. now rewrite app_nil_r.
  - cbn [escape_loop]. rewrite last_cons. destruct (N.eqb pc 92 || N.eqb pc 36 && N.eqb c 123)%bool eqn:B.
    + assert (P : tail_of pc = [pc]).
      { unfold tail_of, pending. apply orb_true_iff in B as [->|B]; auto. apply andb_true_iff in B as [-> _]. now rewrite orb_true_r. }
      destruct r as [|d r'].
      * exists (tail_of c). split.
        -- rewrite P. cbn [escape_loop last app]. change (encoded (pc :: c :: tail_of c)) with (encode_rune pc ++ encode_rune c ++ encoded (tail_of c)).
           now rewrite !app_assoc_s.
        -- cbn [last]. unfold tail_of. destruct (pending c); [right; repeat split; discriminate || auto|now left].
      * destruct (IH 0%N) as (dup & E & D). exists dup. split.
        -- rewrite (last_any (d :: r') c 0%N) by discriminate. rewrite !app_assoc_s, E, P. cbn [app]. unfold encoded. cbn [map concat_str]. reflexivity.
        -- destruct D as [->|(N & PE & ->)]; [now left|right]. rewrite last_cons, (last_any (d :: r') c 0%N) by discriminate. repeat split; auto. discriminate.
    + apply orb_false_iff in B as [B1 B2]. destruct (IH c) as (dup & E & D). exists dup. split.
      * rewrite !app_assoc_s, E. unfold tail_of at 2, pending. rewrite B1. cbn [orb].
        assert (X : encoded (tail_of c ++ r ++ dup) = (if (negb (N.eqb c 92) && negb (N.eqb c 36))%bool then "" else encode_rune c) ++ encoded (r ++ dup)).
        { unfold tail_of, pending. destruct (N.eqb c 92), (N.eqb c 36); reflexivity. }
        rewrite X. destruct (N.eqb pc 36) eqn:P36; cbn [app]; unfold encoded; cbn [map concat_str String.append];
          destruct (negb (N.eqb c 92) && negb (N.eqb c 36))%bool; cbn [String.append]; try apply N.eqb_eq in P36; subst; reflexivity.
      * rewrite last_cons. destruct D as [->|(N & PE & ->)]; [now left|right]. rewrite (last_any r c 0%N) by auto. repeat split; auto. discriminate.
Qed.
Lemma escape_runes : forall s, exists dup, runes (escape s) = (runes s ++ dup)%list /\
  (dup = [] \/ runes s <> [] /\ pending (last (runes s) 0) = true /\ dup = [last (runes s) 0])%N.
Proof.
  intros s. unfold escape. destruct (negb _); [exists []; rewrite app_nil_r; auto|]. cbv zeta. rewrite <- tail_encoded.
  destruct (escape_adds (runes s) 0) as (dup & E & D). rewrite E. exists dup. split; auto. cbn [tail_of pending N.eqb orb app].
  apply runes_encoded. apply Forall_app. split; [apply runes_proper|]. destruct D as [->|(NN & _ & ->)]; [constructor|].
  constructor; [|constructor]. pose proof (runes_proper s) as F. rewrite Forall_forall in F. apply F.
  assert (X : forall l : list N, l <> [] -> In (last l 0%N) l).
  { induction l as [|a l IH]; [congruence|]. intros _. destruct l; [now left|]. right. apply IH. discriminate. }
  now apply X.
Qed.

(** ** The loop of needsQuote *)
Lemma needs_pending : forall rs e prev c, pending (last rs c) = true -> needs_loop e prev c rs = true.
Proof.
  induction rs as [|d r IH]; intros e prev c P.
  - cbn in *. unfold pending in P. destruct e, (N.eqb c 92), (N.eqb c 36); auto.
  - rewrite last_cons in P. cbn [needs_loop]. destruct (N.eqb prev 92); [auto|]. cbv zeta. repeat match goal with |- (if ?b then _ else _) = _ => destruct b; auto end.
Qed.
Lemma ends_iff : forall c, (is_space_rune c || in_set [123; 125; 59; 34; 39]%N c)%bool = true <-> ends_word c.
Proof.
  intros c. rewrite orb_true_iff. unfold ends_word, in_set. rewrite existsb_exists. split; (intros [H|H]; [now left|right]).
  - destruct H as (x & I & E). apply N.eqb_eq in E. now subst.
  - exists c. split; auto. apply N.eqb_refl.
Qed.
Lemma needs_smooth : forall n rs prev c, List.length rs < n -> prev <> 92%N ->
  (needs_loop false prev c rs = false <-> smooth rs /\ ~ In (last rs c) [92; 36]%N).
Proof.
  assert (PE : forall c, pending c = false <-> ~ In c [92; 36]%N).
  { intros c. unfold pending. rewrite orb_false_iff, !N.eqb_neq. cbn. intuition. }
  induction n as [|n IH]; intros rs prev c L P; [lia|]. destruct rs as [|d r].
  - cbn [needs_loop orb last]. change ((N.eqb c 92 || N.eqb c 36)%bool) with (pending c). rewrite PE. split; [split; [constructor|auto]|tauto].
  - cbn [List.length] in L. rewrite last_cons. cbn [needs_loop]. rewrite (proj2 (N.eqb_neq _ _) P). cbn [negb andb orb].
    destruct (N.eqb_spec d 92) as [->|ND].
    + change ((is_space_rune 92 || in_set [123; 59; 34; 39]%N 92)%bool) with false. change (N.eqb 92 125) with false. change (N.eqb 92 123) with false. rewrite andb_false_r. cbv iota zeta.
      destruct r as [|d r].
      * cbn [needs_loop orb last N.eqb]. split; [discriminate|]. intros [_ H]. exfalso. apply H. now left.
      * cbn [needs_loop]. change (N.eqb 92 92) with true. cbv iota. cbn [List.length] in L. rewrite (IH r 0%N d) by (lia || discriminate). rewrite last_cons.
        split; intros [S H]; split; auto; [now constructor|]. inversion S; subst; auto; try contradiction.
    + destruct (is_space_rune d || in_set [123; 59; 34; 39]%N d)%bool eqn:E1.
      * split; [discriminate|]. intros [S _]. exfalso. inversion S as [|? ? _ NE _|]; subst; [|congruence]. apply NE. apply ends_iff.
        apply orb_true_iff in E1 as [E1|E1]; [now rewrite E1|]. apply orb_true_iff. right. unfold in_set in *. cbn [existsb] in *. destruct (N.eqb d 123), (N.eqb d 125), (N.eqb d 59), (N.eqb d 34), (N.eqb d 39); auto.
      * destruct (N.eqb_spec d 125) as [->|N125].
        { split; [discriminate|]. intros [S _]. exfalso. inversion S as [|? ? _ NE _|]; subst. apply NE. right. cbn. auto. }
        assert (D123 : N.eqb d 123 = false). { apply orb_false_iff in E1 as [_ E1]. cbn [in_set existsb] in E1. now apply orb_false_iff in E1. }
        rewrite D123, andb_false_r. cbv iota zeta. rewrite (IH r d d) by (lia || auto).
        split; intros [S H]; split; auto.
        -- constructor; auto. rewrite <- ends_iff. apply orb_false_iff in E1 as [A B]. rewrite A. cbn [orb]. unfold in_set in *. cbn [existsb] in *. apply N.eqb_neq in N125. rewrite N125. intros X.
           destruct (N.eqb d 123), (N.eqb d 59), (N.eqb d 34), (N.eqb d 39); discriminate.
        -- inversion S; subst; auto. congruence.
Qed.
Lemma runes_nil : forall s, runes s = [] <-> s = "".
Proof.
  intros s. split; [|intros ->; reflexivity]. intros H. destruct s as [|c s]; auto. exfalso.
  destruct (decode_rune (String c s)) as [[n w] ok] eqn:E. assert (NE : String c s <> "") by discriminate. unfold runes in H. rewrite (scan_eq _ NE _ _ _ E) in H. discriminate.
Qed.
Theorem needs_iff : forall s, needs_quote s = false <-> left_alone s.
Proof.
  intros s. unfold needs_quote, left_alone. destruct (String.eqb_spec s "") as [->|NE].
  - split; [discriminate|]. intros (c & r & E & _). discriminate.
  - destruct (escape_runes s) as (dup & E & D). cbv zeta. rewrite E. destruct (runes s) as [|c r] eqn:R; [now apply runes_nil in R|]. cbn [app].
    assert (Q : needs_loop false 0 c (r ++ dup) = needs_loop false 0 c r).
    { destruct D as [->|(_ & P & ->)]; [now rewrite app_nil_r|]. rewrite last_cons in P.
      assert (X : pending (last r c) = true) by (destruct r; auto; rewrite (last_any (n :: r) c 0%N) by discriminate; now rewrite last_cons in *).
      rewrite (needs_pending r) by auto. apply needs_pending. rewrite last_last. now rewrite last_cons. }
    rewrite Q. clear Q.
    assert (PF : has_prefix (escape s) "${" = true -> needs_loop false 0 c r = true \/ r = []).
    { intros H. unfold has_prefix in H. apply prefix_iff in H as [x X]. rewrite X in E. rewrite (runes_app "${" x eq_refl) in E. change (runes "${") with [36; 123]%N in E. cbn [app] in E.
      inversion E as [[A B]]. destruct r as [|d r]; [now right|left]. inversion B; subst. reflexivity. }
    pose proof (needs_smooth (S (List.length r)) r 0%N c ltac:(lia) ltac:(discriminate)) as NS.
    destruct (is_space_rune c || in_set [123; 125; 59; 34; 39]%N c)%bool eqn:B1; cbn [orb].
    + split; [discriminate|]. intros (c' & r' & E' & N & _). inversion E'; subst. apply ends_iff in B1. contradiction.
    + assert (B1' : ~ ends_word c) by (rewrite <- ends_iff; congruence).
      destruct (has_prefix (escape s) "${") eqn:B2.
      * split; [discriminate|]. intros (c' & r' & E' & N & S & LA). inversion E'; subst c' r'. destruct (PF eq_refl) as [X| ->]; [rewrite (proj2 NS (conj S LA)) in X; discriminate|].
        exfalso. unfold has_prefix in B2. apply prefix_iff in B2 as [x X]. rewrite X in E. rewrite (runes_app "${" x eq_refl) in E. cbn in E. inversion E; subst. apply LA. now right; left.
      * rewrite NS. split; [intros [S L]; exists c, r; auto|]. intros (c' & r' & E' & N & S & LA). inversion E'; subst. auto.
Qed.

(** ** The text between the quotes *)
Lemma hexes_digit : forall d c, nth_error hexes d = Some c <-> d < 16 /\ c = hex_digit (N.of_nat d).
Proof.
  intros d c. do 16 (destruct d as [|d]; [cbn; split; [intros H; inversion H; subst; split; [lia|reflexivity]|intros [_ ->]; reflexivity]|]).
  split; [destruct d; discriminate|lia].
Qed.
Lemma hex_iff : forall k n x, hex k n x <-> (n < 16 ^ N.of_nat k)%N /\ x = hex_fixed k n.
Proof.
  intros k n x. split.
  - induction 1 as [|k n x d c H [L IH] D]; [split; [reflexivity|reflexivity]|]. apply hexes_digit in D as [D ->].
    assert (P : (16 ^ N.of_nat (S k) = 16 * 16 ^ N.of_nat k)%N) by (rewrite Nat2N.inj_succ; apply N.pow_succ_r'). split; [rewrite P; lia|].
    cbn [hex_fixed]. replace (16 * n + N.of_nat d)%N with (n * 16 + N.of_nat d)%N by lia. rewrite div_add_small, mod_add_small by lia. now subst.
  - revert n x. induction k as [|k IH]; intros n x [L ->].
    + replace n with 0%N by (cbn in L; lia). constructor.
    + assert (P : (16 ^ N.of_nat (S k) = 16 * 16 ^ N.of_nat k)%N) by (rewrite Nat2N.inj_succ; apply N.pow_succ_r').
      rewrite (N.div_mod' n 16) at 1. cbn [hex_fixed]. rewrite <- (N2Nat.id (n mod 16)) at 1. apply hex_more.
      * apply IH. split; auto. rewrite P in L. apply N.div_lt_upper_bound; lia.
      * apply hexes_digit. rewrite N2Nat.id. split; auto. pose proof (N.mod_lt n 16 ltac:(discriminate)). lia.
Qed.
Lemma hex_ok : forall k n, (n < 16 ^ N.of_nat k)%N -> hex k n (hex_fixed k n).
Proof. intros. now apply hex_iff. Qed.
Lemma dec_bound : forall s n w, decode_rune s = (n, w, true) -> (n < 16 ^ N.of_nat 8)%N.
Proof.
  intros s n w H. change (16 ^ N.of_nat 8)%N with 4294967296%N. unfold decode_rune in H. destruct s as [|c0 s]; [discriminate|]. pose proof (bval_lt c0).
  destruct (N.ltb _ _); [inversion H; lia|]. destruct s as [|c1 s]; [discriminate|]. pose proof (bval_lt c1).
  destruct (in_rng _ _ _); [destruct (is_cont _); inversion H; lia|]. destruct s as [|c2 s]; [discriminate|]. pose proof (bval_lt c2).
  destruct (in_rng _ _ _); [destruct (_ && _)%bool; inversion H; lia|]. destruct s as [|c3 s]; [discriminate|]. pose proof (bval_lt c3).
  destruct (in_rng _ _ _); [destruct (_ && _ && _)%bool; inversion H; lia|discriminate].
Qed.
Lemma esc_body_of : forall i, it_ok i = true -> (it_rune i < 16 ^ N.of_nat 8)%N -> escape_of (it_rune i) (esc_body i).
Proof.
  intros i O BD. unfold esc_body. rewrite O. cbn [negb]. set (n := it_rune i).
  repeat match goal with |- escape_of n (if N.eqb n ?k then _ else _) => let E := fresh in destruct (N.eqb_spec n k) as [E|E]; [apply es_letter; rewrite E; cbn; auto 10|] end.
  destruct (N.ltb n 32 || N.eqb n 127)%bool eqn:B.
  - assert (B' : (n < 32 \/ n = 127)%N) by (apply orb_true_iff in B as [B|B]; [left; now apply N.ltb_lt|right; now apply N.eqb_eq]).
    apply es_byte; auto. + cbn. intuition. + apply hex_ok. change (16 ^ N.of_nat 2)%N with 256%N. lia.
  - apply orb_false_iff in B as [B1 B2]. apply N.ltb_ge in B1. apply N.eqb_neq in B2. destruct (N.ltb_spec n 0x10000); [apply es_short|apply es_long]; auto; now apply hex_ok.
Qed.
Lemma escape_one : forall n x y, escape_of n x -> escape_of n y -> x = y.
Proof.
  assert (L : forall n x, In (n, x) letters -> (n < 32)%N /\ In n (map fst letters)).
  { intros n x I. split; [|now apply (in_map fst) in I]. cbn in I. repeat destruct I as [I|I]; inversion I; subst; reflexivity || contradiction. }
  assert (U : forall n x y, In (n, x) letters -> In (n, y) letters -> x = y).
  { intros n x y I J. cbn in I, J. repeat destruct I as [I|I]; inversion I; subst; repeat destruct J as [J|J]; inversion J; subst; auto; contradiction. }
  intros n x y A B. destruct A as [x A|x A1 A2 X|x A1 A2 A3 X|x A1 X], B as [y B|y B1 B2 Y|y B1 B2 B3 Y|y B1 Y];
    try (apply hex_iff in X as [_ X]); try (apply hex_iff in Y as [_ Y]); try congruence; try (eapply U; eauto; fail);
    try (apply L in A as [A A']; lia || contradiction); try (apply L in B as [B B']; lia || contradiction); lia.
Qed.
Lemma quotes_kinds : forall pr single s, ascii_right pr -> inside_quotes pr single s (cat (tq single) (kinds pr s)).
Proof.
  intros pr single s AR. unfold kinds. induction s as [|s n w ok N E W IH] using scan_ind; [constructor|].
  rewrite (scan_eq _ N _ _ _ E). cbn [map]. rewrite cat_cons. rewrite <- (take_drop w s) at 1.
  assert (Q : forall k, (k = 34 \/ k = 92 \/ k = 39)%N -> pr k = true) by (intros k H; rewrite AR by lia; unfold in_rng; apply andb_true_iff; split; apply N.leb_le; lia).
  destruct ok.
  - pose proof (take_rune _ _ _ N E) as [NE [m D]].
    assert (m = n).
    { pose proof (scan_items s (Item n (take w s) true)) as X. rewrite (scan_eq _ N _ _ _ E) in X. destruct (X (or_introl eq_refl)) as (_ & OK & _). cbn [it_ok it_raw it_rune] in OK. specialize (OK eq_refl). congruence. }
    subst m. unfold kind_of at 1. cbn [it_ok it_rune it_raw negb].
    assert (RA : forall k, n = k -> (k < 128)%N -> take w s = str1 (byte k)).
    { intros k K L. apply (item_ascii s (Item n (take w s) true)); auto. rewrite (scan_eq _ N _ _ _ E). now left. }
    destruct (N.eqb_spec n 34) as [E1|N1]; [|destruct (N.eqb_spec n 92) as [E2|N2]].
    + rewrite (RA _ E1) in * by reflexivity. cbn [tq]. apply (iq_char pr single """" 34%N); auto; try discriminate; try (left; discriminate).
    + rewrite (RA _ E2) in * by reflexivity. cbn [tq]. apply (iq_char pr single "\" 92%N); auto; try discriminate; try (left; discriminate).
    + destruct (pr n) eqn:P.
      * destruct (N.eqb_spec n 39) as [E3|N3]; cbn [tq].
        -- rewrite (RA _ E3) in * by reflexivity. destruct single eqn:S; [now apply iq_apostrophe|]. apply (iq_char pr false "'" 39%N); auto; discriminate.
        -- eapply iq_char; eauto. left. intros X. rewrite X in D. inversion D. congruence.
      * cbn [tq]. rewrite app_assoc_s. eapply iq_escape; eauto. apply (esc_body_of (Item n (take w s) true) eq_refl). exact (dec_bound _ _ _ E).
  - destruct (dec_bad_width _ _ _ N E) as [-> ->]. destruct s as [|c s]; [congruence|]. unfold kind_of at 1. cbn [it_ok it_rune it_raw negb tq].
    unfold esc_body. cbn [it_ok it_raw negb]. assert (X : drop 1 (String c s) = s) by (cbn; now destruct s). assert (X' : take 1 (String c s) = str1 c) by (cbn; now destruct s).
    rewrite X, X' in *. rewrite !app_assoc_s. cbn [String.append str1]. change (String "\" (String "x" ?z)) with ("\x" ++ z). eapply (iq_byte pr single c s); eauto. apply hex_ok. apply bval_lt.
Qed.
Lemma kinds_rune : forall pr r n s, r <> "" -> decode_rune r = (n, slen r, true) -> kinds pr (r ++ s) = kind_of pr (Item n r true) :: kinds pr s.
Proof.
  intros pr r n s NE D. assert (R : rune_text r) by (split; eauto). unfold kinds. rewrite scan_app_valid by now apply rune_valid.
  rewrite (scan_eq _ NE _ _ _ D). rewrite drop_end, take_all by lia. reflexivity.
Qed.
Lemma quotes_only : forall pr single s t, ascii_right pr -> inside_quotes pr single s t -> t = cat (tq single) (kinds pr s).
Proof.
  intros pr single s t AR H. induction H as [|s t S H IH|r n s t NE D P Q H IH|r n x s t NE D P E H IH|c s n w x t D HX H IH].
  - reflexivity.
  - rewrite (kinds_rune pr "'" 39%N) by (discriminate || reflexivity). rewrite cat_cons, <- IH. unfold kind_of. cbn [it_ok it_rune negb N.eqb].
    rewrite AR by reflexivity. cbn [in_rng]. change (in_rng 32 126 39) with true. change (N.eqb 39 34) with false. change (N.eqb 39 92) with false. cbv iota. change (N.eqb 39 39) with true. cbv iota. cbn [tq]. now rewrite S.
  - rewrite (kinds_rune pr r n) by auto. rewrite cat_cons, <- IH. f_equal. unfold kind_of. cbn [it_ok it_rune it_raw negb].
    assert (RA : forall k, n = k -> (k < 128)%N -> r = str1 (byte k)).
    { intros k K L. apply (item_ascii r (Item n r true)); auto. rewrite (scan_eq _ NE _ _ _ D). rewrite take_all by lia. now left. }
    destruct (N.eqb_spec n 34) as [E1|N1]; [now rewrite (RA _ E1)|]. destruct (N.eqb_spec n 92) as [E2|N2]; [now rewrite (RA _ E2)|].
    rewrite P. destruct (N.eqb_spec n 39) as [E3|N3]; [|reflexivity]. cbn [tq]. rewrite (RA _ E3) in * by reflexivity. destruct Q as [Q| ->]; [now elim Q|reflexivity].
  - rewrite (kinds_rune pr r n) by auto. rewrite cat_cons, <- IH. unfold kind_of. cbn [it_ok it_rune it_raw negb].
    assert (A : forall k, (k = 34 \/ k = 92)%N -> N.eqb n k = false).
    { intros k K. apply N.eqb_neq. intros ->. rewrite AR in P by lia. unfold in_rng in P. destruct K as [-> | ->]; discriminate. }
    rewrite !A, P by auto. cbn [tq]. rewrite app_assoc_s. f_equal. f_equal. pose proof (esc_body_of (Item n r true) eq_refl (dec_bound _ _ _ D)) as B. cbn [it_rune] in B. now apply (escape_one n).
  - pose proof (bad_width1 _ _ _ _ D) as ->. unfold kinds. assert (NE : String c s <> "") by discriminate. rewrite (scan_eq (String c s) NE _ _ _ D). cbn [map]. rewrite cat_cons.
    assert (X : drop 1 (String c s) = s) by (cbn; now destruct s). assert (X' : take 1 (String c s) = str1 c) by (cbn; now destruct s). rewrite X, X'. fold (kinds pr s). rewrite <- IH.
    apply hex_iff in HX as [_ ->]. unfold kind_of. cbn [it_ok it_raw negb tq]. unfold esc_body. cbn [it_ok it_raw negb str1]. now rewrite !app_assoc_s.
Qed.
Theorem enquote_writes : forall pr s t, ascii_right pr -> (written_as pr s t <-> t = enquote pr s).
Proof.
  intros pr s t AR. destruct (needs_quote s) eqn:NQ.
  - assert (NA : ~ left_alone s) by (rewrite <- needs_iff; congruence).
    pose proof (enquote_form pr s AR NQ) as F. cbv zeta in F. rewrite dq_runes in F. rewrite F. split.
    + intros [A|x _ D I|x _ D I]; [contradiction|rewrite D; now rewrite (quotes_only _ _ _ _ AR I)..].
    + intros ->. destruct (has_dq s) eqn:D; [apply wr_single|apply wr_double]; auto; now apply quotes_kinds.
  - unfold enquote. rewrite NQ. cbn [negb]. apply needs_iff in NQ. split; [intros [A|x A _ _|x A _ _]; auto; contradiction|]. intros ->. now apply wr_alone.
Qed.
