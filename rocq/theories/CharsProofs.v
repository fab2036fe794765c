(** C59: UTF-8 and white space. *)
From Verif Require Export Utf8 SpecChars.
Local Open Scope string_scope.

Lemma bv : forall n, (n < 256)%N -> bval (ascii_of_N n) = n.
Proof. exact bval_byte. Qed.
Lemma rng_t : forall lo hi x, (lo <= x <= hi)%N -> in_rng lo hi x = true.
Proof. intros. now apply in_rng_iff. Qed.
Lemma rng_f : forall lo hi x, ~ (lo <= x <= hi)%N -> in_rng lo hi x = false.
Proof. intros lo hi x H. destruct (in_rng lo hi x) eqn:E; auto. apply in_rng_iff in E. contradiction. Qed.
Lemma utf8_decode : forall n t s, utf8 n t -> decode_rune (t ++ s) = (n, slen t, true).
Proof.
  intros n t s H. destruct H as [L|a b E B R|a b c E B C R S|a b c d E B C D R]; cbn [of_bytes fold_right String.append slen decode_rune].
  - rewrite bv by lia. apply N.ltb_lt in L. now rewrite L.
  - rewrite !bv by lia. rewrite (proj2 (N.ltb_ge _ _)) by lia. rewrite rng_t by lia. unfold is_cont. rewrite rng_t by lia.
    repeat f_equal. lia.
  - rewrite !bv by lia. rewrite (proj2 (N.ltb_ge _ _)) by lia. rewrite rng_f by lia. rewrite (rng_t 224 239) by lia. unfold is_cont. rewrite (rng_t _ _ (128 + c)) by lia.
    rewrite (rng_t _ _ (128 + b)).
    + cbn [andb]. repeat f_equal. lia.
    + destruct (N.eqb_spec (224 + a) 224), (N.eqb_spec (224 + a) 237); lia.
  - rewrite !bv by lia. rewrite (proj2 (N.ltb_ge _ _)) by lia. rewrite rng_f by lia. rewrite (rng_f 224 239) by lia. rewrite (rng_t 240 244) by lia. unfold is_cont.
    rewrite (rng_t _ _ (128 + c)), (rng_t _ _ (128 + d)) by lia. rewrite (rng_t _ _ (128 + b)).
    + cbn [andb]. repeat f_equal. lia.
    + destruct (N.eqb_spec (240 + a) 240), (N.eqb_spec (240 + a) 244); lia.
Qed.
Lemma byte_id : forall c, ascii_of_N (bval c) = c.
Proof. exact byte_bval. Qed.
Lemma byte_eq : forall c x, x = bval c -> ascii_of_N x = c.
Proof. intros c x ->. apply byte_id. Qed.
Lemma decode_utf8 : forall s n w, decode_rune s = (n, w, true) -> exists t r, s = t ++ r /\ utf8 n t /\ w = slen t.
Proof.
  intros s n w H. destruct s as [|c0 r0]; [discriminate|]. cbn [decode_rune] in H. pose proof (bval_lt c0) as B0.
  destruct (N.ltb_spec (bval c0) 128) as [L|L].
  { inversion H; subst. exists (of_bytes [bval c0]), r0. cbn [of_bytes fold_right String.append slen]. rewrite byte_id. split; auto. split; auto. rewrite <- (byte_id c0) at 2. now apply (u8_one (bval c0)). }
  destruct r0 as [|c1 r1]; [discriminate|]. pose proof (bval_lt c1) as B1. destruct (in_rng 194 223 (bval c0)) eqn:E1.
  { destruct (is_cont (bval c1)) eqn:C1; [|discriminate]. inversion H; subst. apply in_rng_iff in E1. apply in_rng_iff in C1.
    exists (of_bytes [0xC0 + (bval c0 - 192); 0x80 + (bval c1 - 128)]%N), r1. split; [|split; [|reflexivity]].
    - cbn [of_bytes fold_right String.append]. rewrite (byte_eq c0), (byte_eq c1) by lia. reflexivity.
    - apply u8_two; lia. }
  destruct r1 as [|c2 r2]; [discriminate|]. pose proof (bval_lt c2) as B2. destruct (in_rng 224 239 (bval c0)) eqn:E2.
  { match type of H with context [if ?x then _ else _] => destruct x eqn:C; [|discriminate] end. inversion H; subst. apply andb_true_iff in C as [C1 C2].
    apply in_rng_iff in E2. apply in_rng_iff in C1. apply in_rng_iff in C2.
    exists (of_bytes [0xE0 + (bval c0 - 224); 0x80 + (bval c1 - 128); 0x80 + (bval c2 - 128)]%N), r2.
    assert (L1 : (128 <= bval c1 <= 191)%N) by (destruct (N.eqb (bval c0) 224), (N.eqb (bval c0) 237); lia). split; [|split; [|reflexivity]].
    - cbn [of_bytes fold_right String.append]. rewrite (byte_eq c0), (byte_eq c1), (byte_eq c2) by lia. reflexivity.
    - apply u8_three; try lia; destruct (N.eqb_spec (bval c0) 224), (N.eqb_spec (bval c0) 237); lia. }
  destruct r2 as [|c3 r3]; [discriminate|]. pose proof (bval_lt c3) as B3. destruct (in_rng 240 244 (bval c0)) eqn:E3; [|discriminate].
  match type of H with context [if ?x then _ else _] => destruct x eqn:C; [|discriminate] end. inversion H; subst. apply andb_true_iff in C as [C C3]. apply andb_true_iff in C as [C1 C2].
  apply in_rng_iff in E3. apply in_rng_iff in C1. apply in_rng_iff in C2. apply in_rng_iff in C3.
  exists (of_bytes [0xF0 + (bval c0 - 240); 0x80 + (bval c1 - 128); 0x80 + (bval c2 - 128); 0x80 + (bval c3 - 128)]%N), r3.
  assert (L1 : (128 <= bval c1 <= 191)%N) by (destruct (N.eqb (bval c0) 240), (N.eqb (bval c0) 244); lia). split; [|split; [|reflexivity]].
  - cbn [of_bytes fold_right String.append]. rewrite (byte_eq c0), (byte_eq c1), (byte_eq c2), (byte_eq c3) by lia. reflexivity.
  - apply u8_four; try lia; destruct (N.eqb_spec (bval c0) 240), (N.eqb_spec (bval c0) 244); lia.
Qed.
Lemma utf8_nonempty : forall n t, utf8 n t -> t <> "".
Proof. intros n t []; discriminate. Qed.
Lemma chars_sound : forall s l, chars s l -> scan s = l.
Proof.
  induction 1 as [|n t s l U C IH|c s l N C IH].
  - reflexivity.
  - pose proof (utf8_decode n t s U) as D. rewrite (scan_eq _ (app_nonempty_l _ _ (utf8_nonempty _ _ U)) _ _ _ D), take_app, drop_app, IH. reflexivity.
  - destruct (decode_rune (String c s)) as [[n w] ok] eqn:D. destruct ok.
    + exfalso. destruct (decode_utf8 _ _ _ D) as (t & r & E & U & _). exact (N n t r U E).
    + assert (NE : String c s <> "") by discriminate. destruct (dec_bad_width _ _ _ NE D) as [-> ->]. rewrite (scan_eq _ NE _ _ _ D). cbn [take drop]. now rewrite IH.
Qed.
Lemma chars_scan : forall s, chars s (scan s).
Proof.
  induction s as [|s r w ok NE E W IH] using scan_ind.
  - constructor.
  - rewrite (scan_eq _ NE _ _ _ E). destruct ok.
    + destruct (decode_utf8 _ _ _ E) as (t & r0 & -> & U & ->). rewrite take_app, drop_app in *. now constructor.
    + destruct (dec_bad_width _ _ _ NE E) as [-> ->]. destruct s as [|c s]; [congruence|]. cbn [take drop] in *. apply ch_byte; auto.
      intros n t r U X. rewrite X, (utf8_decode n t r U) in E. discriminate.
Qed.
Lemma chars_exact : forall s l, chars s l <-> scan s = l.
Proof. intros s l. split; [apply chars_sound|]. intros <-. apply chars_scan. Qed.
Lemma encode_utf8 : forall n, utf8 (if (N.ltb n 0x110000 && negb (N.leb 0xD800 n && N.ltb n 0xE000))%bool then n else 0xFFFD) (encode_rune n).
Proof.
  intros n. destruct (N.ltb n 0x110000 && negb (N.leb 0xD800 n && N.ltb n 0xE000))%bool eqn:S.
  - apply andb_true_iff in S as [S1 S2]. apply N.ltb_lt in S1. apply negb_true_iff in S2.
    assert (S3 : ~ (0xD800 <= n < 0xE000)%N). { intros [X Y]. apply N.leb_le in X. apply N.ltb_lt in Y. rewrite X, Y in S2. discriminate. }
    unfold encode_rune. assert (M : forall x k, (0 < k)%N -> (x = x / k * k + x mod k)%N) by (intros x k K; rewrite N.mul_comm; apply N.div_mod; lia).
    assert (ML : forall x, (x mod 64 < 64)%N) by (intros; now apply N.mod_lt).
    destruct (N.ltb_spec n 128) as [A|A]; [now apply (u8_one n)|]. destruct (N.ltb_spec n 2048) as [B|B].
    { apply u8_two; auto; try lia. now apply M. }
    rewrite (rng_f 55296 57343) by lia. rewrite (proj2 (N.ltb_ge 1114111 n)) by lia. cbn [orb]. destruct (N.ltb_spec n 65536) as [D|D].
    { apply (u8_three n (n / 4096) ((n / 64) mod 64) (n mod 64)); auto. rewrite (M n 64%N) at 1 by lia. f_equal. f_equal. rewrite (M (n / 64)%N 64%N) at 1 by lia. now rewrite N.div_div. }
    apply (u8_four n (n / 262144) ((n / 4096) mod 64) ((n / 64) mod 64) (n mod 64)); auto. rewrite (M n 64%N) at 1 by lia. f_equal. f_equal. rewrite (M (n / 64)%N 64%N) at 1 by lia. f_equal. f_equal.
    rewrite N.div_div by lia. rewrite (M (n / (64 * 64))%N 64%N) at 1 by lia. now rewrite N.div_div.
  - unfold encode_rune. assert (S3 : (0x110000 <= n \/ 0xD800 <= n < 0xE000)%N).
    { apply andb_false_iff in S as [S|S]; [apply N.ltb_ge in S; lia|]. apply negb_false_iff, andb_true_iff in S as [X Y]. apply N.leb_le in X. apply N.ltb_lt in Y. lia. }
    rewrite (proj2 (N.ltb_ge n 128)), (proj2 (N.ltb_ge n 2048)) by lia. assert (R : (in_rng 55296 57343 n || (1114111 <? n)%N)%bool = true).
    { apply orb_true_iff. rewrite in_rng_iff, N.ltb_lt. lia. }
    rewrite R. apply (u8_three 65533 15 63 61); lia.
Qed.
Lemma encode_scalar : forall n, scalar n -> utf8 n (encode_rune n).
Proof.
  intros n [A B]. pose proof (encode_utf8 n) as H. replace ((n <? 1114112)%N && negb ((55296 <=? n)%N && (n <? 57344)%N))%bool with true in H; auto.
  symmetry. apply andb_true_iff. split; [now apply N.ltb_lt|]. apply negb_true_iff. destruct (N.leb_spec 55296 n), (N.ltb_spec n 57344); auto. exfalso. apply B. lia.
Qed.
Lemma encode_other : forall n, ~ scalar n -> utf8 0xFFFD (encode_rune n).
Proof.
  intros n NS. pose proof (encode_utf8 n) as H. destruct ((n <? 1114112)%N && negb ((55296 <=? n)%N && (n <? 57344)%N))%bool eqn:E; auto.
  exfalso. apply NS. apply andb_true_iff in E as [X Y]. apply N.ltb_lt in X. apply negb_true_iff in Y. split; auto. intros [A B]. apply N.leb_le in A. apply N.ltb_lt in B. rewrite A, B in Y. discriminate.
Qed.
Lemma space_exact : forall n, is_space_rune n = true <-> In n white_space_chars.
Proof.
  intros n. unfold is_space_rune, white_space_chars. rewrite !orb_true_iff, !in_rng_iff, !N.eqb_eq. cbn [In]. split; [|intuition lia].
  intros H. repeat (destruct H as [H|H]; [|]); try (subst; tauto); lia.
Qed.

(** *** A text is divided the same way from its end. *)
Definition mid (c : ascii) : Prop := (128 <= bval c < 192)%N.
Lemma utf8_shape : forall n t, utf8 n t -> exists c r, t = String c r /\ ~ mid c /\ forall a d b, r = a ++ String d b -> mid d.
Proof.
  unfold mid. intros n t H.
  assert (K : forall l a d b, Forall (fun x => (128 <= x < 192)%N) l -> of_bytes l = a ++ String d b -> (128 <= bval d < 192)%N).
  { induction l as [|x l IH]; intros a d b F E.
    - destruct a; discriminate.
    - inversion F; subst. destruct a as [|y a]; cbn in E; inversion E; subst; eauto. rewrite bv by lia. lia. }
  destruct H as [L|a b E B R|a b c E B C R S|a b c d E B C D R]; cbn [of_bytes fold_right]; do 2 eexists; (split; [reflexivity|]); (split; [rewrite bv by lia; lia|]); intros a' d' b' E'.
  - destruct a'; discriminate.
  - apply (K [128 + b]%N a' d' b'); auto. constructor; [lia|constructor].
  - apply (K [128 + b; 128 + c]%N a' d' b'); auto. repeat (constructor; [lia|]). constructor.
  - apply (K [128 + b; 128 + c; 128 + d]%N a' d' b'); auto. repeat (constructor; [lia|]). constructor.
Qed.
Lemma app_split : forall a b c d : string, a ++ b = c ++ d -> (exists e, a = c ++ e /\ d = e ++ b) \/ (exists x e, c = a ++ String x e /\ b = String x e ++ d).
Proof.
  induction a as [|x a IH]; intros b c d E; cbn in E.
  - subst. destruct c as [|y c]; [left; now exists ""|right]. exists y, c. auto.
  - destruct c as [|y c]; cbn in E.
    + left. exists (String x a). subst. auto.
    + inversion E; subst. destruct (IH _ _ _ H1) as [(e & -> & ->)|(z & e & -> & ->)]; [left; now exists e|right; now exists z, e].
Qed.
Lemma scan_last : forall s n t, utf8 n t -> scan (s ++ t) = (scan s ++ [Item n t true])%list.
Proof.
  intros s n t U. induction s as [|s r w ok NE E W IH] using scan_ind.
  - change ("" ++ t) with t. change (scan t = [Item n t true]). apply chars_sound. rewrite <- (app_nil_r_s t) at 1. constructor; auto. constructor.
  - rewrite (scan_eq _ NE _ _ _ E). cbn [app]. rewrite <- IH. assert (NE2 : s ++ t <> "") by (destruct s; [congruence|discriminate]).
    assert (D : decode_rune (s ++ t) = (r, w, ok)).
    { destruct ok.
      - destruct (decode_utf8 _ _ _ E) as (t0 & r0 & -> & U0 & ->). rewrite app_assoc_s. now apply utf8_decode.
      - destruct (dec_bad_width _ _ _ NE E) as [-> ->]. destruct (decode_rune (s ++ t)) as [[n' w'] [|]] eqn:D.
        + exfalso. destruct (decode_utf8 _ _ _ D) as (t' & r' & X & U' & _). destruct (app_split _ _ _ _ X) as [(e & -> & _)|(x & e & -> & Y)].
          * rewrite (utf8_decode _ _ _ U') in E. discriminate.
          * destruct (utf8_shape _ _ U) as (c & q & -> & M & _). destruct (utf8_shape _ _ U') as (c' & q' & Z & _ & M'). cbn in Y. inversion Y; subst.
            apply M. destruct s as [|c1 s1]; [congruence|]. cbn in Z. inversion Z; subst. now apply (M' s1 x e).
        + now destruct (dec_bad_width _ _ _ NE2 D) as [-> ->]. }
    rewrite (scan_eq _ NE2 _ _ _ D). f_equal.
    + f_equal. assert (LW : w <= slen s) by (destruct ok; [destruct (decode_utf8 _ _ _ E) as (t0 & r0 & -> & _ & ->); rewrite app_slen; lia|]; destruct (dec_bad_width _ _ _ NE E) as [_ ->]; destruct s; [congruence|cbn; lia]).
      clear - LW. revert s LW. induction w as [|w IHw]; intros s L; [reflexivity|]. destruct s; cbn in *; [lia|]. f_equal. apply IHw. lia.
    + f_equal. assert (LW : w <= slen s) by (destruct ok; [destruct (decode_utf8 _ _ _ E) as (t0 & r0 & -> & _ & ->); rewrite app_slen; lia|]; destruct (dec_bad_width _ _ _ NE E) as [_ ->]; destruct s; [congruence|cbn; lia]).
      clear - LW. revert s LW. induction w as [|w IHw]; intros s L; [now rewrite !drop_0|]. destruct s; cbn in *; [lia|]. apply IHw. lia.
Qed.
Lemma chars_last : forall s n t l, utf8 n t -> chars s l -> chars (s ++ t) (l ++ [Item n t true]).
Proof. intros s n t l U C. apply chars_exact. apply chars_exact in C. subst. now apply scan_last. Qed.
Lemma decode_exact : forall s n w, decode_rune s = (n, w, true) <-> exists t r, s = t ++ r /\ utf8 n t /\ w = slen t.
Proof. intros s n w. split; [apply decode_utf8|]. intros (t & r & -> & U & ->). now apply utf8_decode. Qed.
Lemma decode_bad : forall s, s <> "" -> (~ exists n t r, s = t ++ r /\ utf8 n t) -> decode_rune s = (0xFFFD%N, 1, false).
Proof.
  intros s NE H. destruct (decode_rune s) as [[n w] [|]] eqn:D.
  - exfalso. apply H. destruct (decode_utf8 _ _ _ D) as (t & r & E & U & _). eauto.
  - now destruct (dec_bad_width _ _ _ NE D) as [-> ->].
Qed.
Lemma utf8_fun : forall n t u, utf8 n t -> utf8 n u -> t = u.
Proof.
  intros n t u T U. destruct T as [L|a b E B R|a b c E B C R S|a b c d E B C D R]; destruct U as [L'|a' b' E' B' R'|a' b' c' E' B' C' R' S'|a' b' c' d' E' B' C' D' R']; try (exfalso; lia); auto.
  - assert (a' = a) by lia. assert (b' = b) by lia. now subst.
  - assert (a' = a) by lia. assert (b' = b) by lia. assert (c' = c) by lia. now subst.
  - assert (a' = a) by lia. assert (b' = b) by lia. assert (c' = c) by lia. assert (d' = d) by lia. now subst.
Qed.
Lemma utf8_error : utf8 0xFFFD error_rune_text.
Proof. apply (u8_three 65533 15 63 61); lia. Qed.
Lemma chars_texts : forall s l, chars s l -> Forall2 (fun i t => utf8 (it_rune i) t) l (map it_text l).
Proof. induction 1; cbn [map]; constructor; auto. exact utf8_error. Qed.
Lemma texts_exact : forall s ts, scan_runes s = ts <-> exists l, chars s l /\ Forall2 (fun i t => utf8 (it_rune i) t) l ts.
Proof.
  intros s ts. unfold scan_runes. split.
  - intros <-. exists (scan s). split; [apply chars_scan|]. apply (chars_texts s), chars_scan.
  - intros (l & C & F). apply chars_exact in C as C'. rewrite C'. pose proof (chars_texts s l C) as G. clear C C'. revert ts F. induction G as [|i t l u U G IH]; intros ts F; inversion F; subst; [reflexivity|].
    f_equal; [eapply utf8_fun; eauto|auto].
Qed.
