(** UTF-8 facts: sequential decoding splits at rune boundaries. *)
From Verif Require Export Util.
Local Open Scope string_scope.

Ltac dec_cases :=
  repeat match goal with
  | |- context [if ?b then _ else _] => destruct b eqn:?
  | H : context [if ?b then _ else _] |- _ => destruct b eqn:?
  | |- context [match ?s with EmptyString => _ | String _ _ => _ end] => destruct s eqn:?
  | H : context [match ?s with EmptyString => _ | String _ _ => _ end] |- _ => destruct s eqn:?
  end.

Lemma dec_width : forall s r w ok, s <> "" -> decode_rune s = (r, w, ok) ->
  1 <= w /\ w <= slen s.
Proof.
  intros s r w ok N H. unfold decode_rune in H.
  destruct s as [|c0 [|c1 [|c2 [|c3 s]]]]; [congruence| | | |]; dec_cases; inversion H; subst; cbn; lia.
Qed.

Lemma dec_app : forall a b r w, decode_rune a = (r, w, true) -> decode_rune (a ++ b) = (r, w, true).
Proof.
  intros a b r w H. destruct a as [|c0 [|c1 [|c2 [|c3 s]]]]; cbn [String.append decode_rune] in *;
    try discriminate; dec_cases; try discriminate; try congruence; auto.
Qed.

Lemma dec_take : forall s r w, decode_rune s = (r, w, true) -> decode_rune (take w s) = (r, w, true).
Proof.
  intros s r w H. unfold decode_rune in H.
  destruct s as [|c0 [|c1 [|c2 [|c3 s]]]]; try discriminate; dec_cases; inversion H; subst;
    cbn [take decode_rune];
    repeat match goal with E : ?x = _ |- context [?x] => rewrite E end; reflexivity.
Qed.

(** [b] starts with a byte that cannot continue a rune. *)
Definition boundary (b : string) : Prop :=
  match b with EmptyString => True | String c _ => is_cont (bval c) = false end.

Lemma in_rng_noncont : forall x lo hi, is_cont x = false -> (128 <= lo)%N -> (hi <= 191)%N ->
  in_rng lo hi x = false.
Proof.
  intros x lo hi H L1 L2. unfold is_cont, in_rng in *.
  apply andb_false_iff. apply andb_false_iff in H. destruct H as [H|H]; apply N.leb_gt in H.
  - left. apply N.leb_gt. lia.
  - right. apply N.leb_gt. lia.
Qed.

Lemma dec_app_bad : forall a b r w, a <> "" -> boundary b -> decode_rune a = (r, w, false) ->
  decode_rune (a ++ b) = (r, w, false).
Proof.
  intros a b r w N B H. destruct b as [|d b]; [now rewrite app_nil_r_s|]. cbn in B.
  assert (X : forall e f : bool, in_rng (if e then 160 else 128) (if f then 159 else 191) (bval d) = false)
    by (intros [] []; apply in_rng_noncont; auto; lia).
  assert (Y : forall e f : bool, in_rng (if e then 144 else 128) (if f then 143 else 191) (bval d) = false)
    by (intros [] []; apply in_rng_noncont; auto; lia).
  destruct a as [|c0 [|c1 [|c2 [|c3 s]]]]; [congruence| | | |]; cbn [String.append] in *;
    unfold decode_rune in *; rewrite ?B, ?X, ?Y, ?andb_false_r; cbn [andb];
    dec_cases; try discriminate; try congruence; auto.
Qed.

Lemma scan_from_drop : forall k s, scan_from k s = scan_from 0 (drop k s).
Proof.
  induction k as [|k IH]; intros s; [now rewrite drop_0|]. destruct s as [|c s]; auto.
  cbn [scan_from drop]. apply IH.
Qed.

Lemma scan_eq : forall s, s <> "" -> forall r w ok, decode_rune s = (r, w, ok) ->
  scan s = Item r (take w s) ok :: scan (drop w s).
Proof.
  intros s N r w ok H. destruct (dec_width _ _ _ _ N H) as [W1 W2].
  destruct s as [|c s]; [congruence|]. unfold scan.
  change (scan_from 0 (String c s)) with
    (let '(rn, w, ok) := decode_rune (String c s) in
     Item rn (take w (String c s)) ok :: scan_from (pred w) s).
  rewrite H. f_equal. rewrite scan_from_drop. destruct w; [lia|]. reflexivity.
Qed.

Lemma str_len_ind : forall P : string -> Prop,
  (forall s, (forall t, slen t < slen s -> P t) -> P s) -> forall s, P s.
Proof.
  intros P H. assert (A : forall n s, slen s < n -> P s).
  { induction n; intros s L; [lia|]. apply H. intros t Lt. apply IHn. lia. }
  intros s. apply (A (S (slen s))). lia.
Qed.

Lemma scan_ind : forall P : string -> Prop, P "" ->
  (forall s r w ok, s <> "" -> decode_rune s = (r, w, ok) -> 1 <= w <= slen s ->
     P (drop w s) -> P s) -> forall s, P s.
Proof.
  intros P P0 PS. induction s as [s IH] using str_len_ind.
  destruct (string_dec s "") as [->|N]; auto.
  destruct (decode_rune s) as [[r w] ok] eqn:E.
  destruct (dec_width _ _ _ _ N E) as [W1 W2].
  eapply PS; eauto. apply IH. rewrite slen_drop. lia.
Qed.

Lemma unscan_scan : forall s, unscan (scan s) = s.
Proof.
  induction s as [|s r w ok N E W IH] using scan_ind; auto.
  rewrite (scan_eq _ N _ _ _ E). unfold unscan in *. cbn. rewrite IH. apply take_drop.
Qed.

Lemma scan_nil_iff : forall s, scan s = [] <-> s = "".
Proof.
  intros s. split; [|now intros ->]. intros H. rewrite <- (unscan_scan s), H. reflexivity.
Qed.

Lemma take_app_le : forall n a b, n <= slen a -> take n (a ++ b) = take n a.
Proof. induction n; intros [|c a] b H; cbn in *; auto; try lia. now rewrite IHn by lia. Qed.
Lemma drop_app_le : forall n a b, n <= slen a -> drop n (a ++ b) = drop n a ++ b.
Proof. induction n; intros [|c a] b H; cbn in *; auto; try lia. now rewrite IHn by lia. Qed.

Lemma app_nonempty_l : forall a b : string, a <> "" -> a ++ b <> "".
Proof. intros a b N E. apply app_eq_nil_s in E. tauto. Qed.

Lemma valid_utf8_nil : valid_utf8 "" = true.
Proof. reflexivity. Qed.
Lemma valid_utf8_step : forall s r w ok, s <> "" -> decode_rune s = (r, w, ok) ->
  valid_utf8 s = (ok && valid_utf8 (drop w s))%bool.
Proof. intros. unfold valid_utf8. erewrite scan_eq by eauto. reflexivity. Qed.

Lemma scan_app_valid : forall a b, valid_utf8 a = true -> scan (a ++ b) = (scan a ++ scan b)%list.
Proof.
  induction a as [|a r w ok N E W IH] using scan_ind; intros b V; auto.
  rewrite (valid_utf8_step _ _ _ _ N E) in V. apply andb_true_iff in V as [-> V].
  rewrite (scan_eq _ N _ _ _ E). rewrite (scan_eq (a ++ b) (app_nonempty_l _ _ N) _ _ _ (dec_app _ b _ _ E)).
  rewrite take_app_le, drop_app_le by lia. rewrite IH by auto. reflexivity.
Qed.
Lemma scan_app_boundary : forall a b, boundary b -> scan (a ++ b) = (scan a ++ scan b)%list.
Proof.
  intros a b B. induction a as [|a r w ok N E W IH] using scan_ind; auto.
  rewrite (scan_eq _ N _ _ _ E).
  assert (E' : decode_rune (a ++ b) = (r, w, ok)).
  { destruct ok; [now apply dec_app | now apply dec_app_bad]. }
  rewrite (scan_eq (a ++ b) (app_nonempty_l _ _ N) _ _ _ E').
  rewrite take_app_le, drop_app_le by lia. rewrite IH. reflexivity.
Qed.
Lemma valid_utf8_app : forall a b, valid_utf8 a = true -> valid_utf8 (a ++ b) = valid_utf8 b.
Proof. intros a b V. unfold valid_utf8 in *. rewrite scan_app_valid by auto. rewrite forallb_app, V. auto. Qed.

Lemma boundary_ascii : forall c s, (bval c < 128)%N -> boundary (String c s).
Proof.
  intros c s H. cbn. unfold is_cont, in_rng. apply andb_false_iff. left. apply N.leb_gt. auto.
Qed.

(** Items of a scan: each is itself one decoded element. *)
Lemma scan_items : forall s i, In i (scan s) ->
  it_raw i <> "" /\
  (it_ok i = true -> decode_rune (it_raw i) = (it_rune i, slen (it_raw i), true)) /\
  (it_ok i = false -> it_rune i = rune_error /\ slen (it_raw i) = 1).
Proof.
  induction s as [|s r w ok N E W IH] using scan_ind; intros i I; [destruct I|].
  rewrite (scan_eq _ N _ _ _ E) in I. destruct I as [<-|I]; auto.
  cbn [it_raw it_ok it_rune]. split; [|split].
  - intros Z. assert (slen (take w s) = 0) by now rewrite Z. rewrite slen_take in H. lia.
  - intros ->. rewrite (dec_take _ _ _ E). f_equal. f_equal. rewrite slen_take. lia.
  - intros ->. unfold decode_rune in E. destruct s as [|c0 [|c1 [|c2 [|c3 s]]]]; [congruence| | | |];
      dec_cases; inversion E; subst; split; reflexivity.
Qed.

(** A list of good items decodes back to itself. *)
Definition good_item (i : item) : Prop :=
  it_ok i = true /\ it_raw i <> "" /\ decode_rune (it_raw i) = (it_rune i, slen (it_raw i), true).
Lemma scan_good : forall i, good_item i -> scan (it_raw i) = [i].
Proof.
  intros [r raw ok] (O & N & D); cbn [it_rune it_raw it_ok] in *. subst. rewrite (scan_eq _ N _ _ _ D).
  rewrite take_all by lia. assert (Z : drop (slen raw) raw = "").
  { apply slen_0. rewrite slen_drop. lia. } rewrite Z. reflexivity.
Qed.
Lemma scan_unscan_good : forall l s, Forall good_item l -> scan (unscan l ++ s) = (l ++ scan s)%list.
Proof.
  induction l as [|i l IH]; intros s F; auto. inversion F as [|? ? G F']; subst.
  unfold unscan in *. cbn. rewrite app_assoc_s. rewrite scan_app_valid.
  - rewrite (scan_good _ G), IH by auto. reflexivity.
  - unfold valid_utf8. rewrite (scan_good _ G). cbn. destruct G as (-> & _). reflexivity.
Qed.

Lemma unscan_app : forall a b, unscan (a ++ b) = unscan a ++ unscan b.
Proof. intros. unfold unscan. rewrite map_app. induction (map it_raw a); cbn; auto. rewrite IHl. now rewrite app_assoc_s. Qed.

(** Suffixes and prefixes of a scan are scans. *)
Lemma scan_suffix : forall s a b, scan s = (a ++ b)%list -> scan (unscan b) = b.
Proof.
  induction s as [|s r w ok N E W IH] using scan_ind; intros a b H.
  - destruct a, b; try discriminate. reflexivity.
  - destruct a as [|i a].
    + cbn in H. rewrite <- H, unscan_scan. auto.
    + rewrite (scan_eq _ N _ _ _ E) in H. inversion H. eauto.
Qed.
Lemma bval_decode_bad_ext : forall a b r w r' w',
  a <> "" -> decode_rune a = (r, w, true) -> decode_rune (a ++ b) = (r', w', false) -> False.
Proof. intros. rewrite (dec_app _ _ _ _ H0) in H1. congruence. Qed.

(** Dropping the last item. *)
Lemma dec_prefix_bad : forall s n r w, n <= slen s -> 1 <= n -> decode_rune s = (r, w, false) ->
  decode_rune (take n s) = (rune_error, 1, false).
Proof.
  intros s n r w L1 L2 H. destruct (decode_rune (take n s)) as [[r' w'] ok'] eqn:E.
  assert (NE : take n s <> "") by (intros Z; assert (slen (take n s) = 0) by (now rewrite Z); rewrite slen_take in *; lia).
  destruct ok'.
  - apply (dec_app _ (drop n s)) in E. rewrite take_drop in E. congruence.
  - unfold decode_rune in E. destruct (take n s) as [|c0 [|c1 [|c2 [|c3 t]]]]; [congruence| | | |];
      dec_cases; inversion E; subst; reflexivity.
Qed.
Lemma dec_bad_width : forall s r w, s <> "" -> decode_rune s = (r, w, false) -> r = rune_error /\ w = 1.
Proof.
  intros s r w N E. unfold decode_rune in E.
  destruct s as [|c0 [|c1 [|c2 [|c3 s]]]]; [congruence| | | |]; dec_cases; inversion E; auto.
Qed.
Lemma take_take : forall n m s, take n (take m s) = take (Nat.min n m) s.
Proof. induction n; intros [|m] [|c s]; cbn; auto. now rewrite IHn. Qed.

Lemma scan_prefix : forall s a b, scan s = (a ++ b)%list -> scan (unscan a) = a.
Proof.
  induction s as [|s r w ok N E W IH] using scan_ind; intros a b H.
  - destruct a; [reflexivity|discriminate].
  - destruct a as [|i a]; [reflexivity|].
    rewrite (scan_eq _ N _ _ _ E) in H. inversion H as [[H1 H2]].
    specialize (IH _ _ H2).
    assert (S : s = (take w s ++ unscan a) ++ unscan b).
    { rewrite app_assoc_s, <- unscan_app, <- H2, unscan_scan. now rewrite take_drop. }
    assert (U : unscan (Item r (take w s) ok :: a) = take w s ++ unscan a) by reflexivity.
    rewrite U. clear U.
    assert (NE : take w s ++ unscan a <> "").
    { apply app_nonempty_l. intros Z. assert (slen (take w s) = 0) by now rewrite Z. rewrite slen_take in *. lia. }
    assert (L : slen (take w s) = w) by (rewrite slen_take; lia).
    destruct ok.
    + assert (D : decode_rune (take w s ++ unscan a) = (r, w, true)).
      { apply dec_app. now apply dec_take. }
      rewrite (scan_eq _ NE _ _ _ D). rewrite <- L at 1 3. rewrite take_app, drop_app, IH. reflexivity.
    + destruct (dec_bad_width _ _ _ N E) as [-> ->].
      assert (D : decode_rune (take 1 s ++ unscan a) = (rune_error, 1, false)).
      { replace (take 1 s ++ unscan a) with (take (slen (take 1 s ++ unscan a)) s).
        - eapply dec_prefix_bad; eauto.
          + assert (LS : slen s = slen (take 1 s ++ unscan a) + slen (unscan b))
              by (rewrite S at 1; apply app_slen). lia.
          + rewrite app_slen, L. lia.
        - remember (take 1 s ++ unscan a) as x. rewrite S. apply take_app. }
      rewrite (scan_eq _ NE _ _ _ D). rewrite <- L at 1 3. rewrite take_app, drop_app, IH. reflexivity.
Qed.

(** ** Encoding *)
Lemma bval_lt : forall c, (bval c < 256)%N.
Proof. intros. apply N_ascii_bounded. Qed.
Lemma byte_bval : forall c, byte (bval c) = c.
Proof. intros. apply ascii_N_embedding. Qed.
Lemma bval_byte : forall n, (n < 256)%N -> bval (byte n) = n.
Proof. intros. now apply N_ascii_embedding. Qed.

Lemma in_rng_iff : forall lo hi x, in_rng lo hi x = true <-> (lo <= x <= hi)%N.
Proof. intros. unfold in_rng. rewrite andb_true_iff, !N.leb_le. tauto. Qed.
Lemma div_add_small : forall a b k, (0 < k)%N -> (b < k)%N -> ((a * k + b) / k = a)%N.
Proof. intros. rewrite N.div_add_l by lia. rewrite N.div_small by auto. lia. Qed.
Lemma mod_add_small : forall a b k, (0 < k)%N -> (b < k)%N -> ((a * k + b) mod k = b)%N.
Proof. intros. rewrite N.add_comm, N.mod_add by lia. apply N.mod_small. auto. Qed.

Lemma dec_encode : forall s r w, decode_rune s = (r, w, true) -> encode_rune r = take w s.
Proof.
  intros s r w H.
  assert (Q : forall b0 b1 b2 b3 : N, True) by auto.
  destruct s as [|c0 r0]; [discriminate|]. cbn [decode_rune] in H.
  pose proof (bval_lt c0) as B0. set (b0 := bval c0) in *.
  destruct (N.ltb b0 128) eqn:E0.
  { inversion H; subst. unfold encode_rune. rewrite E0. cbn. unfold str1, b0. now rewrite byte_bval. }
  apply N.ltb_ge in E0.
  destruct r0 as [|c1 r1]; [discriminate|]. pose proof (bval_lt c1) as B1.
  set (b1 := bval c1) in *. destruct (in_rng 194 223 b0) eqn:E1.
  { destruct (is_cont b1) eqn:C1; [|discriminate]. inversion H; subst. clear H Q.
    apply in_rng_iff in E1. apply in_rng_iff in C1. unfold encode_rune.
    assert (V : ((b0 - 192) * 64 + (b1 - 128) < 2048)%N) by lia.
    assert (V' : (128 <= (b0 - 192) * 64 + (b1 - 128))%N) by lia.
    rewrite (proj2 (N.ltb_ge _ _) V'), (proj2 (N.ltb_lt _ _) V).
    rewrite div_add_small, mod_add_small by lia.
    replace (192 + (b0 - 192))%N with b0 by lia. replace (128 + (b1 - 128))%N with b1 by lia.
    unfold b0, b1, str1. cbn. now rewrite !byte_bval. }
  destruct r1 as [|c2 r2]; [discriminate|]. pose proof (bval_lt c2) as B2.
  set (b2 := bval c2) in *. destruct (in_rng 224 239 b0) eqn:E2.
  { destruct (in_rng (if N.eqb b0 224 then 160 else 128) (if N.eqb b0 237 then 159 else 191) b1 && is_cont b2)%bool eqn:C;
      [|discriminate].
    inversion H; subst. clear H Q. apply andb_true_iff in C as [C1 C2].
    apply in_rng_iff in E2. apply in_rng_iff in C1. apply in_rng_iff in C2.
    set (R := ((b0 - 224) * 4096 + (b1 - 128) * 64 + (b2 - 128))%N).
    assert (L1 : (128 <= b1 <= 191)%N) by (destruct (N.eqb b0 224), (N.eqb b0 237); lia).
    assert (V : (2048 <= R)%N). { unfold R. destruct (N.eqb_spec b0 224); lia. }
    assert (V2 : (R < 65536)%N) by (unfold R; lia).
    assert (V3 : ~ (55296 <= R <= 57343)%N).
    { unfold R. destruct (N.eqb_spec b0 237); lia. }
    unfold encode_rune.
    rewrite (proj2 (N.ltb_ge R 128)) by lia. rewrite (proj2 (N.ltb_ge R 2048)) by lia.
    assert (V4 : in_rng 55296 57343 R = false).
    { destruct (in_rng 55296 57343 R) eqn:X; auto. apply in_rng_iff in X. contradiction. }
    rewrite V4. rewrite (proj2 (N.ltb_ge 1114111 R)) by lia. cbn [orb].
    rewrite (proj2 (N.ltb_lt R 65536)) by lia.
    assert (Q1 : (R / 4096 = b0 - 224)%N).
    { unfold R. replace ((b0 - 224) * 4096 + (b1 - 128) * 64 + (b2 - 128))%N
        with ((b0 - 224) * 4096 + ((b1 - 128) * 64 + (b2 - 128)))%N by lia.
      apply div_add_small; lia. }
    assert (Q2 : (R / 64 = (b0 - 224) * 64 + (b1 - 128))%N).
    { unfold R. replace ((b0 - 224) * 4096 + (b1 - 128) * 64 + (b2 - 128))%N
        with (((b0 - 224) * 64 + (b1 - 128)) * 64 + (b2 - 128))%N by lia.
      apply div_add_small; lia. }
    assert (Q3 : (R mod 64 = b2 - 128)%N).
    { unfold R. replace ((b0 - 224) * 4096 + (b1 - 128) * 64 + (b2 - 128))%N
        with (((b0 - 224) * 64 + (b1 - 128)) * 64 + (b2 - 128))%N by lia.
      apply mod_add_small; lia. }
    rewrite Q1, Q2, Q3, mod_add_small by lia.
    replace (224 + (b0 - 224))%N with b0 by lia. replace (128 + (b1 - 128))%N with b1 by lia.
    replace (128 + (b2 - 128))%N with b2 by lia.
    unfold b0, b1, b2, str1. cbn. now rewrite !byte_bval. }
  destruct r2 as [|c3 r3]; [discriminate|]. pose proof (bval_lt c3) as B3.
  set (b3 := bval c3) in *. destruct (in_rng 240 244 b0) eqn:E3; [|discriminate].
  destruct (in_rng (if N.eqb b0 240 then 144 else 128) (if N.eqb b0 244 then 143 else 191) b1
            && is_cont b2 && is_cont b3)%bool eqn:C; [|discriminate].
  inversion H; subst. clear H Q. apply andb_true_iff in C as [C C3]. apply andb_true_iff in C as [C1 C2].
  apply in_rng_iff in E3. apply in_rng_iff in C1. apply in_rng_iff in C2. apply in_rng_iff in C3.
  set (R := ((b0 - 240) * 262144 + (b1 - 128) * 4096 + (b2 - 128) * 64 + (b3 - 128))%N).
  assert (L1 : (128 <= b1 <= 191)%N) by (destruct (N.eqb b0 240), (N.eqb b0 244); lia).
  assert (V : (65536 <= R)%N). { unfold R. destruct (N.eqb_spec b0 240); lia. }
  assert (V2 : (R <= 1114111)%N). { unfold R. destruct (N.eqb_spec b0 244); lia. }
  unfold encode_rune.
  rewrite (proj2 (N.ltb_ge R 128)) by lia. rewrite (proj2 (N.ltb_ge R 2048)) by lia.
  assert (V4 : in_rng 55296 57343 R = false).
  { destruct (in_rng 55296 57343 R) eqn:X; auto. apply in_rng_iff in X. lia. }
  rewrite V4. rewrite (proj2 (N.ltb_ge 1114111 R)) by lia. cbn [orb].
  rewrite (proj2 (N.ltb_ge R 65536)) by lia.
  assert (Q1 : (R / 262144 = b0 - 240)%N).
  { unfold R. replace ((b0 - 240) * 262144 + (b1 - 128) * 4096 + (b2 - 128) * 64 + (b3 - 128))%N
      with ((b0 - 240) * 262144 + ((b1 - 128) * 4096 + (b2 - 128) * 64 + (b3 - 128)))%N by lia.
    apply div_add_small; lia. }
  assert (Q2 : (R / 4096 = (b0 - 240) * 64 + (b1 - 128))%N).
  { unfold R. replace ((b0 - 240) * 262144 + (b1 - 128) * 4096 + (b2 - 128) * 64 + (b3 - 128))%N
      with (((b0 - 240) * 64 + (b1 - 128)) * 4096 + ((b2 - 128) * 64 + (b3 - 128)))%N by lia.
    apply div_add_small; lia. }
  assert (Q3 : (R / 64 = ((b0 - 240) * 64 + (b1 - 128)) * 64 + (b2 - 128))%N).
  { unfold R. replace ((b0 - 240) * 262144 + (b1 - 128) * 4096 + (b2 - 128) * 64 + (b3 - 128))%N
      with ((((b0 - 240) * 64 + (b1 - 128)) * 64 + (b2 - 128)) * 64 + (b3 - 128))%N by lia.
    apply div_add_small; lia. }
  assert (Q4 : (R mod 64 = b3 - 128)%N).
  { unfold R. replace ((b0 - 240) * 262144 + (b1 - 128) * 4096 + (b2 - 128) * 64 + (b3 - 128))%N
      with ((((b0 - 240) * 64 + (b1 - 128)) * 64 + (b2 - 128)) * 64 + (b3 - 128))%N by lia.
    apply mod_add_small; lia. }
  rewrite Q1, Q2, Q3, Q4, !mod_add_small by lia.
  replace (240 + (b0 - 240))%N with b0 by lia. replace (128 + (b1 - 128))%N with b1 by lia.
  replace (128 + (b2 - 128))%N with b2 by lia. replace (128 + (b3 - 128))%N with b3 by lia.
  unfold b0, b1, b2, b3, str1. cbn. now rewrite !byte_bval.
Qed.
