(** C62: the parser accepts exactly the texts of the grammar. *)
From Verif Require Export SpecJsonText.
From Verif Require Import Util CharsProofs LibProofs RegexProofs JsonProofs.
Local Open Scope string_scope.

Ltac each_char c := destruct c as [[|] [|] [|] [|] [|] [|] [|] [|]].
Lemma inside_in : forall c s, inside c s <-> In c (list_of_str s).
Proof.
  intros c s. split.
  - intros (a & b & ->). induction a as [|d a IH]; cbn; auto.
  - induction s as [|d s IH]; intros []; [subst; now exists "", s|]. destruct (IH H) as (a & b & ->). now exists (String d a), b.
Qed.
Lemma inside_cons : forall c d s, inside c (String d s) <-> c = d \/ inside c s.
Proof. intros c d s. rewrite !inside_in. cbn. intuition. Qed.
Lemma inside_app : forall c a b, inside c (a ++ b) <-> inside c a \/ inside c b.
Proof. intros c a b. induction a as [|d a IH]; cbn [String.append]; [split; auto; intros [H|H]; auto; apply inside_in in H; destruct H|]. rewrite !inside_cons, IH. tauto. Qed.
Lemma ws_iff : forall c, is_ws c = true <-> inside c (" " ++ str1 "009" ++ str1 "010" ++ str1 "013").
Proof.
  intros c. rewrite inside_in. unfold is_ws. rewrite existsb_exists. cbn [list_of_str String.append str1]. split.
  - intros (d & I & E). apply Ascii.eqb_eq in E. now subst.
  - intros I. exists c. split; auto. apply Ascii.eqb_refl.
Qed.
Lemma blank_iff : forall s, filler s <-> forall c, inside c s -> is_ws c = true.
Proof. intros s. unfold filler. split; intros H c I; [apply ws_iff|apply <- ws_iff || apply ws_iff]; auto. Qed.
Lemma blank_nil : filler "".
Proof. intros c I. apply inside_in in I. destruct I. Qed.
Lemma blank_cons : forall c s, filler (String c s) <-> is_ws c = true /\ filler s.
Proof.
  intros c s. rewrite !blank_iff. split.
  - intros H. split; [apply H; rewrite inside_cons; auto|]. intros d I. apply H. rewrite inside_cons. auto.
  - intros [H1 H2] d I. rewrite inside_cons in I. destruct I as [->|I]; auto.
Qed.
Lemma skip_blank : forall w s, filler w -> skip_ws (w ++ s) = skip_ws s.
Proof. induction w as [|c w IH]; intros s B; auto. apply blank_cons in B as [W B]. cbn [String.append skip_ws]. rewrite W. auto. Qed.
Definition starts (s : string) : Prop := match s with "" => True | String c _ => is_ws c = false end.
Lemma skip_split : forall s, exists w, s = w ++ skip_ws s /\ filler w /\ starts (skip_ws s).
Proof.
  induction s as [|c s IH]; [exists ""; cbn; auto using blank_nil|]. cbn [skip_ws]. destruct (is_ws c) eqn:W.
  - destruct IH as (w & E & B & S1). exists (String c w). split; [cbn; now f_equal|]. rewrite blank_cons. auto.
  - exists "". split; [reflexivity|]. split; [apply blank_nil|exact W].
Qed.
Lemma skip_starts : forall s, starts s -> skip_ws s = s.
Proof. intros [|c s] H; auto. cbn in *. now rewrite H. Qed.
Lemma skip_end : forall w c s, filler w -> is_ws c = false -> skip_ws (w ++ String c s) = String c s.
Proof. intros w c s B H. rewrite skip_blank by auto. cbn [skip_ws]. now rewrite H. Qed.
Lemma skip_nil_iff : forall s, skip_ws s = "" <-> filler s.
Proof.
  intros s. split.
  - intros E. destruct (skip_split s) as (w & Q & B & _). rewrite E, app_nil_r_s in Q. now subst.
  - intros B. rewrite <- (app_nil_r_s s). now rewrite skip_blank.
Qed.

(** ** Numbers *)
Lemma digit_iff : forall c, is_digit c = true <-> inside c digits.
Proof.
  intros c. rewrite inside_in. split.
  - intros H. each_char c; try discriminate H; vm_compute; tauto.
  - intros I. cbn in I. repeat (destruct I as [<-|I]; [reflexivity|]). destruct I.
Qed.
Lemma span_split : forall p s a b, span p s = (a, b) -> s = a ++ b /\ (forall c, inside c a -> p c = true) /\ (b = "" \/ exists c t, b = String c t /\ p c = false).
Proof.
  intros p. induction s as [|c s IH]; intros a b E.
  - inversion E; subst. repeat split; auto. intros c I. apply inside_in in I. destruct I.
  - cbn in E. destruct (p c) eqn:P.
    + destruct (span p s) as [a' b'] eqn:S1. inversion E; subst. destruct (IH _ _ eq_refl) as (-> & A & B). repeat split; auto. intros d I. apply inside_cons in I as [->|I]; auto.
    + inversion E; subst. repeat split; eauto. intros d I. apply inside_in in I. destruct I.
Qed.
Lemma span_app : forall p a b, (forall c, inside c a -> p c = true) -> (b = "" \/ exists c t, b = String c t /\ p c = false) -> span p (a ++ b) = (a, b).
Proof. intros p a b A B. apply span_all; auto. now apply forallb_inside. Qed.
Lemma some_digits_iff : forall s, some_digits s <-> s <> "" /\ forall c, inside c s -> is_digit c = true.
Proof. intros s. unfold some_digits. split; intros [N H]; split; auto; intros c I; apply digit_iff; auto. Qed.
Definition int_ok (i : string) : bool := match i with "" => false | String "0" "" => true | String "0" _ => false | _ => true end.
Definition minus (raw : string) : string := match raw with String "-" r => r | _ => raw end.
Definition frac (s : string) : bool * string := match s with String "." r => let '(f, r) := span is_digit r in (negb (String.eqb f ""), r) | _ => (true, s) end.
Definition unsign (r : string) : string := match r with String "+" r | String "-" r => r | _ => r end.
Definition expo (s : string) : bool :=
  match s with
  | "" => true
  | String c r => if (Ascii.eqb c "e" || Ascii.eqb c "E")%bool then let '(e, r) := span is_digit (unsign r) in (negb (String.eqb e "") && String.eqb r "")%bool else false
  end.
Lemma num_ok_eq : forall raw, num_ok raw = (let '(i, s) := span is_digit (minus raw) in let '(f, s) := frac s in (int_ok i && f && expo s)%bool).
Proof. reflexivity. Qed.
Lemma minus_split : forall raw, exists sign, raw = sign ++ minus raw /\ In sign [""; "-"].
Proof. intros [|c r]; [exists ""; cbn; auto|]. destruct (ascii_dec c "-") as [->|NE]; [exists "-"; cbn; auto|]. exists "". split; [|cbn; auto]. each_char c; try reflexivity; congruence. Qed.
Lemma minus_other : forall c r, c <> "-"%char -> minus (String c r) = String c r.
Proof. intros c r NE. each_char c; try reflexivity; congruence. Qed.
Lemma unsign_split : forall r, exists sign, r = sign ++ unsign r /\ In sign [""; "+"; "-"].
Proof.
  intros [|c r]; [exists ""; cbn; auto|]. destruct (ascii_dec c "-") as [->|NE]; [exists "-"; cbn; auto|]. destruct (ascii_dec c "+") as [->|NE']; [exists "+"; cbn; auto|].
  exists "". split; [|cbn; auto]. each_char c; try reflexivity; congruence.
Qed.
Lemma unsign_digits : forall ds, (forall c, inside c ds -> is_digit c = true) -> unsign ds = ds.
Proof.
  intros [|c r] H; auto. assert (D : is_digit c = true) by (apply H; rewrite inside_cons; auto). each_char c; try reflexivity; discriminate D.
Qed.
Lemma int_ok_iff : forall i, (forall c, inside c i -> is_digit c = true) -> int_ok i = true <-> whole i.
Proof.
  intros [|c r] H; [split; [discriminate|intros W; inversion W]|].
  assert (D : is_digit c = true) by (apply H; rewrite inside_cons; auto).
  destruct (ascii_dec c "0") as [->|NE].
  - split.
    + destruct r; [constructor|discriminate].
    + intros W. inversion W as [|? ? I F]; subst; auto. apply inside_in in I. cbn in I. intuition discriminate.
  - replace (int_ok (String c r)) with true by (each_char c; try reflexivity; congruence). split; auto. intros _. apply wh_other.
    + apply digit_iff in D. apply inside_in in D. rewrite inside_in. cbn in *. intuition congruence.
    + intros d I. apply digit_iff. apply H. rewrite inside_cons. auto.
Qed.
Lemma whole_digits : forall w, whole w -> forall c, inside c w -> is_digit c = true.
Proof.
  intros w W c I. destruct W as [|d s D F].
  - apply inside_in in I. cbn in I. destruct I as [<-|[]]. reflexivity.
  - apply inside_cons in I as [->|I]; apply digit_iff; auto. apply inside_in in D. rewrite inside_in. cbn in *. tauto.
Qed.
Lemma frac_other : forall c r, c <> "."%char -> frac (String c r) = (true, String c r).
Proof. intros c r NE. each_char c; try reflexivity; congruence. Qed.
Lemma eqb_nil : forall s, negb (String.eqb s "") = true <-> s <> "".
Proof. intros [|c s]; cbn; split; congruence. Qed.
Lemma frac_iff : forall s r, frac s = (true, r) -> exists f, s = f ++ r /\ fraction f.
Proof.
  intros [|c s] r E; [inversion E; exists ""; split; auto; now left|]. destruct (ascii_dec c ".") as [->|NE].
  - unfold frac in E. destruct (span is_digit s) as [f r'] eqn:S1. injection E as E1 E2. subst r'. apply span_split in S1 as (-> & D & _). apply eqb_nil in E1.
    exists ("." ++ f). split; [reflexivity|]. right. exists f. rewrite some_digits_iff. auto.
  - rewrite frac_other in E by auto. inversion E; subst. exists "". split; auto. now left.
Qed.
Lemma expo_iff : forall s, expo s = true <-> exponent s.
Proof.
  intros s. split.
  - destruct s as [|c r]; [intros _; now left|]. intros E. cbn [expo] in E. destruct (Ascii.eqb c "e" || Ascii.eqb c "E")%bool eqn:C; [|discriminate].
    destruct (span is_digit (unsign r)) as [e r'] eqn:S1. apply andb_true_iff in E as [E1 E2]. apply eqb_nil in E1. apply String.eqb_eq in E2. subst r'. apply span_split in S1 as (S1 & D & _). rewrite app_nil_r_s in S1.
    destruct (unsign_split r) as (sg & R & I). right. exists (String c ""), sg, e. rewrite S1 in R. split; [cbn; now rewrite R|]. split; [|split; [auto|rewrite some_digits_iff; auto]].
    apply orb_true_iff in C as [C|C]; apply Ascii.eqb_eq in C; subst; cbn; auto.
  - intros [->|(e & sg & ds & -> & I & J & D)]; [reflexivity|]. apply some_digits_iff in D as [N D].
    assert (U : unsign (sg ++ ds) = ds). { destruct J as [<-|[<-|[<-|[]]]]; [apply unsign_digits; auto|reflexivity|reflexivity]. }
    assert (S1 : span is_digit ds = (ds, "")). { rewrite <- (app_nil_r_s ds) at 1. apply span_app; auto. }
    destruct I as [<-|[<-|[]]]; cbn [expo String.append Ascii.eqb orb]; change (unsign (sg ++ ds)) with (unsign (sg ++ ds)); cbn -[unsign span]; rewrite U, S1; cbn; rewrite andb_true_r; now apply eqb_nil.
Qed.
Lemma num_iff : forall raw, num_ok raw = true <-> numeral raw.
Proof.
  intros raw. rewrite num_ok_eq. split.
  - destruct (span is_digit (minus raw)) as [i s] eqn:S1. destruct (frac s) as [f r] eqn:F. intros E. apply andb_true_iff in E as [E E3]. apply andb_true_iff in E as [E1 E2]. subst f.
    apply span_split in S1 as (S1 & D & _). apply frac_iff in F as (f & -> & F). apply expo_iff in E3. apply int_ok_iff in E1; auto. destruct (minus_split raw) as (sg & R & I). rewrite S1 in R.
    exists sg, i, f, r. auto.
  - intros (sg & w & f & e & -> & I & W & F & X).
    assert (M : minus (sg ++ w ++ f ++ e) = w ++ f ++ e).
    { destruct I as [<-|[<-|[]]]; [|reflexivity]. cbn [String.append]. destruct W as [|c s C D]; [reflexivity|]. apply minus_other. intros ->. apply inside_in in C. cbn in C. intuition discriminate. }
    rewrite M. pose proof (whole_digits _ W) as D.
    assert (HX : e = "" \/ exists c t, e = String c t /\ is_digit c = false /\ c <> "."%char).
    { destruct X as [->|(x & y & z & -> & J & _)]; [now left|]. right. destruct J as [<-|[<-|[]]]; do 2 eexists; (split; [reflexivity|split; [reflexivity|discriminate]]). }
    assert (HF : (f ++ e = "" \/ exists c t, f ++ e = String c t /\ is_digit c = false) /\ frac (f ++ e) = (true, e)).
    { destruct F as [->|(ds & -> & DS)].
      - cbn [String.append]. destruct HX as [->|(c & t & -> & C1 & C2)]; [split; auto|]. split; [right; eauto|]. now apply frac_other.
      - apply some_digits_iff in DS as [N DS]. split; [right; do 2 eexists; split; reflexivity|]. rewrite app_assoc_s. cbn [String.append]. unfold frac. rewrite span_app; auto.
        + apply eqb_nil in N. now rewrite N.
        + destruct HX as [->|(c & t & -> & C1 & C2)]; eauto. }
    destruct HF as [HF1 HF2]. rewrite span_app by auto. rewrite HF2. apply (int_ok_iff _ D) in W. rewrite W. apply expo_iff in X. now rewrite X.
Qed.
Ltac few J := apply inside_in in J; cbn in J; repeat (destruct J as [<-|J]; [reflexivity|]); destruct J.
Lemma numeral_chars : forall s, numeral s -> (forall c, inside c s -> num_char c = true) /\ exists c t, s = String c t /\ (is_digit c || Ascii.eqb c "-")%bool = true.
Proof.
  intros s (sg & w & f & e & -> & I & W & F & X). split.
  - assert (DN : forall d, is_digit d = true -> num_char d = true) by (intros d Q; unfold num_char; now rewrite Q).
    intros c J. apply inside_app in J as [J|J]; [destruct I as [<-|[<-|[]]]; few J|]. apply inside_app in J as [J|J].
    + apply DN. eapply whole_digits; eauto.
    + apply inside_app in J as [J|J].
      * destruct F as [->|(ds & -> & DS)]; [apply inside_in in J; destruct J|]. apply some_digits_iff in DS as [_ DS]. apply inside_cons in J as [->|J]; auto.
      * destruct X as [->|(x & y & z & -> & E & S1 & DS)]; [apply inside_in in J; destruct J|]. apply some_digits_iff in DS as [_ DS]. apply inside_app in J as [J|J].
        -- destruct E as [<-|[<-|[]]]; few J.
        -- apply inside_app in J as [J|J]; auto. destruct S1 as [<-|[<-|[<-|[]]]]; few J.
  - destruct I as [<-|[<-|[]]]; [|do 2 eexists; split; reflexivity]. destruct w as [|c w]; [inversion W|]. do 2 eexists. split; [reflexivity|]. rewrite (whole_digits _ W c); [reflexivity|]. rewrite inside_cons. auto.
Qed.

(** ** Strings *)
Fixpoint closed (esc : bool) (s : string) : bool :=
  match s with
  | "" => negb esc
  | String c r => if esc then closed false r else (negb (N.eqb (bval c) 34) && negb (N.ltb (bval c) 32) && closed (N.eqb (bval c) 92) r)%bool
  end.
Lemma dq_code : forall c, bval c = 34%N -> c = "034"%char.
Proof. intros c H. rewrite <- (byte_bval c), H. reflexivity. Qed.
Lemma bs_code : forall c, bval c = 92%N -> c = "\"%char.
Proof. intros c H. rewrite <- (byte_bval c), H. reflexivity. Qed.
Lemma str_end_iff : forall s esc raw r, str_end esc s = Some (raw, r) <-> s = raw ++ String "034" r /\ closed esc raw = true.
Proof.
  induction s as [|c s IH]; intros esc raw r.
  - split; [discriminate|]. intros [E _]. destruct raw; discriminate.
  - cbn [str_end]. assert (P : forall e, option_map (fun x : string * string => (String c (fst x), snd x)) (str_end e s) = Some (raw, r) <-> exists raw', raw = String c raw' /\ str_end e s = Some (raw', r)).
    { intros e. destruct (str_end e s) as [[a b]|]; cbn; [|split; [discriminate|intros (? & _ & ?); discriminate]]. split; [intros E; inversion E; eauto|]. intros (x & -> & E). inversion E; subst. reflexivity. }
    destruct esc; [rewrite P|].
    + split.
      * intros (x & -> & E). apply IH in E as [-> E]. auto.
      * intros [E C]. destruct raw as [|d raw]; [discriminate C|]. inversion E; subst. exists raw. split; auto. apply IH. auto.
    + destruct (N.eqb_spec (bval c) 34) as [E|NE].
      { apply dq_code in E. subst c. split; [intros E; inversion E; subst; auto|]. intros [E C]. destruct raw as [|d raw]; [now inversion E|]. inversion E; subst. discriminate C. }
      destruct (N.ltb_spec (bval c) 32) as [L|L].
      { split; [discriminate|]. intros [E C]. destruct raw as [|d raw]; inversion E; subst; [now elim NE|]. cbn [closed] in C. apply N.ltb_lt in L. rewrite L in C. cbn in C. rewrite andb_false_r in C. discriminate. }
      rewrite P. assert (Q : forall raw', closed false (String c raw') = closed (N.eqb (bval c) 92) raw').
      { intros x. cbn [closed]. apply N.eqb_neq in NE. apply N.ltb_ge in L. now rewrite NE, L. }
      split.
      * intros (x & -> & E). apply IH in E as [-> E]. now rewrite Q.
      * intros [E C]. destruct raw as [|d raw]; inversion E; subst; [now elim NE|]. rewrite Q in C. exists raw. split; auto. now apply IH.
Qed.
Lemma hex_some : forall c v, hex_val c = Some v -> hex_stands c (N.to_nat v).
Proof. intros c v H. unfold hex_stands. each_char c; try discriminate H; vm_compute in H; injection H as <-; vm_compute; auto. Qed.
Lemma hex_of : forall c i, hex_stands c i -> hex_val c = Some (N.of_nat i) /\ i < 16.
Proof.
  intros c i [H|H]; (pose proof (get_bound _ _ _ H) as B; cbn in B; split; [|lia]);
    repeat (destruct i as [|i]; [injection H as <-; reflexivity|]); lia.
Qed.
Lemma hex4_iff : forall s n, hex4 s = Some n <-> exists h r, s = h ++ r /\ four_digits h n.
Proof.
  intros s n. split.
  - intros H. destruct s as [|a [|b [|c [|d r]]]]; try discriminate. cbn [hex4] in H.
    destruct (hex_val a) as [va|] eqn:Ea; [|discriminate]. destruct (hex_val b) as [vb|] eqn:Eb; [|discriminate]. destruct (hex_val c) as [vc|] eqn:Ec; [|discriminate]. destruct (hex_val d) as [vd|] eqn:Ed; [|discriminate].
    injection H as H. exists (String a (String b (String c (String d "")))), r. split; [reflexivity|]. exists a, b, c, d, (N.to_nat va), (N.to_nat vb), (N.to_nat vc), (N.to_nat vd).
    repeat split; auto using hex_some. lia.
  - intros (h & r & -> & a & b & c & d & i & j & k & l & -> & A & B & C & D & ->). apply hex_of in A as [A _], B as [B _], C as [C _], D as [D _]. cbn [String.append hex4]. rewrite A, B, C, D. f_equal. lia.
Qed.
Lemma four_length : forall h n, four_digits h n -> slen h = 4 /\ (n < 0x10000)%N /\ forall c, inside c h -> (48 <= bval c)%N /\ bval c <> 92%N.
Proof.
  intros h n (a & b & c & d & i & j & k & l & -> & A & B & C & D & ->). split; [reflexivity|].
  assert (X : forall c i, hex_stands c i -> (48 <= bval c)%N /\ bval c <> 92%N).
  { intros e m Q. apply hex_of in Q as [Q _]. each_char e; try discriminate Q; vm_compute; split; congruence. }
  pose proof (X _ _ A). pose proof (X _ _ B). pose proof (X _ _ C). pose proof (X _ _ D). apply hex_of in A as [_ A], B as [_ B], C as [_ C], D as [_ D]. split; [lia|].
  intros e I. apply inside_in in I. cbn in I. destruct I as [<-|[<-|[<-|[<-|[]]]]]; auto.
Qed.
Lemma four_fun : forall h n m, four_digits h n -> four_digits h m -> n = m.
Proof.
  intros h n m A B. assert (X : hex4 h = Some n) by (apply hex4_iff; exists h, ""; rewrite app_nil_r_s; auto). assert (Y : hex4 h = Some m) by (apply hex4_iff; exists h, ""; rewrite app_nil_r_s; auto). congruence.
Qed.
Lemma esc_iff : forall e b, esc_char e = Some b <-> exists n, In (e, n) short_forms /\ b = ascii_of_nat n.
Proof.
  intros e b. split.
  - intros H. each_char e; try discriminate H; vm_compute in H; injection H as <-; eexists; (split; [vm_compute; tauto|reflexivity]).
  - intros (n & I & ->). cbn in I. repeat (destruct I as [E|I]; [injection E as <- <-; reflexivity|]). destruct I.
Qed.
Lemma unesc_skip : forall k s, unesc k s = unesc 0 (drop k s).
Proof. intros k s. revert k. induction s as [|c s IH]; intros [|k]; auto. cbn [drop]. rewrite <- IH. reflexivity. Qed.
Lemma low_iff : forall s m, low_half s = Some m <-> exists h r, s = "\u" ++ h ++ r /\ four_digits h m /\ low m.
Proof.
  intros s m. split.
  - intros H. destruct s as [|a [|b r]]; [discriminate|each_char a; discriminate|].
    destruct (ascii_dec a "\") as [->|NA]; [|each_char a; try discriminate H; congruence]. destruct (ascii_dec b "u") as [->|NB]; [|each_char b; try discriminate H; congruence].
    cbn [low_half] in H. destruct (hex4 r) as [n|] eqn:E; [|discriminate]. destruct (in_rng 0xDC00 0xDFFF n) eqn:R; [|discriminate]. injection H as ->. apply hex4_iff in E as (h & t & -> & F). exists h, t. split; auto. split; auto.
    unfold in_rng in R. unfold low. apply andb_true_iff in R as [R1 R2]. apply N.leb_le in R1, R2. lia.
  - intros (h & r & -> & F & L). cbn [String.append low_half]. assert (E : hex4 (h ++ r) = Some m) by (apply hex4_iff; eauto). rewrite E. assert (R : in_rng 0xDC00 0xDFFF m = true) by (unfold in_rng; unfold low in L; apply andb_true_iff; split; apply N.leb_le; lia). now rewrite R.
Qed.
Lemma rng_iff : forall a b n, in_rng a b n = true <-> (a <= n <= b)%N.
Proof. intros a b n. unfold in_rng. rewrite andb_true_iff, !N.leb_le. tauto. Qed.
Lemma rng_not : forall a b n, in_rng a b n = false <-> ~ (a <= n <= b)%N.
Proof. intros a b n. rewrite <- rng_iff. destruct (in_rng a b n); split; congruence. Qed.
Lemma closed_hex : forall h n r, four_digits h n -> closed false (h ++ r) = closed false r.
Proof.
  intros h n r F. apply four_length in F as (_ & _ & H). revert H. induction h as [|c h IH]; intros H; auto. cbn [String.append closed].
  destruct (H c) as [H1 H2]; [rewrite inside_cons; auto|].
  replace (N.eqb (bval c) 34) with false by (symmetry; apply N.eqb_neq; lia). replace (N.ltb (bval c) 32) with false by (symmetry; apply N.ltb_ge; lia). replace (N.eqb (bval c) 92) with false by (symmetry; apply N.eqb_neq; auto). cbn [negb andb]. apply IH. intros d I. apply H. rewrite inside_cons. auto.
Qed.
Lemma drop4 : forall h n s, four_digits h n -> drop 4 (h ++ s) = s.
Proof. intros h n s F. apply four_length in F as (L & _). rewrite <- L. apply drop_app. Qed.
Lemma unesc_u : forall h n s, four_digits h n -> unesc 0 ("\u" ++ h ++ s) =
  if in_rng 0xD800 0xDFFF n then
    match (if in_rng 0xD800 0xDBFF n then low_half s else None) with
    | Some m => option_map (String.append (encode_rune ((n - 0xD800) * 1024 + (m - 0xDC00) + 0x10000)%N)) (unesc 0 (drop 6 s))
    | None => option_map (String.append error_rune_text) (unesc 0 s)
    end
  else option_map (String.append (encode_rune n)) (unesc 0 s).
Proof.
  intros h n s F. assert (E : hex4 (h ++ s) = Some n) by (apply hex4_iff; eauto). pose proof (drop4 _ _ s F) as D.
  assert (D10 : drop 10 (h ++ s) = drop 6 s). { assert (T : forall t, drop 10 t = drop 6 (drop 4 t)) by (intros [|? [|? [|? [|? t]]]]; reflexivity). now rewrite T, D. }
  cbn [String.append]. cbn [unesc]. change (N.eqb (bval "\") 92) with true. cbv iota. change (esc_char "u") with (@None ascii). cbv iota. change (negb (N.eqb (bval "u") 117)) with false. cbv iota. rewrite E, D.
  rewrite !(unesc_skip 4), !(unesc_skip 10), D, D10. reflexivity.
Qed.
Lemma error_text : utf8 0xFFFD error_rune_text.
Proof. assert (E : error_rune_text = encode_rune 0xFFFD) by reflexivity. rewrite E. apply encode_scalar. unfold scalar. lia. Qed.
Lemma map_append : forall u o (t : string), option_map (String.append u) o = Some t <-> exists t', o = Some t' /\ t = u ++ t'.
Proof. intros u [x|] t; cbn; split; intros H; [injection H as <-; eauto|destruct H as (t' & E & ->); congruence|discriminate|destruct H as (? & ? & _); discriminate]. Qed.
Lemma spelling_read : forall raw t, spelling raw t -> unesc 0 raw = Some t /\ closed false raw = true.
Proof.
  intros raw t H. induction H as [|c s t C1 C2 C3 _ [U C]|c n s t I _ [U C]|h n u s t F NH NL X _ [U C]|h n g m u s t F HI G LO X _ [U C]|h n u s t F HL X _ [U C]].
  - auto.
  - assert (B1 : N.eqb (bval c) 34 = false) by (apply N.eqb_neq; intros Q; apply C2; now apply dq_code). assert (B2 : N.eqb (bval c) 92 = false) by (apply N.eqb_neq; intros Q; apply C3; now apply bs_code).
    assert (B3 : N.ltb (bval c) 32 = false). { apply N.ltb_ge. unfold bval, nat_of_ascii in *. lia. }
    cbn [unesc closed]. rewrite B1, B2, B3, U, C. auto.
  - cbn [String.append]. split.
    + cbn [unesc]. change (N.eqb (bval "\") 92) with true. cbv iota. assert (E : esc_char c = Some (ascii_of_nat n)) by (apply esc_iff; eauto). rewrite E. rewrite unesc_skip. cbn [drop]. now rewrite U.
    + cbn [closed]. change (N.eqb (bval "\") 92) with true. exact C.
  - rewrite (unesc_u _ _ _ F). assert (R : in_rng 0xD800 0xDFFF n = false) by (apply rng_not; unfold high, low in *; lia). rewrite R, U. cbn [option_map].
    split; [|cbn [String.append closed]; change (N.eqb (bval "\") 92) with true; cbn [closed]; rewrite (closed_hex _ _ _ F); exact C]. f_equal. f_equal. apply (utf8_fun n); auto. apply encode_scalar. apply four_length in F as (_ & F & _). unfold scalar, high, low in *. lia.
  - rewrite (unesc_u _ _ _ F). assert (R : in_rng 0xD800 0xDFFF n = true) by (apply rng_iff; unfold high, low in *; lia). assert (R2 : in_rng 0xD800 0xDBFF n = true) by (apply rng_iff; unfold high, low in *; lia). rewrite R, R2.
    assert (L : low_half ("\u" ++ g ++ s) = Some m) by (apply low_iff; eauto). rewrite L.
    assert (D6 : drop 6 ("\u" ++ g ++ s) = s) by exact (drop4 _ _ s G). rewrite D6, U. cbn [option_map]. split.
    + f_equal. f_equal. refine (utf8_fun _ _ _ _ X). replace ((n - 55296) * 1024 + (m - 56320) + 65536)%N with (65536 + (n - 55296) * 1024 + (m - 56320))%N by lia. apply encode_scalar. unfold scalar, high, low in *. lia.
    + cbn [String.append closed]. change (N.eqb (bval "\") 92) with true. cbn [closed]. rewrite (closed_hex _ _ _ F). cbn [closed]. change (N.eqb (bval "\") 92) with true. cbn [closed]. rewrite (closed_hex _ _ _ G). exact C.
  - rewrite (unesc_u _ _ _ F). assert (R : in_rng 0xD800 0xDFFF n = true) by (apply rng_iff; unfold high, low in *; lia). rewrite R.
    assert (L : (if in_rng 0xD800 0xDBFF n then low_half s else None) = None).
    { destruct (in_rng 0xD800 0xDBFF n) eqn:R2; auto. apply rng_iff in R2. destruct HL as [[HI NS]|LO]; [|unfold low in LO; lia]. destruct (low_half s) as [m|] eqn:Q; auto. elim NS. apply low_iff in Q as (g & r & E & G & LO). exists g, m, r. auto. }
    rewrite L, U. cbn [option_map]. split; [f_equal; f_equal; apply (utf8_fun 0xFFFD); auto using error_text|].
    cbn [String.append closed]. change (N.eqb (bval "\") 92) with true. cbn [closed]. rewrite (closed_hex _ _ _ F). exact C.
Qed.
Lemma spelling_found : forall n raw t, slen raw <= n -> unesc 0 raw = Some t -> closed false raw = true -> spelling raw t.
Proof.
  induction n as [|n IH]; intros raw t L U C.
  { destruct raw; [injection U as <-; apply li_end|cbn in L; lia]. }
  destruct raw as [|c s]; [injection U as <-; apply li_end|].
  cbn [slen] in L. destruct (N.eqb_spec (bval c) 92) as [E|NE].
  - apply bs_code in E. subst c. destruct s as [|e s]; [discriminate C|]. cbn [slen] in L. destruct (esc_char e) as [b|] eqn:X.
    + cbn [unesc] in U. change (N.eqb (bval "\") 92) with true in U. cbv iota in U. rewrite X in U. rewrite unesc_skip in U. cbn [drop] in U. destruct (unesc 0 s) as [t'|] eqn:U'; [|discriminate]. injection U as <-.
      apply esc_iff in X as (k & I & ->). apply (li_short e k s t' I). apply IH; [cbn in L; lia|exact U'|]. cbn [closed] in C. change (N.eqb (bval "\") 92) with true in C. exact C.
    + destruct (ascii_dec e "u") as [->|NU]; [|cbn [unesc] in U; change (N.eqb (bval "\") 92) with true in U; cbv iota in U; rewrite X in U; destruct (N.eqb_spec (bval e) 117) as [Q|]; [elim NU; rewrite <- (byte_bval e), Q; reflexivity|discriminate U]].
      destruct (hex4 s) as [m|] eqn:H4; [|cbn [unesc] in U; change (N.eqb (bval "\") 92) with true in U; cbv iota in U; rewrite X, H4 in U; discriminate U].
      apply hex4_iff in H4 as (h & r & -> & F). change (String "\" (String "u" (h ++ r))) with ("\u" ++ h ++ r) in *. rewrite (unesc_u _ _ _ F) in U.
      cbn [String.append closed] in C. change (N.eqb (bval "\") 92) with true in C. cbn [closed] in C. rewrite (closed_hex _ _ _ F) in C. cbn in C. cbn [slen] in L. rewrite app_slen in L. destruct (four_length _ _ F) as (LF & BF & _).
      destruct (in_rng 0xD800 0xDFFF m) eqn:R.
      * apply rng_iff in R. destruct (in_rng 0xD800 0xDBFF m) eqn:R2.
        -- apply rng_iff in R2. destruct (low_half r) as [k|] eqn:LH.
           ++ apply low_iff in LH as (g & q & -> & G & LO). assert (D6 : drop 6 ("\u" ++ g ++ q) = q) by exact (drop4 _ _ q G). rewrite D6 in U. apply map_append in U as (t' & U & ->).
              refine (li_pair h m g k _ q t' F _ G LO _ _).
              ** unfold high. lia.
              ** replace ((m - 55296) * 1024 + (k - 56320) + 65536)%N with (65536 + (m - 55296) * 1024 + (k - 56320))%N by lia. apply encode_scalar. unfold scalar, low in *. lia.
              ** apply IH; [rewrite !app_slen in L; cbn in L; lia|exact U|]. cbn [String.append closed] in C. change (N.eqb (bval "\") 92) with true in C. cbn [closed] in C. rewrite (closed_hex _ _ _ G) in C. exact C.
           ++ apply map_append in U as (t' & U & ->). refine (li_lone h m _ r t' F _ error_text _); [|apply IH; auto; lia]. left. split; [unfold high; lia|]. intros (g & k & q & -> & G & LO).
              assert (Q : low_half ("\u" ++ g ++ q) = Some k) by (apply low_iff; eauto). congruence.
        -- apply rng_not in R2. apply map_append in U as (t' & U & ->). refine (li_lone h m _ r t' F _ error_text _); [|apply IH; auto; lia]. right. unfold low. lia.
      * apply rng_not in R. apply map_append in U as (t' & U & ->). refine (li_unicode h m _ r t' F _ _ _ _); [unfold high; lia|unfold low; lia| |apply IH; auto; lia]. apply encode_scalar. unfold scalar. lia.
  - cbn [unesc closed] in U, C. apply N.eqb_neq in NE. rewrite NE in U, C. apply N.eqb_neq in NE. destruct (unesc 0 s) as [t'|] eqn:U'; [|discriminate]. injection U as <-. apply andb_true_iff in C as [C C3]. apply andb_true_iff in C as [C1 C2].
    apply li_char; [| | |apply IH; auto; lia].
    + apply negb_true_iff, N.ltb_ge in C2. unfold bval in C2. unfold nat_of_ascii. lia.
    + intros ->. discriminate C1.
    + intros ->. now elim NE.
Qed.
Lemma repaired_iff : forall s t, repaired s t <-> to_valid s = t.
Proof.
  intros s t. unfold repaired, to_valid. split.
  - intros (l & ts & C & F & ->). f_equal. apply texts_exact. eauto.
  - intros <-. destruct (proj1 (texts_exact s _) eq_refl) as (l & C & F). eauto.
Qed.
Lemma pstr_iff : forall s x r, pstr s = Some (x, r) <-> exists q, String "034" s = q ++ r /\ quoted q x.
Proof.
  intros s x r. unfold pstr. split.
  - destruct (str_end false s) as [[raw r']|] eqn:S1; [|discriminate]. destruct (unesc 0 raw) as [t|] eqn:U; [|discriminate]. intros E. injection E as <- <-. apply str_end_iff in S1 as [-> C].
    exists (String "034" (raw ++ String "034" "")). split; [cbn [String.append]; now rewrite app_assoc_s|]. exists raw, t. split; auto. split; [now apply (spelling_found (slen raw))|now apply repaired_iff].
  - intros (q & E & raw & t & -> & S1 & R). cbn [String.append] in E. injection E as E. rewrite app_assoc_s in E. cbn [String.append] in E. apply spelling_read in S1 as [U C].
    assert (Q : str_end false s = Some (raw, r)) by (apply str_end_iff; auto). rewrite Q, U. apply repaired_iff in R. now rewrite R.
Qed.

(** ** Values *)
Lemma two_close : forall (X : Type) (A B : string -> option X) s x, match s with String "," r => A r | String "]" r => B r | _ => None end = Some x ->
  (exists q, s = String "," q /\ A q = Some x) \/ (exists q, s = String "]" q /\ B q = Some x).
Proof. intros X A B [|c q] x H; [discriminate|]. each_char c; try discriminate H; eauto. Qed.
Lemma two_close2 : forall (X : Type) (A B : string -> option X) s x, match s with String "," r => A r | String "}" r => B r | _ => None end = Some x ->
  (exists q, s = String "," q /\ A q = Some x) \/ (exists q, s = String "}" q /\ B q = Some x).
Proof. intros X A B [|c q] x H; [discriminate|]. each_char c; try discriminate H; eauto. Qed.
Lemma one_colon : forall (X : Type) (A : string -> option X) s x, match s with String ":" r => A r | _ => None end = Some x -> exists q, s = String ":" q /\ A q = Some x.
Proof. intros X A [|c q] x H; [discriminate|]. each_char c; try discriminate H; eauto. Qed.
Lemma one_quote : forall (X : Type) (A : string -> option X) s x, match s with String "034" r => A r | _ => None end = Some x -> exists q, s = String "034" q /\ A q = Some x.
Proof. intros X A [|c q] x H; [discriminate|]. each_char c; try discriminate H; eauto. Qed.
Lemma maybe_close : forall (X : Type) (A : string -> X) (b : X) s, (exists q, s = String "]" q /\ match s with String "]" r => A r | _ => b end = A q) \/ (match s with String "]" r => A r | _ => b end = b /\ forall q, s <> String "]" q).
Proof. intros X A b [|c q]; [right; split; [auto|discriminate]|]. each_char c; try (right; split; [reflexivity|discriminate]). left. eauto. Qed.
Lemma maybe_close2 : forall (X : Type) (A : string -> X) (b : X) s, (exists q, s = String "}" q /\ match s with String "}" r => A r | _ => b end = A q) \/ (match s with String "}" r => A r | _ => b end = b /\ forall q, s <> String "}" q).
Proof. intros X A b [|c q]; [right; split; [auto|discriminate]|]. each_char c; try (right; split; [reflexivity|discriminate]). left. eauto. Qed.
Lemma after_iff : forall p s r, after p s = Some r <-> s = p ++ r.
Proof.
  intros p s r. unfold after. split.
  - destruct (prefix p s) eqn:P; [|discriminate]. intros E. injection E as <-. apply prefix_iff in P as (q & ->). now rewrite drop_app.
  - intros ->. assert (P : prefix p (p ++ r) = true) by (apply prefix_iff; eauto). now rewrite P, drop_app.
Qed.
Lemma map_fst : forall (A B : Type) (g : A -> B) o (j : B) (r : string), option_map (fun x : A * string => (g (fst x), snd x)) o = Some (j, r) -> exists a, o = Some (a, r) /\ j = g a.
Proof. intros A B g [[a q]|] j r E; [|discriminate]. injection E as <- <-. eauto. Qed.
Lemma succ_pred : forall d, N.eqb d 0 = false -> N.succ (N.pred d) = d.
Proof. intros d H. apply N.eqb_neq in H. lia. Qed.
Lemma read_sound : forall fuel,
  (forall d s j r, pval fuel d s = Some (j, r) -> exists w t, s = w ++ t ++ r /\ filler w /\ value d t j) /\
  (forall d s l r, pelems fuel d s = Some (l, r) -> exists t, s = t ++ String "]" r /\ elements d t l) /\
  (forall d s l r, pmembers fuel d s = Some (l, r) -> exists t, s = t ++ String "}" r /\ members d t l).
Proof.
  induction fuel as [|f (IHv & IHe & IHm)]; [repeat split; intros; discriminate|]. split; [|split].
  - intros d s j r E. cbn [pval] in E. destruct (skip_split s) as (w & S1 & B & S2). remember (skip_ws s) as u eqn:U. clear U. subst s. exists w. destruct u as [|c q]; [discriminate|].
    destruct (N.eqb_spec (bval c) 34) as [Q|NQ].
    { apply dq_code in Q. subst c. apply map_fst in E as (x & E & ->). apply pstr_iff in E as (p & -> & P). exists p. split; auto. split; auto. now apply va_str. }
    destruct (Ascii.eqb_spec c "[") as [->|N1].
    { destruct (N.eqb d 0) eqn:D; [discriminate|]. rewrite <- (succ_pred d D). destruct (skip_split q) as (v & S3 & B3 & _). remember (skip_ws q) as u eqn:U.
      destruct (maybe_close _ (fun r' => Some (JArr [], r')) (option_map (fun x : list json * string => (JArr (fst x), snd x)) (pelems f (N.pred d) q)) u) as [(p & -> & Q)|[Q _]].
      - cbv beta in Q. injection E as <- <-. exists ("[" ++ v ++ "]"). rewrite S3. split; [cbn [String.append]; now rewrite app_assoc_s|]. split; auto. now apply va_none.
      - rewrite Q in E. apply map_fst in E as (l & E & ->). apply IHe in E as (t & -> & T). exists ("[" ++ t ++ "]"). split; [cbn [String.append]; now rewrite app_assoc_s|]. split; auto. now apply va_arr. }
    destruct (Ascii.eqb_spec c "{") as [->|N2].
    { destruct (N.eqb d 0) eqn:D; [discriminate|]. rewrite <- (succ_pred d D). destruct (skip_split q) as (v & S3 & B3 & _). remember (skip_ws q) as u eqn:U.
      destruct (maybe_close2 _ (fun r' => Some (JObj [], r')) (option_map (fun x : list (string * json) * string => (JObj (fst x), snd x)) (pmembers f (N.pred d) q)) u) as [(p & -> & Q)|[Q _]].
      - cbv beta in Q. injection E as <- <-. exists ("{" ++ v ++ "}"). rewrite S3. split; [cbn [String.append]; now rewrite app_assoc_s|]. split; auto. now apply va_empty.
      - rewrite Q in E. apply map_fst in E as (l & E & ->). apply IHm in E as (t & -> & T). exists ("{" ++ t ++ "}"). split; [cbn [String.append]; now rewrite app_assoc_s|]. split; auto. now apply va_obj. }
    destruct (is_digit c || Ascii.eqb c "-")%bool.
    { destruct (span num_char (String c q)) as [raw q'] eqn:S3. destruct (num_ok raw) eqn:O; [|discriminate]. injection E as <- <-. apply span_split in S3 as (S3 & _ & _). exists raw. rewrite S3. split; auto. split; auto. apply va_num. now apply num_iff. }
    destruct (after "null" (String c q)) as [r1|] eqn:A1.
    { injection E as <- <-. apply after_iff in A1. exists "null". rewrite A1. split; auto. split; auto. apply va_null. }
    destruct (after "true" (String c q)) as [r2|] eqn:A2.
    { injection E as <- <-. apply after_iff in A2. exists "true". rewrite A2. split; auto. split; auto. apply va_true. }
    destruct (after "false" (String c q)) as [r3|] eqn:A3; [|discriminate].
    injection E as <- <-. apply after_iff in A3. exists "false". rewrite A3. split; auto. split; auto. apply va_false.
  - intros d s l r E. cbn [pelems] in E. destruct (pval f d s) as [[v q]|] eqn:V; [|discriminate]. apply IHv in V as (w & t & -> & W & T). destruct (skip_split q) as (x & S1 & X & _). remember (skip_ws q) as u eqn:U. clear U. subst q.
    apply two_close in E as [(p & -> & E)|(p & -> & E)].
    + apply map_fst in E as (l' & E & ->). apply IHe in E as (t' & -> & T'). exists (w ++ t ++ x ++ "," ++ t'). split; [now rewrite !app_assoc_s|]. now apply el_more.
    + injection E as <- <-. exists (w ++ t ++ x). split; [now rewrite !app_assoc_s|]. now apply el_one.
  - intros d s l r E. cbn [pmembers] in E. destruct (skip_split s) as (w & S1 & W & _). remember (skip_ws s) as u eqn:U. clear U. subst s. apply one_quote in E as (q & -> & E).
    destruct (pstr q) as [[k r1]|] eqn:P; [|discriminate]. apply pstr_iff in P as (qs & -> & QS). destruct (skip_split r1) as (v & S1 & V & _). remember (skip_ws r1) as u eqn:U. clear U. subst r1. apply one_colon in E as (q2 & -> & E).
    destruct (pval f d q2) as [[j r2]|] eqn:P; [|discriminate]. apply IHv in P as (w2 & t & -> & W2 & T). destruct (skip_split r2) as (x & S1 & X & _). remember (skip_ws r2) as u eqn:U. clear U. subst r2.
    assert (M : member_of d (w ++ qs ++ v ++ ":" ++ w2 ++ t ++ x) k j) by now apply mb.
    apply two_close2 in E as [(p & -> & E)|(p & -> & E)].
    + apply (map_fst _ _ (fun z => (k, j) :: z)%list) in E as (l' & E & ->). apply IHm in E as (t' & -> & T'). exists ((w ++ qs ++ v ++ ":" ++ w2 ++ t ++ x) ++ "," ++ t'). split; [now rewrite !app_assoc_s|]. now apply me_more.
    + injection E as <- <-. exists (w ++ qs ++ v ++ ":" ++ w2 ++ t ++ x). split; [now rewrite !app_assoc_s|]. now apply me_one.
Qed.
Scheme value_mut := Induction for value Sort Prop
  with elements_mut := Induction for elements Sort Prop
  with members_mut := Induction for members Sort Prop
  with member_of_mut := Induction for member_of Sort Prop.
Combined Scheme json_mut from value_mut, elements_mut, members_mut, member_of_mut.
Lemma quoted_first : forall q x, quoted q x -> exists t, q = String "034" t.
Proof. intros q x (raw & t & -> & _). eauto. Qed.
Lemma value_first : forall d s j, value d s j -> exists c t, s = String c t /\ is_ws c = false /\ c <> "]"%char /\ c <> "}"%char.
Proof.
  intros d s j V. destruct V as [d|d|d|d s N1|d s x Q|d w B|d s l E|d w B|d s l M]; try (do 2 eexists; split; [reflexivity|]; repeat split; discriminate).
  - apply numeral_chars in N1 as [C (c & t & -> & _)]. exists c, t. split; auto. specialize (C c). rewrite inside_cons in C. specialize (C (or_introl eq_refl)). each_char c; try discriminate C; repeat split; discriminate.
  - apply quoted_first in Q as (t & ->). do 2 eexists; split; [reflexivity|]; repeat split; discriminate.
Qed.
Lemma filler_stop : forall w c r, filler w -> num_char c = false -> stop (w ++ String c r).
Proof. intros [|d w] c r W N1; cbn [String.append]; apply stop_c; auto. apply blank_cons in W as [W _]. each_char d; try discriminate W; reflexivity. Qed.
Lemma read_complete :
  (forall d t j, value d t j -> forall fuel w r, slen t <= fuel -> filler w -> (forall raw, j = JNum raw -> stop r) -> pval fuel d (w ++ t ++ r) = Some (j, r)) /\
  (forall d t l, elements d t l -> forall fuel r, slen t < fuel -> pelems fuel d (t ++ String "]" r) = Some (l, r) /\ exists c q, skip_ws (t ++ String "]" r) = String c q /\ c <> "]"%char) /\
  (forall d t l, members d t l -> forall fuel r, slen t < fuel -> pmembers fuel d (t ++ String "}" r) = Some (l, r) /\ exists q, skip_ws (t ++ String "}" r) = String "034" q) /\
  (forall d m k j, member_of d m k j -> exists u q v rest x, m = u ++ String "034" q ++ v ++ ":" ++ rest ++ x /\ filler u /\ quoted (String "034" q) k /\ filler v /\ filler x /\
     forall fuel r, slen m <= fuel -> stop r -> pval fuel d (rest ++ r) = Some (j, r)).
Proof.
  apply json_mut.
  - intros d fuel w r L W S1. destruct fuel as [|f]; [cbn in L; lia|]. cbn [pval]. rewrite skip_blank by auto. destruct d, r; reflexivity.
  - intros d fuel w r L W S1. destruct fuel as [|f]; [cbn in L; lia|]. cbn [pval]. rewrite skip_blank by auto. destruct d, r; reflexivity.
  - intros d fuel w r L W S1. destruct fuel as [|f]; [cbn in L; lia|]. cbn [pval]. rewrite skip_blank by auto. destruct d, r; reflexivity.
  - intros d s N1 fuel w r L W S1. specialize (S1 s eq_refl). pose proof (va_num d s N1) as V. apply value_first in V as (c0 & t0 & E0 & W0 & _ & _). apply num_iff in N1 as O. apply numeral_chars in N1 as [C (c & t & -> & F)]. injection E0 as <- <-.
    destruct fuel as [|f]; [cbn in L; lia|]. cbn [pval]. rewrite skip_blank by auto. cbn [String.append skip_ws]. rewrite W0.
    assert (NC : num_char c = true) by (apply C; rewrite inside_cons; auto).
    assert (X : N.eqb (bval c) 34 = false /\ Ascii.eqb c "[" = false /\ Ascii.eqb c "{" = false).
    { repeat split; [apply N.eqb_neq; intros Q|apply Ascii.eqb_neq; intros ->; discriminate NC|apply Ascii.eqb_neq; intros ->; discriminate NC]. apply dq_code in Q. subst c. discriminate NC. }
    destruct X as (-> & -> & ->). rewrite F. change (String c (t ++ r)) with (String c t ++ r). rewrite span_app by auto. now rewrite O.
  - intros d s x Q fuel w r L W S1. destruct (quoted_first _ _ Q) as (t & ->). destruct fuel as [|f]; [cbn in L; lia|]. cbn [pval]. rewrite skip_blank by auto. cbn [String.append skip_ws]. change (is_ws "034") with false. cbv iota.
    change (N.eqb (bval "034") 34) with true. cbv iota. assert (P : pstr (t ++ r) = Some (x, r)) by (apply pstr_iff; exists (String "034" t); auto). now rewrite P.
  - intros d v V fuel w r L W S1. destruct fuel as [|f]; [cbn in L; lia|]. cbn [pval]. rewrite skip_blank by auto. rewrite !app_assoc_s. cbn [String.append skip_ws]. change (is_ws "[") with false. cbv iota. change (N.eqb (bval "[") 34) with false. change (Ascii.eqb "[" "[") with true. cbv iota.
    replace (N.eqb (N.succ d) 0) with false by (symmetry; apply N.eqb_neq; lia). rewrite skip_end by auto. reflexivity.
  - intros d s l E IH fuel w r L W S1. cbn [slen String.append] in L. rewrite app_slen in L. cbn in L. destruct fuel as [|f]; [lia|]. cbn [pval]. rewrite skip_blank by auto. rewrite !app_assoc_s. cbn [String.append skip_ws]. change (is_ws "[") with false. cbv iota. change (N.eqb (bval "[") 34) with false. change (Ascii.eqb "[" "[") with true. cbv iota.
    replace (N.eqb (N.succ d) 0) with false by (symmetry; apply N.eqb_neq; lia). rewrite N.pred_succ. destruct (IH f r) as [P (c & q & SK & NC)]; [lia|]. rewrite (not_close _ _ _ _ _ _ SK) by auto. rewrite P. reflexivity.
  - intros d v V fuel w r L W S1. destruct fuel as [|f]; [cbn in L; lia|]. cbn [pval]. rewrite skip_blank by auto. rewrite !app_assoc_s. cbn [String.append skip_ws]. change (is_ws "{") with false. cbv iota. change (N.eqb (bval "{") 34) with false. change (Ascii.eqb "{" "[") with false. change (Ascii.eqb "{" "{") with true. cbv iota.
    replace (N.eqb (N.succ d) 0) with false by (symmetry; apply N.eqb_neq; lia). rewrite skip_end by auto. reflexivity.
  - intros d s l E IH fuel w r L W S1. cbn [slen String.append] in L. rewrite app_slen in L. cbn in L. destruct fuel as [|f]; [lia|]. cbn [pval]. rewrite skip_blank by auto. rewrite !app_assoc_s. cbn [String.append skip_ws]. change (is_ws "{") with false. cbv iota. change (N.eqb (bval "{") 34) with false. change (Ascii.eqb "{" "[") with false. change (Ascii.eqb "{" "{") with true. cbv iota.
    replace (N.eqb (N.succ d) 0) with false by (symmetry; apply N.eqb_neq; lia). rewrite N.pred_succ. destruct (IH f r) as [P (q & SK)]; [lia|]. rewrite (not_close2 _ _ _ _ _ _ SK) by discriminate. rewrite P. reflexivity.
  - intros d v s w j V W X IH fuel r L. rewrite !app_slen in L. destruct fuel as [|f]; [lia|]. split.
    + cbn [pelems]. rewrite !app_assoc_s. rewrite IH by (auto; try lia; intros; apply filler_stop; auto). rewrite skip_end by auto. reflexivity.
    + destruct (value_first _ _ _ X) as (c & t & -> & C1 & C2 & _). rewrite !app_assoc_s, skip_blank by auto. cbn [String.append skip_ws]. rewrite C1. eauto.
  - intros d v s w j r0 l V W X IH E IHe fuel r L. rewrite !app_slen in L. cbn in L. destruct (value_first _ _ _ X) as (c & t & -> & C1 & C2 & _). destruct fuel as [|f]; [lia|]. split.
    + cbn [pelems]. rewrite !app_assoc_s. change ("," ++ r0 ++ String "]" r) with (String "," (r0 ++ String "]" r)). rewrite IH by (auto; try (cbn; cbn in L; lia); intros; apply filler_stop; auto). rewrite skip_end by auto. cbn in L. destruct (IHe f r) as [-> _]; [lia|]. reflexivity.
    + rewrite !app_assoc_s, skip_blank by auto. cbn [String.append skip_ws]. rewrite C1. eauto.
  - intros d m k j M IH fuel r L. destruct IH as (u & q & v & rest & x & -> & U & Q & V & X & P). destruct fuel as [|f]; [lia|]. specialize (P f). rewrite !app_assoc_s. split.
    + cbn [pmembers]. assert (PS : pstr (q ++ v ++ ":" ++ rest ++ x ++ String "}" r) = Some (k, v ++ ":" ++ rest ++ x ++ String "}" r)) by (apply pstr_iff; exists (String "034" q); auto).
      change (String "034" q ++ v ++ ":" ++ rest ++ x ++ String "}" r) with (String "034" (q ++ v ++ ":" ++ rest ++ x ++ String "}" r)). rewrite skip_end by auto. rewrite PS. cbn [String.append]. rewrite skip_end by auto. rewrite P by (try lia; apply filler_stop; auto). rewrite skip_end by auto. reflexivity.
    + change (String "034" q ++ v ++ ":" ++ rest ++ x ++ String "}" r) with (String "034" (q ++ v ++ ":" ++ rest ++ x ++ String "}" r)). rewrite skip_end by auto. eauto.
  - intros d m k j r0 l M IH MS IHm fuel r L. destruct IH as (u & q & v & rest & x & -> & U & Q & V & X & P). destruct fuel as [|f]; [lia|]. specialize (P f). rewrite !app_assoc_s. rewrite app_slen in L. change (slen ("," ++ r0)) with (S (slen r0)) in L.
    change (String "034" q ++ v ++ ":" ++ rest ++ x ++ "," ++ r0 ++ String "}" r) with (String "034" (q ++ v ++ ":" ++ rest ++ x ++ "," ++ r0 ++ String "}" r)). rewrite skip_end by auto. split; [|eauto].
    cbn [pmembers]. rewrite skip_end by auto. assert (PS : pstr (q ++ v ++ ":" ++ rest ++ x ++ "," ++ r0 ++ String "}" r) = Some (k, v ++ ":" ++ rest ++ x ++ "," ++ r0 ++ String "}" r)) by (apply pstr_iff; exists (String "034" q); auto).
    rewrite PS. cbn [String.append]. rewrite skip_end by auto. change (String "," (r0 ++ String "}" r)) with (String "," (r0 ++ String "}" r)). rewrite P by (try lia; apply filler_stop; auto). rewrite skip_end by auto. destruct (IHm f r) as [-> _]; [lia|]. reflexivity.
  - intros d u q k v w s x j U Q V W X IH B. destruct (quoted_first _ _ Q) as (t & ->). exists u, t, v, (w ++ s), x. rewrite !app_assoc_s. split; auto. split; auto. split; auto. split; auto. split; auto.
    intros fuel r L S1. rewrite app_assoc_s. apply IH; auto. rewrite !app_slen in L. cbn in L. lia.
Qed.
Lemma parse_iff : forall s j, parse_json s = Some j <-> json_text s j.
Proof.
  intros s j. unfold parse_json. split.
  - destruct (pval (S (slen s)) max_nesting s) as [[v r]|] eqn:P; [|discriminate]. destruct (String.eqb_spec (skip_ws r) "") as [E|]; [|discriminate]. intros Q. injection Q as ->.
    apply (proj1 (read_sound _)) in P as (w & t & -> & W & T). exists w, t, r. split; auto. split; auto. split; [now apply skip_nil_iff|exact T].
  - intros (v & t & w & -> & V & W & T). assert (S1 : stop w) by (destruct w as [|c w]; [now left|]; apply blank_cons in W as [W _]; apply stop_c; each_char c; try discriminate W; reflexivity).
    rewrite (proj1 read_complete _ _ _ T) by (auto; rewrite !app_slen; lia).
    apply skip_nil_iff in W. rewrite W. reflexivity.
Qed.
Lemma text_one : forall s j k, json_text s j -> json_text s k -> j = k.
Proof. intros s j k A B. apply parse_iff in A, B. congruence. Qed.
Lemma text_rejected : forall s, ~ (exists j, json_text s j) -> unmarshal s = Fail /\ unmarshal_payload s = Fail.
Proof. intros s H. unfold unmarshal, unmarshal_payload. destruct (parse_json s) as [j|] eqn:P; auto. elim H. exists j. now apply parse_iff. Qed.
