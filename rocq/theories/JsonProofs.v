(** JSON text is read back. *)
From Coq Require Import DecimalString DecimalPos DecimalN DecimalZ.
From Verif Require Export SpecJson.
From Verif Require Import Util Utf8 LexProofs TreeFacts.
Local Open Scope string_scope.

Definition raise (E : string) (o : option (string * string)) : option (string * string) := option_map (fun x => (E ++ fst x, snd x)) o.
Lemma high_bytes : forall raw, (forall c, in_str c raw -> (128 <= bval c)%N) -> forall Y,
  str_end false (raw ++ Y) = raise raw (str_end false Y) /\ unesc 0 (raw ++ Y) = option_map (String.append raw) (unesc 0 Y).
Proof.
  induction raw as [|c raw IH]; intros H Y.
  - cbn [String.append]. split; [destruct (str_end false Y) as [[? ?]|]; reflexivity|]. destruct (unesc 0 Y); reflexivity.
  - assert (B : (128 <= bval c)%N) by (apply H; now left). destruct (IH (fun d I => H d (or_intror I)) Y) as [E1 E2]. cbn [String.append str_end unesc].
    destruct (N.eqb_spec (bval c) 34) as [|N1]; [lia|]. destruct (N.ltb_spec (bval c) 32); [lia|]. destruct (N.eqb_spec (bval c) 92) as [|N2]; [lia|]. rewrite E1, E2. split.
    + destruct (str_end false Y) as [[? ?]|]; reflexivity.
    + destruct (unesc 0 Y); reflexivity.
Qed.
Lemma esc_byte_ok : forall c Y, str_end false (esc_byte c ++ Y) = raise (esc_byte c) (str_end false Y) /\
  unesc 0 (esc_byte c ++ Y) = option_map (String.append (str1 c)) (unesc 0 Y).
Proof.
  assert (G : forall c, (exists e b, esc_byte c = String "\" (str1 e) /\ esc_char e = Some b /\ b = c) \/
    (esc_byte c = u4 (bval c) /\ encode_rune (bval c) = str1 c /\ hex4 (hex_fixed 4 (bval c)) = Some (bval c) /\ in_rng 0xD800 0xDFFF (bval c) = false /\ slen (hex_fixed 4 (bval c)) = 4 /\
       forallb (fun c => (negb (N.eqb (bval c) 34) && negb (N.eqb (bval c) 92) && negb (N.ltb (bval c) 32))%bool) (list_of_str (hex_fixed 4 (bval c))) = true) \/
    (esc_byte c = str1 c /\ N.eqb (bval c) 34 = false /\ N.eqb (bval c) 92 = false /\ N.ltb (bval c) 32 = false)).
  { intros [[|] [|] [|] [|] [|] [|] [|] [|]]; vm_compute; first [left; eexists; eexists; repeat split; reflexivity | right; left; repeat split; reflexivity | right; right; repeat split; reflexivity]. }
  intros c Y. destruct (G c) as [(e & b & E & C & ->) | [(E & R & H4 & SU & L & A) | (E & N1 & N2 & N3)]]; rewrite E.
  - split; [cbn; destruct (str_end false Y) as [[? ?]|]; reflexivity|]. cbn [String.append str1 unesc]. change (N.eqb (bval "\") 92) with true. cbv iota. rewrite C. reflexivity.
  - unfold u4. revert H4 L A. generalize (hex_fixed 4 (bval c)) as h. intros h H4 L A.
    destruct h as [|a1 [|a2 [|a3 [|a4 [|]]]]]; cbn [String.length] in L; try discriminate L. cbn [list_of_str forallb] in A. repeat (apply andb_true_iff in A as [? A]).
    repeat match goal with X : (_ && _)%bool = true |- _ => apply andb_true_iff in X as [? ?] end. repeat match goal with X : negb _ = true |- _ => apply negb_true_iff in X end.
    split.
    + cbn [String.append str_end]. change (N.eqb (bval "\") 34) with false. change (N.ltb (bval "\") 32) with false. change (N.eqb (bval "\") 92) with true. cbv iota.
      repeat match goal with X : _ = false |- _ => rewrite X end. cbv iota. destruct (str_end false Y) as [[? ?]|]; reflexivity.
    + cbn [String.append unesc]. change (N.eqb (bval "\") 92) with true. cbv iota. change (esc_char "u") with (@None ascii). cbv iota. change (negb (N.eqb (bval "u") 117)) with false. cbv iota.
      assert (H4' : hex4 (String a1 (String a2 (String a3 (String a4 Y)))) = Some (bval c)) by exact H4. rewrite H4'. rewrite SU. now rewrite R.
  - cbn [String.append str1 str_end unesc]. rewrite N1, N2, N3. destruct (str_end false Y) as [[? ?]|], (unesc 0 Y); split; reflexivity.
Qed.
Lemma esc_item_ok : forall s i, In i (scan s) -> forall Y, str_end false (esc_item i ++ Y) = raise (esc_item i) (str_end false Y) /\
  unesc 0 (esc_item i ++ Y) = option_map (String.append (it_text i)) (unesc 0 Y).
Proof.
  intros s i I Y. destruct (scan_items s i I) as (NE & OK & BAD). unfold esc_item, it_text. destruct (it_ok i); cbn [negb].
  2: { split; [change (u4 rune_error) with (s_bs ++ "ufffd"); cbn; destruct (str_end false Y) as [[? ?]|]; reflexivity|]. change (u4 rune_error) with (s_bs ++ "ufffd"). reflexivity. }
  specialize (OK eq_refl). pose proof (dec_encode _ _ _ OK) as EN. rewrite take_all in EN by lia. destruct (N.eqb_spec (it_rune i) 0x2028) as [E|N1]; cbn [orb].
  { rewrite E in *. rewrite <- EN. split; [change (u4 0x2028) with (s_bs ++ "u2028"); cbn; destruct (str_end false Y) as [[? ?]|]; reflexivity|]. reflexivity. }
  destruct (N.eqb_spec (it_rune i) 0x2029) as [E|N2].
  { rewrite E in *. rewrite <- EN. split; [change (u4 0x2029) with (s_bs ++ "u2029"); cbn; destruct (str_end false Y) as [[? ?]|]; reflexivity|]. reflexivity. }
  destruct (it_raw i) as [|c [|c2 raw]] eqn:R; [congruence|apply esc_byte_ok|]. apply high_bytes. intros d D. apply (dec_high _ _ _ OK); [cbn [String.length]; lia|]. now rewrite take_all.
Qed.
Lemma esc_items_ok : forall s l, (forall i, In i l -> In i (scan s)) -> forall Y,
  str_end false (concat_str (map esc_item l) ++ Y) = raise (concat_str (map esc_item l)) (str_end false Y) /\
  unesc 0 (concat_str (map esc_item l)) = Some (concat_str (map it_text l)).
Proof.
  induction l as [|i l IH]; intros H Y; cbn [map concat_str].
  - split; [|reflexivity]. cbn [String.append]. destruct (str_end false Y) as [[? ?]|]; reflexivity.
  - destruct (IH (fun j J => H j (or_intror J)) Y) as [E1 E2]. destruct (esc_item_ok s i (H i (or_introl eq_refl)) (concat_str (map esc_item l) ++ Y)) as [F1 _].
    destruct (esc_item_ok s i (H i (or_introl eq_refl)) (concat_str (map esc_item l))) as [_ F2]. split.
    + rewrite app_assoc_s, F1, E1. destruct (str_end false Y) as [[? ?]|]; cbn; [|reflexivity]. now rewrite app_assoc_s.
    + rewrite F2, E2. reflexivity.
Qed.
Lemma to_valid_good : forall l, Forall (fun i => it_ok i = true -> good_item i) l -> scan (concat_str (map it_text l)) = map (fun i => if it_ok i then i else Item rune_error error_rune_text true) l.
Proof.
  intros l F. set (m := map (fun i => if it_ok i then i else Item rune_error error_rune_text true) l).
  assert (E : concat_str (map it_text l) = unscan m ++ "").
  { rewrite app_nil_r_s. unfold unscan, m. rewrite map_map. f_equal. apply map_ext. intros i. unfold it_text. destruct (it_ok i); reflexivity. }
  rewrite E, scan_unscan_good; [now rewrite app_nil_r|]. unfold m. clear E m. induction F as [|i l G F IH]; constructor; auto. destruct (it_ok i) eqn:O; auto. repeat split; try discriminate.
Qed.
Lemma scan_goods : forall s, Forall (fun i => it_ok i = true -> good_item i) (scan s).
Proof. intros s. apply Forall_forall. intros i I O. destruct (scan_items s i I) as (A & B & _). repeat split; auto. Qed.
Lemma to_valid_idem : forall s, to_valid (to_valid s) = to_valid s.
Proof.
  intros s. unfold to_valid at 1. unfold scan_runes. unfold to_valid, scan_runes. rewrite to_valid_good by apply scan_goods. rewrite map_map. f_equal. apply map_ext. intros i. unfold it_text. destruct (it_ok i) eqn:O; [now rewrite O|reflexivity].
Qed.
Lemma to_valid_id : forall s, valid_utf8 s = true -> to_valid s = s.
Proof.
  intros s V. unfold to_valid, scan_runes. rewrite <- (unscan_scan s) at 2. unfold unscan. f_equal. apply map_ext_in. intros i I. unfold it_text. unfold valid_utf8 in V. rewrite forallb_forall in V. now rewrite V.
Qed.
Lemma pstr_json : forall s r, pstr (concat_str (map esc_item (scan s)) ++ s_dq ++ r) = Some (to_valid s, r).
Proof.
  intros s r. unfold pstr. destruct (esc_items_ok s (scan s) (fun _ x => x) (s_dq ++ r)) as [E1 E2]. rewrite E1. cbn [s_dq str1 String.append str_end]. change (N.eqb (bval "034") 34) with true. cbv iota. cbn [raise option_map fst snd].
  rewrite app_nil_r_s, E2. change (concat_str (map it_text (scan s))) with (to_valid s). now rewrite to_valid_idem.
Qed.

(** ** Numbers *)
Lemma digits_uint : forall u, forallb is_digit (list_of_str (NilEmpty.string_of_uint u)) = true.
Proof. induction u; auto. Qed.
Definition norm_uint (u : Decimal.uint) : Prop := u = Decimal.D0 Decimal.Nil \/ (u <> Decimal.Nil /\ forall v, u <> Decimal.D0 v).
Lemma pos_norm : forall p, norm_uint (Pos.to_uint p).
Proof.
  intros p. pose proof (DecimalN.Unsigned.to_of (Pos.to_uint p)) as H. change (N.of_uint (Pos.to_uint p)) with (Pos.of_uint (Pos.to_uint p)) in H. rewrite DecimalPos.Unsigned.of_to in H. cbn [N.to_uint] in H.
  assert (G : forall u, norm_uint (Decimal.unorm u)).
  { unfold Decimal.unorm. induction u as [|u IH|u IH|u IH|u IH|u IH|u IH|u IH|u IH|u IH|u IH]; cbn [Decimal.nzhead]; try (right; split; [discriminate|intros v; discriminate]); [left; reflexivity|exact IH]. }
  rewrite H. apply G.
Qed.
Lemma itoa_form : forall z, exists sg u, itoa z = (if sg : bool then "-" else "") ++ NilEmpty.string_of_uint u /\ norm_uint u.
Proof.
  intros [|p|p].
  - exists false, (Decimal.D0 Decimal.Nil). split; [reflexivity|now left].
  - exists false, (Pos.to_uint p). split; [|apply pos_norm]. unfold itoa. cbn [Z.to_int NilZero.string_of_int]. destruct (pos_norm p) as [->|[N _]]; [reflexivity|]. unfold NilZero.string_of_uint. destruct (Pos.to_uint p); [congruence|..]; reflexivity.
  - exists true, (Pos.to_uint p). split; [|apply pos_norm]. unfold itoa. cbn [Z.to_int NilZero.string_of_int]. destruct (pos_norm p) as [->|[N _]]; [reflexivity|]. unfold NilZero.string_of_uint. destruct (Pos.to_uint p); [congruence|..]; reflexivity.
Qed.
Lemma span_all : forall p s r, forallb p (list_of_str s) = true -> (r = "" \/ exists c t, r = String c t /\ p c = false) -> span p (s ++ r) = (s, r).
Proof.
  induction s as [|c s IH]; intros r F R; cbn [String.append span].
  - destruct R as [->|(c & t & -> & P)]; [reflexivity|]. cbn [span]. now rewrite P.
  - cbn [list_of_str forallb] in F. apply andb_true_iff in F as [F1 F2]. rewrite F1, IH by auto. reflexivity.
Qed.
Lemma digit_num : forall c, is_digit c = true -> num_char c = true.
Proof. intros c H. unfold num_char. now rewrite H. Qed.
Lemma forallb_weaken : forall (p q : ascii -> bool) l, (forall c, p c = true -> q c = true) -> forallb p l = true -> forallb q l = true.
Proof. intros p q l H F. rewrite forallb_forall in *. auto. Qed.
Lemma digit_first : forall u, norm_uint u -> exists c t, NilEmpty.string_of_uint u = String c t /\ is_digit c = true /\ c <> "-"%char.
Proof.
  intros u N. destruct u; [destruct N as [N|[N _]]; [discriminate|congruence]|..]; cbn [NilEmpty.string_of_uint]; do 2 eexists; (split; [reflexivity|split; [reflexivity|discriminate]]).
Qed.
Lemma num_ok_digits : forall u, norm_uint u -> forall sg : bool, num_ok ((if sg then "-" else "") ++ NilEmpty.string_of_uint u) = true.
Proof.
  intros u N sg. assert (S1 : span is_digit (NilEmpty.string_of_uint u) = (NilEmpty.string_of_uint u, "")).
  { rewrite <- (app_nil_r_s (NilEmpty.string_of_uint u)) at 1. apply span_all; [apply digits_uint|now left]. }
  assert (M : match (if sg then "-" else "") ++ NilEmpty.string_of_uint u with String "-" r => r | _ => (if sg then "-" else "") ++ NilEmpty.string_of_uint u end = NilEmpty.string_of_uint u).
  { destruct sg; cbn [String.append]; [reflexivity|]. destruct u; reflexivity. }
  unfold num_ok. rewrite M, S1. destruct N as [->|[N Z]]; [reflexivity|]. destruct u; try reflexivity; [congruence|]. exfalso. now apply (Z u).
Qed.
Lemma num_ok_itoa : forall z, num_ok (itoa z) = true.
Proof. intros z. destruct (itoa_form z) as (sg & u & -> & N). now apply num_ok_digits. Qed.
Lemma num_chars_itoa : forall z, forallb num_char (list_of_str (itoa z)) = true.
Proof.
  intros z. destruct (itoa_form z) as (sg & u & -> & N). pose proof (forallb_weaken _ _ _ digit_num (digits_uint u)) as D. destruct sg; cbn [String.append list_of_str forallb]; auto.
Qed.
Lemma itoa_read : forall z, dec_int (JNum (itoa z)) = Got z.
Proof.
  intros z. cbn [dec_int]. unfold itoa. rewrite NilZero.isi.
  - now rewrite DecimalZ.of_to.
  - destruct z as [|p|p]; cbn [Z.to_int]; try discriminate. destruct (pos_norm p) as [E|[N _]]; [rewrite E; discriminate|congruence].
  - destruct z as [|p|p]; cbn [Z.to_int]; try discriminate. destruct (pos_norm p) as [E|[N _]]; [rewrite E; discriminate|congruence].
Qed.

(** ** Values *)
Section JsonInd.
Variable P : json -> Prop.
Hypothesis HN : P JNull.
Hypothesis HB : forall b, P (JBool b).
Hypothesis HU : forall r, P (JNum r).
Hypothesis HS : forall s, P (JStr s).
Hypothesis HA : forall l, Forall P l -> P (JArr l).
Hypothesis HO : forall l, Forall (fun kv => P (snd kv)) l -> P (JObj l).
Fixpoint json_ind' (j : json) : P j :=
  match j with
  | JNull => HN | JBool b => HB b | JNum r => HU r | JStr s => HS s
  | JArr l => HA l ((fix go l := match l return Forall P l with [] => Forall_nil _ | x :: r => Forall_cons _ (json_ind' x) (go r) end) l)
  | JObj l => HO l ((fix go l := match l return Forall (fun kv => P (snd kv)) l with [] => Forall_nil _ | x :: r => Forall_cons _ (json_ind' (snd x)) (go r) end) l)
  end.
End JsonInd.
(** The value that is read back. *)
Fixpoint clean_json (j : json) : json :=
  match j with
  | JStr s => JStr (to_valid s)
  | JArr l => JArr (map clean_json l)
  | JObj l => JObj (map (fun kv => (to_valid (fst kv), clean_json (snd kv))) l)
  | j => j
  end.
Fixpoint depth (j : json) : N :=
  match j with
  | JArr l => (1 + fold_right N.max 0 (map depth l))%N
  | JObj l => (1 + fold_right N.max 0 (map (fun kv => depth (snd kv)) l))%N
  | _ => 0%N
  end.
Lemma wf_arr : forall l, wf (JArr l) <-> Forall wf l.
Proof. intros l. cbn [wf]. induction l as [|x l IH]; split; intros H; auto; [destruct H; constructor; tauto|inversion H; tauto]. Qed.
Lemma wf_obj : forall l, wf (JObj l) <-> Forall (fun kv => wf (snd kv)) l.
Proof. intros l. cbn [wf]. induction l as [|x l IH]; split; intros H; auto; [destruct H; constructor; tauto|inversion H; tauto]. Qed.
(** What follows a value. *)
Definition stop (r : string) : Prop := r = "" \/ exists c t, r = String c t /\ num_char c = false.
Lemma print_first : forall j, wf j -> exists c t, print_json j = String c t /\ is_ws c = false /\ c <> "]"%char /\ c <> "}"%char.
Proof.
  intros [| [|] |raw|s|l|l] W; cbn [print_json]; try (do 2 eexists; split; [reflexivity|repeat split; discriminate]).
  destruct W as (_ & F & c & t & -> & _). exists c, t. split; auto. cbn [list_of_str forallb] in F. apply andb_true_iff in F as [F _].
  repeat split; [|intros ->; discriminate F|intros ->; discriminate F]. destruct (is_ws c) eqn:Q; auto. unfold is_ws in Q. apply existsb_exists in Q as (d & I & Q). apply Ascii.eqb_eq in Q. subst d.
  repeat (destruct I as [<-|I]; [discriminate F|]). destruct I.
Qed.
Lemma print_skip : forall j r, wf j -> skip_ws (print_json j ++ r) = print_json j ++ r.
Proof. intros j r W. destruct (print_first j W) as (c & t & -> & N & _). cbn [String.append skip_ws]. now rewrite N. Qed.
Definition reads (j : json) : Prop := forall fuel lim r, wf j -> stop r -> slen (print_json j) <= fuel ->
  pval fuel lim (print_json j ++ r) = if N.leb (depth j) lim then Some (clean_json j, r) else None.
Lemma stop_c : forall c r, num_char c = false -> stop (String c r).
Proof. intros c r H. right. eauto. Qed.
Lemma max_le : forall a b lim, N.leb (N.max a b) lim = (N.leb a lim && N.leb b lim)%bool.
Proof. intros a b lim. destruct (N.leb_spec (N.max a b) lim), (N.leb_spec a lim), (N.leb_spec b lim); cbn; auto; lia. Qed.
Lemma elems_ok : forall l, Forall reads l -> l <> [] -> Forall wf l -> forall fuel lim r, slen (join (map print_json l) ",") < fuel ->
  pelems fuel lim (join (map print_json l) "," ++ "]" ++ r) = if N.leb (fold_right N.max 0%N (map depth l)) lim then Some (map clean_json l, r) else None.
Proof.
  induction l as [|j l IH]; intros R NE W fuel lim r L; [congruence|]. inversion R as [|? ? R1 R2]; subst. inversion W as [|? ? W1 W2]; subst. destruct fuel as [|f]; [lia|]. cbn [pelems]. change (fold_right N.max 0%N (map depth (j :: l))) with (N.max (depth j) (fold_right N.max 0%N (map depth l))). rewrite max_le.
  destruct l as [|j2 l].
  - cbn [map join String.concat] in *. rewrite R1 by (auto; try lia; apply stop_c; reflexivity). destruct (N.leb (depth j) lim); cbn [andb map fold_right]; [|reflexivity]. cbn [String.append skip_ws]. change (is_ws "]") with false. cbv iota. now destruct lim.
  - change (join (map print_json (j :: j2 :: l)) ",") with (print_json j ++ "," ++ join (map print_json (j2 :: l)) ",") in *. rewrite !app_slen in L. rewrite !app_assoc_s. change (slen ",") with 1 in L.
    rewrite R1 by (auto; try lia; apply stop_c; reflexivity). destruct (N.leb (depth j) lim); cbn [andb]; [|reflexivity]. cbn [String.append skip_ws]. change (is_ws ",") with false. cbv iota.
    change (String "]" r) with ("]" ++ r). rewrite IH by (auto; try lia; discriminate). destruct (N.leb _ lim); reflexivity.
Qed.
Lemma json_str_first : forall s r, json_str s ++ r = String "034" (concat_str (map esc_item (scan s)) ++ s_dq ++ r).
Proof. intros s r. unfold json_str. rewrite !app_assoc_s. reflexivity. Qed.
Definition member (kv : string * json) : string := json_str (fst kv) ++ ":" ++ print_json (snd kv).
Lemma members_ok : forall l, Forall (fun kv => reads (snd kv)) l -> l <> [] -> Forall (fun kv => wf (snd kv)) l -> forall fuel lim r, slen (join (map member l) ",") < fuel ->
  pmembers fuel lim (join (map member l) "," ++ "}" ++ r) = if N.leb (fold_right N.max 0%N (map (fun kv => depth (snd kv)) l)) lim
    then Some (map (fun kv => (to_valid (fst kv), clean_json (snd kv))) l, r) else None.
Proof.
  induction l as [|[k j] l IH]; intros R NE W fuel lim r L; [congruence|]. inversion R as [|? ? R1 R2]; subst. inversion W as [|? ? W1 W2]; subst. cbn [snd] in *. destruct fuel as [|f]; [lia|]. cbn [pmembers]. change (fold_right N.max 0%N (map (fun kv : string * json => depth (snd kv)) ((k, j) :: l))) with (N.max (depth j) (fold_right N.max 0%N (map (fun kv : string * json => depth (snd kv)) l))). rewrite max_le.
  assert (M : forall T, member (k, j) ++ T = String "034" (concat_str (map esc_item (scan k)) ++ s_dq ++ String ":" (print_json j ++ T))).
  { intros T. unfold member. cbn [fst snd]. rewrite !app_assoc_s. rewrite json_str_first. reflexivity. }
  destruct l as [|j2 l].
  - cbn [map join String.concat] in *. rewrite M. cbn [skip_ws]. change (is_ws "034") with false. cbv iota. rewrite pstr_json. cbn [skip_ws]. change (is_ws ":") with false. cbv iota.
    unfold member in L. cbn [fst snd] in L. rewrite !app_slen in L. rewrite R1 by (auto; try lia; apply stop_c; reflexivity).
    destruct (N.leb (depth j) lim); cbn [andb map fold_right]; [|reflexivity]. cbn [String.append skip_ws]. change (is_ws "}") with false. cbv iota. now destruct lim.
  - change (join (map member ((k, j) :: j2 :: l)) ",") with (member (k, j) ++ "," ++ join (map member (j2 :: l)) ",") in *. rewrite !app_slen in L. rewrite !app_assoc_s. change (slen ",") with 1 in L.
    rewrite M. cbn [skip_ws]. change (is_ws "034") with false. cbv iota. rewrite pstr_json. cbn [skip_ws]. change (is_ws ":") with false. cbv iota.
    unfold member at 1 in L. cbn [fst snd] in L. rewrite !app_slen in L. rewrite R1 by (auto; try lia; apply stop_c; reflexivity).
    destruct (N.leb (depth j) lim); cbn [andb]; [|reflexivity]. cbn [String.append skip_ws]. change (is_ws ",") with false. cbv iota.
    change (String "}" r) with ("}" ++ r). rewrite IH by (auto; try lia; discriminate). destruct (N.leb _ lim); reflexivity.
Qed.
Lemma leb_succ : forall a lim, lim <> 0%N -> N.leb (1 + a) lim = N.leb a (N.pred lim).
Proof. intros a lim H. destruct (N.leb_spec (1 + a) lim), (N.leb_spec a (N.pred lim)); auto; lia. Qed.
Lemma not_close : forall (A : Type) s c t (x : string -> A) (y : A), s = String c t -> c <> "]"%char -> match s with String "]" r => x r | _ => y end = y.
Proof. intros A s c t x y -> H. destruct c as [[|] [|] [|] [|] [|] [|] [|] [|]]; try reflexivity. congruence. Qed.
Lemma not_close2 : forall (A : Type) s c t (x : string -> A) (y : A), s = String c t -> c <> "}"%char -> match s with String "}" r => x r | _ => y end = y.
Proof. intros A s c t x y -> H. destruct c as [[|] [|] [|] [|] [|] [|] [|] [|]]; try reflexivity. congruence. Qed.
Lemma join_first : forall x l sep c t, x = String c t -> exists t', join (x :: l) sep = String c t'.
Proof. intros x l sep c t ->. destruct l; cbn [join String.concat String.append]; eauto. Qed.
Lemma all_read : forall j, reads j.
Proof.
  intros j. induction j as [|b|raw|s|l IH|l IH] using json_ind'; intros fuel lim r W S1 L.
  - destruct fuel as [|f]; [cbn in L; lia|]. destruct lim, r; reflexivity.
  - destruct fuel as [|f]; [destruct b; cbn in L; lia|]. destruct b, lim, r; reflexivity.
  - destruct W as (N1 & F & c & t & -> & D). destruct fuel as [|f]; [cbn in L; lia|]. cbn [print_json pval].
    pose proof (print_skip (JNum (String c t)) r) as SK. cbn [print_json] in SK. rewrite SK by (repeat split; eauto). cbn [String.append].
    assert (NC : num_char c = true) by (cbn [list_of_str forallb] in F; now apply andb_true_iff in F).
    assert (X : N.eqb (bval c) 34 = false /\ Ascii.eqb c "[" = false /\ Ascii.eqb c "{" = false).
    { repeat split; [apply N.eqb_neq; intros Q|apply Ascii.eqb_neq; intros ->; discriminate NC|apply Ascii.eqb_neq; intros ->; discriminate NC].
      assert (c = "034"%char) by (rewrite <- (byte_bval c), Q; reflexivity). subst c. discriminate NC. }
    destruct X as (-> & -> & ->). rewrite D. change (String c (t ++ r)) with (String c t ++ r). rewrite span_all by auto. rewrite N1. now destruct lim.
  - destruct fuel as [|f]; [unfold print_json, json_str in L; rewrite !app_slen in L; cbn in L; lia|]. cbn [print_json pval depth]. rewrite json_str_first. cbn [skip_ws]. change (is_ws "034") with false. cbv iota.
    change (N.eqb (bval "034") 34) with true. cbv iota. rewrite pstr_json. now destruct lim.
  - apply wf_arr in W. cbn [print_json depth clean_json] in *. rewrite !app_slen in L. change (slen "[") with 1 in L. change (slen "]") with 1 in L. destruct fuel as [|f]; [lia|]. cbn [String.append pval skip_ws].
    change (is_ws "[") with false. cbv iota. change (N.eqb (bval "[") 34) with false. change (Ascii.eqb "[" "[") with true. cbv iota.
    destruct (N.eqb_spec lim 0) as [->|NZ]; [destruct (fold_right N.max 0%N (map depth l)); reflexivity|]. rewrite leb_succ by auto.
    destruct l as [|j l]; [cbn; destruct (N.pred lim); reflexivity|]. rewrite !app_assoc_s. change ("]" ++ r) with (String "]" r). inversion W as [|? ? W1 W2]; subst.
    destruct (print_first j W1) as (c & t & E & WS & N1 & N2). destruct (join_first (print_json j) (map print_json l) "," c t E) as (t' & E').
    assert (SK : skip_ws (join (map print_json (j :: l)) "," ++ String "]" r) = String c (t' ++ String "]" r)).
    { change (map print_json (j :: l)) with (print_json j :: map print_json l). rewrite E'. cbn [String.append skip_ws]. now rewrite WS. }
    rewrite (not_close _ _ _ _ _ _ SK) by auto.
    change (String "]" r) with ("]" ++ r). rewrite elems_ok by (auto; try lia; discriminate). destruct (N.leb _ _); reflexivity.
  - apply wf_obj in W. cbn [print_json depth clean_json] in *. rewrite !app_slen in L. change (slen "{") with 1 in L. change (slen "}") with 1 in L. destruct fuel as [|f]; [lia|]. cbn [String.append pval skip_ws].
    change (is_ws "{") with false. cbv iota. change (N.eqb (bval "{") 34) with false. change (Ascii.eqb "{" "[") with false. change (Ascii.eqb "{" "{") with true. cbv iota.
    destruct (N.eqb_spec lim 0) as [->|NZ]; [destruct (fold_right N.max 0%N (map (fun kv => depth (snd kv)) l)); reflexivity|]. rewrite leb_succ by auto.
    destruct l as [|j l]; [cbn; destruct (N.pred lim); reflexivity|]. rewrite !app_assoc_s. change ("}" ++ r) with (String "}" r). fold member in *.
    destruct (join_first (member j) (map member l) "," "034" (concat_str (map esc_item (scan (fst j))) ++ s_dq ++ String ":" (print_json (snd j)))) as (t' & E').
    { unfold member. rewrite json_str_first. reflexivity. }
    assert (SK : skip_ws (join (map member (j :: l)) "," ++ String "}" r) = String "034" (t' ++ String "}" r)).
    { change (map member (j :: l)) with (member j :: map member l). rewrite E'. reflexivity. }
    rewrite (not_close2 _ _ _ _ _ _ SK) by discriminate.
    change (String "}" r) with ("}" ++ r). rewrite members_ok by (auto; try lia; discriminate). destruct (N.leb _ _); reflexivity.
Qed.
(** Every printed value is read back, up to bytes that are not UTF-8, unless it nests too deep. *)
Lemma parse_print : forall j, wf j -> parse_json (print_json j) = if N.leb (depth j) max_nesting then Some (clean_json j) else None.
Proof.
  intros j W. unfold parse_json. pose proof (all_read j (S (slen (print_json j))) max_nesting "" W (or_introl eq_refl)) as H. rewrite app_nil_r_s in H. rewrite H by lia. destruct (N.leb _ _); reflexivity.
Qed.
