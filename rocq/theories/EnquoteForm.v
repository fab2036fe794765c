(** The text Enquote produces when it quotes. *)
From Verif Require Export LayoutProofs SpecEnquote Build.
Local Open Scope string_scope.

(** ** strings.ReplaceAll *)
Lemma rep_skip : forall c o new r s, ~ in_str c r -> replace_from (String c o) new 0 (r ++ s) = r ++ replace_from (String c o) new 0 s.
Proof.
  induction r as [|d r IH]; intros s N; auto. cbn [in_str] in N. cbn [String.append replace_from].
  assert (P : prefix (String c o) (String d (r ++ s)) = false).
  { cbn. destruct (ascii_dec c d); auto. exfalso. subst. tauto. }
  rewrite P, IH by tauto. reflexivity.
Qed.
Lemma rep_drop : forall old new s k, replace_from old new k s = replace_from old new 0 (drop k s).
Proof. induction s as [|c s IH]; intros [|k]; auto. cbn [drop]. rewrite <- IH. reflexivity. Qed.
Lemma rep_hit : forall c o new s, replace_from (String c o) new 0 (String c o ++ s) = new ++ replace_from (String c o) new 0 s.
Proof.
  intros c o new s.
  assert (P : prefix (String c o) (String c (o ++ s)) = true) by (apply prefix_iff; now exists s).
  cbn [String.append]. cbn [replace_from]. rewrite P. cbn [slen pred]. now rewrite rep_drop, drop_app.
Qed.
Lemma rep_miss : forall old new c s, prefix old (String c s) = false -> replace_from old new 0 (String c s) = String c (replace_from old new 0 s).
Proof. intros old new c s P. cbn [replace_from]. now rewrite P. Qed.

(** ** Kinds of characters *)
Inductive kind := KQ | KB | KS | KP (r : string) | KE (c b : string).
(** Text without backslashes and quotes. *)
Definition calm (r : string) : Prop := r <> "" /\ forall c, in_str c r -> c <> "\"%char /\ c <> """"%char /\ c <> "'"%char.
Definition kind_ok (k : kind) : Prop :=
  match k with
  | KP r => calm r /\ rune_text r /\ r <> s_cr
  | KE c b => calm b /\ (exists x y, c = String x y /\ x <> "\"%char) /\
      (exists x y, b = String x y /\ (bval x < 128)%N /\ x <> "013"%char)
  | _ => True
  end.
Definition raw (k : kind) : string := match k with KQ => """" | KB => "\" | KS => "'" | KP r => r | KE c _ => c end.
Definition t0 (k : kind) : string := match k with KQ => "\""" | KB => "\\" | KS => "'" | KP r => r | KE _ b => "\" ++ b end.
Definition t1 (k : kind) : string := match k with KQ => """" | KB => "\\" | KS => "'" | KP r => r | KE _ b => "\" ++ b end.
Definition t2 (k : kind) : string := match k with KQ => """" | KB => "\\" | KS => "\'" | KP r => r | KE _ b => "\" ++ b end.
Definition tq (single : bool) (k : kind) : string :=
  match k with KQ => """" | KB => "\" | KS => if single then "\'" else "'" | KP r => r | KE _ b => "\" ++ b end.
Definition cat (f : kind -> string) (ks : list kind) : string := concat_str (map f ks).
Lemma cat_cons : forall f k ks, cat f (k :: ks) = f k ++ cat f ks.
Proof. reflexivity. Qed.
Lemma cat_app : forall f a b, cat f (a ++ b) = cat f a ++ cat f b.
Proof. induction a as [|k a IH]; intros b; auto. cbn [app]. rewrite !cat_cons, IH. now rewrite app_assoc_s. Qed.
Lemma calm_bs : forall r, calm r -> ~ in_str "\"%char r.
Proof. intros r [_ C] I. now apply C in I. Qed.
Lemma calm_head : forall r s, calm r -> exists c x, r ++ s = String c x /\ c <> "\"%char /\ c <> """"%char /\ c <> "'"%char.
Proof. intros [|c r] s [N C]; [congruence|]. exists c, (r ++ s). split; auto. apply C. now left. Qed.
Lemma prefix2 : forall a b c s, b <> c -> prefix (String a (str1 b)) (String a (String c s)) = false.
Proof. intros a b c s N. cbn. destruct (ascii_dec a a); auto. destruct (ascii_dec b c); congruence. Qed.
Lemma prefix_first : forall a o c s, a <> c -> prefix (String a o) (String c s) = false.
Proof. intros a o c s N. cbn. destruct (ascii_dec a c); congruence. Qed.

Notation rep2 := (replace_from "\\" "\" 0).
(** No double quote: the doubled backslashes are undone. *)
Lemma rep2_dq : forall ks z, Forall kind_ok ks -> ~ In KQ ks -> rep2 (cat t0 ks ++ z) = cat (tq false) ks ++ rep2 z.
Proof.
  induction ks as [|k ks IH]; intros z F N; auto. inversion F as [|? ? K F']; subst.
  rewrite !cat_cons, !app_assoc_s. assert (N' : ~ In KQ ks) by (intros X; apply N; now right).
  specialize (IH z F' N'). destruct k as [| | |r|c b]; cbn [t0 tq].
  - exfalso. apply N. now left.
  - rewrite rep_hit, IH. reflexivity.
  - rewrite (rep_skip "\"%char "\" "\" "'"), IH; auto. cbn. intros [X|[]]. discriminate.
  - destruct K as [K _]. rewrite (rep_skip "\"%char "\" "\" r), IH; auto. now apply calm_bs.
  - destruct K as [K _]. destruct (calm_head b (cat t0 ks ++ z) K) as (d & x & E & D & _).
    rewrite !app_assoc_s. cbn [String.append]. rewrite E, rep_miss by (apply prefix2; congruence). rewrite <- E.
    rewrite (rep_skip "\"%char "\" "\" b), IH; auto. now apply calm_bs.
Qed.
Notation rep1 := (replace_from "\""" """" 0).
(** With a double quote, first step: the last backslash before the closing quote is lost. *)
Definition lastb (ks : list kind) : bool := match rev ks with KB :: _ => true | _ => false end.
Lemma lastb_cons : forall k k' ks, lastb (k :: k' :: ks) = lastb (k' :: ks).
Proof.
  intros k k' ks. unfold lastb. cbn [rev]. destruct (rev ks) as [|x r] eqn:E; reflexivity.
Qed.
Fixpoint c1 (ks : list kind) : string :=
  match ks with
  | [] => ""
  | KB :: [] => "\"
  | k :: ks => t1 k ++ c1 ks
  end.
Lemma c1_cons : forall k ks, (k <> KB \/ ks <> []) -> c1 (k :: ks) = t1 k ++ c1 ks.
Proof. intros [] [|k' ks] H; auto. destruct H; congruence. Qed.
Lemma rep1_sq : forall ks, Forall kind_ok ks -> rep1 (cat t0 ks ++ """") = c1 ks ++ """".
Proof.
  induction ks as [|k ks IH]; intros F; auto. inversion F as [|? ? K F']; subst. specialize (IH F').
  rewrite cat_cons, app_assoc_s. destruct k as [| | |r|c b]; cbn [t0].
  - rewrite rep_hit, IH. rewrite c1_cons by (left; discriminate). reflexivity.
  - destruct ks as [|k' ks]; [reflexivity|].
    assert (H : exists c x, cat t0 (k' :: ks) ++ """" = String c x /\ c <> """"%char).
    { inversion F' as [|? ? K' _]; subst. rewrite cat_cons, app_assoc_s. destruct k' as [| | |r|c b]; cbn [t0 String.append]; try (eexists _, _; split; [reflexivity|discriminate]).
      destruct K' as [K' _]. destruct (calm_head r (cat t0 ks ++ """") K') as (d & x & E & _ & D & _). rewrite E. eauto. }
    destruct H as (c & x & E & D). rewrite c1_cons by (right; discriminate). cbn [t1 String.append].
    rewrite rep_miss by (apply prefix2; discriminate). rewrite E, rep_miss by (apply prefix2; congruence). rewrite <- E, IH. reflexivity.
  - rewrite (rep_skip "\"%char """" """" "'"), IH by (cbn; intros [X|[]]; discriminate). now rewrite c1_cons by (left; discriminate).
  - destruct K as [K _]. rewrite (rep_skip "\"%char """" """" r), IH by now apply calm_bs. rewrite c1_cons by (left; discriminate). cbn [t1]. now rewrite app_assoc_s.
  - destruct K as [K _]. destruct (calm_head b (cat t0 ks ++ """") K) as (d & x & E & _ & D & _).
    rewrite !app_assoc_s. cbn [String.append]. rewrite E, rep_miss by (apply prefix2; congruence). rewrite <- E.
    rewrite (rep_skip "\"%char """" """" b), IH by now apply calm_bs. rewrite c1_cons by (left; discriminate). cbn [t1]. now rewrite !app_assoc_s.
Qed.
Notation rep3 := (replace_from "'" "\'" 0).
Fixpoint c2 (ks : list kind) : string :=
  match ks with
  | [] => ""
  | KB :: [] => "\"
  | k :: ks => t2 k ++ c2 ks
  end.
Lemma c2_cons : forall k ks, (k <> KB \/ ks <> []) -> c2 (k :: ks) = t2 k ++ c2 ks.
Proof. intros [] [|k' ks] H; auto. destruct H; congruence. Qed.
Lemma rep3_sq : forall ks z, Forall kind_ok ks -> rep3 (c1 ks ++ z) = c2 ks ++ rep3 z.
Proof.
  induction ks as [|k ks IH]; intros z F; auto. inversion F as [|? ? K F']; subst. specialize (IH z F').
  assert (Q : forall r, calm r -> ~ in_str "'"%char r) by (intros r [_ C] I; now apply C in I).
  destruct k as [| | |r|c b].
  - rewrite c1_cons, c2_cons by (left; discriminate). cbn [t1 t2]. rewrite !app_assoc_s, (rep_skip "'"%char "" "\'" """"), IH; auto. cbn. intros [X|[]]. discriminate.
  - destruct ks as [|k' ks].
    + cbn [c1 c2]. rewrite (rep_skip "'"%char "" "\'" "\"); auto. cbn. intros [X|[]]. discriminate.
    + rewrite c1_cons, c2_cons by (right; discriminate). cbn [t1 t2]. rewrite !app_assoc_s, (rep_skip "'"%char "" "\'" "\\"), IH; auto. cbn. intros [X|[X|[]]]; discriminate.
  - rewrite c1_cons, c2_cons by (left; discriminate). cbn [t1 t2]. rewrite !app_assoc_s, rep_hit, IH; auto.
  - rewrite c1_cons, c2_cons by (left; discriminate). cbn [t1 t2]. rewrite !app_assoc_s, (rep_skip "'"%char "" "\'" r), IH; auto. apply Q, K.
  - rewrite c1_cons, c2_cons by (left; discriminate). cbn [t1 t2]. rewrite !app_assoc_s.
    rewrite (rep_skip "'"%char "" "\'" "\") by (cbn; intros [X|[]]; discriminate). rewrite (rep_skip "'"%char "" "\'" b), IH; auto. apply Q, K.
Qed.
Lemma rep2_sq : forall ks, Forall kind_ok ks -> rep2 (c2 ks ++ "'") = cat (tq true) ks ++ "'".
Proof.
  induction ks as [|k ks IH]; intros F; auto. inversion F as [|? ? K F']; subst. specialize (IH F').
  rewrite cat_cons, app_assoc_s. destruct k as [| | |r|c b].
  - rewrite c2_cons by (left; discriminate). cbn [t2 tq]. rewrite app_assoc_s, (rep_skip "\"%char "\" "\" """"), IH; auto. cbn. intros [X|[]]. discriminate.
  - destruct ks as [|k' ks]; [reflexivity|]. rewrite c2_cons by (right; discriminate). cbn [t2 tq]. rewrite app_assoc_s, rep_hit, IH. reflexivity.
  - rewrite c2_cons by (left; discriminate). cbn [t2 tq]. rewrite app_assoc_s. cbn [String.append]. rewrite rep_miss by (apply prefix2; discriminate).
    rewrite rep_miss by (apply prefix_first; discriminate). now rewrite IH.
  - rewrite c2_cons by (left; discriminate). cbn [t2 tq]. destruct K as [K _]. rewrite app_assoc_s, (rep_skip "\"%char "\" "\" r), IH; auto. now apply calm_bs.
  - rewrite c2_cons by (left; discriminate). cbn [t2 tq]. destruct K as [K _]. destruct (calm_head b (c2 ks ++ "'") K) as (d & x & E & D & _).
    rewrite !app_assoc_s. cbn [String.append]. rewrite E, rep_miss by (apply prefix2; congruence). rewrite <- E.
    rewrite (rep_skip "\"%char "\" "\" b), IH; auto. now apply calm_bs.
Qed.

(** ** Kinds of the characters of a string *)
Definition esc_body (i : item) : string :=
  let r := it_rune i in
  if negb (it_ok i) then match it_raw i with String c _ => "x" ++ hex_fixed 2 (bval c) | EmptyString => "x" end
  else if N.eqb r 7 then "a"
  else if N.eqb r 8 then "b"
  else if N.eqb r 12 then "f"
  else if N.eqb r 10 then "n"
  else if N.eqb r 13 then "r"
  else if N.eqb r 9 then "t"
  else if N.eqb r 11 then "v"
  else if (N.ltb r 32 || N.eqb r 127)%bool then "x" ++ hex_fixed 2 r
  else if N.ltb r 0x10000 then "u" ++ hex_fixed 4 r
  else "U" ++ hex_fixed 8 r.
Definition kind_of (pr : N -> bool) (i : item) : kind :=
  let r := it_rune i in
  if negb (it_ok i) then KE (it_raw i) (esc_body i)
  else if N.eqb r 34 then KQ
  else if N.eqb r 92 then KB
  else if pr r then (if N.eqb r 39 then KS else KP (it_raw i))
  else KE (it_raw i) (esc_body i).
Lemma hex_digit_calm : forall n, (n < 16)%N -> let c := hex_digit n in c <> "\"%char /\ c <> """"%char /\ c <> "'"%char.
Proof.
  intros n L. assert (I : In n (map N.of_nat (seq 0 16))).
  { apply in_map_iff. exists (N.to_nat n). split; [apply N2Nat.id|]. apply in_seq. lia. }
  cbn in I. repeat destruct I as [<-|I]; try contradiction; vm_compute; repeat split; discriminate.
Qed.
Lemma hex_calm : forall d n c, in_str c (hex_fixed d n) -> c <> "\"%char /\ c <> """"%char /\ c <> "'"%char.
Proof.
  induction d as [|d IH]; intros n c I; [contradiction|]. cbn [hex_fixed] in I. apply in_str_app in I as [I|[<-|[]]]; [now apply IH in I|].
  apply hex_digit_calm. now apply N.mod_lt.
Qed.
Lemma hex_body_calm : forall x d n, x <> "\"%char -> x <> """"%char -> x <> "'"%char -> calm (str1 x ++ hex_fixed d n).
Proof.
  intros x d n A B D. split; [discriminate|]. intros c I. cbn in I. destruct I as [<-|I]; [auto|]. now apply hex_calm in I.
Qed.
Lemma esc_body_calm : forall i, calm (esc_body i).
Proof.
  intros i. unfold esc_body.
  assert (L : forall x, x <> "\"%char -> x <> """"%char -> x <> "'"%char -> calm (str1 x)) by (intros x A B D; split; [discriminate|intros c [<-|[]]; auto]).
  repeat match goal with |- calm (if ?b then _ else _) => destruct b end;
    try (apply (L _); discriminate); try (apply (hex_body_calm _); discriminate).
  destruct (it_raw i); [apply (L _); discriminate|apply (hex_body_calm _); discriminate].
Qed.
Lemma esc_body_head : forall i, exists x y, esc_body i = String x y /\ (bval x < 128)%N /\ x <> "013"%char.
Proof.
  intros i. unfold esc_body. repeat match goal with |- exists x y, (if ?b then _ else _) = _ /\ _ => destruct b end;
    try (eexists _, _; split; [reflexivity|split; [reflexivity|discriminate]]).
  destruct (it_raw i); eexists _, _; (split; [reflexivity|split; [reflexivity|discriminate]]).
Qed.
Lemma item_ascii : forall s i n, In i (scan s) -> it_ok i = true -> it_rune i = n -> (n < 128)%N -> it_raw i = str1 (byte n).
Proof.
  intros s i n I O R L. pose proof (scan_items s i I) as (N & OK & _). specialize (OK O).
  pose proof (dec_encode _ _ _ OK) as E. rewrite take_all in E by lia. rewrite <- E, R. unfold encode_rune. now rewrite (proj2 (N.ltb_lt _ _) L).
Qed.
Lemma scan_bad : forall s i, In i (scan s) -> it_ok i = false -> exists c, it_raw i = str1 c /\ (128 <= bval c)%N.
Proof.
  induction s as [|s r w ok N E W IH] using scan_ind; intros i I O; [destruct I|].
  rewrite (scan_eq _ N _ _ _ E) in I. destruct I as [<-|I]; auto. cbn [it_raw it_ok] in *. subst ok.
  destruct (dec_bad_width _ _ _ N E) as [-> ->]. destruct s as [|c s]; [congruence|]. exists c. split; [cbn; now destruct s|].
  destruct (N.lt_ge_cases (bval c) 128) as [L|L]; auto. unfold decode_rune in E. rewrite (proj2 (N.ltb_lt _ _) L) in E. discriminate.
Qed.
Lemma quote_item_kind : forall pr s i, ascii_right pr -> In i (scan s) -> quote_item pr i = t0 (kind_of pr i) /\ kind_ok (kind_of pr i) /\ raw (kind_of pr i) = it_raw i.
Proof.
  intros pr s i AR I. pose proof (item_ascii s i) as IA. specialize (IA) with (1 := I). pose proof (scan_items s i I) as (NE & OK & BAD).
  unfold quote_item, kind_of. destruct (it_ok i) eqn:O; cbn [negb].
  - specialize (IA) with (1 := eq_refl).
    destruct (N.eqb_spec (it_rune i) 34) as [E|N1]; cbn [orb].
    { rewrite (IA _ E) by reflexivity. repeat split. }
    destruct (N.eqb_spec (it_rune i) 92) as [E|N2]; cbn [orb].
    { rewrite (IA _ E) by reflexivity. repeat split. }
    destruct (pr (it_rune i)) eqn:P.
    { destruct (N.eqb_spec (it_rune i) 39) as [E|N3]; [rewrite (IA _ E) by reflexivity; repeat split|].
      assert (RT : rune_text (it_raw i)) by (split; eauto).
      cbn [t0 kind_ok raw]. split; auto. split; auto. split; [|split; auto; intros CR; specialize (OK eq_refl); rewrite CR in OK; inversion OK as [Y]; rewrite <- Y, AR in P by reflexivity; discriminate].
      split; auto. intros c IC.
      destruct (N.lt_ge_cases (bval c) 128) as [L|L].
      - pose proof (rune_byte _ _ RT IC L) as X. specialize (OK eq_refl). rewrite X in OK. unfold str1, decode_rune in OK.
        rewrite (proj2 (N.ltb_lt _ _) L) in OK. inversion OK as [Y]. rewrite <- Y in *. repeat split; intros ->; [now apply N2|now apply N1|now apply N3].
      - repeat split; intros ->; vm_compute in L; now apply L. }
    assert (BS : exists x y, it_raw i = String x y /\ x <> "\"%char).
    { specialize (OK eq_refl). destruct (it_raw i) as [|x y]; [congruence|]. exists x, y. split; auto. intros ->. cbn in OK. inversion OK. congruence. }
    split; [|split; [split; [apply esc_body_calm|split; [exact BS|apply esc_body_head]]|reflexivity]].
    cbn [t0]. unfold esc_body. rewrite O. cbn [negb]. repeat match goal with |- context [if ?b then _ else _] => destruct b end; reflexivity.
  - destruct (scan_bad s i I O) as (c & E & L). split; [|split; [split; [apply esc_body_calm|split; [|apply esc_body_head]]|reflexivity]].
    + cbn [t0]. unfold esc_body. rewrite O, E. reflexivity.
    + exists c, "". split; auto. intros ->. vm_compute in L. now apply L.
Qed.
Definition kinds (pr : N -> bool) (s : string) : list kind := map (kind_of pr) (scan s).
Lemma kinds_ok : forall pr s, ascii_right pr -> Forall kind_ok (kinds pr s).
Proof. intros pr s A. apply Forall_map, Forall_forall. intros i I. now apply (quote_item_kind pr s i A I). Qed.
Lemma kinds_raw : forall pr s, ascii_right pr -> cat raw (kinds pr s) = s.
Proof.
  intros pr s A. rewrite <- (unscan_scan s) at 2. unfold cat, kinds, unscan. rewrite map_map. f_equal. apply map_ext_in.
  intros i I. now apply (quote_item_kind pr s i A I).
Qed.
Lemma kinds_quote : forall pr s, ascii_right pr -> quote pr s = """" ++ cat t0 (kinds pr s) ++ """".
Proof.
  intros pr s A. unfold quote, cat, kinds. rewrite map_map. f_equal. f_equal. f_equal. apply map_ext_in.
  intros i I. now apply (quote_item_kind pr s i A I).
Qed.
Lemma kinds_KQ : forall pr s, existsb (N.eqb 34) (runes s) = true <-> In KQ (kinds pr s).
Proof.
  intros pr s. unfold runes, kinds. rewrite existsb_exists, in_map_iff. split.
  - intros (n & I & E). apply N.eqb_eq in E. subst n. apply in_map_iff in I as (i & E & I). exists i. split; auto.
    unfold kind_of. rewrite E. destruct (it_ok i) eqn:O; [reflexivity|]. exfalso. pose proof (scan_items s i I) as (_ & _ & B). destruct (B O). rewrite E in *. discriminate.
  - intros (i & K & I). exists 34%N. split; [|reflexivity]. apply in_map_iff. exists i. split; auto. unfold kind_of in K.
    destruct (negb (it_ok i)); [discriminate|]. destruct (N.eqb_spec (it_rune i) 34); auto. destruct (_ =? 92)%N; [discriminate|]. destruct (pr _); [destruct (_ =? 39)%N|]; discriminate.
Qed.
(** Enquote, when it quotes. *)
Lemma enquote_form : forall pr s, ascii_right pr -> needs_quote s = true ->
  let single := existsb (N.eqb 34) (runes s) in
  let q := if single then s_sq else s_dq in
  enquote pr s = q ++ cat (tq single) (kinds pr s) ++ q.
Proof.
  intros pr s A NQ single q. unfold enquote. rewrite NQ. cbn [negb]. unfold repr. fold single. pose proof (kinds_ok pr s A) as KO.
  unfold replace_all. change (s_bs ++ s_bs) with "\\". change s_bs with "\". rewrite kinds_quote by auto. unfold q. destruct single eqn:SG.
  - change ("\" ++ s_dq) with "\""". change s_dq with """". change s_sq with "'". change ("\" ++ "'") with "\'".
    assert (E1 : replace_from "\""" """" 0 ("""" ++ cat t0 (kinds pr s) ++ """") = """" ++ c1 (kinds pr s) ++ """").
    { rewrite (rep_skip "\"%char """" """" """") by (cbn; intros [X|[]]; discriminate). now rewrite rep1_sq. }
    rewrite E1.
    assert (E2 : replace_from "'" "\'" 0 ("""" ++ c1 (kinds pr s) ++ """") = """" ++ c2 (kinds pr s) ++ """").
    { rewrite (rep_skip "'"%char "" "\'" """") by (cbn; intros [X|[]]; discriminate). now rewrite rep3_sq. }
    rewrite E2. cbn [drop String.append].
    replace (slen (String """" (c2 (kinds pr s) ++ """")) - 2) with (slen (c2 (kinds pr s))) by (cbn [slen]; rewrite app_slen; cbn; lia).
    rewrite take_app. change (String "'" (c2 (kinds pr s) ++ "'")) with ("'" ++ c2 (kinds pr s) ++ "'").
    rewrite (rep_skip "\"%char "\" "\" "'") by (cbn; intros [X|[]]; discriminate). now rewrite rep2_sq.
  - change s_dq with """". rewrite (rep_skip "\"%char "\" "\" """") by (cbn; intros [X|[]]; discriminate). rewrite rep2_dq; auto.
    intros I. apply (kinds_KQ pr s) in I. fold single in I. congruence.
Qed.
