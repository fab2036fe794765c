(** C60: the library functions. *)
From Verif Require Export CharsProofs SpecLib.
From Coq Require Import DecimalString.
From Coq Require DecimalPos.
Local Open Scope string_scope.

(** *** trim_space *)
Lemma raw_unscan : forall l, raw l = unscan l.
Proof. induction l as [|i l IH]; [reflexivity|]. change (raw (i :: l)) with (it_raw i ++ raw l). now rewrite IH. Qed.
Lemma drop_while_split : forall A (p : A -> bool) l, exists a, l = (a ++ drop_while p l)%list /\ Forall (fun x => p x = true) a /\ (forall i m, drop_while p l = i :: m -> p i = false).
Proof.
  induction l as [|x l (a & E & F & H)]; cbn.
  - exists []. repeat split; auto. discriminate.
  - destruct (p x) eqn:P.
    + exists (x :: a). cbn. rewrite <- E. repeat split; auto.
    + exists []. repeat split; auto. intros i m X. inversion X; subst. auto.
Qed.
Lemma drop_while_is : forall A (p : A -> bool) a l, Forall (fun x => p x = true) a -> (forall i m, l = i :: m -> p i = false) -> drop_while p (a ++ l) = l.
Proof.
  induction 1 as [|x a P F IH]; intros H; cbn.
  - destruct l as [|i m]; cbn; auto. now rewrite (H i m eq_refl).
  - rewrite P. auto.
Qed.
Definition spw (i : item) : bool := is_space_rune (it_rune i).
Lemma spw_iff : forall i, spw i = true <-> white_item i.
Proof. intros i. apply space_exact. Qed.
Lemma spw_f : forall i, spw i = false <-> ~ white_item i.
Proof. intros i. rewrite <- spw_iff. destruct (spw i); split; congruence || tauto. Qed.
(** A stretch of the items of a text is divided into the same items. *)
Lemma chars_tail : forall a s l, chars s (a ++ l) -> chars (raw l) l.
Proof.
  induction a as [|x a IH]; intros s l C; cbn [app] in C.
  - apply chars_exact in C. subst. rewrite raw_unscan, unscan_scan. apply chars_scan.
  - inversion C; subst; eauto.
Qed.
Lemma trim_right_items : forall s, trim_right is_space_rune s = unscan (rev (drop_while spw (rev (scan s)))).
Proof. reflexivity. Qed.
Lemma trim_sound : forall s t, trimmed s t -> trim_space s = t.
Proof.
  intros s t (a & l & b & C & A & B & -> & H1 & H2). unfold trim_space, trim_left. pose proof C as C0. apply chars_exact in C0. rewrite C0.
  assert (A' : Forall (fun x => spw x = true) a) by (apply (Forall_impl _ (fun i => proj2 (spw_iff i))); auto).
  assert (B' : Forall (fun x => spw x = true) b) by (apply (Forall_impl _ (fun i => proj2 (spw_iff i))); auto).
  change (fun i => is_space_rune (it_rune i)) with spw. destruct l as [|i l].
  - cbn [app]. rewrite <- (app_nil_r (a ++ b)), drop_while_is by (try (apply Forall_app; auto); discriminate). reflexivity.
  - rewrite (drop_while_is _ _ a) by (auto; intros j m X; cbn in X; inversion X; subst; apply spw_f; now apply (H1 j l)).
    rewrite trim_right_items, <- (raw_unscan ((i :: l) ++ b)). pose proof (chars_tail _ _ _ C) as D. apply chars_exact in D. rewrite D.
    rewrite rev_app_distr, drop_while_is.
    + now rewrite rev_involutive, raw_unscan.
    + now apply Forall_rev.
    + intros j m X. apply spw_f. apply (H2 j (rev m)). rewrite <- (rev_involutive (i :: l)), X. reflexivity.
Qed.
Lemma trim_exists : forall s, exists t, trimmed s t.
Proof.
  intros s. pose proof (chars_scan s) as C. destruct (drop_while_split _ spw (scan s)) as (a & E & A & H). set (r := drop_while spw (scan s)) in *.
  destruct (drop_while_split _ spw (rev r)) as (b & E2 & B & H2). set (l := drop_while spw (rev r)) in *.
  assert (E3 : r = (rev l ++ rev b)%list). { rewrite <- (rev_involutive r), E2, rev_app_distr. reflexivity. }
  exists (raw (rev l)), a, (rev l), (rev b). rewrite <- E3, <- E. split; [auto|]. split; [apply (Forall_impl _ (fun i => proj1 (spw_iff i))); auto|].
  split; [apply Forall_rev, (Forall_impl _ (fun i => proj1 (spw_iff i))); auto|]. split; [reflexivity|]. split.
  - intros i m X. apply spw_f. rewrite X in E3. apply (H i (m ++ rev b)%list). exact E3.
  - intros i m X. apply spw_f. apply (H2 i (rev m)). rewrite <- (rev_involutive l), X, rev_app_distr. reflexivity.
Qed.
Lemma trim_exact : forall s t, trim_space s = t <-> trimmed s t.
Proof. intros s t. split; [|apply trim_sound]. intros <-. destruct (trim_exists s) as [t T]. now rewrite (trim_sound _ _ T). Qed.

(** *** Prefixes and suffixes *)
Lemma no_prefix : forall s p, has_prefix s p = false <-> ~ exists r, s = p ++ r.
Proof. intros s p. rewrite <- has_prefix_iff. destruct (has_prefix s p); split; congruence || tauto. Qed.
Lemma no_suffix : forall s p, has_suffix s p = false <-> ~ exists r, s = r ++ p.
Proof. intros s p. rewrite <- has_suffix_iff. destruct (has_suffix s p); split; congruence || tauto. Qed.
Lemma trim_prefix_exact : forall s p t, trim_prefix s p = t <-> without_prefix p s t.
Proof.
  intros s p t. unfold trim_prefix, without_prefix. destruct (has_prefix s p) eqn:E.
  - apply has_prefix_iff in E as [r ->]. rewrite drop_app. split; [intros ->; auto|]. intros [X|[X _]]; [now apply app_inv_l_s in X|]. exfalso; eauto.
  - apply no_prefix in E. split; [intros ->; auto|]. intros [X|[_ X]]; auto. exfalso; eauto.
Qed.
Lemma app_inv_r_s : forall a b c : string, a ++ c = b ++ c -> a = b.
Proof.
  intros a b c E. assert (L : slen a = slen b). { apply (f_equal slen) in E. rewrite !app_slen in E. lia. }
  rewrite <- (take_app a c), <- (take_app b c), E, L. reflexivity.
Qed.
Lemma trim_suffix_exact : forall s p t, trim_suffix s p = t <-> without_suffix p s t.
Proof.
  intros s p t. unfold trim_suffix, without_suffix. destruct (has_suffix s p) eqn:E.
  - apply has_suffix_iff in E as [r ->]. rewrite app_slen. replace (slen r + slen p - slen p) with (slen r) by lia. rewrite take_app.
    split; [intros ->; auto|]. intros [X|[X _]]; [now apply app_inv_r_s in X|]. exfalso; eauto.
  - apply no_suffix in E. split; [intros ->; auto|]. intros [X|[_ X]]; auto. exfalso; eauto.
Qed.

(** *** ReplaceAll *)
Lemma replace_skip : forall old new a s, replace_from old new (slen a) (a ++ s) = replace_from old new 0 s.
Proof. induction a as [|c a IH]; intros s; [reflexivity|]. cbn [slen String.append replace_from]. apply IH. Qed.
Lemma replace_sound : forall old new s t, old <> "" -> replaced old new s t -> replace_all s old new = t.
Proof.
  intros old new s t NE. unfold replace_all. induction 1 as [|s t R IH|c s t H R IH]; [reflexivity| |].
  - destruct old as [|c old]; [congruence|]. cbn [String.append]. cbn [replace_from].
    rewrite (proj2 (prefix_iff _ _)) by (exists s; reflexivity). cbn [slen pred]. now rewrite replace_skip, IH.
  - cbn [replace_from]. destruct (prefix old (String c s)) eqn:P; [|now rewrite IH]. apply prefix_iff in P. contradiction.
Qed.
Lemma replace_exists : forall old new, old <> "" -> forall n s, slen s <= n -> exists t, replaced old new s t.
Proof.
  intros old new NE. induction n as [|n IH]; intros s L.
  - exists "". destruct s; [constructor|cbn in L; lia].
  - destruct s as [|c s]; [exists ""; constructor|]. destruct (prefix old (String c s)) eqn:P.
    + apply prefix_iff in P as [r E]. destruct (IH r) as [t T].
      { apply (f_equal slen) in E. rewrite app_slen in E. cbn in *. destruct old; [congruence|]. cbn in *. lia. }
      exists (new ++ t). rewrite E. now constructor.
    + destruct (IH s) as [t T]; [cbn in L; lia|]. exists (String c t). constructor; auto. intros X. apply prefix_iff in X. congruence.
Qed.
Lemma replace_exact : forall s old new t, old <> "" -> (replace_all s old new = t <-> replaced old new s t).
Proof.
  intros s old new t NE. split; [|now apply replace_sound]. intros <-. destruct (replace_exists old new NE (slen s) s) as [t T]; auto. now rewrite (replace_sound _ _ _ _ NE T).
Qed.

(** *** Split, Join, Cut *)
Lemma not_inside_cons : forall c d s, ~ inside c (String d s) <-> c <> d /\ ~ inside c s.
Proof.
  intros c d s. split.
  - intros H. split; [intros ->; apply H; now exists "", s|]. intros (a & b & ->). apply H. now exists (String d a), b.
  - intros [N H] (a & b & E). destruct a as [|x a]; cbn in E; inversion E; subst; [congruence|]. apply H. now exists a, b.
Qed.
Lemma not_inside_nil : forall c, ~ inside c "".
Proof. intros c (a & b & E). destruct a; discriminate. Qed.
Lemma split_plain : forall c s, ~ inside c s -> split c s = [s].
Proof.
  induction s as [|d s IH]; intros H; [reflexivity|]. apply not_inside_cons in H as [N H]. cbn [split]. destruct (Ascii.eqb_spec d c); [congruence|]. now rewrite IH.
Qed.
Lemma split_first : forall c x s, ~ inside c x -> split c (x ++ String c s) = x :: split c s.
Proof.
  induction x as [|d x IH]; intros s H; cbn [String.append split].
  - now rewrite Ascii.eqb_refl.
  - apply not_inside_cons in H as [N H]. destruct (Ascii.eqb_spec d c); [congruence|]. now rewrite IH.
Qed.
Lemma pieces_sound : forall c s l, pieces c s l -> split c s = l.
Proof.
  intros c s l [J F]. induction J as [x|x l s J IH].
  - inversion F; subst. now apply split_plain.
  - inversion F; subst. cbn [String.append]. rewrite split_first by auto. now rewrite IH.
Qed.
Lemma split_pieces : forall c s, pieces c s (split c s).
Proof.
  intros c. induction s as [|d s [J F]]; cbn [split].
  - split; repeat constructor. apply not_inside_nil.
  - destruct (Ascii.eqb_spec d c) as [->|N].
    + split; [apply (jo_more (String c "") "" _ _ J)|]. constructor; auto. apply not_inside_nil.
    + destruct (split c s) as [|x l]; [inversion J|]. inversion F; subst. split.
      * inversion J; subst; [constructor|]. apply (jo_more (String c "") (String d x)). auto.
      * constructor; auto. apply not_inside_cons. split; auto.
Qed.
Lemma split_exact : forall c s l, split c s = l <-> pieces c s l.
Proof. intros c s l. split; [intros <-; apply split_pieces|apply pieces_sound]. Qed.
Lemma join_exact : forall l sep s, l <> [] -> (join l sep = s <-> joined sep l s).
Proof.
  assert (K : forall sep l, l <> [] -> joined sep l (String.concat sep l)).
  { induction l as [|x [|y l] IH]; intros H; [congruence|constructor|]. cbn [String.concat]. constructor. now apply IH. }
  intros l sep s H. split; [intros <-; now apply K|]. intros J. induction J as [x|x l s J IH]; [reflexivity|].
  destruct l as [|y l]; [inversion J|]. unfold join in *. cbn [String.concat] in *. now rewrite IH.
Qed.
Lemma cut_exact : forall c s r, cut c s = r <-> cut_at c s r.
Proof.
  assert (S : forall c s r, cut_at c s r -> cut c s = r).
  { intros c s [[a b]|]; cbn [cut_at].
    - intros [-> H]. induction a as [|d a IH]; cbn [String.append cut]; [now rewrite Ascii.eqb_refl|].
      apply not_inside_cons in H as [N H]. destruct (Ascii.eqb_spec d c); [congruence|]. now rewrite IH.
    - induction s as [|d s IH]; intros H; cbn [cut]; auto. apply not_inside_cons in H as [N H]. destruct (Ascii.eqb_spec d c); [congruence|]. now rewrite IH. }
  assert (E : forall c s, exists r, cut_at c s r).
  { intros c. induction s as [|d s [r R]]; [exists None; apply not_inside_nil|]. destruct (Ascii.eqb_spec d c) as [->|N].
    - exists (Some ("", s)). split; [reflexivity|apply not_inside_nil].
    - destruct r as [[a b]|]; cbn in R.
      + exists (Some (String d a, b)). destruct R as [-> R]. split; [reflexivity|]. apply not_inside_cons. split; auto.
      + exists None. cbn. apply not_inside_cons. split; auto. }
  intros c s r. split; [|apply S]. intros <-. destruct (E c s) as [r R]. now rewrite (S _ _ _ R).
Qed.
Lemma str_exists_iff : forall p s, str_exists p s = true <-> exists c, inside c s /\ p c = true.
Proof.
  intros p s. unfold str_exists. induction s as [|d s IH]; cbn [list_of_str existsb].
  - split; [discriminate|]. intros (c & I & _). exfalso. now apply not_inside_nil in I.
  - rewrite orb_true_iff, IH. split.
    + intros [H|(c & (a & b & ->) & H)]; [exists d; split; auto; now exists "", s|]. exists c. split; auto. now exists (String d a), b.
    + intros (c & (a & b & E) & H). destruct a as [|x a]; cbn in E; inversion E; subst; auto. right. exists c. split; auto. now exists a, b.
Qed.
Lemma contains_any_exact : forall s cs, contains_any s cs = true <-> exists c, inside c s /\ inside c cs.
Proof.
  intros s cs. unfold contains_any. rewrite str_exists_iff. split; intros (c & I & H); exists c; split; auto.
  - apply str_exists_iff in H as (d & J & E). apply Ascii.eqb_eq in E. now subst.
  - apply str_exists_iff. exists c. split; auto. apply Ascii.eqb_refl.
Qed.

(** *** ToLower *)
Lemma inside_get : forall c s, inside c s <-> exists i, String.get i s = Some c.
Proof.
  intros c s. split.
  - intros (a & b & ->). exists (slen a). induction a; cbn; auto.
  - intros [i H]. revert i H. induction s as [|d s IH]; intros i H; [destruct i; discriminate|]. destruct i as [|i]; cbn in H.
    + inversion H; subst. now exists "", s.
    + destruct (IH _ H) as (a & b & ->). now exists (String d a), b.
Qed.
Definition lower_case (c : ascii) : bool :=
  existsb (fun i => match String.get i capitals, String.get i smalls with Some x, Some y => Ascii.eqb x c && Ascii.eqb y (lower_byte c) | _, _ => false end)%bool (seq 0 26)
  || (forallb (fun i => match String.get i capitals with Some x => negb (Ascii.eqb x c) | None => true end) (seq 0 26) && Ascii.eqb (lower_byte c) c).
Lemma lower_cases : forall c, lower_case c = true.
Proof. intros [[|] [|] [|] [|] [|] [|] [|] [|]]; vm_compute; reflexivity. Qed.
Lemma get_bound : forall i s c, String.get i s = Some c -> i < slen s.
Proof. induction i; destruct s; cbn; intros; try discriminate; try lia. apply IHi in H. lia. Qed.
Lemma to_lower_step : forall c s t, lowered s t -> lowered (String c s) (String (lower_byte c) t).
Proof.
  intros c s t L. pose proof (lower_cases c) as H. unfold lower_case in H. apply orb_true_iff in H as [H|H].
  - apply existsb_exists in H as (i & _ & H). destruct (String.get i capitals) eqn:A, (String.get i smalls) eqn:B; try discriminate.
    apply andb_true_iff in H as [X Y]. apply Ascii.eqb_eq in X. apply Ascii.eqb_eq in Y. subst. now apply (lo_letter i).
  - apply andb_true_iff in H as [X Y]. apply Ascii.eqb_eq in Y. rewrite Y. constructor; auto. intros I. apply inside_get in I as [i I].
    rewrite forallb_forall in X. specialize (X i). rewrite I, Ascii.eqb_refl in X. discriminate X. apply in_seq. apply get_bound in I. cbn in I. lia.
Qed.
Lemma to_lower_lowered : forall s, lowered s (to_lower s).
Proof. induction s; cbn [to_lower]; [constructor|]. now apply to_lower_step. Qed.
Lemma lowered_fun : forall s t, lowered s t -> forall u, lowered s u -> t = u.
Proof.
  assert (K : forall i j c, String.get i capitals = Some c -> String.get j capitals = Some c -> i = j).
  { intros i j c A B. pose proof (get_bound _ _ _ A) as LA. pose proof (get_bound _ _ _ B) as LB.
    assert (Q : forallb (fun i => forallb (fun j => match String.get i capitals, String.get j capitals with Some x, Some y => implb (Ascii.eqb x y) (Nat.eqb i j) | _, _ => true end) (seq 0 26)) (seq 0 26) = true) by (vm_compute; reflexivity).
    rewrite forallb_forall in Q. specialize (Q i (proj2 (in_seq _ _ _) (conj (Nat.le_0_l _) LA))). rewrite forallb_forall in Q. specialize (Q j (proj2 (in_seq _ _ _) (conj (Nat.le_0_l _) LB))).
    rewrite A, B, Ascii.eqb_refl in Q. now apply Nat.eqb_eq. }
  induction 1 as [|i c d s t A B L IH|c s t N L IH]; intros u U; inversion U; subst; auto.
  - rewrite (K i i0 c) in B by auto. f_equal; [congruence|auto].
  - exfalso. match goal with X : ~ inside c capitals |- _ => apply X end. apply inside_get. eauto.
  - exfalso. apply N. apply inside_get. eauto.
  - f_equal. auto.
Qed.
Lemma to_lower_exact : forall s t, to_lower s = t <-> lowered s t.
Proof. intros s t. split; [intros <-; apply to_lower_lowered|]. intros L. eapply lowered_fun; eauto using to_lower_lowered. Qed.

(** *** Sort *)
Lemma not_after_iff : forall s t, str_leb s t = true <-> not_after s t.
Proof.
  unfold str_leb. induction s as [|c s IH]; intros t.
  - split; [constructor|]. destruct t; reflexivity.
  - destruct t as [|d t]; cbn [String.compare]; [split; [discriminate|inversion 1]|].
    unfold Ascii.compare. destruct (N.compare_spec (N_of_ascii c) (N_of_ascii d)) as [E|E|E].
    + assert (c = d) by (rewrite <- (ascii_N_embedding c), E, ascii_N_embedding; reflexivity). subst d. rewrite IH. split; [now constructor|]. inversion 1; subst; auto. lia.
    + split; [intros _|reflexivity]. constructor. unfold nat_of_ascii. lia.
    + split; [discriminate|]. inversion 1; subst; [unfold nat_of_ascii in *; lia|lia].
Qed.
Lemma not_after_trans : forall a b, not_after a b -> forall c, not_after b c -> not_after a c.
Proof.
  induction 1 as [t|c d s t L|c s t H IH]; intros u U; [constructor| |].
  - inversion U; subst; constructor; lia.
  - inversion U; subst; [now constructor|]. apply na_same. auto.
Qed.
Lemma not_after_total : forall a b, not_after a b \/ not_after b a.
Proof.
  induction a as [|c a IH]; intros b; [left; constructor|]. destruct b as [|d b]; [right; constructor|].
  destruct (Nat.lt_total (nat_of_ascii c) (nat_of_ascii d)) as [L|[E|L]]; [left; now constructor| |right; now constructor].
  assert (c = d) by (rewrite <- (ascii_nat_embedding c), E, ascii_nat_embedding; reflexivity). subst. destruct (IH b); [left|right]; now constructor.
Qed.
Lemma not_after_antisym : forall a b, not_after a b -> not_after b a -> a = b.
Proof.
  induction 1 as [t|c d s t L|c s t H IH]; intros K; inversion K; subst; auto; try lia. f_equal. auto.
Qed.
Lemma insert_sorted : forall x l, StronglySorted not_after l -> StronglySorted not_after (insert_str x l) /\ Permutation (x :: l) (insert_str x l).
Proof.
  induction l as [|y l IH]; intros S; cbn [insert_str].
  - split; repeat constructor.
  - inversion S as [|? ? S' F]; subst. destruct (str_leb x y) eqn:E.
    + apply not_after_iff in E. split; auto. constructor; auto. constructor; auto. apply (Forall_impl _ (fun z => not_after_trans x y E z)). auto.
    + destruct (IH S') as [S2 P]. assert (L : not_after y x). { destruct (not_after_total x y) as [X|X]; auto. apply not_after_iff in X. congruence. }
      split; [|rewrite perm_swap; now constructor]. constructor; auto. apply (Permutation_Forall P). constructor; auto.
Qed.
Lemma sort_sorted : forall l, StronglySorted not_after (sort_strings l) /\ Permutation l (sort_strings l).
Proof.
  unfold sort_strings. induction l as [|x l [S P]]; cbn [fold_right]; [split; constructor|]. destruct (insert_sorted x _ S) as [S2 P2]. split; auto. now rewrite P at 1.
Qed.
Lemma sorted_unique : forall l m, StronglySorted not_after l -> StronglySorted not_after m -> Permutation l m -> l = m.
Proof.
  induction l as [|x l IH]; intros m S T P.
  - apply Permutation_nil in P. auto.
  - destruct m as [|y m]; [symmetry in P; apply Permutation_nil in P; discriminate|]. inversion S as [|? ? S' F]; subst. inversion T as [|? ? T' G]; subst.
    assert (x = y).
    { assert (I : In x (y :: m)) by (apply (Permutation_in _ P); now left). assert (J : In y (x :: l)) by (symmetry in P; apply (Permutation_in _ P); now left).
      rewrite Forall_forall in F, G. destruct I as [I|I]; auto. destruct J as [J|J]; auto. apply not_after_antisym; auto. }
    subst. f_equal. apply IH; auto. now apply Permutation_cons_inv in P.
Qed.
Lemma sort_exact : forall l m, sort_strings l = m <-> Permutation l m /\ StronglySorted not_after m.
Proof.
  intros l m. destruct (sort_sorted l) as [S P]. split; [intros <-; auto|]. intros [Q T]. apply sorted_unique; auto. now rewrite <- P.
Qed.

(** *** Decimal numbers *)
Lemma digit_bound : forall i c, String.get i digits = Some c -> i < 10.
Proof. intros i c H. apply get_bound in H. exact H. Qed.
Lemma decimal_pos : forall n t, decimal n t -> (0 <= n)%Z.
Proof. induction 1; lia. Qed.
Lemma decimal_fun : forall n t, decimal n t -> forall u, decimal n u -> t = u.
Proof.
  intros n t D. induction D as [i c G|n t i c D IH P G]; intros u U; pose proof (digit_bound _ _ G) as B.
  - remember (Z.of_nat i) as z eqn:Z. destruct U as [j d G2|m v j d D2 P2 G2]; [|lia]. apply Nat2Z.inj in Z. subst. congruence.
  - remember (10 * n + Z.of_nat i)%Z as z eqn:Z. destruct U as [j d G2|m v j d D2 P2 G2]; pose proof (digit_bound _ _ G2) as B2; [lia|]. assert (m = n) by lia. assert (j = i) by lia. subst. rewrite (IH _ D2). congruence.
Qed.
Lemma decimal_more : forall (k i : nat) p t c, String.get i digits = Some c -> decimal (Zpos p) t -> forall q, Zpos q = (10 * Zpos p + Z.of_nat i)%Z -> decimal (Zpos q) (t ++ String c "").
Proof. intros k i p t c G D q E. rewrite E. apply de_more; auto. lia. Qed.
Lemma decimal_acc : forall u p t, decimal (Zpos p) t -> decimal (Zpos (Pos.of_uint_acc u p)) (t ++ NilEmpty.string_of_uint u).
Proof.
  induction u as [|u IH|u IH|u IH|u IH|u IH|u IH|u IH|u IH|u IH|u IH]; intros p t D; cbn [NilEmpty.string_of_uint].
  1: now rewrite app_nil_r_s.
  all: match goal with |- decimal _ (_ ++ String ?c ?r) => replace (t ++ String c r) with ((t ++ String c "") ++ r) by (rewrite app_assoc_s; reflexivity) end; cbn [Pos.of_uint_acc]; apply IH.
  - apply (decimal_more 0 0 p); auto; lia.
  - apply (decimal_more 0 1 p); auto; lia.
  - apply (decimal_more 0 2 p); auto; lia.
  - apply (decimal_more 0 3 p); auto; lia.
  - apply (decimal_more 0 4 p); auto; lia.
  - apply (decimal_more 0 5 p); auto; lia.
  - apply (decimal_more 0 6 p); auto; lia.
  - apply (decimal_more 0 7 p); auto; lia.
  - apply (decimal_more 0 8 p); auto; lia.
  - apply (decimal_more 0 9 p); auto; lia.
Qed.
Lemma decimal_uint : forall p, decimal (Zpos p) (NilZero.string_of_uint (Pos.to_uint p)).
Proof.
  intros p. pose proof (DecimalPos.Unsigned.of_to p) as H. destruct (Pos.to_uint p) as [|u|u|u|u|u|u|u|u|u|u] eqn:E; cbn [Pos.of_uint] in H; try discriminate H.
  1: { exfalso. pose proof (DecimalPos.Unsigned.to_of (Pos.to_uint p)) as T. rewrite DecimalPos.Unsigned.of_to in T. cbn [N.to_uint] in T. rewrite E in T.
    assert (K : forall v w, Decimal.nzhead v <> Decimal.D0 w) by (induction v; cbn; intros; congruence || auto).
    unfold Decimal.unorm in T. destruct (Decimal.nzhead (Decimal.D0 u)) eqn:Z; try discriminate T.
    - injection T as ->. cbn in H. discriminate H.
    - exact (K _ _ Z). }
  all: injection H as <-; cbn [NilZero.string_of_uint NilEmpty.string_of_uint];
    match goal with |- decimal _ (String ?c ?r) => change (String c r) with (String c "" ++ r) end; apply decimal_acc.
  - now apply (de_one 1).
  - now apply (de_one 2).
  - now apply (de_one 3).
  - now apply (de_one 4).
  - now apply (de_one 5).
  - now apply (de_one 6).
  - now apply (de_one 7).
  - now apply (de_one 8).
  - now apply (de_one 9).
Qed.
Lemma itoa_number : forall z, number z (itoa z).
Proof.
  intros [|p|p]; unfold number, itoa; cbn [Z.ltb Z.compare Z.to_int NilZero.string_of_int].
  - now apply (de_one 0).
  - apply decimal_uint.
  - exists (NilZero.string_of_uint (Pos.to_uint p)). split; [reflexivity|]. cbn [Z.opp]. apply decimal_uint.
Qed.
Lemma itoa_exact : forall z t, itoa z = t <-> number z t.
Proof.
  intros z t. split; [intros <-; apply itoa_number|]. pose proof (itoa_number z) as H. unfold number in *. destruct (z <? 0)%Z.
  - intros (u & -> & D). destruct H as (v & -> & D2). now rewrite (decimal_fun _ _ D _ D2).
  - intros D. eapply decimal_fun; eauto.
Qed.

(** *** Paths *)
Definition ord (e : string) : bool := (negb (String.eqb e "") && negb (String.eqb e ".") && negb (String.eqb e ".."))%bool.
Lemma proper_ord : forall e, proper e -> (String.eqb e "" || String.eqb e ".")%bool = false /\ String.eqb e ".." = false.
Proof.
  intros e (A & B & C). apply String.eqb_neq in A. apply String.eqb_neq in B. apply String.eqb_neq in C. now rewrite A, B, C.
Qed.
Lemma clean_app : forall r a acc x, clean_elems r acc (a ++ x) = clean_elems r (rev (clean_elems r acc a)) x.
Proof.
  induction a as [|e a IH]; intros acc x; cbn [app clean_elems].
  - now rewrite rev_involutive.
  - destruct (_ || _)%bool; auto. destruct (String.eqb e ".."); auto. destruct acc as [|b acc]; [destruct r; auto|]. destruct (String.eqb b ".."); auto.
Qed.
Definition rooted_as (r : bool) : Prop := r = true.
Lemma shorter_same : forall r l m, shorter (rooted_as r) l m -> clean_elems r [] l = clean_elems r [] m.
Proof.
  intros r l m H. destruct H as [a b|a b|a e b P|b R].
  - now rewrite !clean_app.
  - now rewrite !clean_app.
  - rewrite !clean_app. destruct (proper_ord e P) as [A B]. cbn [clean_elems]. rewrite A, B. reflexivity.
  - unfold rooted_as in R. subst r. reflexivity.
Qed.
Lemma shortened_same : forall r l m, shortened (rooted_as r) l m -> clean_elems r [] l = clean_elems r [] m.
Proof. induction 1; auto. erewrite shorter_same; eauto. Qed.
(** A stack of elements none of the rules applies to. *)
Inductive stack (r : bool) : list string -> Prop :=
| sk_nil : stack r []
| sk_up : forall l, r = false -> stack r l -> Forall (fun e => e = "..") l -> stack r (".." :: l)
| sk_name : forall e l, proper e -> stack r l -> stack r (e :: l).
Lemma shortest_stack : forall r acc es, shortest (rooted_as r) (rev acc ++ es) -> stack r acc -> clean_elems r acc es = (rev acc ++ es)%list.
Proof.
  intros r acc es. revert acc. induction es as [|e es IH]; intros acc S K; cbn [clean_elems]; [now rewrite app_nil_r|].
  destruct (String.eqb_spec e "") as [->|N1]; [exfalso; exact (S _ (sh_empty _ _ _))|]. destruct (String.eqb_spec e ".") as [->|N2]; [exfalso; exact (S _ (sh_dot _ _ _))|]. cbn [orb].
  assert (R : (rev acc ++ e :: es)%list = (rev (e :: acc) ++ es)%list) by (cbn [rev]; rewrite <- app_assoc; reflexivity).
  destruct (String.eqb_spec e "..") as [->|N3].
  - destruct acc as [|a acc].
    + destruct r; [exfalso; exact (S _ (sh_root _ es eq_refl))|]. rewrite R in *. apply IH; auto. apply sk_up; auto.
    + inversion K as [|l RF K' F|x l P K']; subst.
      * rewrite String.eqb_refl. rewrite R in *. apply IH; auto. apply sk_up; auto.
      * exfalso. apply (S (rev acc ++ es)%list). cbn [rev]. rewrite <- app_assoc. cbn [app]. now constructor.
  - rewrite R in *. apply IH; auto. apply sk_name; auto. repeat split; auto.
Qed.
Lemma stack_shortest : forall r acc, stack r acc -> shortest (rooted_as r) (rev acc).
Proof.
  intros r acc K m H. assert (E : forall e, In e (rev acc) -> e <> "" /\ e <> ".").
  { intros e I. rewrite <- in_rev in I. clear H. induction K; cbn in I; [tauto| |]; destruct I as [<-|I]; auto; [split; discriminate|]. destruct H as (A & B & _). auto. }
  remember (rev acc) as l eqn:L. destruct H as [a b|a b|a e b P|b R].
  - destruct (E "") as [X _]; [apply in_elt|congruence].
  - destruct (E ".") as [_ X]; [apply in_elt|congruence].
  - apply (f_equal (@rev string)) in L. rewrite rev_involutive, rev_app_distr in L. cbn [rev app] in L. rewrite <- !app_assoc in L. cbn [app] in L. clear E.
    remember (rev b) as c eqn:C. clear C. subst acc. induction c as [|x c IH]; cbn [app] in K.
    + inversion K as [|l RF K' F|x l P2 K']; subst; [|destruct P2; tauto]. inversion F; subst. destruct P; tauto.
    + inversion K; subst; auto.
  - apply (f_equal (@rev string)) in L. rewrite rev_involutive in L. cbn [rev] in L. subst acc. clear E. unfold rooted_as in R. subst r. remember (rev b) as c eqn:C. clear C.
    induction c as [|x c IH]; cbn [app] in K; inversion K; subst; try discriminate; auto. destruct H1; tauto.
Qed.
Lemma clean_reach : forall r es acc, stack r acc -> exists acc', clean_elems r acc es = rev acc' /\ stack r acc' /\ shortened (rooted_as r) (rev acc ++ es) (rev acc').
Proof.
  intros r. induction es as [|e es IH]; intros acc K; cbn [clean_elems].
  - exists acc. rewrite app_nil_r. repeat split; auto. constructor.
  - assert (R : (rev acc ++ e :: es)%list = (rev (e :: acc) ++ es)%list) by (cbn [rev]; rewrite <- app_assoc; reflexivity).
    destruct (String.eqb_spec e "") as [->|N1]; [|destruct (String.eqb_spec e ".") as [->|N2]]; cbn [orb].
    + destruct (IH acc K) as (acc' & A & B & C). exists acc'. repeat split; auto. eapply sd_step; [apply sh_empty|auto].
    + destruct (IH acc K) as (acc' & A & B & C). exists acc'. repeat split; auto. eapply sd_step; [apply sh_dot|auto].
    + destruct (String.eqb_spec e "..") as [->|N3].
      * destruct acc as [|a acc].
        -- destruct r.
           ++ destruct (IH [] K) as (acc' & A & B & C). exists acc'. repeat split; auto. eapply sd_step; [apply sh_root; reflexivity|auto].
           ++ rewrite R. apply IH. constructor; auto; constructor.
        -- inversion K as [|l RF K' F|x l P K']; subst.
           ++ rewrite String.eqb_refl, R. apply IH. apply sk_up; auto.
           ++ rewrite (proj2 (proper_ord _ P)). destruct (IH acc K') as (acc' & A & B & C). exists acc'. repeat split; auto.
              eapply sd_step; [|exact C]. cbn [rev]. rewrite <- app_assoc. cbn [app]. now constructor.
      * rewrite R. apply IH. apply sk_name; auto. repeat split; auto.
Qed.
Lemma clean_elems_exact : forall r es l, clean_elems r [] es = l <-> shortened (rooted_as r) es l /\ shortest (rooted_as r) l.
Proof.
  intros r es l. split.
  - intros <-. destruct (clean_reach r es []) as (acc & -> & K & S); [constructor|]. split; auto. now apply stack_shortest.
  - intros [S T]. rewrite (shortened_same _ _ _ S). apply (shortest_stack r [] l T). constructor.
Qed.
Lemma shorter_iff : forall P Q : Prop, (P <-> Q) -> forall l m, shorter P l m -> shorter Q l m.
Proof. intros P Q E l m H. destruct H; constructor; auto. now apply E. Qed.
Lemma shortened_iff : forall P Q : Prop, (P <-> Q) -> forall l m, shortened P l m -> shortened Q l m.
Proof. intros P Q E l m H. induction H; [constructor|]. eapply sd_step; eauto. eapply shorter_iff; eauto. Qed.
Lemma shortest_iff : forall P Q : Prop, (P <-> Q) -> forall l, shortest P l -> shortest Q l.
Proof. intros P Q E l S m H. apply (S m). eapply shorter_iff; [|eauto]. tauto. Qed.
Lemma is_abs_iff : forall p, rooted_as (is_abs p) <-> from_root p.
Proof. intros p. apply has_prefix_iff. Qed.
Lemma shortest_nonempty : forall P l e, shortest P l -> In e l -> e <> "".
Proof. intros P l e S I ->. apply in_split in I as (a & b & ->). exact (S _ (sh_empty _ _ _)). Qed.
Lemma joined_nonempty : forall sep l b, joined sep l b -> (forall e, In e l -> e <> "") -> b <> "".
Proof. intros sep l b J H. destruct J as [x|x l s J]; [apply H; now left|]. intros X. apply app_eq_nil_s in X as [X _]. apply (H x); [now left|auto]. Qed.
Definition printed (r : bool) (l : list string) : string := if r then "/" ++ join l "/" else if String.eqb (join l "/") "" then "." else join l "/".
Lemma clean_printed : forall p, clean p = printed (is_abs p) (clean_elems (is_abs p) [] (split slash p)).
Proof. intros p. unfold clean. destruct (String.eqb_spec p "") as [->|N]; reflexivity. Qed.
Lemma clean_exact : forall p q, clean p = q <-> cleaned p q.
Proof.
  intros p q. rewrite clean_printed. split.
  - intros <-. pose proof (proj1 (clean_elems_exact (is_abs p) (split slash p) _) eq_refl) as [S T]. set (l := clean_elems _ _ _) in *.
    exists (split slash p), l. split; [apply split_pieces|]. split; [exact (shortened_iff _ _ (is_abs_iff p) _ _ S)|]. pose proof (shortest_iff _ _ (is_abs_iff p) _ T) as T'. split; auto.
    unfold printed. destruct (is_abs p) eqn:A.
    + left. split; [now apply is_abs_iff|]. destruct l as [|x l']; [left; auto|right]. exists (join (x :: l') "/"). split; auto. apply join_exact; auto. discriminate.
    + right. split; [intros X; apply is_abs_iff in X; unfold rooted_as in X; congruence|]. destruct l as [|x l']; [left; auto|right].
      assert (J : joined "/" (x :: l') (join (x :: l') "/")) by (apply join_exact; [discriminate|auto]).
      destruct (String.eqb_spec (join (x :: l') "/") "") as [Z|Z]; auto. exfalso. revert Z. apply (joined_nonempty _ _ _ J). intros e. exact (shortest_nonempty _ _ e T').
  - intros (es & l & P & S & T & H). apply split_exact in P. change slash with "/"%char. rewrite P.
    assert (E : clean_elems (is_abs p) [] es = l).
    { apply clean_elems_exact. split; [exact (shortened_iff _ _ (iff_sym (is_abs_iff p)) _ _ S)|exact (shortest_iff _ _ (iff_sym (is_abs_iff p)) _ T)]. }
    rewrite E. unfold printed. destruct H as [[R H]|[R H]].
    + apply is_abs_iff in R. unfold rooted_as in R. rewrite R. destruct H as [[-> ->]|(b & J & ->)]; [reflexivity|]. apply join_exact in J; [now rewrite J|]. intros ->. inversion J.
    + assert (A : is_abs p = false). { destruct (is_abs p) eqn:A; auto. exfalso. apply R. now apply is_abs_iff. }
      rewrite A. destruct H as [[-> ->]|J]; [reflexivity|]. assert (NE : q <> "") by (apply (joined_nonempty _ _ _ J); intros e; exact (shortest_nonempty _ _ e T)).
      apply join_exact in J; [|intros ->; inversion J]. rewrite J. destruct (String.eqb_spec q ""); congruence.
Qed.
Lemma join_path_exact : forall a b q, join_path a b = q <-> path_joined a b q.
Proof.
  intros a b q. unfold join_path, path_joined. destruct (String.eqb_spec a "") as [->|NA].
  - destruct (String.eqb_spec b "") as [->|NB].
    + split; [intros <-; auto|]. intros [(_ & _ & X)|[(_ & X & _)|(X & _)]]; congruence.
    + rewrite clean_exact. split; auto. intros [(_ & X & _)|[(_ & _ & X)|(X & _)]]; congruence || auto.
  - rewrite clean_exact. split; auto. intros [(X & _ & _)|[(X & _ & _)|(_ & X)]]; congruence || auto.
Qed.
Lemma dir_prefix_file : forall f, ~ inside "/" f -> dir_prefix f = "".
Proof.
  induction f as [|c f IH]; intros H; [reflexivity|]. apply not_inside_cons in H as [N H]. cbn [dir_prefix]. rewrite IH by auto. cbn [String.eqb].
  destruct (Ascii.eqb_spec c slash); [subst; unfold slash in N; congruence|reflexivity].
Qed.
Lemma dir_prefix_app : forall d f, ~ inside "/" f -> (d = "" \/ exists e, d = e ++ "/") -> dir_prefix (d ++ f) = d.
Proof.
  intros d f H [->|[e ->]]; [now apply dir_prefix_file|]. rewrite app_assoc_s. induction e as [|c e IH]; cbn [String.append dir_prefix].
  - rewrite dir_prefix_file by auto. reflexivity.
  - cbn [String.append] in IH. rewrite IH. destruct (String.eqb_spec (e ++ "/") "") as [X|X]; [|reflexivity]. destruct e; discriminate.
Qed.
Lemma dir_prefix_split : forall p, exists f, p = dir_prefix p ++ f /\ ~ inside "/" f /\ (dir_prefix p = "" \/ exists e, dir_prefix p = e ++ "/").
Proof.
  induction p as [|c p (f & E & H & D)]; cbn [dir_prefix].
  - exists "". split; auto. split; auto. apply not_inside_nil.
  - destruct (String.eqb_spec (dir_prefix p) "") as [Z|Z].
    + rewrite Z in E. cbn in E. subst f. destruct (Ascii.eqb_spec c slash) as [->|N].
      * exists p. split; [reflexivity|]. split; auto. right. now exists "".
      * exists (String c p). split; [reflexivity|]. split; auto. apply not_inside_cons. split; auto.
    + destruct D as [D|[e D]]; [congruence|]. exists f. rewrite D in *. split; [cbn; now rewrite <- E|]. split; auto. right. now exists (String c e).
Qed.
Lemma dir_name_exact : forall p q, dir_name p = q <-> directory p q.
Proof.
  intros p q. unfold dir_name, directory. rewrite clean_exact. split.
  - intros C. destruct (dir_prefix_split p) as (f & E & H & D). exists (dir_prefix p), f. auto.
  - intros (d & f & -> & H & D & C). now rewrite dir_prefix_app.
Qed.

(** *** Maps *)
Lemma set_exact : forall A k (v : A) m k', assoc k' (assoc_set k v m) = (if String.eqb k' k then Some v else assoc k' m).
Proof.
  intros A k v m k'. destruct (String.eqb_spec k' k) as [->|N]; [apply assoc_set_same|]. apply assoc_set_other. congruence.
Qed.
Lemma repeat_exact : forall s n, repeat_str s n = concat_str (repeat s n).
Proof. induction n; cbn; congruence. Qed.
