(** util.go:71-86 prepareIfArgs (C22). *)
From Verif Require Import Utf8 SpecIf.
Local Open Scope string_scope.

Lemma valid_boundary : forall s, valid_utf8 s = true -> boundary s.
Proof.
  intros [|c s] V; [exact I|]. cbn [boundary].
  assert (N : String c s <> "") by discriminate.
  destruct (decode_rune (String c s)) as [[r w] ok] eqn:E.
  rewrite (valid_utf8_step _ _ _ _ N E) in V. apply andb_true_iff in V as [-> _].
  destruct (is_cont (bval c)) eqn:C; auto. exfalso.
  apply in_rng_iff in C. unfold decode_rune in E.
  assert (X1 : N.ltb (bval c) 128 = false) by (apply N.ltb_ge; lia).
  assert (X2 : in_rng 194 223 (bval c) = false).
  { destruct (in_rng 194 223 (bval c)) eqn:X; auto. apply in_rng_iff in X. lia. }
  assert (X3 : in_rng 224 239 (bval c) = false).
  { destruct (in_rng 224 239 (bval c)) eqn:X; auto. apply in_rng_iff in X. lia. }
  assert (X4 : in_rng 240 244 (bval c) = false).
  { destruct (in_rng 240 244 (bval c)) eqn:X; auto. apply in_rng_iff in X. lia. }
  rewrite X1, X2, X3, X4 in E. dec_cases; discriminate.
Qed.

Lemma drop_while_split : forall A (p : A -> bool) l,
  exists a, l = (a ++ drop_while p l)%list /\ Forall (fun x => p x = true) a /\
            match drop_while p l with [] => True | x :: _ => p x = false end.
Proof.
  intros A p l. induction l as [|x l [a (E & F & H)]].
  - exists []. cbn. auto.
  - cbn. destruct (p x) eqn:P.
    + exists (x :: a). cbn. split; [now rewrite <- E | split; auto].
    + exists []. auto.
Qed.
Lemma drop_while_app : forall A (p : A -> bool) a b, Forall (fun x => p x = true) a ->
  drop_while p (a ++ b) = drop_while p b.
Proof. intros A p a b F. induction F as [|x a P F IH]; cbn; auto. now rewrite P. Qed.

Notation spc := (fun i => is_space_rune (it_rune i)).

Lemma blank_scan : forall b, blank b -> Forall (fun i => spc i = true) (scan b).
Proof. intros b [_ F]. unfold runes in F. now rewrite Forall_map in F. Qed.
Lemma scan_blank : forall s, Forall (fun i => spc i = true) (scan s) -> blank s.
Proof.
  intros s F. split.
  - unfold valid_utf8. apply forallb_forall. intros i I.
    destruct (scan_items _ _ I) as (_ & _ & B). destruct (it_ok i); auto.
    destruct (B eq_refl) as [R _]. rewrite Forall_forall in F. specialize (F _ I). cbn in F.
    rewrite R in F. vm_compute in F. discriminate.
  - unfold runes. now rewrite Forall_map.
Qed.

Lemma trim_left_iff : forall s t, ltrimmed s t <-> trim_left is_space_rune s = t.
Proof.
  intros s t. unfold ltrimmed, trim_left. split.
  - intros (b & -> & B & NS). rewrite scan_app_valid by apply B.
    rewrite drop_while_app by now apply blank_scan.
    assert (D : drop_while spc (scan t) = scan t).
    { destruct (scan t) as [|i l] eqn:E; auto. cbn. destruct (is_space_rune (it_rune i)) eqn:S; auto.
      exfalso. apply NS. exists (it_rune i), (map it_rune l). unfold runes. rewrite E. auto. }
    rewrite D. apply unscan_scan.
  - intros <-. destruct (drop_while_split _ spc (scan s)) as [a (E & F & H)].
    exists (unscan a). split; [|split].
    + rewrite <- unscan_app, <- E. symmetry. apply unscan_scan.
    + apply scan_blank. now rewrite (scan_prefix _ _ _ E).
    + intros (r & l & R & S). unfold runes in R. rewrite (scan_suffix _ _ _ E) in R.
      destruct (drop_while spc (scan s)); [discriminate|]. cbn in R. inversion R; subst. congruence.
Qed.

Lemma trim_right_iff : forall s t, rtrimmed s t <-> trim_right is_space_rune s = t.
Proof.
  intros s t. unfold rtrimmed, trim_right. split.
  - intros (b & -> & B & NS). rewrite scan_app_boundary by (apply valid_boundary, B).
    rewrite rev_app_distr. rewrite drop_while_app by (apply Forall_rev; now apply blank_scan).
    assert (D : drop_while spc (rev (scan t)) = rev (scan t)).
    { destruct (rev (scan t)) as [|i l] eqn:E; auto. cbn. destruct (is_space_rune (it_rune i)) eqn:S; auto.
      exfalso. apply NS. exists (it_rune i), (map it_rune (rev l)). unfold runes.
      rewrite <- (rev_involutive (scan t)), E. cbn. rewrite map_app. auto. }
    rewrite D, rev_involutive. apply unscan_scan.
  - intros <-. destruct (drop_while_split _ spc (rev (scan s))) as [a (E & F & H)].
    assert (E' : scan s = (rev (drop_while spc (rev (scan s))) ++ rev a)%list).
    { rewrite <- rev_app_distr, <- E. now rewrite rev_involutive. }
    exists (unscan (rev a)). split; [|split].
    + rewrite <- unscan_app, <- E'. symmetry. apply unscan_scan.
    + apply scan_blank. rewrite (scan_suffix _ _ _ E'). now apply Forall_rev.
    + intros (r & l & R & S). unfold runes in R. rewrite (scan_prefix _ _ _ E') in R.
      destruct (drop_while spc (rev (scan s))) as [|i k]; [destruct l; discriminate|].
      cbn in R. rewrite map_app in R. apply app_inj_tail in R as [_ R]. cbn in R. subst. congruence.
Qed.

(** Trimming with a closing parenthesis at the end. *)
Lemma trim_left_paren : forall m, trim_left is_space_rune (m ++ ")") = trim_left is_space_rune m ++ ")".
Proof.
  intros m. unfold trim_left.
  assert (B : boundary ")") by (apply boundary_ascii; vm_compute; reflexivity).
  rewrite scan_app_boundary by exact B.
  destruct (drop_while_split _ spc (scan m)) as [a (E & F & H)].
  rewrite E at 1. rewrite <- app_assoc, drop_while_app by auto.
  replace (drop_while spc (drop_while spc (scan m) ++ scan ")"))%list
    with (drop_while spc (scan m) ++ scan ")")%list.
  - now rewrite unscan_app.
  - destruct (drop_while spc (scan m)); cbn [app].
    + reflexivity.
    + cbn. now rewrite H.
Qed.

Lemma trim_suffix_app : forall a b, trim_suffix (a ++ b) b = a.
Proof.
  intros. unfold trim_suffix. rewrite has_suffix_app, app_slen.
  replace (slen a + slen b - slen b) with (slen a) by lia. apply take_app.
Qed.
Lemma trim_prefix_app : forall a b, trim_prefix (a ++ b) a = b.
Proof.
  intros. unfold trim_prefix. rewrite (proj2 (has_prefix_iff _ _)) by eauto. apply drop_app.
Qed.

Lemma trimmed_empty : forall m, trim_right is_space_rune (trim_left is_space_rune m) = "" <-> blank m.
Proof.
  intros m. set (u := trim_left is_space_rune m).
  assert (L : ltrimmed m u) by now apply trim_left_iff.
  destruct L as (b & E & B & NS). split.
  - intros H. apply trim_right_iff in H. destruct H as (b' & E' & B' & _). cbn in E'. subst b'.
    destruct (string_dec u "") as [Z|NZ].
    + rewrite Z, app_nil_r_s in E. now subst.
    + exfalso. apply NS. destruct B' as [_ B']. unfold starts_blank.
      destruct (runes u) as [|r l] eqn:R.
      * exfalso. apply NZ. apply scan_nil_iff. unfold runes in R. now destruct (scan u).
      * exists r, l. split; auto. now inversion B'.
  - intros BM. apply trim_right_iff. exists u. split; [reflexivity|].
    assert (Z : u = "").
    { unfold u. apply trim_left_iff. exists m. split; [now rewrite app_nil_r_s|]. split; auto.
      intros (r & l & H & _). discriminate. }
    rewrite Z. split.
    + split; [reflexivity|constructor].
    + intros (r & l & H & _). destruct l; discriminate.
Qed.

Lemma set_nth_last : forall A (l : list A) x y, set_nth (List.length l) y (l ++ [x])%list = (l ++ [y])%list.
Proof. induction l; intros; cbn; auto. now rewrite IHl. Qed.
Lemma nth_last : forall A (l : list A) x d, nth (List.length l) (l ++ [x])%list d = x.
Proof. induction l; intros; cbn; auto. Qed.
Lemma last_app1 : forall A (l : list A) x d, last (l ++ [x])%list d = x.
Proof. intros. now rewrite last_last. Qed.

Lemma paren_single : forall a, has_prefix a "(" = true -> has_suffix a ")" = true ->
  exists m, a = "(" ++ m ++ ")".
Proof.
  intros a P S. apply has_prefix_iff in P. apply has_suffix_iff in S.
  destruct P as [r ->]. destruct S as [q S]. destruct q as [|c q]; [destruct r; discriminate|].
  cbn in S. inversion S; subst. eauto.
Qed.

Lemma prepare_if_one : forall m,
  prepare_if ["(" ++ m ++ ")"] =
  let t := trim_right is_space_rune (trim_left is_space_rune m) in
  if String.eqb t "" then None else Some [t].
Proof.
  intros m. unfold prepare_if. cbn [List.length last Nat.pred].
  assert (P : has_prefix ("(" ++ m ++ ")") "(" = true) by (apply has_prefix_iff; eauto).
  assert (S : has_suffix ("(" ++ m ++ ")") ")" = true) by (rewrite <- app_assoc_s; apply has_suffix_app).
  rewrite P, S. cbn [andb set_nth nth]. rewrite trim_prefix_app, trim_left_paren, trim_suffix_app.
  set (t := trim_right is_space_rune (trim_left is_space_rune m)). cbn zeta.
  destruct (String.eqb_spec t "") as [->|N].
  - reflexivity.
  - assert (slen t <> 0) by (intros Z; apply N, slen_0, Z).
    rewrite (proj2 (Nat.eqb_neq _ _) H). reflexivity.
Qed.

Lemma prepare_if_many : forall f mid l,
  prepare_if (("(" ++ f)%string :: mid ++ [(l ++ ")")%string])%list =
  Some (unless_empty (trim_left is_space_rune f) ++ mid ++ unless_empty (trim_right is_space_rune l))%list.
Proof.
  intros f mid l. unfold prepare_if.
  set (args := (("(" ++ f)%string :: mid ++ [(l ++ ")")%string])%list).
  assert (LEN : Nat.pred (List.length args) = S (List.length mid)).
  { unfold args. cbn. rewrite app_length. cbn. lia. }
  assert (LAST : last args "" = l ++ ")").
  { unfold args. change (("(" ++ f)%string :: mid ++ [(l ++ ")")%string])%list with ((("(" ++ f)%string :: mid) ++ [(l ++ ")")%string])%list.
    apply last_last. }
  assert (P : has_prefix ("(" ++ f) "(" = true) by (apply has_prefix_iff; eauto).
  rewrite LAST, LEN, P, has_suffix_app. cbn [andb]. unfold args. cbn [set_nth nth].
  rewrite trim_prefix_app, nth_last, trim_suffix_app.
  change (set_nth (S (List.length mid)) (trim_right is_space_rune l)
             (trim_left is_space_rune f :: mid ++ [(l ++ ")")%string])%list)
    with (trim_left is_space_rune f ::
             set_nth (List.length mid) (trim_right is_space_rune l) (mid ++ [(l ++ ")")%string])%list).
  rewrite set_nth_last.
  set (f' := trim_left is_space_rune f). set (l' := trim_right is_space_rune l).
  assert (EQ : forall x, Nat.eqb (slen x) 0 = String.eqb x "").
  { intros x. destruct (String.eqb_spec x "") as [->|N]; auto. apply Nat.eqb_neq.
    intros Z. apply N, slen_0, Z. }
  cbn [nth]. rewrite nth_last, !EQ.
  unfold unless_empty.
  destruct (String.eqb f' ""), (String.eqb l' ""); cbn [app skipn Nat.ltb Nat.leb Nat.sub]; f_equal.
  - rewrite Nat.sub_0_r, firstn_app, Nat.sub_diag, firstn_all. cbn. now rewrite app_nil_r.
  - rewrite firstn_all2; auto. rewrite app_length. cbn. lia.
  - rewrite firstn_cons, firstn_app, Nat.sub_diag, firstn_all. cbn. now rewrite app_nil_r.
  - rewrite firstn_cons, firstn_all2; auto. rewrite app_length. cbn. lia.
Qed.

Lemma enclosed_dec : forall args,
  (exists m, args = ["(" ++ m ++ ")"]) \/
  (exists f mid l, args = (("(" ++ f)%string :: mid ++ [(l ++ ")")%string])%list) \/
  (~ enclosed args /\ prepare_if args = Some args).
Proof.
  intros args. destruct args as [|a0 r].
  { right; right. split; auto. intros [N _]. congruence. }
  destruct (has_prefix a0 "(" && has_suffix (last (a0 :: r) "") ")")%bool eqn:C.
  - apply andb_true_iff in C as [P S]. destruct r as [|a1 r].
    + left. cbn in S. destruct (paren_single _ P S) as [m ->]. eauto.
    + right; left. apply has_prefix_iff in P as [f ->]. apply has_suffix_iff in S as [l S].
      destruct (exists_last (l := a1 :: r)) as [mid [z E]]; [discriminate|].
      rewrite E in *. exists f, mid, l. f_equal. f_equal.
      change (("(" ++ f)%string :: mid ++ [z])%list with ((("(" ++ f)%string :: mid) ++ [z])%list in S.
      rewrite last_last in S. now subst.
  - right; right. split.
    + intros (_ & [f F] & [l L]). cbn [hd] in F.
      apply andb_false_iff in C. destruct C as [C|C].
      * rewrite (proj2 (has_prefix_iff _ _)) in C by eauto. discriminate.
      * rewrite (proj2 (has_suffix_iff _ _)) in C by eauto. discriminate.
    + unfold prepare_if. now rewrite C.
Qed.
Lemma enclosed_one : forall m, enclosed ["(" ++ m ++ ")"].
Proof.
  intros m. split; [discriminate|]. split; cbn [hd last]; eauto. exists ("(" ++ m). now rewrite app_assoc_s.
Qed.
Lemma enclosed_many : forall f mid l, enclosed (("(" ++ f)%string :: mid ++ [(l ++ ")")%string])%list.
Proof.
  intros. split; [discriminate|]. split; [cbn [hd]; eauto|]. exists l.
  change (("(" ++ f)%string :: mid ++ [(l ++ ")")%string])%list with ((("(" ++ f)%string :: mid) ++ [(l ++ ")")%string])%list.
  apply last_last.
Qed.

Lemma prepare_if_result : forall args r, prepare_if args = Some r <-> if_result args r.
Proof.
  intros args r. split.
  - intros H. destruct (enclosed_dec args) as [[m ->]|[(f & mid & l & ->)|[NE E]]].
    + rewrite prepare_if_one in H. cbn zeta in H.
      destruct (String.eqb_spec (trim_right is_space_rune (trim_left is_space_rune m)) "") as [|N]; [discriminate|].
      inversion H; subst. apply if_one; auto. exists (trim_left is_space_rune m).
      split; [now apply trim_left_iff | now apply trim_right_iff].
    + rewrite prepare_if_many in H. inversion H; subst. apply if_many.
      * now apply trim_left_iff.
      * now apply trim_right_iff.
    + rewrite E in H. inversion H; subst. now apply if_plain.
  - intros H. destruct H as [args NE|m t [u [L R]] N|f mid l f' l' L R].
    + destruct (enclosed_dec args) as [[m ->]|[(f & mid & l & ->)|[_ E]]]; auto.
      * destruct NE. apply enclosed_one.
      * destruct NE. apply enclosed_many.
    + apply trim_left_iff in L. apply trim_right_iff in R. rewrite prepare_if_one. cbn zeta.
      rewrite L, R. destruct (String.eqb_spec t ""); congruence.
    + apply trim_left_iff in L. apply trim_right_iff in R. rewrite prepare_if_many. congruence.
Qed.

Lemma prepare_if_panics : forall args, prepare_if args = None <-> blank_parens args.
Proof.
  intros args. split.
  - intros H. destruct (enclosed_dec args) as [[m ->]|[(f & mid & l & ->)|[NE E]]].
    + rewrite prepare_if_one in H. cbn zeta in H.
      destruct (String.eqb_spec (trim_right is_space_rune (trim_left is_space_rune m)) "") as [Z|N]; [|discriminate].
      exists m. split; auto. now apply trimmed_empty.
    + rewrite prepare_if_many in H. discriminate.
    + congruence.
  - intros [m [B ->]]. rewrite prepare_if_one. cbn zeta. apply trimmed_empty in B. rewrite B. reflexivity.
Qed.
