(** General lemmas about strings, lists and association lists. *)
From Verif Require Export Parse.
From Coq Require Export Permutation.
Local Open Scope string_scope.

Lemma app_nil_r_s : forall s, s ++ "" = s.
Proof. induction s; cbn; congruence. Qed.
Lemma app_assoc_s : forall a b c : string, (a ++ b) ++ c = a ++ (b ++ c).
Proof. induction a; cbn; intros; congruence. Qed.
Lemma app_slen : forall a b, slen (a ++ b) = slen a + slen b.
Proof. induction a; cbn; intros; auto. Qed.
Lemma app_inv_l_s : forall a b c : string, a ++ b = a ++ c -> b = c.
Proof. induction a; cbn; intros b c H; auto. inversion H; auto. Qed.
Lemma app_eq_nil_s : forall a b : string, a ++ b = "" -> a = "" /\ b = "".
Proof. destruct a; cbn; intros; auto; discriminate. Qed.
Lemma slen_0 : forall s, slen s = 0 -> s = "".
Proof. destruct s; cbn; intros; auto; discriminate. Qed.

Lemma take_app : forall a b, take (slen a) (a ++ b) = a.
Proof. induction a; cbn; intros; try destruct b; cbn; congruence. Qed.
Lemma drop_app : forall a b, drop (slen a) (a ++ b) = b.
Proof. induction a; intros b; [destruct b; reflexivity | exact (IHa b)]. Qed.
Lemma drop_0 : forall s, drop 0 s = s.
Proof. destruct s; auto. Qed.
Lemma take_drop : forall n s, take n s ++ drop n s = s.
Proof. induction n; destruct s; cbn; try rewrite IHn; auto. Qed.
Lemma slen_take : forall n s, slen (take n s) = Nat.min n (slen s).
Proof. induction n; destruct s; cbn; auto. Qed.
Lemma slen_drop : forall n s, slen (drop n s) = slen s - n.
Proof. induction n; destruct s; cbn; auto. Qed.
Lemma take_all : forall n s, slen s <= n -> take n s = s.
Proof. induction n; destruct s; cbn; intros; auto; try lia. f_equal. apply IHn. lia. Qed.

Lemma prefix_iff : forall p s, prefix p s = true <-> exists r, s = p ++ r.
Proof.
  induction p as [|c p IH]; intros s; cbn.
  - split; [intros _; exists s; auto | auto]. destruct s; auto.
  - destruct s as [|c' s].
    + split; [discriminate | intros [r H]; discriminate].
    + cbn. destruct (ascii_dec c c') as [->|N].
      * split; intros H.
        -- apply IH in H. destruct H as [r H]. exists r. congruence.
        -- apply IH. destruct H as [r H]. exists r. congruence.
      * split; [discriminate | intros [r H]; inversion H; congruence].
Qed.
Lemma has_prefix_iff : forall s p, has_prefix s p = true <-> exists r, s = p ++ r.
Proof. intros. apply prefix_iff. Qed.
Lemma has_suffix_iff : forall s p, has_suffix s p = true <-> exists r, s = r ++ p.
Proof.
  unfold has_suffix. intros s p. rewrite andb_true_iff, Nat.leb_le, String.eqb_eq. split.
  - intros [L H]. exists (take (slen s - slen p) s). rewrite <- H at 2.
    now rewrite take_drop.
  - intros [r ->]. rewrite app_slen. split; [lia|].
    replace (slen r + slen p - slen p) with (slen r) by lia. apply drop_app.
Qed.
Lemma has_suffix_app : forall a b, has_suffix (a ++ b) b = true.
Proof. intros. apply has_suffix_iff. eauto. Qed.

Lemma str_list_eqb_eq : forall a b, str_list_eqb a b = true <-> a = b.
Proof.
  induction a; destruct b; cbn; split; intros H; try discriminate; auto.
  - apply andb_true_iff in H as [H1 H2]. apply String.eqb_eq in H1. apply IHa in H2. congruence.
  - inversion H; subst. rewrite String.eqb_refl. cbn. now apply IHa.
Qed.
Lemma z_list_eqb_eq : forall a b, z_list_eqb a b = true <-> a = b.
Proof.
  induction a; destruct b; cbn; split; intros H; try discriminate; auto.
  - apply andb_true_iff in H as [H1 H2]. apply Z.eqb_eq in H1. apply IHa in H2. congruence.
  - inversion H; subst. rewrite Z.eqb_refl. cbn. now apply IHa.
Qed.
Lemma opt_str_eqb_eq : forall a b, opt_str_eqb a b = true <-> a = b.
Proof.
  destruct a, b; cbn; split; intros H; try discriminate; auto.
  - apply String.eqb_eq in H. congruence.
  - inversion H. apply String.eqb_refl.
Qed.

Lemma mem_str_iff : forall x l, mem_str x l = true <-> In x l.
Proof.
  unfold mem_str. intros. rewrite existsb_exists. split.
  - intros [y [H1 H2]]. apply String.eqb_eq in H2. subst; auto.
  - intros. exists x. split; auto. apply String.eqb_refl.
Qed.

(** ** Association lists *)
Lemma assoc_set_same : forall A k (v : A) m, assoc k (assoc_set k v m) = Some v.
Proof.
  induction m as [|[k' v'] m IH]; cbn.
  - now rewrite String.eqb_refl.
  - destruct (String.eqb k k') eqn:E; cbn; rewrite E; auto.
Qed.
Lemma assoc_set_other : forall A k k' (v : A) m, k <> k' -> assoc k' (assoc_set k v m) = assoc k' m.
Proof.
  induction m as [|[k'' v''] m IH]; cbn; intros N.
  - destruct (String.eqb k' k) eqn:E; auto. apply String.eqb_eq in E. congruence.
  - destruct (String.eqb k k'') eqn:E; cbn.
    + destruct (String.eqb k' k'') eqn:E2; auto.
      apply String.eqb_eq in E. apply String.eqb_eq in E2. congruence.
    + destruct (String.eqb k' k''); auto.
Qed.
Lemma assoc_In : forall A k (v : A) m, assoc k m = Some v -> In (k, v) m.
Proof.
  induction m as [|[k' v'] m IH]; cbn; intros H; [discriminate|].
  destruct (String.eqb k k') eqn:E.
  - apply String.eqb_eq in E. inversion H; subst. auto.
  - auto.
Qed.
Lemma assoc_In_key : forall A k (m : list (string * A)),
  In k (map fst m) <-> exists v, assoc k m = Some v.
Proof.
  induction m as [|[k' v'] m IH]; cbn.
  - split; [tauto | intros [v H]; discriminate].
  - destruct (String.eqb k k') eqn:E.
    + apply String.eqb_eq in E. subst. split; eauto.
    + apply String.eqb_neq in E. rewrite <- IH. split; [intros [H|H]; congruence || auto | auto].
Qed.
Lemma assoc_None : forall A k (m : list (string * A)), assoc k m = None <-> ~ In k (map fst m).
Proof.
  intros. rewrite assoc_In_key. destruct (assoc k m); split; intros H; try discriminate; auto.
  - exfalso. apply H. eauto.
  - intros [v E]. discriminate.
Qed.
Lemma In_assoc_NoDup : forall A k (v : A) m, NoDup (map fst m) -> In (k, v) m -> assoc k m = Some v.
Proof.
  induction m as [|[k' v'] m IH]; cbn; intros ND H; [tauto|].
  inversion ND; subst. destruct H as [H|H].
  - inversion H; subst. now rewrite String.eqb_refl.
  - destruct (String.eqb k k') eqn:E; auto. apply String.eqb_eq in E. subst.
    exfalso. apply H2. now apply (in_map fst) in H.
Qed.
Lemma assoc_set_keys : forall A k (v : A) m,
  map fst (assoc_set k v m) = match assoc k m with Some _ => map fst m | None => (map fst m ++ [k])%list end.
Proof.
  induction m as [|[k' v'] m IH]; cbn; auto.
  destruct (String.eqb k k') eqn:E; cbn; auto.
  rewrite IH. destruct (assoc k m); auto.
Qed.
Lemma NoDup_assoc_set : forall A k (v : A) m, NoDup (map fst m) -> NoDup (map fst (assoc_set k v m)).
Proof.
  intros. rewrite assoc_set_keys. destruct (assoc k m) eqn:E; auto.
  apply assoc_None in E. apply NoDup_app_remove_l with (l := []) || idtac.
  rewrite <- (rev_involutive (map fst m ++ [k])). apply NoDup_rev.
  rewrite rev_app_distr. cbn. constructor.
  - now rewrite <- in_rev.
  - now apply NoDup_rev.
Qed.

Lemma set_nth_length : forall A n (x : A) l, List.length (set_nth n x l) = List.length l.
Proof. induction n; destruct l; cbn; auto. Qed.
Lemma nth_set_nth_same : forall A n (x d : A) l, n < List.length l -> nth n (set_nth n x l) d = x.
Proof. induction n; destruct l; cbn; intros; auto; try lia. apply IHn. lia. Qed.
Lemma nth_set_nth_other : forall A n m (x d : A) l, n <> m -> nth m (set_nth n x l) d = nth m l d.
Proof. induction n; destruct l, m; cbn; intros; auto; try lia. Qed.
Lemma firstn_set_nth : forall A n m (x : A) l, m <= n -> firstn m (set_nth n x l) = firstn m l.
Proof. induction n; destruct l, m; cbn; intros; auto; try lia. f_equal. apply IHn. lia. Qed.
