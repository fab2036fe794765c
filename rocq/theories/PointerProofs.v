(** C76: Directive.Equal on pointers. *)
From Verif Require Export SpecPointer TreeFacts.
Local Open Scope string_scope.

Lemma ptr_eqb_eq : forall p q, ptr_eqb p q = true <-> p = q.
Proof.
  intros [x|] [y|]; cbn; split; intro H; try discriminate; auto.
  - apply Nat.eqb_eq in H. now subst.
  - inversion H. apply Nat.eqb_refl.
Qed.
Definition heads (a d : node) : Prop :=
  n_name a = n_name d /\ n_line a = n_line d /\ n_args a = n_args d /\ n_file a = n_file d /\
  n_includes a = n_includes d /\ n_comment a = n_comment d /\ n_ismap a = n_ismap d.
Lemma differ_spec : forall a d, (differ a d || negb (z_list_eqb (n_includes a) (n_includes d)))%bool = false <->
  heads a d /\ List.length (n_block a) = List.length (n_block d).
Proof.
  intros a d. unfold differ, heads. split.
  - destruct (String.eqb_spec (n_name a) (n_name d)); [|discriminate].
    destruct (str_list_eqb (n_args a) (n_args d)) eqn:E1; [|discriminate]. apply str_list_eqb_eq in E1.
    destruct (Nat.eqb_spec (List.length (n_block a)) (List.length (n_block d))); [|discriminate].
    destruct (Nat.eqb (List.length (n_includes a)) (List.length (n_includes d))); [|discriminate].
    destruct (opt_str_eqb (n_comment a) (n_comment d)) eqn:E2; [|discriminate]. apply opt_str_eqb_eq in E2.
    destruct (Z.eqb_spec (n_line a) (n_line d)); [|discriminate].
    destruct (String.eqb_spec (n_file a) (n_file d)); [|discriminate].
    destruct (Bool.eqb (n_ismap a) (n_ismap d)) eqn:E3; [|discriminate]. apply Bool.eqb_prop in E3.
    destruct (z_list_eqb (n_includes a) (n_includes d)) eqn:E4; [|discriminate]. apply z_list_eqb_eq in E4. tauto.
  - intros ((A & B & C & D & E & F & G) & L). rewrite A, B, C, D, E, F, G, L.
    rewrite !String.eqb_refl, !Nat.eqb_refl, Z.eqb_refl, Bool.eqb_reflx.
    rewrite (proj2 (str_list_eqb_eq _ _) eq_refl), (proj2 (opt_str_eqb_eq _ _) eq_refl), (proj2 (z_list_eqb_eq _ _) eq_refl).
    reflexivity.
Qed.
(** One call, unfolded. *)
Lemma equal_step : forall fuel m x y, x <> y ->
  equal_at (S fuel) m (Some x) (Some y) =
  if (differ (m y) (m x) || negb (z_list_eqb (n_includes (m y)) (n_includes (m x))))%bool then Some false
  else equal_each (equal_at fuel m) (n_block (m y)) (n_block (m x)).
Proof.
  intros fuel m x y N. cbn [equal_at ptr_eqb]. destruct (Nat.eqb_spec x y); [contradiction|].
  destruct (differ (m y) (m x)); reflexivity.
Qed.
Lemma each_true : forall e la ld, List.length la = List.length ld -> equal_each e la ld = Some true ->
  Forall2 (fun p q => e p q = Some true) la ld.
Proof.
  induction la as [|p la IH]; intros [|q ld] L H; try discriminate; [constructor|]. cbn in *.
  destruct (e p q) as [[]|] eqn:E; try discriminate. constructor; auto.
Qed.
Lemma each_false : forall e la ld, equal_each e la ld = Some false ->
  Exists (fun pq => e (fst pq) (snd pq) = Some false) (combine la ld).
Proof.
  induction la as [|p la IH]; intros [|q ld] H; try discriminate. cbn in *.
  destruct (e p q) as [[]|] eqn:E; try discriminate; [right; auto|left; exact E].
Qed.

Lemma f2_impl : forall A B (R S : A -> B -> Prop) l k, (forall x y, R x y -> S x y) -> Forall2 R l k -> Forall2 S l k.
Proof. intros A B R S l k H F. induction F; constructor; auto. Qed.

(** ** Yes and no *)
Lemma seen_sym : forall m p q, same_seen m p q -> same_seen m q p.
Proof.
  intros m p q (R & A & H). exists (fun x y => R y x). split; [|exact H].
  intros x y Hyx. specialize (A _ _ Hyx). destruct x, y; auto.
  destruct A as (A1 & A2 & A3 & A4 & A5 & A6 & A7 & A8). repeat (split; [congruence|]). now apply Forall2_flip.
Qed.
Lemma equal_true : forall m fuel d a, equal_at fuel m d a = Some true -> same_seen m d a.
Proof.
  intros m fuel d a H.
  exists (fun p q => p = q \/ exists f, equal_at f m p q = Some true \/ equal_at f m q p = Some true).
  split; [|right; exists fuel; now left].
  assert (K : forall f x y, x <> y -> equal_at f m (Some x) (Some y) = Some true ->
    heads (m y) (m x) /\ Forall2 (fun p q => exists f, equal_at f m p q = Some true) (n_block (m y)) (n_block (m x))).
  { intros [|f] x y N E; [discriminate|]. rewrite equal_step in E by exact N.
    destruct (_ || _)%bool eqn:D; [discriminate|]. apply differ_spec in D. destruct D as [D L]. split; [exact D|].
    apply each_true in E; [|exact L]. eapply f2_impl; [|exact E]. intros u v G. exists f. exact G. }
  intros p q HR. assert (X : p = q \/ p <> q) by (destruct p as [x|], q as [y|]; try (right; discriminate); auto;
    destruct (Nat.eq_dec x y); [left; congruence|right; congruence]).
  destruct X as [->|NE].
  - destruct q as [y|]; auto. repeat (split; [reflexivity|]). clear. induction (n_block (m y)); constructor; auto.
  - destruct HR as [HR|(f & HR)]; [contradiction|].
    destruct p as [x|], q as [y|]; try contradiction;
      try (destruct HR as [HR|HR]; destruct f; cbn in HR; discriminate).
    assert (NXY : x <> y) by congruence. assert (NYX : y <> x) by congruence.
    destruct HR as [HR|HR].
    + destruct (K _ _ _ NXY HR) as [(A1 & A2 & A3 & A4 & A5 & A6 & A7) F]. repeat (split; [congruence|]).
      apply Forall2_flip. eapply f2_impl; [|exact F]. intros u v (g & G). right. eauto.
    + destruct (K _ _ _ NYX HR) as [(A1 & A2 & A3 & A4 & A5 & A6 & A7) F]. repeat (split; [congruence|]).
      eapply f2_impl; [|exact F]. intros u v (g & G). right. eauto.
Qed.
Lemma forall2_combine : forall A B (R : A -> B -> Prop) l k p, Forall2 R l k -> In p (combine l k) -> R (fst p) (snd p).
Proof.
  intros A B R l k p F. induction F; cbn; [tauto|]. intros [<-|I]; auto.
Qed.
Lemma equal_false : forall m fuel d a, equal_at fuel m d a = Some false -> ~ same_seen m d a.
Proof.
  intros m. induction fuel as [|fuel IH]; intros d a H (R & A & HR); [discriminate|].
  destruct d as [x|], a as [y|]; try discriminate; try exact (A _ _ HR).
  destruct (Nat.eq_dec x y) as [->|N].
  { cbn in H. rewrite Nat.eqb_refl in H. discriminate. }
  rewrite equal_step in H by exact N.
  destruct (A _ _ HR) as (A1 & A2 & A3 & A4 & A5 & A6 & A7 & A8).
  assert (D : (differ (m y) (m x) || negb (z_list_eqb (n_includes (m y)) (n_includes (m x))))%bool = false).
  { apply differ_spec. split; [unfold heads; repeat split; congruence|]. clear -A8. induction A8; cbn; congruence. }
  rewrite D in H. apply each_false in H. apply Exists_exists in H. destruct H as (pq & I & E).
  apply (IH _ _ E). apply Forall2_flip in A8.
  apply seen_sym. exists R. split; [exact A|]. exact (forall2_combine _ _ _ _ _ _ A8 I).
Qed.

(** ** It returns *)
Lemma each_more : forall (e e' : ptr -> ptr -> option bool) la ld r,
  (forall p q b, e p q = Some b -> e' p q = Some b) -> equal_each e la ld = Some r -> equal_each e' la ld = Some r.
Proof.
  intros e e' la. induction la as [|p la IH]; intros [|q ld] r M H; cbn in *; auto.
  destruct (e p q) as [b|] eqn:E; [|discriminate]. rewrite (M _ _ _ E). destruct b; auto.
Qed.
Lemma equal_more : forall m f f' d a r, f <= f' -> equal_at f m d a = Some r -> equal_at f' m d a = Some r.
Proof.
  intros m. induction f as [|f IH]; intros [|f'] d a r L H; try discriminate; [lia|].
  destruct d as [x|], a as [y|]; auto. destruct (Nat.eq_dec x y) as [->|N].
  { cbn in *. rewrite Nat.eqb_refl in *. exact H. }
  rewrite equal_step in * by exact N. destruct (_ || _)%bool; [exact H|].
  eapply each_more; [|exact H]. intros p q b. apply IH. lia.
Qed.
Lemma each_ends : forall m (la ld : list ptr),
  Forall (fun p => forall q, exists f r, equal_at f m p q = Some r) la ->
  exists f r, equal_each (equal_at f m) la ld = Some r.
Proof.
  intros m la. induction la as [|p la IH]; intros ld F; [exists 0, true; reflexivity|].
  inversion F as [|? ? P F']; subst. destruct ld as [|q ld]; [exists 0, true; reflexivity|].
  destruct (P q) as (f & r & E). destruct (IH ld F') as (g & s & G).
  exists (f + g). cbn. rewrite (equal_more m f (f + g) p q r ltac:(lia) E). destruct r; [|eauto].
  exists s. eapply each_more; [|exact G]. intros u v b. apply equal_more. lia.
Qed.
Lemma each_ends' : forall m (la ld : list ptr),
  Forall (fun q => forall p, exists f r, equal_at f m p q = Some r) ld ->
  exists f r, equal_each (equal_at f m) la ld = Some r.
Proof.
  intros m la ld F. revert la. induction F as [|q ld P F IH]; intros [|p la]; try (exists 0, true; reflexivity).
  destruct (P p) as (f & r & E). destruct (IH la) as (g & s & G).
  exists (f + g). cbn. rewrite (equal_more m f (f + g) p q r ltac:(lia) E). destruct r; [|eauto].
  exists s. eapply each_more; [|exact G]. intros u v b. apply equal_more. lia.
Qed.
Section EndsInd.
Variables (m : memory) (P : ptr -> Prop).
Hypothesis H0 : P None.
Hypothesis H1 : forall x, Forall P (n_block (m x)) -> P (Some x).
Fixpoint ends_induction (p : ptr) (E : ends m p) {struct E} : P p :=
  match E in ends _ p return P p with
  | en_nil _ => H0
  | en_node _ x F =>
    H1 x ((fix go l (F : Forall (ends m) l) : Forall P l :=
             match F in Forall _ l return Forall P l with
             | Forall_nil _ => Forall_nil _
             | Forall_cons q E F => Forall_cons q (ends_induction q E) (go _ F)
             end) _ F)
  end.
End EndsInd.
Lemma equal_ends : forall m p, ends m p -> forall q,
  (exists f r, equal_at f m p q = Some r) /\ (exists f r, equal_at f m q p = Some r).
Proof.
  intros m. apply (ends_induction m (fun p => forall q,
    (exists f r, equal_at f m p q = Some r) /\ (exists f r, equal_at f m q p = Some r))).
  - intros [q|]; split; exists 1; cbn; eauto.
  - intros x F [y|]; [|split; exists 1; cbn; eauto].
    assert (F1 : Forall (fun p => forall q, exists f r, equal_at f m p q = Some r) (n_block (m x)))
      by (eapply Forall_impl; [|exact F]; intros p Hp q; apply Hp).
    assert (F2 : Forall (fun p => forall q, exists f r, equal_at f m q p = Some r) (n_block (m x)))
      by (eapply Forall_impl; [|exact F]; intros p Hp q; apply Hp).
    destruct (Nat.eq_dec x y) as [->|N].
    { split; exists 1, true; cbn; now rewrite Nat.eqb_refl. }
    assert (N' : y <> x) by congruence. split.
    + destruct (each_ends' m (n_block (m y)) (n_block (m x)) F2) as (f & r & E). exists (S f).
      rewrite equal_step by exact N. destruct (_ || _)%bool; eauto.
    + destruct (each_ends m (n_block (m x)) (n_block (m y)) F1) as (f & r & E). exists (S f).
      rewrite equal_step by exact N'. destruct (_ || _)%bool; eauto.
Qed.

Lemma equal_self : forall m p, exists fuel, equal_at fuel m p p = Some true.
Proof. intros m p. exists 1. cbn [equal_at]. now rewrite (proj2 (ptr_eqb_eq p p) eq_refl). Qed.

(** ** Trees *)
Lemma stands_induction : forall m (P : ptr -> directive -> Prop),
  (forall x d, n_name (m x) = d_name d -> n_line (m x) = d_line d -> n_args (m x) = d_args d ->
    n_file (m x) = d_file d -> n_includes (m x) = opt_list (d_includes d) -> n_comment (m x) = d_comment d ->
    n_ismap (m x) = d_ismap d -> Forall2 P (n_block (m x)) (opt_list (d_block d)) -> P (Some x) d) ->
  forall p d, stands_for m p d -> P p d.
Proof.
  intros m P H. fix IH 3. intros p d S. destruct S as [x d A1 A2 A3 A4 A5 A6 A7 F]. apply H; auto.
  revert F. generalize (n_block (m x)), (opt_list (d_block d)). fix IF 3. intros l k F. destruct F as [|p e l k S F].
  - constructor.
  - constructor; [apply IH; exact S|apply IF; exact F].
Qed.
Lemma stands_ends : forall m p d, stands_for m p d -> ends m p.
Proof.
  intros m. apply (stands_induction m (fun p _ => ends m p)). intros x d _ _ _ _ _ _ _ F. constructor.
  induction F; constructor; auto.
Qed.
Lemma seen_tree : forall m p d, stands_for m p d -> forall q e, stands_for m q e -> same_seen m p q -> same_tree d e.
Proof.
  intros m. apply (stands_induction m (fun p d => forall q e, stands_for m q e -> same_seen m p q -> same_tree d e)).
  intros x d A1 A2 A3 A4 A5 A6 A7 F q e S (R & A & HR). destruct S as [y e B1 B2 B3 B4 B5 B6 B7 G].
  destruct (A _ _ HR) as (C1 & C2 & C3 & C4 & C5 & C6 & C7 & C8). constructor; try congruence.
  revert G C8. generalize (n_block (m y)), (opt_list (d_block e)). revert F. generalize (n_block (m x)), (opt_list (d_block d)).
  intros l k F. induction F as [|p f l k P F IH]; intros l' k' G C8.
  - inversion C8; subst. inversion G; subst. constructor.
  - inversion C8 as [|p' q' l1 l2 HR' C9]; subst. inversion G as [|? f' ? k2 S' G']; subst.
    constructor; [|eapply IH; eauto]. apply (P _ _ S'). exists R. auto.
Qed.
Lemma tree_seen : forall m p d q e, stands_for m p d -> stands_for m q e -> same_tree d e -> same_seen m p q.
Proof.
  intros m p d q e S T E. exists (fun p q => exists d e, stands_for m p d /\ stands_for m q e /\ same_tree d e).
  split; [|eauto]. clear. intros p q (d & e & S & T & E).
  destruct S as [x d A1 A2 A3 A4 A5 A6 A7 F]. destruct T as [y e B1 B2 B3 B4 B5 B6 B7 G].
  destruct E as [d e E1 E2 E3 E4 E5 E6 E7 E8]. repeat (split; [congruence|]).
  revert F G E6. generalize (n_block (m x)), (n_block (m y)), (opt_list (d_block d)), (opt_list (d_block e)).
  intros l l' k k' F. revert l' k'. induction F as [|p f l k P F IH]; intros l' k' G E.
  - inversion E; subst. inversion G; subst. constructor.
  - inversion E as [|? f' ? k2 E' EE]; subst. inversion G as [|q ? l2 ? S' G']; subst. constructor; eauto.
Qed.
Lemma equal_trees : forall m p q d e, stands_for m p d -> stands_for m q e ->
  exists fuel, equal_at fuel m p q = Some (dir_equal d e).
Proof.
  intros m p q d e S T. destruct (equal_ends m p (stands_ends _ _ _ S) q) as [(f & r & E) _]. exists f. rewrite E. f_equal.
  destruct r; symmetry.
  - apply dir_equal_spec. eapply seen_tree; eauto. eapply equal_true; eauto.
  - apply Bool.not_true_is_false. intros H. apply dir_equal_spec in H. eapply equal_false; eauto. eapply tree_seen; eauto.
Qed.

(** ** Two directives that contain themselves *)
Definition ring : memory := fun x => Node "a" 1 [] "" [] [Some (1 - x)%nat] None false.
Lemma ring_never : forall fuel, equal_at fuel ring (Some 0) (Some 1) = None /\ equal_at fuel ring (Some 1) (Some 0) = None.
Proof.
  induction fuel as [|fuel [IH1 IH2]]; [split; reflexivity|]. split.
  - rewrite equal_step by discriminate. cbn -[equal_at]. rewrite IH1. reflexivity.
  - rewrite equal_step by discriminate. cbn -[equal_at]. rewrite IH2. reflexivity.
Qed.
Lemma ring_same : same_seen ring (Some 0) (Some 1).
Proof.
  exists (fun p q => p <> None /\ q <> None). split; [|split; discriminate].
  intros [x|] [y|] [P Q]; try contradiction. repeat (split; [reflexivity|]). constructor; [split; discriminate|constructor].
Qed.
