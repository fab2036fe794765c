(** Induction over directive trees; Directive.Equal (C23). *)
From Verif Require Export Util SpecTree.

Section DirInd.
  Variable P : directive -> Prop.
  Hypothesis H : forall d, Forall P (opt_list (d_block d)) -> P d.
  Fixpoint dir_ind' (d : directive) : P d :=
    H d (match d_block d as b return Forall P (opt_list b) with
         | None => Forall_nil _
         | Some l => (fix go l : Forall P l :=
                        match l with
                        | [] => Forall_nil _
                        | x :: r => Forall_cons x (dir_ind' x) (go r)
                        end) l
         end).
End DirInd.

Lemma forall2b_Forall2 : forall A B (p : A -> B -> bool) (R : A -> B -> Prop) l m,
  Forall (fun x => forall y, p x y = true <-> R x y) l ->
  (forall2b p l m = true <-> Forall2 R l m).
Proof.
  intros A B p R l. induction l as [|x l IH]; destruct m as [|y m]; cbn; intros F; split; intros E;
    try discriminate; try (constructor; fail); try (inversion E; fail); auto.
  - apply andb_true_iff in E as [E1 E2]. inversion F; subst. constructor.
    + now apply H1.
    + now apply IH.
  - inversion E; inversion F; subst. apply andb_true_iff. split.
    + now apply H7.
    + now apply IH.
Qed.

Lemma Forall2_len : forall A B (R : A -> B -> Prop) l m,
  Forall2 R l m -> List.length l = List.length m.
Proof. induction 1; cbn; auto. Qed.

Lemma Forall2_flip : forall A (R : A -> A -> Prop) l m,
  Forall2 R l m -> Forall2 (fun x y => R y x) m l.
Proof. induction 1; constructor; auto. Qed.

Lemma equal_fields : forall a d (b : bool),
  (if negb (String.eqb (d_name a) (d_name d)) then false
  else if negb (str_list_eqb (d_args a) (d_args d)) then false
  else if negb (Nat.eqb (List.length (opt_list (d_block a)))
                        (List.length (opt_list (d_block d)))) then false
  else if negb (Nat.eqb (List.length (opt_list (d_includes a)))
                        (List.length (opt_list (d_includes d)))) then false
  else if negb (opt_str_eqb (d_comment a) (d_comment d)) then false
  else if negb (Z.eqb (d_line a) (d_line d)) then false
  else if negb (String.eqb (d_file a) (d_file d)) then false
  else if negb (Bool.eqb (d_ismap a) (d_ismap d)) then false
  else if negb (z_list_eqb (opt_list (d_includes a)) (opt_list (d_includes d))) then false
  else b) = true <->
  d_name a = d_name d /\ d_line a = d_line d /\ d_args a = d_args d /\ d_file a = d_file d /\
  opt_list (d_includes a) = opt_list (d_includes d) /\ d_comment a = d_comment d /\
  d_ismap a = d_ismap d /\
  List.length (opt_list (d_block a)) = List.length (opt_list (d_block d)) /\ b = true.
Proof.
  intros a d b.
  repeat match goal with |- context [negb ?x] => destruct x eqn:?; cbn [negb] end;
    repeat match goal with
    | H : String.eqb _ _ = true |- _ => apply String.eqb_eq in H
    | H : String.eqb _ _ = false |- _ => apply String.eqb_neq in H
    | H : Z.eqb _ _ = true |- _ => apply Z.eqb_eq in H
    | H : Z.eqb _ _ = false |- _ => apply Z.eqb_neq in H
    | H : Nat.eqb _ _ = true |- _ => apply Nat.eqb_eq in H
    | H : Nat.eqb _ _ = false |- _ => apply Nat.eqb_neq in H
    | H : Bool.eqb _ _ = true |- _ => apply Bool.eqb_prop in H
    | H : Bool.eqb _ _ = false |- _ => apply Bool.eqb_false_iff in H
    | H : str_list_eqb _ _ = true |- _ => apply str_list_eqb_eq in H
    | H : z_list_eqb _ _ = true |- _ => apply z_list_eqb_eq in H
    | H : opt_str_eqb _ _ = true |- _ => apply opt_str_eqb_eq in H
    end; split; intros E; try discriminate; try tauto; exfalso;
    destruct E as (E1 & E2 & E3 & E4 & E5 & E6 & E7 & E8 & E9); try congruence.
  - apply z_list_eqb_eq in E5. congruence.
  - apply opt_str_eqb_eq in E6. congruence.
  - apply str_list_eqb_eq in E3. congruence.
Qed.

Lemma dir_equal_sw_spec : forall x sw y, dir_equal_sw sw x y = true <-> same_tree x y.
Proof.
  induction x as [x IH] using dir_ind'. intros sw y.
  assert (B : (match d_block x with
    | Some bx => forall2b (dir_equal_sw (negb sw)) bx (opt_list (d_block y))
    | None => match opt_list (d_block y) with [] => true | _ :: _ => false end
    end = true) <-> Forall2 same_tree (opt_list (d_block x)) (opt_list (d_block y))).
  { destruct (d_block x) as [bx|]; cbn [opt_list] in *.
    - apply forall2b_Forall2. eapply Forall_impl; [|exact IH]. intros a H. apply H.
    - destruct (opt_list (d_block y)); split; intros H; try discriminate; auto.
      inversion H. }
  destruct x as [xn xl xa xf xi xb xc xm] eqn:EX. rewrite <- EX in *.
  assert (U : dir_equal_sw sw x y =
    let d := if sw then y else x in let a := if sw then x else y in
    if negb (String.eqb (d_name a) (d_name d)) then false
    else if negb (str_list_eqb (d_args a) (d_args d)) then false
    else if negb (Nat.eqb (List.length (opt_list (d_block a)))
                        (List.length (opt_list (d_block d)))) then false
    else if negb (Nat.eqb (List.length (opt_list (d_includes a)))
                        (List.length (opt_list (d_includes d)))) then false
    else if negb (opt_str_eqb (d_comment a) (d_comment d)) then false
    else if negb (Z.eqb (d_line a) (d_line d)) then false
    else if negb (String.eqb (d_file a) (d_file d)) then false
    else if negb (Bool.eqb (d_ismap a) (d_ismap d)) then false
    else if negb (z_list_eqb (opt_list (d_includes a)) (opt_list (d_includes d))) then false
    else match d_block x with
    | Some bx => forall2b (dir_equal_sw (negb sw)) bx (opt_list (d_block y))
    | None => match opt_list (d_block y) with [] => true | _ :: _ => false end
    end) by (rewrite EX; reflexivity).
  rewrite U. cbn zeta. rewrite equal_fields, B.
  split.
  - intros (E1 & E2 & E3 & E4 & E5 & E6 & E7 & E8 & E9).
    destruct sw; constructor; auto.
  - intros S. inversion S; subst x0 y0.
    assert (L : List.length (opt_list (d_block x)) = List.length (opt_list (d_block y)))
      by (eapply Forall2_len; eauto).
    destruct sw; repeat split; auto.
Qed.

Lemma dir_equal_spec : forall x y, dir_equal x y = true <-> same_tree x y.
Proof. intros. apply dir_equal_sw_spec. Qed.

Lemma same_tree_refl : forall x, same_tree x x.
Proof.
  induction x as [x IH] using dir_ind'. constructor; auto.
  induction IH; constructor; auto.
Qed.
Lemma Forall2_sym_in : forall A (R : A -> A -> Prop) l m,
  Forall (fun x => forall y, R x y -> R y x) l -> Forall2 R l m -> Forall2 R m l.
Proof.
  intros A R l m F H. induction H; constructor; inversion F; subst; auto.
Qed.
Lemma Forall2_trans_in : forall A (R : A -> A -> Prop) l m n,
  Forall (fun x => forall y z, R x y -> R y z -> R x z) l ->
  Forall2 R l m -> Forall2 R m n -> Forall2 R l n.
Proof.
  intros A R l m n F H. revert n. induction H; intros n G; inversion G; subst; constructor;
    inversion F; subst; eauto.
Qed.
Lemma same_tree_sym : forall x y, same_tree x y -> same_tree y x.
Proof.
  induction x as [x IH] using dir_ind'; intros y H. destruct H; constructor; auto.
  now apply Forall2_sym_in.
Qed.
Lemma same_tree_trans : forall x y z, same_tree x y -> same_tree y z -> same_tree x z.
Proof.
  induction x as [x IH] using dir_ind'; intros y z H1 H2.
  destruct H1; destruct H2; constructor; try congruence.
  eapply Forall2_trans_in; eauto.
Qed.

Lemma dir_equal_refl : forall x, dir_equal x x = true.
Proof. intros. apply dir_equal_spec, same_tree_refl. Qed.
Lemma dir_equal_sym : forall x y, dir_equal x y = dir_equal y x.
Proof.
  intros x y. apply eq_true_iff_eq. rewrite !dir_equal_spec. split; apply same_tree_sym.
Qed.
Lemma dir_equal_trans : forall x y z,
  dir_equal x y = true -> dir_equal y z = true -> dir_equal x z = true.
Proof. intros x y z. rewrite !dir_equal_spec. apply same_tree_trans. Qed.
