(** C15: the cycle check is exact. *)
From Verif Require Export IncludeProofs SpecGraph.
Local Open Scope string_scope.

Lemma path_trans : forall m a b c, path m a b -> path m b c -> path m a c.
Proof. intros m a b c H. induction H; intros; eapply p_step; eauto. Qed.
Lemma path_snoc : forall m a b c, path m a b -> arrow m b c -> path m a c.
Proof. intros. eapply path_trans; eauto. now apply p_one. Qed.
(** The last edge of a path. *)
Lemma path_last : forall m a c, path m a c -> arrow m a c \/ exists b, path m a b /\ arrow m b c.
Proof.
  intros m a c H. induction H as [a b A|a b c A H IH]; auto. right. destruct IH as [B|[d [D1 D2]]].
  - exists b. split; auto. now apply p_one.
  - exists d. split; auto. eapply p_step; eauto.
Qed.

(** ** Finite sets in which every node has a predecessor contain a cycle. *)
Inductive chain (m : list (string * list string)) : list string -> Prop :=
| ch_one : forall x, chain m [x]
| ch_cons : forall x y l, arrow m x y -> chain m (y :: l) -> chain m (x :: y :: l).
Lemma chain_path : forall m l1 x l2 y, chain m (x :: l1 ++ y :: l2) -> path m x y.
Proof.
  intros m l1. induction l1 as [|z l1 IH]; intros x l2 y H; cbn in H; inversion H; subst.
  - now apply p_one.
  - eapply p_step; eauto.
Qed.
Lemma chain_tail : forall m l1 l2, l2 <> [] -> chain m (l1 ++ l2)%list -> chain m l2.
Proof.
  intros m l1. induction l1 as [|x l1 IH]; intros l2 N H; auto. apply IH; auto.
  cbn in H. inversion H as [x' E|x' y l A C E]; subst; auto. exfalso. destruct l1; cbn in *; [|discriminate].
  subst. contradiction.
Qed.
Lemma chain_dup : forall m l, chain m l -> ~ NoDup l -> cyclic m.
Proof.
  intros m l C ND. assert (D : exists x l1 l2 l3, l = (l1 ++ x :: l2 ++ x :: l3)%list).
  { clear C. induction l as [|a l IH]; [exfalso; apply ND; constructor|].
    destruct (in_dec string_dec a l) as [I|I].
    - apply in_split in I as [l2 [l3 ->]]. exists a, [], l2, l3. reflexivity.
    - destruct IH as (x & l1 & l2 & l3 & ->).
      + intros N. apply ND. now constructor.
      + exists x, (a :: l1), l2, l3. reflexivity. }
  destruct D as (x & l1 & l2 & l3 & ->). exists x. apply chain_tail in C; [|discriminate].
  eapply chain_path; eauto.
Qed.
Lemma preds_cycle : forall m (C : list string), C <> [] ->
  (forall x, In x C -> exists y, In y C /\ arrow m y x) -> cyclic m.
Proof.
  intros m C NE H.
  assert (K : forall n, exists l, chain m l /\ incl l C /\ List.length l = S n).
  { induction n as [|n (l & Ch & I & L)].
    - destruct C as [|x C]; [congruence|]. exists [x]. repeat split; [constructor|].
      intros y [<-|[]]. cbn. auto.
    - destruct l as [|x l]; [discriminate|]. destruct (H x (I x (or_introl eq_refl))) as [y [Y A]].
      exists (y :: x :: l). repeat split; [now constructor| |cbn in *; lia].
      intros z [<-|Z]; auto. }
  destruct (K (List.length C)) as (l & Ch & I & L). eapply chain_dup; eauto.
  intros ND. pose proof (NoDup_incl_length ND I). lia.
Qed.
(** Dually: without cycles, chains inside a finite set are short. *)
Lemma chain_bound : forall m C l, ~ cyclic m -> chain m l -> incl l C -> List.length l <= List.length C.
Proof.
  intros m C l NC Ch I. destruct (le_lt_dec (List.length l) (List.length C)) as [|L]; auto.
  exfalso. apply NC. eapply chain_dup; eauto. intros ND. pose proof (NoDup_incl_length ND I). lia.
Qed.

(** ** The algorithm *)
Definition succs (m : list (string * list string)) (f : string) : list string :=
  match assoc f m with Some l => l | None => [] end.
Lemma arrow_succs : forall m a b, arrow m a b <-> In b (succs m a).
Proof.
  intros m a b. unfold arrow, succs. destruct (assoc a m) as [l|]; split.
  - intros (l' & E & I). congruence.
  - eauto.
  - intros (l' & E & I). discriminate.
  - contradiction.
Qed.
(** Edges whose source is not among the processed nodes. *)
Definition left_edges (P : list string) (m : list (string * list string)) : list string :=
  flat_map snd (filter (fun kv => negb (mem_str (fst kv) P)) m).
Lemma left_nil : forall m, left_edges [] m = flat_map snd m.
Proof. intros m. unfold left_edges. f_equal. induction m as [|[k l] m IH]; auto.
  cbn. f_equal. exact IH.
Qed.
Lemma left_cons : forall x f P m, NoDup (keys m) -> ~ In f P ->
  occ x (left_edges P m) = occ x (succs m f) + occ x (left_edges (f :: P) m).
Proof.
  intros x f P m ND NI.
  assert (LE : forall P k l m, left_edges P ((k, l) :: m) =
            if mem_str k P then left_edges P m else (l ++ left_edges P m)%list).
  { intros P0 k l m0. unfold left_edges. cbn [filter fst]. destruct (mem_str k P0); reflexivity. }
  induction m as [|[k l] m IH]; [reflexivity|].
  inversion ND as [|? ? NK ND']; subst. specialize (IH ND'). rewrite !LE. unfold succs in *. cbn [assoc].
  change (mem_str k (f :: P)) with (String.eqb k f || mem_str k P)%bool.
  rewrite (String.eqb_sym k f). destruct (String.eqb f k) eqn:E.
  - apply String.eqb_eq in E. subst k. cbn [orb].
    assert (M : mem_str f P = false).
    { destruct (mem_str f P) eqn:M; auto. apply mem_str_iff in M. contradiction. }
    rewrite M, occ_app. f_equal.
    assert (Z : assoc f m = None) by (apply assoc_None; exact NK). rewrite Z in IH. exact IH.
  - cbn [orb]. destruct (mem_str k P); [exact IH|]. rewrite !occ_app. lia.
Qed.
Lemma left_in : forall x P m, NoDup (keys m) -> (0 < occ x (left_edges P m) <->
  exists y, ~ In y P /\ arrow m y x).
Proof.
  intros x P m ND. unfold occ.
  change (0 < count_occ string_dec (left_edges P m) x) with (count_occ string_dec (left_edges P m) x > 0).
  rewrite <- (count_occ_In string_dec). unfold left_edges. rewrite in_flat_map. split.
  - intros ([k l] & I & X). apply filter_In in I as [I N]. cbn in *. exists k. split.
    + intros K. apply mem_str_iff in K. rewrite K in N. discriminate.
    + exists l. split; auto. now apply In_assoc_NoDup.
  - intros (y & N & l & A & X). exists (y, l). split; auto. apply filter_In. split; [now apply assoc_In|].
    cbn. destruct (mem_str y P) eqn:M; auto. apply mem_str_iff in M. contradiction.
Qed.

Lemma relax_spec : forall ns d, (forall x, (Z.of_nat (occ x ns) <= get_z x d)%Z) ->
  (forall x, get_z x (fst (relax d ns)) = (get_z x d - Z.of_nat (occ x ns))%Z) /\
  (forall x, In x (snd (relax d ns)) <-> In x ns /\ get_z x d = Z.of_nat (occ x ns)) /\
  NoDup (snd (relax d ns)).
Proof.
  induction ns as [|f ns IH]; intros d H.
  - cbn. repeat split; intros; try tauto; try lia. constructor.
  - cbn [relax]. set (v := (get_z f d - 1)%Z). set (d1 := assoc_set f v d).
    assert (G : forall x, get_z x d1 = (get_z x d - Z.of_nat (occ x [f]))%Z).
    { intros x. unfold get_z at 1, d1, occ. cbn. destruct (string_dec f x) as [<-|N].
      - rewrite assoc_set_same. unfold v. lia.
      - rewrite assoc_set_other by auto. fold (get_z x d). lia. }
    assert (OC : forall x, occ x (f :: ns) = occ x [f] + occ x ns) by (intros; apply (occ_app x [f] ns)).
    assert (H1 : forall x, (Z.of_nat (occ x ns) <= get_z x d1)%Z).
    { intros x. rewrite G. specialize (H x). rewrite OC in H. lia. }
    destruct (IH d1 H1) as (I1 & I2 & I3).
    destruct (relax d1 ns) as [m q]. cbn [fst snd] in *.
    assert (FF : occ f [f] = 1) by (unfold occ; cbn; destruct (string_dec f f); congruence).
    assert (XF : forall x, x <> f -> occ x [f] = 0).
    { intros x N. unfold occ. cbn. destruct (string_dec f x); congruence. }
    split; [|split].
    + intros x. rewrite I1, G, OC. lia.
    + intros x. destruct (string_dec x f) as [->|N].
      * pose proof (G f) as Gf. pose proof (H1 f) as Hf. rewrite OC, FF in *.
        destruct (Z.eqb v 0) eqn:VE.
        -- apply Z.eqb_eq in VE. unfold v in VE. cbn. split; [|auto]. intros _. split; auto. lia.
        -- apply Z.eqb_neq in VE. unfold v in VE. rewrite I2. cbn.
           assert (OP : 0 < occ f ns <-> In f ns) by (unfold occ; symmetry; apply count_occ_In).
           split; intros [A B]; split; auto; try lia. apply OP. lia.
      * assert (E : In x (if Z.eqb v 0 then f :: q else q) <-> In x q).
        { destruct (Z.eqb v 0); cbn; [|tauto]. split; [intros [K|K]; congruence || auto|auto]. }
        rewrite E, I2, G, OC, (XF x N). cbn. split; intros [A B]; split; auto; try lia.
        destruct A; congruence || auto.
    + destruct (Z.eqb v 0) eqn:VE; auto. constructor; auto. rewrite I2. intros [A B].
      apply Z.eqb_eq in VE. unfold v in VE. apply (count_occ_In string_dec) in A. fold (occ f ns) in A.
      specialize (G f). lia.
Qed.


Lemma NoDup_app_iff2 : forall A (a b : list A), NoDup a -> NoDup b -> (forall x, In x b -> ~ In x a) -> NoDup (a ++ b).
Proof.
  intros A a b HA HB D. induction HA as [|x a NI HA IH]; cbn; auto. constructor.
  - rewrite in_app_iff. intros [I|I]; [contradiction|]. apply (D x I). cbn. auto.
  - apply IH. intros y Y I. apply (D y Y). cbn. auto.
Qed.
Section Kahn.
Variables (edges : list (string * list string)) (indeg : list (string * Z)).
Hypothesis ok : graph_ok edges indeg.
Let V := keys indeg.

Record kinv (P Q : list string) (d : list (string * Z)) : Prop := {
  k_nodup : NoDup (P ++ Q);
  k_incl : incl (P ++ Q) V;
  k_deg : forall x, get_z x d = Z.of_nat (occ x (left_edges P edges));
  k_zero : forall x, In x V -> (get_z x d = 0%Z <-> In x (P ++ Q)) }.

Lemma kahn_run : forall fuel P Q d, kinv P Q d -> List.length V <= fuel + List.length P ->
  exists P' d', kahn fuel edges d Q (List.length P) = Some (List.length P') /\ kinv P' [] d' /\
    (forall C : string -> Prop, (forall x, C x -> exists y, C y /\ arrow edges y x) ->
       (forall x, C x -> ~ In x (P ++ Q)) -> forall x, C x -> ~ In x P').
Proof.
  induction fuel as [|fuel IH]; intros P Q d K L.
  - destruct Q as [|f Q].
    + exists P, d. split; [reflexivity|]. split; auto. intros C HC HN x X. specialize (HN x X).
      now rewrite app_nil_r in HN.
    + exfalso. pose proof (NoDup_incl_length (k_nodup _ _ _ K) (k_incl _ _ _ K)) as LE.
      rewrite app_length in LE. cbn in LE. lia.
  - destruct Q as [|f Q].
    + exists P, d. split; [reflexivity|]. split; auto. intros C HC HN x X. specialize (HN x X).
      now rewrite app_nil_r in HN.
    + destruct K as [K1 K2 K3 K4].
      assert (FV : In f V) by (apply K2, in_app_iff; cbn; auto).
      assert (FP : ~ In f P).
      { intros F. apply NoDup_remove_2 in K1. apply K1. apply in_app_iff. auto. }
      assert (LC : forall x, occ x (left_edges P edges) = occ x (succs edges f) + occ x (left_edges (f :: P) edges)).
      { intros x. apply left_cons; auto. apply ok. }
      assert (HR : forall x, (Z.of_nat (occ x (succs edges f)) <= get_z x d)%Z).
      { intros x. rewrite K3, LC. lia. }
      destruct (relax_spec (succs edges f) d HR) as (R1 & R2 & R3).
      cbn [kahn]. fold (succs edges f). destruct (relax d (succs edges f)) as [d' new]. cbn [fst snd] in *.
      assert (NEW : forall x, In x new -> ~ In x (P ++ f :: Q)).
      { intros x N. apply R2 in N as [N1 N2]. intros I. apply K4 in I; [|now apply K2].
        apply (count_occ_In string_dec) in N1. fold (occ x (succs edges f)) in N1. lia. }
      assert (SV : forall x, In x (succs edges f) -> In x V).
      { intros x X. apply (g_dst _ _ ok). apply in_flat_map. unfold succs in X.
        destruct (assoc f edges) as [l|] eqn:A; [|contradiction]. apply assoc_In in A. exists (f, l). auto. }
      assert (K' : kinv (f :: P) (Q ++ new) d').
      { assert (PM : Permutation ((f :: P) ++ Q ++ new) ((P ++ f :: Q) ++ new)%list).
        { rewrite <- app_assoc. cbn. apply Permutation_cons_app. rewrite app_assoc. reflexivity. }
        constructor.
        - eapply Permutation_NoDup; [apply Permutation_sym, PM|]. apply NoDup_app_iff2; auto.
        - intros x X. apply (Permutation_in x PM) in X. apply in_app_iff in X as [X|X]; auto.
          apply SV. now apply R2 in X.
        - intros x. rewrite R1, K3, LC. lia.
        - intros x XV. split.
          + intros Z. apply (Permutation_in x (Permutation_sym PM)). apply in_app_iff.
            destruct (Z.eq_dec (get_z x d) 0) as [Z0|Z0].
            * left. now apply K4.
            * right. apply R2. rewrite R1 in Z. split; [|lia].
              apply (count_occ_In string_dec). fold (occ x (succs edges f)). lia.
          + intros X. apply (Permutation_in x PM) in X. apply in_app_iff in X as [X|X].
            * apply K4 in X; auto. pose proof (HR x). rewrite R1. lia.
            * apply R2 in X as [_ X]. rewrite R1. lia. }
      destruct (IH (f :: P) (Q ++ new)%list d' K') as (P' & d'' & E & K'' & CL).
      { cbn. lia. }
      exists P', d''. split; [exact E|]. split; auto. intros C HC HN. apply CL; auto.
      intros x X I. apply in_app_iff in I as [[<-|I]|I].
      * apply (HN f X). apply in_app_iff. cbn. auto.
      * apply (HN x X). apply in_app_iff. auto.
      * apply in_app_iff in I as [I|I].
        -- apply (HN x X). apply in_app_iff. cbn. auto.
        -- destruct (HC x X) as (y & Y & A).
           assert (NY : ~ In y (f :: P)).
           { intros [<-|IY].
             - apply (HN f Y). apply in_app_iff. cbn. auto.
             - apply (HN y Y). apply in_app_iff. auto. }
           assert (PO : 0 < occ x (left_edges (f :: P) edges)).
           { apply left_in; [apply ok|]. eauto. }
           pose proof (k_deg _ _ _ K' x) as DG. rewrite R1 in DG. apply R2 in I as [_ I]. lia.
Qed.

Lemma has_cycle_iff : forall order, Permutation order V ->
  (has_cycle order edges indeg = true <-> cyclic edges).
Proof.
  intros order PO. unfold has_cycle.
  set (q := filter (fun k => Z.eqb (get_z k indeg) 0) order).
  assert (K : kinv [] q indeg).
  { constructor; cbn.
    - apply NoDup_filter. eapply Permutation_NoDup; [apply Permutation_sym, PO|]. apply ok.
    - intros x X. apply filter_In in X as [X _]. now apply (Permutation_in x PO).
    - intros x. rewrite left_nil. apply ok.
    - intros x X. unfold q. rewrite filter_In, Z.eqb_eq. split; [|tauto]. intros Z. split; auto.
      now apply (Permutation_in x (Permutation_sym PO)). }
  destruct (kahn_run (List.length order + edge_count edges) [] q indeg K) as (P' & d' & E & K' & CL).
  { rewrite (Permutation_length PO). cbn. lia. }
  cbn [List.length] in E. rewrite E.
  assert (LV : List.length indeg = List.length V) by (unfold V, keys; now rewrite map_length).
  destruct K' as [N1 N2 N3 N4]. rewrite app_nil_r in *.
  rewrite negb_true_iff, Nat.eqb_neq. split.
  - intros NE. apply preds_cycle with (C := filter (fun x => negb (mem_str x P')) V).
    + intros EM. apply NE. rewrite LV. apply Nat.le_antisymm; [now apply NoDup_incl_length|].
      apply NoDup_incl_length; [apply ok|]. intros x X. destruct (mem_str x P') eqn:M; [now apply mem_str_iff|].
      assert (IN : In x []) by (rewrite <- EM; apply filter_In; rewrite M; auto). contradiction.
    + intros x X. apply filter_In in X as [X M]. apply negb_true_iff in M.
      assert (NI : ~ In x P') by (intros I; apply mem_str_iff in I; congruence).
      assert (PO' : 0 < occ x (left_edges P' edges)).
      { destruct (occ x (left_edges P' edges)) as [|n] eqn:Z; [|lia]. exfalso. apply NI. apply N4; auto.
        rewrite N3, Z. reflexivity. }
      apply left_in in PO'; [|apply ok]. destruct PO' as (y & Y & A). exists y. split; auto.
      apply filter_In. split.
      * apply (g_src _ _ ok). destruct A as (l & A & _). apply assoc_In_key. eauto.
      * apply negb_true_iff. destruct (mem_str y P') eqn:MY; auto. apply mem_str_iff in MY. contradiction.
  - intros [x PX] LE. 
    set (C := fun y => path edges y y).
    assert (HC : forall y, C y -> exists z, C z /\ arrow edges z y).
    { intros y Y. unfold C in *. destruct (path_last _ _ _ Y) as [A|(b & B & A)].
      - exists y. auto.
      - exists b. split; auto. eapply p_step; eauto. }
    assert (NX : ~ In x P').
    { apply (CL C HC); [|exact PX]. intros y Y I. apply filter_In in I as [_ I]. apply Z.eqb_eq in I.
      destruct (HC y Y) as (z & _ & A). rewrite (g_count _ _ ok) in I.
      assert (0 < occ y (flat_map snd edges)).
      { unfold occ. apply count_occ_In. apply in_flat_map. destruct A as (l & A & B).
        apply assoc_In in A. exists (z, l). auto. }
      lia. }
    assert (XV : In x V).
    { destruct (path_last _ _ _ PX) as [(l & A & B)|(b & _ & (l & A & B))];
        apply (g_dst _ _ ok); apply in_flat_map; apply assoc_In in A; eauto. }
    apply NX. assert (LL : List.length V <= List.length P') by lia.
    exact (NoDup_length_incl N1 LL N2 x XV).
Qed.
End Kahn.

(** ** Parse *)
Lemma inv_graph : forall o filename fin st, inv o filename fin st -> graph_ok (p_edges st) (p_indeg st).
Proof.
  intros o filename fin st V. constructor; try apply V.
  - rewrite (iv_indeg _ _ _ _ V). apply V.
  - intros f F. rewrite (iv_indeg _ _ _ _ V), <- (iv_files _ _ _ _ V). apply in_app_iff. left.
    now apply (iv_esrc _ _ _ _ V).
  - intros f F. rewrite (iv_indeg _ _ _ _ V). now apply (iv_edst _ _ _ _ V).
Qed.
Lemma collect_graph : forall fuel o filename st, collect fuel o filename = FDone st ->
  graph_ok (p_edges st) (p_indeg st).
Proof.
  intros fuel o filename st C. pose proof (collect_between fuel o filename) as CB. rewrite C in CB.
  destruct CB as [[V F] Q]. eapply inv_graph; eauto.
Qed.
