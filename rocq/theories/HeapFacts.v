(** Slices of block names: what append and nested parsing leave alone. *)
From Verif Require Export ParseInv Effects SpecRun.
Local Open Scope string_scope.

(** From [h] to [h'] arrays keep their size, only array [sl_arr s] is written, and
    only from index [sl_len s] on. *)
Record frame (s : slice) (h h' : heap) : Prop := {
  fr_len : List.length h <= List.length h';
  fr_size : forall i, i < List.length h -> List.length (arr_of h' i) = List.length (arr_of h i);
  fr_other : forall i, i < List.length h -> i <> sl_arr s -> arr_of h' i = arr_of h i;
  fr_low : firstn (sl_len s) (arr_of h' (sl_arr s)) = firstn (sl_len s) (arr_of h (sl_arr s)) }.

Lemma set_nth_length : forall A n (x : A) l, List.length (set_nth n x l) = List.length l.
Proof. induction n as [|n IH]; intros x [|y l]; cbn; auto. Qed.
Lemma set_nth_nth_eq : forall A n (x d : A) l, n < List.length l -> nth n (set_nth n x l) d = x.
Proof. induction n as [|n IH]; intros x d [|y l] H; cbn in *; try lia; auto. apply IH. lia. Qed.
Lemma set_nth_nth_neq : forall A n m (x d : A) l, n <> m -> nth m (set_nth n x l) d = nth m l d.
Proof.
  induction n as [|n IH]; intros [|m] x d [|y l] H; cbn; auto; congruence.
Qed.
Lemma set_nth_firstn : forall A n (x : A) l, firstn n (set_nth n x l) = firstn n l.
Proof. induction n as [|n IH]; intros x [|y l]; cbn; auto. f_equal. apply IH. Qed.
Lemma set_nth_firstn_S : forall A n (x : A) l, n < List.length l ->
  firstn (S n) (set_nth n x l) = (firstn n l ++ [x])%list.
Proof.
  induction n as [|n IH]; intros x [|y l] H; try (cbn in H; lia); [reflexivity|].
  change (set_nth (S n) x (y :: l)) with (y :: set_nth n x l). rewrite firstn_cons, IH by (cbn in H; lia). reflexivity.
Qed.
Lemma frame_refl : forall s h, frame s h h.
Proof. intros. constructor; auto. Qed.
Lemma frame_trans : forall s a b c, good a s -> frame s a b -> frame s b c -> frame s a c.
Proof.
  intros s a b c G [L1 S1 O1 W1] [L2 S2 O2 W2]. constructor.
  - lia.
  - intros i I. rewrite S2, S1; auto; lia.
  - intros i I N. rewrite O2, O1; auto; lia.
  - congruence.
Qed.
Lemma good_frame : forall s s' h h', good h s -> frame s' h h' -> good h' s.
Proof.
  intros s s' h h' [G1 G2] F. split; [pose proof (fr_len _ _ _ F); lia|]. rewrite (fr_size _ _ _ F); auto.
Qed.
Lemma read_frame : forall s h h', frame s h h' -> read_slice h' s = read_slice h s.
Proof. intros s h h' F. exact (fr_low _ _ _ F). Qed.
(** Writes from a longer slice of the same array, or from a new array. *)
Lemma frame_weaken : forall s s' h h1 h', good h s -> frame s h h1 -> frame s' h1 h' ->
  (sl_arr s' = sl_arr s /\ sl_len s <= sl_len s') \/ List.length h <= sl_arr s' -> frame s h h'.
Proof.
  intros s s' h h1 h' [G1 G2] [L1 S1 O1 W1] [L2 S2 O2 W2] C. constructor.
  - lia.
  - intros i I. rewrite S2, S1; auto; lia.
  - intros i I N. rewrite O2, O1; auto; [lia|]. destruct C as [[C _]|C]; [congruence|lia].
  - rewrite <- W1. destruct C as [[C1 C2]|C].
    + rewrite C1 in W2. apply (f_equal (firstn (sl_len s))) in W2. rewrite !firstn_firstn in W2.
      now rewrite Nat.min_l in W2 by lia.
    + rewrite O2; auto; lia.
Qed.
Lemma arr_of_app_l : forall h x i, i < List.length h -> arr_of (h ++ x)%list i = arr_of h i.
Proof. intros. unfold arr_of. now rewrite app_nth1. Qed.
Lemma arr_of_new : forall h a, arr_of (h ++ [a])%list (List.length h) = a.
Proof. intros. unfold arr_of. rewrite app_nth2 by lia. now rewrite Nat.sub_diag. Qed.


(** The block path entered, as a plain list. *)
Definition enter_path (path : list string) (name : string) : list string :=
  match path with
  | c0 :: _ => if (String.eqb c0 "http" && String.eqb name "location")%bool
               then ["http"; "location"] else (path ++ [name])%list
  | [] => [name]
  end.
Lemma enter_path_snoc : forall path name, (forall c0 r, path = c0 :: r ->
    (String.eqb c0 "http" && String.eqb name "location")%bool = false) ->
  enter_path path name = (path ++ [name])%list.
Proof. intros [|c0 r] name H; [reflexivity|]. cbn. now rewrite (H c0 r eq_refl). Qed.

Lemma append_slice_spec : forall h s x h' s', good h s -> append_slice h s x = (h', s') ->
  good h' s' /\ read_slice h' s' = (read_slice h s ++ [x])%list /\ frame s h h' /\
  ((sl_arr s' = sl_arr s /\ sl_len s <= sl_len s') \/ List.length h <= sl_arr s') /\ sl_len s' = S (sl_len s).
Proof.
  intros h s x h' s' [G1 G2] H. unfold append_slice in H.
  destruct (Nat.ltb (sl_len s) (List.length (arr_of h (sl_arr s)))) eqn:L; inversion H; subst; clear H.
  - apply Nat.ltb_lt in L. unfold good, read_slice. cbn [sl_arr sl_len].
    assert (A : arr_of (set_nth (sl_arr s) (set_nth (sl_len s) x (arr_of h (sl_arr s))) h) (sl_arr s)
                = set_nth (sl_len s) x (arr_of h (sl_arr s))).
    { unfold arr_of at 1. now rewrite set_nth_nth_eq. }
    rewrite A, set_nth_length, set_nth_length. repeat split; auto; try lia.
    + now apply set_nth_firstn_S.
    + now rewrite set_nth_length.
    + intros i I. destruct (Nat.eq_dec i (sl_arr s)) as [->|N].
      * now rewrite A, set_nth_length.
      * unfold arr_of at 1. rewrite set_nth_nth_neq by auto. reflexivity.
    + intros i I N. unfold arr_of at 1. rewrite set_nth_nth_neq by auto. reflexivity.
    + rewrite A. apply set_nth_firstn.
  - apply Nat.ltb_ge in L. assert (E : sl_len s = List.length (arr_of h (sl_arr s))) by lia.
    unfold good, read_slice. cbn [sl_arr sl_len]. rewrite arr_of_new, E.
    rewrite firstn_all. rewrite app_length. cbn [List.length].
    repeat split; auto; try lia.
    + rewrite !app_length. cbn. lia.
    + set (a := arr_of h (sl_arr s)) in *. set (pad := repeat EmptyString _).
      replace (S (List.length a)) with (List.length (a ++ [x])%list) by (rewrite app_length; cbn; lia).
      rewrite firstn_app, Nat.sub_diag, firstn_all, firstn_O. apply app_nil_r.
    + rewrite app_length. lia.
    + intros i I. now rewrite arr_of_app_l.
    + intros i I N. now rewrite arr_of_app_l.
    + now rewrite arr_of_app_l.
Qed.
Lemma enter_block_spec : forall h s x h' s', good h s -> enter_block h s x = (h', s') ->
  good h' s' /\ read_slice h' s' = enter_path (read_slice h s) x /\ frame s h h' /\
  ((sl_arr s' = sl_arr s /\ sl_len s <= sl_len s') \/ List.length h <= sl_arr s').
Proof.
  intros h s x h' s' G H. unfold enter_block in H. destruct (read_slice h s) as [|c0 r] eqn:R.
  - apply append_slice_spec in H as (A & B & C & D & _); auto. rewrite R in B. auto.
  - unfold enter_path. destruct (String.eqb c0 "http" && String.eqb x "location")%bool.
    + inversion H; subst. unfold good, read_slice. cbn [sl_arr sl_len]. rewrite arr_of_new, app_length.
      cbn [List.length firstn]. repeat split; auto; try lia.
      * rewrite app_length. lia.
      * intros i I. now rewrite arr_of_app_l.
      * intros i I N. now rewrite arr_of_app_l.
      * destruct G. now rewrite arr_of_app_l.
    + apply append_slice_spec in H as (A & B & C & D & _); auto. rewrite R in B. auto.
Qed.

Lemma effect_heap : forall o ctx st st', effect o ctx st st' -> p_heap st' = p_heap st.
Proof.
  intros o ctx st st' EF. destruct EF as [|e|p|p e|p c0|p fs]; auto.
  - now destruct (add_includes_frame ctx [p] (log_open st p)) as (E1 & _).
  - now destruct (add_includes_frame ctx (sort_strings fs) st) as (E1 & _).
Qed.
Lemma decide_heap : forall o dir ctx d term st, p_heap (decision_state st (decide o dir ctx d term st)) = p_heap st.
Proof. intros. eapply effect_heap, decide_effect. Qed.

Definition res_heap (st : pst) (r : pres) : heap :=
  match r with POk _ _ st' => p_heap st' | PErr _ _ st' => p_heap st' | _ => p_heap st end.
Lemma res_heap_padd : forall st ds r, res_heap st (padd ds r) = res_heap st r.
Proof. now intros st ds []. Qed.
Lemma res_heap_other : forall a b r, p_heap a = p_heap b -> res_heap a r = res_heap b r.
Proof. intros a b [] H; auto. Qed.

Lemma run_frame : forall o dir ctx toks st r, Run o dir ctx toks st r -> good (p_heap st) ctx ->
  frame ctx (p_heap st) (res_heap st r).
Proof.
  intros o dir ctx toks st r H.
  induction H as
    [ctx st|ctx st t r e TE|ctx st t r TE TC|ctx st t r res TE TC TM H IH|ctx st t r ST RA
    |ctx st t r args cs term rest ST RA D|ctx st t r args cs term rest e st' ST RA D
    |ctx st t r args cs term rest st' ST RA D|ctx st t r args cs term rest eat st' res ST RA D H IH
    |ctx st t r args cs term rest d res ST RA D H IH|ctx st t r args cs term rest d st' res ST RA D TB H IH
    |ctx st t r args cs term rest d st' h inner blk rest' st'' res ST RA D TB EB H1 IH1 H2 IH2
    |ctx st t r args cs term rest d st' h inner res ST RA D TB EB H IH FL]; intros G;
    try (pose proof (decide_heap o dir ctx (fresh o st t args) term st) as DH; rewrite D in DH; cbn [decision_state] in DH);
    rewrite ?res_heap_padd; cbn [res_heap]; auto using frame_refl.
  - rewrite DH. apply frame_refl.
  - rewrite DH. apply frame_refl.
  - rewrite (res_heap_other st st') by auto. rewrite <- DH. apply IH. now rewrite DH.
  - rewrite (res_heap_other st st') by auto. rewrite <- DH. apply IH. now rewrite DH.
  - rewrite <- DH in G. destruct (enter_block_spec _ _ _ _ _ G EB) as (GI & _ & FE & C).
    specialize (IH1 GI). cbn in IH1. rewrite <- DH.
    assert (F1 : frame ctx (p_heap st') (p_heap st'')) by (eapply frame_weaken; eauto).
    specialize (IH2 (good_frame _ _ _ _ G F1)).
    rewrite (res_heap_other st st') by auto.
    assert (RH : res_heap st'' res = res_heap st' res \/ res = PPanic \/ res = PFuel) by (destruct res; auto).
    destruct RH as [RH|RH].
    + rewrite <- RH. eapply frame_trans; eauto.
    + destruct RH as [-> | ->]; cbn; apply frame_refl.
  - rewrite <- DH in G. destruct (enter_block_spec _ _ _ _ _ G EB) as (GI & _ & FE & C).
    specialize (IH GI). rewrite <- DH. rewrite (res_heap_other st st') by auto.
    destruct res as [ds rest0 s0|e rest0 s0| |]; [destruct FL| |cbn; apply frame_refl|cbn; apply frame_refl].
    cbn in *. eapply frame_weaken; eauto.
Qed.
