(** Payload.Combined under every schedule. *)
From Verif Require Import CombineProofs.
From Verif Require Export ChanProofs.
From Coq Require Import Lia.
Import ListNotations.
Local Open Scope list_scope.

Lemma over_collects_ok : forall ds a,
    over collects a (map IDir ds) = ([], Some (a ++ map IDir ds)).
Proof.
  induction ds as [|d ds IH]; intro a; cbn [map over].
  - rewrite app_nil_r; reflexivity.
  - cbn [collects]. rewrite IH, <- app_assoc; reflexivity.
Qed.

Lemma over_collects_err : forall ds e r a,
    over collects a (map IDir ds ++ IErr e :: r) = ([IErr e], None).
Proof.
  induction ds as [|d ds IH]; intros e r a; cbn [map app over collects]; [reflexivity|].
  rewrite IH; reflexivity.
Qed.

Lemma dirs_of_map : forall ds, dirs_of (map IDir ds) = ds.
Proof. induction ds as [|d ds IH]; [reflexivity|cbn; f_equal; exact IH]. Qed.

Definition idx_code (fuel : nat) (old : list config) (f : string) (d : directive)
         (k : proc inc) : list Z -> proc inc :=
  fix go (idxs : list Z) : proc inc :=
  match idxs with
  | [] => k
  | i :: r =>
    if Z.leb (Z.of_nat (length old)) i then Emit (IErr (index_error f d i)) Stop
    else if Z.ltb i 0 then Stop
    else match nth_error old (Z.to_nat i) with
         | None => Stop
         | Some c => Range 0 (includes_code fuel old (cf_file c) (cf_parsed c))
                           [] forward (fun _ => go r)
         end
  end.

Definition after_code fuel old f (r : list directive) (d' : directive) : proc inc :=
  if negb (is_include d') then Emit (IDir d') (includes_code (S fuel) old f r)
  else idx_code fuel old f d' (includes_code (S fuel) old f r) (opt_list (d_includes d')).

Lemma includes_cons : forall fuel old f d r,
    includes_code (S fuel) old f (d :: r) =
    match d_block d with
    | Some b => Range 0 (includes_code fuel old f b) [] collects
                      (fun a => after_code fuel old f r (with_block d (dirs_of a)))
    | None => after_code fuel old f r d
    end.
Proof. reflexivity. Qed.

(** How a program agrees with the sequential result. *)
Definition agrees (p : proc inc) (r : cres) : Prop :=
  match r with
  | COk ds => delivers p = map IDir ds /\ patient p
  | CErr e => exists ds r', delivers p = map IDir ds ++ IErr e :: r'
  | _ => True
  end.

Lemma agrees_forward : forall n p k rp rk,
    agrees p rp -> agrees k rk -> agrees (Range n p [] forward (fun _ => k)) (cseq rp rk).
Proof.
  intros n p k [ds|e| |] rk HP HK; cbn [agrees cseq] in *; auto.
  - destruct HP as [HD HP].
    destruct rk as [ds'|e| |]; cbn [agrees cadd] in *; auto.
    + destruct HK as [KD KP]. cbn [delivers patient]; rewrite over_forward, HD, KD, map_app; auto.
    + destruct HK as (ds' & r' & KD). cbn [delivers]; rewrite over_forward, HD, KD.
      exists (ds ++ ds'), r'; rewrite map_app, app_assoc; reflexivity.
  - destruct HP as (ds & r' & HD). cbn [delivers]; rewrite over_forward, HD.
    exists ds, (r' ++ delivers k); rewrite <- app_assoc; reflexivity.
Qed.

Lemma agrees_add : forall d k rk,
    agrees k rk -> agrees (Emit (IDir d) k) (cadd [d] rk).
Proof.
  intros d k [ds|e| |] H; cbn [agrees cadd] in *; auto.
  - destruct H as [A B]; cbn [delivers patient map app]; rewrite A; auto.
  - destruct H as (ds & r' & A); exists (d :: ds), r'; cbn [delivers map app]; rewrite A; reflexivity.
Qed.

Lemma agrees_idx : forall fuel old f d k rk,
    (forall f b, agrees (includes_code fuel old f b) (perform fuel old f b)) ->
    agrees k rk ->
    forall idxs, agrees (idx_code fuel old f d k idxs) (cseq (perform_all fuel old f d idxs) rk).
Proof.
  intros fuel old f d k rk IH K; induction idxs as [|i idxs IHi]; cbn [idx_code perform_all].
  - cbn [cseq cadd]. destruct rk; exact K.
  - destruct (Z.leb _ i).
    { cbn [cseq agrees delivers]. exists [], []; reflexivity. }
    destruct (Z.ltb i 0); [exact I|].
    destruct (nth_error old (Z.to_nat i)) as [c|]; [|exact I].
    pose proof (agrees_forward 0 _ _ _ _ (IH (cf_file c) (cf_parsed c)) IHi) as A.
    destruct (perform fuel old (cf_file c) (cf_parsed c)) as [ds|e| |]; try exact A.
    cbn [cseq] in A |- *.
    destruct (perform_all fuel old f d idxs) as [ds'|e| |]; cbn [cadd cseq] in *; try exact A.
    destruct rk as [ds''|e| |]; cbn [cadd] in *; try exact A.
    rewrite <- app_assoc; exact A.
Qed.

Theorem includes_agree : forall fuel old f block,
    agrees (includes_code fuel old f block) (perform fuel old f block).
Proof.
  induction fuel as [|fuel IH]; intros old f block; [exact I|].
  induction block as [|d r IHr].
  { split; [reflexivity|exact I]. }
  rewrite includes_cons, perform_cons.
  assert (AF : forall d', agrees (after_code fuel old f r d')
                 (if negb (is_include d') then cadd [d'] (perform (S fuel) old f r)
                  else cseq (perform_all fuel old f d' (opt_list (d_includes d')))
                            (perform (S fuel) old f r))).
  { intro d'; unfold after_code; destruct (negb (is_include d')).
    - apply agrees_add; exact IHr.
    - apply agrees_idx; [intros; apply IH|exact IHr]. }
  destruct (d_block d) as [b|]; [|apply AF].
  pose proof (IH old f b) as HB.
  destruct (perform fuel old f b) as [nb|e| |]; try exact I.
  - destruct HB as [HD HP]. specialize (AF (with_block d nb)).
    match type of AF with agrees ?x ?y => set (A := x) in *; set (R := y) in * end.
    assert (DE : delivers (Range 0 (includes_code fuel old f b) [] collects
                      (fun a => after_code fuel old f r (with_block d (dirs_of a)))) = delivers A).
    { cbn [delivers]; rewrite HD, over_collects_ok; cbn [app]; rewrite dirs_of_map; reflexivity. }
    assert (PE : patient A -> patient (Range 0 (includes_code fuel old f b) [] collects
                      (fun a => after_code fuel old f r (with_block d (dirs_of a))))).
    { intro PA; cbn [patient]; rewrite HD, over_collects_ok; cbn [app]; rewrite dirs_of_map; auto. }
    destruct R as [ds|e| |]; cbn [agrees] in *; auto.
    + destruct AF as [A1 A2]; rewrite DE; auto.
    + rewrite DE; exact AF.
  - destruct HB as (ds & r' & HD). cbn [agrees delivers]; rewrite HD, over_collects_err.
    exists [], []; reflexivity.
Qed.

Lemma fed_combiner_ok : forall ds acc n, n <= length ds ->
    fed combiner (Reading acc) (map IDir ds) n = Reading (acc ++ firstn n ds).
Proof.
  induction ds as [|d ds IH]; intros acc [|n] L; cbn [fed map firstn]; rewrite ?app_nil_r; auto.
  - cbn in L; lia.
  - change (fed combiner (Reading (acc ++ [d])) (map IDir ds) n = Reading (acc ++ d :: firstn n ds)).
    rewrite IH by (cbn in L; lia). rewrite <- app_assoc; reflexivity.
Qed.

Lemma fed_combiner_err : forall ds e r acc n, n <= length ds ->
    fed combiner (Reading acc) (map IDir ds ++ IErr e :: r) n = Reading (acc ++ firstn n ds).
Proof.
  induction ds as [|d ds IH]; intros e r acc [|n] L; cbn [fed map firstn app]; rewrite ?app_nil_r; auto.
  - cbn in L; lia.
  - change (fed combiner (Reading (acc ++ [d])) (map IDir ds ++ IErr e :: r) n
            = Reading (acc ++ d :: firstn n ds)).
    rewrite IH by (cbn in L; lia). rewrite <- app_assoc; reflexivity.
Qed.

Theorem combined_schedules : forall fuel old f block n cap g s h,
    run combiner n (start cap (includes_code fuel old f block), Reading [], []) (g, s, h) ->
    c_done combiner s = true ->
    match perform fuel old f block with
    | COk ds => s = Returned (COk ds) /\ live g = 0
    | CErr e => s = Returned (CErr e)
    | _ => True
    end.
Proof.
  intros fuel old f block n cap g s h R D.
  pose proof (includes_agree fuel old f block) as A.
  set (p := includes_code fuel old f block) in *.
  destruct (prefix_ _ _ _ _ _ _ _ _ R) as (k & Hh & Hs & Hd).
  destruct (perform fuel old f block) as [ds|e| |]; auto.
  - destruct A as [AD AP]. rewrite AD in *.
    destruct (Nat.le_gt_cases k (length ds)) as [L|L].
    { rewrite fed_combiner_ok in Hs by exact L; subst s; discriminate D. }
    assert (E1 : fed combiner (Reading []) (map IDir ds) (S (length ds)) = Returned (COk ds)).
    { rewrite fed_snoc, fed_combiner_ok, firstn_all by lia.
      assert (NE : nth_error (map IDir ds) (length ds) = None)
        by (apply nth_error_None; rewrite map_length; lia).
      rewrite NE; reflexivity. }
    assert (k = S (length ds)) as ->.
    { destruct (Nat.le_gt_cases k (S (length ds))) as [L2|L2]; [lia|].
      specialize (Hd _ L2); rewrite E1 in Hd; discriminate Hd. }
    rewrite E1 in Hs; split; [exact Hs|].
    eapply none_left; [exact AP|exact R|].
    rewrite Hh, given_snoc. apply in_or_app; right; left.
    apply nth_error_None; rewrite map_length; lia.
  - destruct A as (ds & r & AD); rewrite AD in *.
    destruct (Nat.le_gt_cases k (length ds)) as [L|L].
    { rewrite fed_combiner_err in Hs by exact L; subst s; discriminate D. }
    assert (E1 : fed combiner (Reading []) (map IDir ds ++ IErr e :: r) (S (length ds)) = Returned (CErr e)).
    { rewrite fed_snoc, fed_combiner_err, firstn_all by lia.
      assert (NE : nth_error (map IDir ds ++ IErr e :: r) (length ds) = Some (IErr e)).
      { rewrite nth_error_app2; rewrite map_length; [|lia]. rewrite Nat.sub_diag; reflexivity. }
      rewrite NE; reflexivity. }
    assert (k = S (length ds)) as ->.
    { destruct (Nat.le_gt_cases k (S (length ds))) as [L2|L2]; [lia|].
      specialize (Hd _ L2); rewrite E1 in Hd; discriminate Hd. }
    rewrite E1 in Hs; exact Hs.
Qed.

(** The combining loop always returns within a bounded number of steps. *)
Lemma fed_combiner_stop : forall l n acc, length l < n ->
    exists m, m < n /\ (forall s, s = fed combiner (Reading acc) l (S m) -> c_done combiner s = true)
              /\ m <= length l.
Proof.
  induction l as [|x l IH]; intros [|n] acc L; try (cbn in L; lia).
  - exists 0; cbn; repeat split; [lia| |lia]. intros s ->; reflexivity.
  - destruct x as [d|e].
    + destruct (IH n (acc ++ [d])) as (m & A & B & C); [cbn in L; lia|].
      exists (S m); repeat split; [lia| |cbn; lia].
      intros s ->; apply B; reflexivity.
    + exists 0; repeat split; [lia| |cbn; lia].
      intros s ->; reflexivity.
Qed.

Theorem combined_bounded : forall fuel old f block n cap g s h,
    run combiner n (start cap (includes_code fuel old f block), Reading [], []) (g, s, h) ->
    n <= work (includes_code fuel old f block)
         + S (length (delivers (includes_code fuel old f block))).
Proof.
  intros fuel old f block n cap g s h R.
  pose proof (terminates _ _ _ _ _ _ _ _ R) as B.
  destruct (prefix_ _ _ _ _ _ _ _ _ R) as (k & Hh & Hs & Hd).
  set (l := delivers (includes_code fuel old f block)) in *.
  assert (length h = k).
  { rewrite Hh; clear; generalize l; induction k as [|k IH]; intros l0; [reflexivity|].
    rewrite given_snoc, app_length, IH; cbn; lia. }
  destruct (Nat.le_gt_cases k (S (length l))) as [L|L]; [lia|].
  destruct (fed_combiner_stop l k []) as (m & M1 & M2 & M3); [lia|].
  assert (X : S m < k) by lia.
  specialize (Hd _ X); rewrite (M2 _ eq_refl) in Hd; discriminate Hd.
Qed.
