(** C16, C17: combining configurations. *)
From Verif Require Export KahnProofs SpecCombine.
Local Open Scope string_scope.

Lemma is_include_iff : forall d, is_include d = true <-> resolved d.
Proof.
  intros d. unfold is_include, resolved. rewrite andb_true_iff, String.eqb_eq.
  destruct (d_includes d); split; intros [A B]; split; auto; try discriminate.
Qed.
Lemma is_include_reblock : forall d b, is_include (with_block d b) = is_include d.
Proof. reflexivity. Qed.

(** Unfolding one level of the code. *)
Fixpoint perform_all (fuel : nat) (old : list config) (fromfile : string) (d : directive) (idxs : list Z) : cres :=
  match idxs with
  | [] => COk []
  | i :: r =>
    if Z.leb (Z.of_nat (List.length old)) i then CErr (index_error fromfile d i)
    else if Z.ltb i 0 then CPanic
    else match nth_error old (Z.to_nat i) with
         | None => CPanic
         | Some c => cseq (perform fuel old (cf_file c) (cf_parsed c)) (perform_all fuel old fromfile d r)
         end
  end.
Lemma perform_nil : forall fuel old f, perform (S fuel) old f [] = COk [].
Proof. reflexivity. Qed.
Lemma perform_cons : forall fuel old f d r,
  perform (S fuel) old f (d :: r) =
  match (match d_block d with
         | Some b => match perform fuel old f b with COk nb => inl (with_block d nb) | e => inr e end
         | None => inl d
         end) with
  | inr e => e
  | inl d' => if negb (is_include d') then cadd [d'] (perform (S fuel) old f r)
              else cseq (perform_all fuel old f d' (opt_list (d_includes d'))) (perform (S fuel) old f r)
  end.
Proof.
  intros fuel old f d r. cbn [perform].
  destruct (match d_block d with Some b => _ | None => _ end) as [d'|e]; [|reflexivity].
  destruct (negb (is_include d')); [reflexivity|]. f_equal.
  generalize (opt_list (d_includes d')) as is. induction is as [|i is IH]; [reflexivity|].
  cbn [perform_all]. destruct (Z.leb _ i); [reflexivity|]. destruct (Z.ltb i 0); [reflexivity|].
  destruct (nth_error old (Z.to_nat i)) as [c|]; [|reflexivity]. f_equal. exact IH.
Qed.
Lemma cadd_ok : forall ds r out, cadd ds r = COk out -> exists out', r = COk out' /\ out = (ds ++ out')%list.
Proof. intros ds [o|e| |] out H; cbn in H; try discriminate. inversion H. eauto. Qed.
Lemma cseq_ok : forall a b out, cseq a b = COk out -> exists x y, a = COk x /\ b = COk y /\ out = (x ++ y)%list.
Proof.
  intros [x|e| |] b out H; cbn in H; try discriminate. apply cadd_ok in H as (y & -> & ->). eauto.
Qed.

(** ** Soundness *)
Lemma perform_expand : forall fuel old f block out, perform fuel old f block = COk out ->
  expand old block out.
Proof.
  induction fuel as [|fuel IH]; intros old f block out H; [discriminate|].
  assert (ALL : forall f d is out, perform_all fuel old f d is = COk out -> expand_all old is out).
  { intros f0 d is. induction is as [|i is IHis]; intros o0 H0; cbn [perform_all] in H0.
    - inversion H0. constructor.
    - destruct (Z.leb _ i); [discriminate|]. destruct (Z.ltb i 0) eqn:NEG; [discriminate|].
      apply Z.ltb_ge in NEG. destruct (nth_error old (Z.to_nat i)) as [c|] eqn:N; [|discriminate].
      apply cseq_ok in H0 as (x & y & A & B & ->). eapply xa_cons; eauto. }
  revert out H. induction block as [|d r IHb]; intros out H.
  - rewrite perform_nil in H. inversion H. constructor.
  - rewrite perform_cons in H. destruct (d_block d) as [b|] eqn:B.
    + destruct (perform fuel old f b) as [nb|e| |] eqn:PB; try discriminate.
      * rewrite is_include_reblock in H. destruct (is_include d) eqn:INC; cbn [negb] in H.
        -- apply cseq_ok in H as (x & y & A1 & A2 & ->). apply is_include_iff in INC as [N NN].
           cbn in A1. destruct (d_includes d) as [is|] eqn:DI; [|congruence]. eapply x_include; eauto.
        -- apply cadd_ok in H as (y & A2 & ->). cbn. eapply (x_block old d b nb); eauto.
           rewrite <- is_include_iff. congruence.
    + destruct (is_include d) eqn:INC; cbn [negb] in H.
      * apply cseq_ok in H as (x & y & A1 & A2 & ->). apply is_include_iff in INC as [N NN].
        destruct (d_includes d) as [is|] eqn:DI; [|congruence]. eapply x_include; eauto.
      * apply cadd_ok in H as (y & A2 & ->). cbn. apply x_leaf; auto. rewrite <- is_include_iff. congruence.
Qed.

Lemma expand_no_include : forall cs,
  (forall ds out, expand cs ds out -> forall d, within d out -> ~ resolved d) /\
  (forall is out, expand_all cs is out -> forall d, within d out -> ~ resolved d).
Proof.
  intros cs.
  assert (WA : forall d a b, within d (a ++ b) -> within d a \/ within d b).
  { intros d a b W. inversion W as [ds I|e bl ds I B W']; subst.
    - apply in_app_iff in I as [I|I]; [left|right]; now constructor.
    - apply in_app_iff in I as [I|I]; [left|right]; eapply in_block; eauto. }
  assert (WC : forall d x b, within d (x :: b) -> within d [x] \/ within d b).
  { intros d x b W. exact (WA d [x] b W). }
  apply expand_both.
  - intros d W. inversion W; contradiction.
  - intros d r r' N B E IH d0 W. apply WC in W as [W|W]; auto.
    inversion W as [ds I|e bl ds I B' W']; subst; destruct I as [<-|[]]; auto. congruence.
  - intros d b b' r r' N B E1 IH1 E2 IH2 d0 W. apply WC in W as [W|W]; auto.
    inversion W as [ds I|e bl ds I B' W']; subst; destruct I as [<-|[]]; auto.
    cbn in B'. inversion B'; subst. auto.
  - intros d is ds r r' N DI E1 IH1 E2 IH2 d0 W. apply WA in W as [W|W]; auto.
  - intros d W. inversion W; contradiction.
  - intros i c ds is rest P N E1 IH1 E2 IH2 d0 W. apply WA in W as [W|W]; auto.
Qed.
Lemma expand_det : forall cs,
  (forall ds out, expand cs ds out -> forall out', expand cs ds out' -> out' = out) /\
  (forall is out, expand_all cs is out -> forall out', expand_all cs is out' -> out' = out).
Proof.
  intros cs. apply expand_both.
  - intros out' H. now inversion H.
  - intros d r r' N B E IH out' H. inversion H as [|? ? ? N' B' E'|? ? ? ? ? N' B' E1' E2'|? ? ? ? ? N' DI' E1' E2']; subst.
    + f_equal. auto.
    + congruence.
    + exfalso. apply N. split; congruence.
  - intros d b b' r r' N B E1 IH1 E2 IH2 out' H.
    inversion H as [|? ? ? N' B' E'|? ? ? ? ? N' B' E1' E2'|? ? ? ? ? N' DI' E1' E2']; subst.
    + congruence.
    + rewrite B in B'. inversion B'; subst. now rewrite (IH1 _ E1'), (IH2 _ E2').
    + exfalso. apply N. split; congruence.
  - intros d is ds r r' N DI E1 IH1 E2 IH2 out' H.
    inversion H as [|? ? ? N' B' E'|? ? ? ? ? N' B' E1' E2'|? ? ? ? ? N' DI' E1' E2']; subst.
    + exfalso. apply N'. split; congruence.
    + exfalso. apply N'. split; congruence.
    + rewrite DI in DI'. inversion DI'; subst. now rewrite (IH1 _ E1'), (IH2 _ E2').
  - intros out' H. now inversion H.
  - intros i c ds is rest P N E1 IH1 E2 IH2 out' H. inversion H as [|? ? ? ? ? P' N' E1' E2']; subst.
    rewrite N in N'. inversion N'; subst. now rewrite (IH1 _ E1'), (IH2 _ E2').
Qed.

Lemma combined_is_combination : forall fuel old p, combined fuel old = CbOk p ->
  match pl_config old with [] => p = old | c0 :: _ => combination old p c0 end.
Proof.
  intros fuel old p H. unfold combined in H. destruct (pl_config old) as [|c0 cs] eqn:PC; [congruence|].
  destruct (perform fuel (c0 :: cs) (cf_file c0) (cf_parsed c0)) as [ds|e| |] eqn:P; try discriminate.
  inversion H; subst p. apply perform_expand in P. constructor; [|reflexivity|reflexivity].
  exists ds. rewrite PC. split; [exact P|]. split; [reflexivity|].
  intros d W. eapply (proj1 (expand_no_include (c0 :: cs))); eauto.
Qed.

(** ** More fuel never changes an answer. *)
Lemma perform_mono : forall fuel old f block,
  perform fuel old f block <> CFuel -> perform (S fuel) old f block = perform fuel old f block.
Proof.
  induction fuel as [|fuel IH]; intros old f block H; [now destruct H|].
  assert (ALL : forall f d is, perform_all fuel old f d is <> CFuel ->
            perform_all (S fuel) old f d is = perform_all fuel old f d is).
  { intros f0 d is. induction is as [|i is IHis]; intros H0; [reflexivity|].
    cbn [perform_all] in *. destruct (Z.leb _ i); auto. destruct (Z.ltb i 0); auto.
    destruct (nth_error old (Z.to_nat i)) as [c|]; auto.
    destruct (perform fuel old (cf_file c) (cf_parsed c)) as [x|e| |] eqn:P.
    - rewrite IH by congruence. rewrite P. cbn [cseq]. f_equal. apply IHis. intros E. apply H0. cbn [cseq]. now rewrite E.
    - rewrite IH by congruence. now rewrite P.
    - rewrite IH by congruence. now rewrite P.
    - exfalso. now apply H0. }
  induction block as [|d r IHb]; [reflexivity|]. rewrite perform_cons in H |- *. rewrite (perform_cons fuel).
  destruct (d_block d) as [b|] eqn:B.
  - destruct (perform fuel old f b) as [nb|e| |] eqn:P.
    + rewrite IH, P by congruence. destruct (negb (is_include (with_block d nb))).
      * f_equal. apply IHb. intros E. apply H. now rewrite E.
      * destruct (perform_all fuel old f (with_block d nb) (opt_list (d_includes (with_block d nb)))) as [x|e| |] eqn:PA.
        -- rewrite ALL, PA by congruence. cbn [cseq]. f_equal. apply IHb. intros E. apply H. cbn [cseq]. now rewrite E.
        -- rewrite ALL, PA by congruence. reflexivity.
        -- rewrite ALL, PA by congruence. reflexivity.
        -- exfalso. now apply H.
    + rewrite IH, P by congruence. reflexivity.
    + rewrite IH, P by congruence. reflexivity.
    + exfalso. now apply H.
  - destruct (negb (is_include d)).
    + f_equal. apply IHb. intros E. apply H. now rewrite E.
    + destruct (perform_all fuel old f d (opt_list (d_includes d))) as [x|e| |] eqn:PA.
      * rewrite ALL, PA by congruence. cbn [cseq]. f_equal. apply IHb. intros E. apply H. cbn [cseq]. now rewrite E.
      * rewrite ALL, PA by congruence. reflexivity.
      * rewrite ALL, PA by congruence. reflexivity.
      * exfalso. now apply H.
Qed.
Lemma perform_more : forall n fuel old f block,
  perform fuel old f block <> CFuel -> perform (n + fuel) old f block = perform fuel old f block.
Proof.
  induction n as [|n IH]; intros fuel old f block H; [reflexivity|]. cbn [plus].
  rewrite perform_mono; rewrite IH; auto.
Qed.
Lemma perform_le : forall a b old f block ds, a <= b ->
  perform a old f block = COk ds -> perform b old f block = COk ds.
Proof.
  intros a b old f block ds L H. replace b with (b - a + a) by lia. rewrite perform_more; congruence.
Qed.

Lemma chain_snoc : forall m l x y, chain m (l ++ [x])%list -> arrow m x y -> chain m ((l ++ [x]) ++ [y])%list.
Proof.
  intros m l x y. induction l as [|z l IH]; intros C A; cbn in *.
  - constructor; auto. constructor.
  - destruct l as [|w l]; cbn in *; inversion C; subst; constructor; auto.
Qed.

(** ** Termination on the payloads Parse collects *)
Section Term.
Variables (old : list config) (edges : list (string * list string)).
(** Every include index at any depth names a config along an edge. *)
Definition idx_ok (file : string) (d : directive) : Prop :=
  Forall (fun i => (0 <= i)%Z /\ exists c, nth_error old (Z.to_nat i) = Some c /\ arrow edges file (cf_file c))
         (opt_list (d_includes d)).
Definition done (c : config) : Prop := exists fuel ds, perform fuel old (cf_file c) (cf_parsed c) = COk ds.

Fixpoint dsize (d : directive) : nat :=
  S (match d_block d with Some b => fold_right (fun x n => dsize x + n) 0 b | None => 0 end).
Definition fsize (l : list directive) : nat := fold_right (fun x n => dsize x + n) 0 l.

Lemma forest_done : forall file, (forall c, In c old -> arrow edges file (cf_file c) -> done c) ->
  forall n f ds, fsize ds <= n -> Forall (deep (idx_ok file)) ds -> exists fuel out, perform fuel old f ds = COk out.
Proof.
  intros file HD. induction n as [n IH] using lt_wf_ind. intros f ds L F.
  destruct ds as [|d r]; [exists 1, []; reflexivity|].
  assert (SZ : fsize (d :: r) = dsize d + fsize r) by reflexivity.
  assert (DP : 0 < dsize d) by (destruct d; cbn; lia).
  inversion F as [|? ? FD FR]; subst.
  destruct (IH (fsize r)) with (f := f) (ds := r) as (k2 & o2 & P2); auto; [lia|].
  inversion FD as [d' Q DB]; subst d'.
  assert (PB : exists k o, forall j, k <= j ->
            match d_block d with
            | Some b => match perform j old f b with COk nb => inl (with_block d nb) | e => inr e end
            | None => inl d
            end = inl o /\ d_includes o = d_includes d).
  { destruct (d_block d) as [b|] eqn:B.
    - assert (SB : fsize b < dsize d).
      { destruct d as [nm ln ar fl inc bl cm mp]. cbn in B. subst bl. cbn. unfold fsize. lia. }
      destruct (IH (fsize b)) with (f := f) (ds := b) as (k & nb & P); auto; [lia|].
      exists k, (with_block d nb). intros j J. rewrite (perform_le k j _ _ _ nb J P). split; reflexivity.
    - exists 0, d. auto. }
  destruct PB as (k1 & d1 & PB).
  assert (PA : exists k o, perform_all k old f d1 (opt_list (d_includes d)) = COk o /\
             forall j, k <= j -> perform_all j old f d1 (opt_list (d_includes d)) = COk o).
  { unfold idx_ok in Q. revert Q. generalize (opt_list (d_includes d)) as is. clear PB.
    induction is as [|i is IHis]; intros Q; [exists 0, []; cbn; auto|].
    inversion Q as [|? ? [P (c & N & A)] Q']; subst. destruct (IHis Q') as (ka & oa & _ & PA).
    assert (IC : In c old) by (eapply nth_error_In; eauto).
    destruct (HD c IC A) as (kc & oc & PC).
    assert (LT : (Z.of_nat (List.length old) <=? i)%Z = false).
    { apply Z.leb_gt. assert (H : nth_error old (Z.to_nat i) <> None) by congruence.
      apply nth_error_Some in H. lia. }
    assert (GE : (i <? 0)%Z = false) by (apply Z.ltb_ge; auto).
    assert (ALL : forall j, Nat.max ka kc <= j -> perform_all j old f d1 (i :: is) = COk (oc ++ oa)%list).
    { intros j J. cbn [perform_all]. rewrite LT, GE, N, (perform_le kc j _ _ _ oc) by (auto; lia).
      cbn. rewrite PA by lia. reflexivity. }
    exists (Nat.max ka kc), (oc ++ oa)%list. split; auto. }
  destruct PA as (k3 & o3 & _ & PA).
  exists (S (Nat.max (Nat.max k1 k2) k3)).
  assert (PR : perform (S (Nat.max (Nat.max k1 k2) k3)) old f r = COk o2) by (eapply perform_le; [|exact P2]; lia).
  destruct (PB (Nat.max (Nat.max k1 k2) k3)) as [E DI]; [lia|].
  rewrite perform_cons, E, PR, DI.
  destruct (negb (is_include d1)); [cbn; eauto|]. rewrite PA by lia. cbn. eauto.
Qed.

Variable files : list string.
Hypothesis files_all : incl (map cf_file old) files.
Hypothesis acyclic : ~ cyclic edges.
Hypothesis trees_ok : forall c, In c old -> Forall (deep (idx_ok (cf_file c))) (cf_parsed c).

Lemma config_done : forall n c l, In c old -> chain edges (rev (cf_file c :: l)) -> incl l files ->
  List.length files < n + S (List.length l) -> done c.
Proof.
  induction n as [|n IH]; intros c l I Ch IL L.
  - exfalso. assert (IC : incl (rev (cf_file c :: l)) files).
    { intros x X. apply in_rev in X. destruct X as [<-|X]; auto. apply files_all. now apply in_map. }
    pose proof (chain_bound _ _ _ acyclic Ch IC) as B. rewrite rev_length in B. cbn in B. lia.
  - destruct (forest_done (cf_file c)) with (n := fsize (cf_parsed c)) (f := cf_file c) (ds := cf_parsed c)
      as (k & out & P); auto; [|exists k, out; exact P].
    intros c' I' A. apply (IH c' (cf_file c :: l)); auto.
    + cbn [rev] in *. now apply chain_snoc.
    + intros x [<-|X]; auto. apply files_all. now apply in_map.
    + cbn. lia.
Qed.
Lemma all_done : forall c, In c old -> done c.
Proof.
  intros c I. apply (config_done (List.length files) c []); auto.
  - constructor.
  - intros x [].
  - cbn. lia.
Qed.
End Term.

Lemma arrow_edge : forall st a b, edge st a b <-> arrow (p_edges st) a b.
Proof. reflexivity. Qed.
Lemma collect_files : forall fuel o filename st, collect fuel o filename = FDone st ->
  map cf_file (pl_config (p_pay st)) = keys (p_included st).
Proof.
  intros fuel o filename st C. pose proof (collect_between fuel o filename) as CB. rewrite C in CB.
  destruct CB as [[V F] Q]. rewrite <- (iv_files _ _ _ _ V), Q. cbn. now rewrite app_nil_r.
Qed.
Lemma collect_trees : forall fuel o filename st, collect fuel o filename = FDone st ->
  forall c, In c (pl_config (p_pay st)) ->
  Forall (deep (idx_ok (pl_config (p_pay st)) (p_edges st) (cf_file c))) (cf_parsed c).
Proof.
  intros fuel o filename st C c I. pose proof (collect_files _ _ _ _ C) as FE.
  pose proof (collect_between fuel o filename) as CB. rewrite C in CB. destruct CB as [[V F] Q].
  rewrite Forall_forall in F. eapply Forall_impl; [|exact (F c I)]. intros d. apply deep_mono.
  clear d. intros d [D1 D2]. unfold idx_ok.
  destruct (string_dec (d_name d) "include") as [N|N]; [|rewrite D2 by auto; constructor].
  destruct (d_ismap d) eqn:M; [rewrite D2 by auto; constructor|].
  destruct (o_single o) eqn:SG; [rewrite D2 by auto; constructor|].
  destruct (D1 N eq_refl eq_refl) as (arg & more & fs & _ & _ & G & _).
  clear D1 D2. apply Forall_forall. intros i II. revert II. induction G as [|i' f is fs [A E] G IH]; [intros []|].
  intros [<-|II]; auto. destruct (numbered_nth _ _ _ (iv_num _ _ _ _ V) A) as [P X]. split; auto.
  rewrite <- FE, nth_error_map in X.
  destruct (nth_error (pl_config (p_pay st)) (Z.to_nat i')) as [c'|]; [|discriminate].
  exists c'. split; auto. inversion X; subst. exact E.
Qed.

(** C17 *)
Lemma collect_combines : forall fuel o filename st, collect fuel o filename = FDone st ->
  ~ cyclic (p_edges st) -> exists n p, forall k, n <= k -> combined k (p_pay st) = CbOk p.
Proof.
  intros fuel o filename st C AC. pose proof (inc_first _ _ _ (collect_includes_ok _ _ _ _ C)) as [rest FE].
  destruct (pl_config (p_pay st)) as [|c0 cs] eqn:PC; [discriminate|].
  destruct (all_done (pl_config (p_pay st)) (p_edges st) (map cf_file (pl_config (p_pay st)))) with (c := c0)
    as (n & ds & P); auto using incl_refl.
  - eapply collect_trees; eauto.
  - rewrite PC. cbn. auto.
  - unfold combined. rewrite PC. rewrite PC in P. exists n. eexists. intros k L.
    rewrite (perform_le n k _ _ _ ds L P). reflexivity.
Qed.
Lemma combine_acyclic : forall fuel o filename st, collect fuel o filename = FDone st ->
  has_cycle (map fst (p_indeg st)) (p_edges st) (p_indeg st) = true <-> cyclic (p_edges st).
Proof.
  intros fuel o filename st C. apply has_cycle_iff; [|reflexivity]. eapply collect_graph; eauto.
Qed.

(** ** Fuel of the whole of Parse *)
Lemma run_files_mono : forall fuel o dir st, run_files fuel o dir st <> FFuel ->
  run_files (S fuel) o dir st = run_files fuel o dir st.
Proof.
  induction fuel as [|fuel IH]; intros o dir st H.
  - cbn in *. destruct (p_queue st) as [|[path ctx] q]; auto. now destruct H.
  - cbn [run_files] in H. cbn [run_files]. destruct (p_queue st) as [|[path ctx] q] eqn:Q; auto.
    destruct (parse_file o dir path ctx (set_queue st q)) as [st'|e st'| |]; auto. apply IH in H. exact H.
Qed.
Lemma collect_more : forall n fuel o filename, collect fuel o filename <> FFuel ->
  collect (n + fuel) o filename = collect fuel o filename.
Proof.
  unfold collect. induction n as [|n IH]; intros fuel o filename H; [reflexivity|]. cbn [plus].
  rewrite run_files_mono; rewrite IH; auto.
Qed.
Lemma collect_le : forall a b o filename, a <= b -> collect a o filename <> FFuel ->
  collect b o filename = collect a o filename.
Proof. intros a b o filename L H. replace b with (b - a + a) by lia. now apply collect_more. Qed.

Lemma parse_settles : forall fuel o filename, collect fuel o filename <> FFuel ->
  exists n r, r <> RFuel /\ forall k, n <= k -> parse_main k o filename = r.
Proof.
  intros fuel o filename H. destruct (collect fuel o filename) as [st|e st| |] eqn:C; try congruence.
  - destruct (has_cycle (map fst (p_indeg st)) (p_edges st) (p_indeg st)) eqn:HC.
    { exists fuel, (RErr cycle_error). split; [discriminate|]. intros k L. unfold parse_main.
      rewrite (collect_le fuel k) by (auto; congruence). rewrite C. unfold finish. now rewrite HC. }
    destruct (o_combine o) eqn:CO.
    + destruct (collect_combines _ _ _ _ C) as (n & p & P).
      { rewrite <- combine_acyclic by eauto. congruence. }
      exists (Nat.max fuel n), (ROk p). split; [discriminate|]. intros k L. unfold parse_main.
      rewrite (collect_le fuel k) by (try lia; congruence). rewrite C. unfold finish. rewrite HC, CO, P by lia.
      reflexivity.
    + exists fuel, (ROk (p_pay st)). split; [discriminate|]. intros k L. unfold parse_main.
      rewrite (collect_le fuel k) by (auto; congruence). rewrite C. unfold finish. now rewrite HC, CO.
  - exists fuel, (RErr e). split; [discriminate|]. intros k L. unfold parse_main.
    rewrite (collect_le fuel k) by (auto; congruence). now rewrite C.
  - exists fuel, RPanic. split; [discriminate|]. intros k L. unfold parse_main.
    rewrite (collect_le fuel k) by (auto; congruence). now rewrite C.
Qed.
(** C29 *)
Lemma parse_terminates : forall F o filename, (forall f, reach o filename f -> In f F) ->
  exists n r, r <> RFuel /\ forall k, n <= k -> parse_main k o filename = r.
Proof.
  intros F o filename HF. eapply parse_settles. eapply collect_terminates; eauto.
Qed.
(** C15 *)
Lemma parse_cycle_iff : forall fuel o filename st, collect fuel o filename = FDone st ->
  (parse_main fuel o filename = RErr cycle_error <-> cyclic (p_edges st)).
Proof.
  intros fuel o filename st C. rewrite <- combine_acyclic by eauto. unfold parse_main. rewrite C. unfold finish.
  destruct (has_cycle (map fst (p_indeg st)) (p_edges st) (p_indeg st)) eqn:HC; [tauto|].
  split; [|discriminate]. intros H. exfalso. destruct (o_combine o); [|discriminate].
  destruct (combined fuel (p_pay st)) as [p|e| |] eqn:CB; try discriminate.
  assert (AC : ~ cyclic (p_edges st)) by (rewrite <- combine_acyclic by eauto; congruence).
  destruct (collect_combines _ _ _ _ C AC) as (n & p & P).
  unfold combined in CB, P. destruct (pl_config (p_pay st)) as [|c0 cs]; [discriminate|].
  destruct (perform fuel (c0 :: cs) (cf_file c0) (cf_parsed c0)) as [ds|e0| |] eqn:PF; try discriminate.
  specialize (P (n + fuel)). rewrite perform_more in P by congruence. rewrite PF in P. discriminate P. lia.
Qed.
(** The graph, in terms of what the files say and of the trees returned. *)
Lemma graph_meaning : forall fuel o filename st, collect fuel o filename = FDone st ->
  (forall a b, arrow (p_edges st) a b -> inc_step o (dir_name filename) a b) /\
  (forall c d i b, In c (pl_config (p_pay st)) -> within d (cf_parsed c) ->
     In i (opt_list (d_includes d)) -> selects (p_pay st) i b -> arrow (p_edges st) (cf_file c) b).
Proof.
  intros fuel o filename st C. split.
  - intros a b A. pose proof (collect_between fuel o filename) as CB. rewrite C in CB. destruct CB as [[V F] Q].
    exact (iv_esound _ _ _ _ V a b A).
  - intros c d i b I W II (P & c' & N & <-).
    pose proof (deep_within _ _ _ W (collect_trees _ _ _ _ C c I)) as D. unfold idx_ok in D.
    rewrite Forall_forall in D. destruct (D i II) as [_ (c2 & N2 & A)]. congruence.
Qed.
(** C34, combined or not *)
Lemma no_includes_expand : forall cs, (forall ds out, expand cs ds out ->
  (forall d, within d ds -> d_includes d = None) -> out = ds) /\ (forall is out, expand_all cs is out -> True).
Proof.
  intros cs. apply expand_both; auto.
  - intros d r r' N B E IH H. f_equal. apply IH. intros x X. apply H.
    inversion X; subst; [constructor; cbn; auto|eapply in_block; cbn; eauto].
  - intros d b b' r r' N B E1 IH1 E2 IH2 H.
    assert (R : r' = r).
    { apply IH2. intros x X. apply H. inversion X; subst; [constructor; cbn; auto|eapply in_block; cbn; eauto]. }
    assert (BB : b' = b).
    { apply IH1. intros x X. apply H. eapply in_block; cbn; eauto. }
    subst. f_equal. destruct d. cbn in *. subst. reflexivity.
  - intros d is ds r r' N DI E1 _ E2 IH2 H. exfalso.
    rewrite (H d) in DI; [discriminate|]. constructor. cbn. auto.
Qed.
Lemma single_file_any : forall fuel o filename p, o_single o = true ->
  parse_main fuel o filename = ROk p ->
  exists c, pl_config p = [c] /\ cf_file c = filename /\ forall d, within d (cf_parsed c) -> d_includes d = None.
Proof.
  intros fuel o filename p SG H. destruct (o_combine o) eqn:CO; [|eapply single_file; eauto].
  unfold parse_main in H. destruct (collect fuel o filename) as [st|e st| |] eqn:C; try discriminate.
  unfold finish in H. rewrite CO in H. destruct (has_cycle _ _ _); [discriminate|].
  destruct (combined fuel (p_pay st)) as [p'|e| |] eqn:CB; try discriminate. inversion H; subst p'. clear H.
  pose proof (combined_is_combination _ _ _ CB) as CI.
  pose proof (collect_includes_ok _ _ _ _ C) as [[rest FI] ND FO OT].
  destruct (pl_config (p_pay st)) as [|c0 cs] eqn:PC; [discriminate|].
  destruct CI as [(ds & E & PE & _) _ _]. rewrite PC in E.
  eexists. split; [exact PE|]. cbn. split; [cbn in FI; congruence|].
  assert (NI : forall d, within d (cf_parsed c0) -> d_includes d = None).
  { intros d W. eapply OT; eauto. cbn. auto. }
  now rewrite (proj1 (no_includes_expand _) _ _ E NI).
Qed.
