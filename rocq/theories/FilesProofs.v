(** BuildFiles, BuildInto, reuse of options. *)
From Verif Require Export SpecFiles RegProofs.
Local Open Scope string_scope.

(** ** Options *)
Definition ext_of (o : boptions) : list (string * builder) := match bo_ext o with Some m => m | None => [] end.
Definition same_opts (o0 o : boptions) : Prop :=
  (bo_indent o = bo_indent o0 \/ bo_indent o0 = 0%Z /\ bo_indent o = 4%Z) /\ bo_tabs o = bo_tabs o0 /\ bo_header o = bo_header o0 /\ bo_builders o = bo_builders o0 /\ bo_print o = bo_print o0 /\
  (bo_ext o = None \/ forall n, assoc n (ext_of o) = registered n (bo_builders o0) None).
Lemma reg_idem : forall A n (rs : list (A * list string)) d, registered n rs (registered n rs d) = registered n rs d.
Proof.
  intros A n rs d. assert (X : forall (rs : list (A * list string)) d e, registered n rs d = registered n rs e \/ registered n rs d = d /\ registered n rs e = e).
  { clear. induction rs as [|r rs IH]; intros d e; [right; auto|]. cbn [registered]. destruct (existsb _ _); auto. }
  destruct (X rs (registered n rs d) d) as [E|[E _]]; auto.
Qed.
Lemma register_same : forall o0 o, same_opts o0 o -> same_opts o0 (register_all o).
Proof.
  intros o0 o (A & B & C & D & E & F). unfold register_all. destruct (bo_builders o) as [|r rs] eqn:X.
  - repeat split; auto. congruence.
  - repeat split; auto. right. intros n. cbn [ext_of bo_ext].
    change (fold_left apply_builder (r :: rs) (match bo_ext o with Some m => m | None => [] end)) with (fold_left apply_builder (r :: rs) (ext_of o)).
    pose proof (reg_fold builder (r :: rs) (ext_of o) n) as G. unfold ext_of. cbn [bo_ext]. etransitivity; [exact G|]. rewrite D. destruct F as [F|F].
    + unfold ext_of. now rewrite F.
    + rewrite F. apply reg_idem.
Qed.
Lemma build_opts_same : forall o0 o, same_opts o0 o -> same_opts o0 (build_opts o).
Proof.
  intros o0 o (A & B & C & D & E & F). unfold build_opts. set (o1 := BO _ _ _ _ _ _).
  assert (S1 : same_opts o0 o1).
  { repeat split; auto. cbn [o1 bo_indent]. destruct (Z.eqb_spec (bo_indent o) 0) as [Z|Z]; [|auto]. right. split; auto. destruct A as [A|[A A']]; congruence. }
  destruct (bo_ext o1) eqn:X; auto. now apply register_same.
Qed.
Lemma reused_same : forall o0 o, bo_ext o0 = None -> reused o0 o -> same_opts o0 o.
Proof. intros o0 o N. induction 1 as [|p _ IH|p _ IH]; [repeat split; auto|now apply build_opts_same|now apply register_same]. Qed.
Lemma text_same : forall o0 o ds, same_opts o0 o -> bo_ext o0 = None -> build_text o ds = build_text o0 ds.
Proof.
  intros o0 o ds S N. pose proof (build_opts_same o0 o S) as S1. assert (S0 : same_opts o0 o0) by (repeat split; auto). pose proof (build_opts_same o0 o0 S0) as S2.
  unfold build_text. set (p := build_opts o) in *. set (q := build_opts o0) in *.
  assert (IP : bo_indent p = (if Z.eqb (bo_indent o0) 0 then 4 else bo_indent o0)%Z).
  { unfold p, build_opts. set (o1 := BO _ _ _ _ _ _). assert (X : bo_indent o1 = (if Z.eqb (bo_indent o0) 0 then 4 else bo_indent o0)%Z).
    { cbn [o1 bo_indent]. destruct S as ([A|[A A']] & _); [now rewrite A|]. rewrite A', A. reflexivity. }
    destruct (bo_ext o1); auto. unfold register_all. destruct (bo_builders o1); auto. }
  assert (IQ : bo_indent q = (if Z.eqb (bo_indent o0) 0 then 4 else bo_indent o0)%Z).
  { unfold q, build_opts. set (o1 := BO _ _ _ _ _ _). destruct (bo_ext o1); auto. unfold register_all. destruct (bo_builders o1); auto. }
  assert (XP : forall r, same_opts o0 r -> (bo_ext r = None -> bo_builders r = []) -> forall n, assoc n (ext_of r) = registered n (bo_builders o0) None).
  { intros r (_ & _ & _ & D & _ & F) H n. destruct F as [F|F]; auto. unfold ext_of. rewrite F. rewrite <- D, (H F). reflexivity. }
  assert (HB : forall r, bo_ext (build_opts r) = None -> bo_builders (build_opts r) = []).
  { intros r. unfold build_opts. set (o1 := BO _ _ _ _ _ _). destruct (bo_ext o1) eqn:X; [congruence|]. unfold register_all. destruct (bo_builders o1) eqn:Y; auto. cbn. congruence. }
  pose proof S1 as (_ & B1 & C1 & D1 & E1 & F1). pose proof S2 as (_ & B2 & C2 & D2 & E2 & F2).
  assert (PO : plain_opts q = with_ext (plain_opts p) (ext_of q)).
  { unfold plain_opts, with_ext. cbn [b_indent b_tabs b_header b_print]. rewrite IP, IQ, B1, B2, C1, C2, E1, E2. reflexivity. }
  rewrite PO. apply build_ext. intros d n _ _. change (b_ext (plain_opts p)) with (ext_of p).
  rewrite (XP p S1 (HB o)), (XP q S2 (HB o0)). reflexivity.
Qed.
Lemma reuse : forall o0 o ds, bo_ext o0 = None -> reused o0 o -> build_text o ds = build_text o0 ds.
Proof. intros o0 o ds N R. apply text_same; auto. now apply reused_same. Qed.

Lemma loop_reuse : forall dir o0, bo_ext o0 = None -> forall cs o o' outs s, reused o0 o -> reused o0 o' ->
  build_files_loop dir o cs outs s = build_files_loop dir o' cs outs s.
Proof.
  intros dir o0 N. induction cs as [|c cs IH]; intros o o' outs s R R'; auto. cbn [build_files_loop].
  rewrite (reuse o0 o _ N R), (reuse o0 o' _ N R'). destruct (run_fs [MkDir _] outs s) as [[s1 [r|]] outs1]; auto.
  destruct (build_text o0 (cf_parsed c)); auto. destruct (run_fs _ outs1 s1) as [[s2 [r|]] outs2]; auto.
  apply IH; now constructor.
Qed.
Lemma files_reuse : forall cwd p dir o0 o outs s, bo_ext o0 = None -> reused o0 o ->
  build_files cwd p dir o outs s = build_files cwd p dir o0 outs s.
Proof.
  intros cwd p dir o0 o outs s N R. unfold build_files. destruct (if dir =? "" then cwd else Some dir); auto.
  apply (loop_reuse _ o0 N); repeat constructor; auto.
Qed.

(** ** BuildFiles *)
Lemma put_snoc : forall ws w f q, put_all (ws ++ [w]) f q = if String.eqb q (fst w) then Some (snd w) else put_all ws f q.
Proof. intros ws w f q. unfold put_all. rewrite fold_left_app. reflexivity. Qed.
Lemma run1 : forall p outs s, exists s' r outs', run_fs [MkDir p] outs s = (s', r, outs') /\ files s' = files s /\ (r = None \/ r = Some BFerr \/ r = Some BFdead) /\ (outs = [] -> r = None /\ outs' = []).
Proof.
  intros p [|[|k|k] outs] s; cbn [run_fs apply_op]; repeat eexists; auto; discriminate.
Qed.
Lemma take_all : forall s n, slen s <= n -> take n s = s.
Proof. induction s as [|c s IH]; intros [|n] L; auto; cbn [slen take] in *; [cbn in L; lia|]. f_equal. apply IH. cbn in L. lia. Qed.
Lemma run3 : forall p b outs s, exists s' r outs', run_fs [Create p; Write p b; Close p] outs s = (s', r, outs') /\
  (r = None /\ same_files (files s') (put_all [(p, b)] (files s)) \/
   (r = Some BFerr \/ r = Some BFdead) /\ (same_files (files s') (files s) \/ exists j, same_files (files s') (put_all [(p, take j b)] (files s)))) /\ (outs = [] -> r = None /\ outs' = []).
Proof.
  intros p b outs s.
  assert (W : forall x, same_files (files (Fs (upd (upd (files s) p "") p (content (upd (files s) p "") p ++ x)) (dirs s))) (put_all [(p, x)] (files s))).
  { intros x q. cbn [files]. unfold put_all. cbn [fold_left fst snd]. unfold upd, content. rewrite String.eqb_refl. cbn [String.append]. now destruct (q =? p). }
  assert (T : same_files (files (Fs (upd (files s) p "") (dirs s))) (put_all [(p, take 0 b)] (files s))).
  { intros q. cbn [files]. unfold put_all, upd. cbn [fold_left fst snd]. now destruct b. }
  destruct outs as [|[|k|k] outs]; cbn [run_fs apply_op].
  - do 3 eexists. split; [reflexivity|]. split; [left; split; auto|auto].
  - destruct outs as [|[|k|k] outs]; cbn [run_fs apply_op].
    + do 3 eexists. split; [reflexivity|]. split; [left; split; auto|discriminate].
    + destruct outs as [|[|k|k] outs]; cbn [run_fs apply_op]; (do 3 eexists; split; [reflexivity|]; split; [|discriminate]);
        try (left; split; [reflexivity|apply W]); right; (split; [auto|right; exists (slen b); rewrite take_all by auto; apply W]).
    + do 3 eexists. split; [reflexivity|]. split; [|discriminate]. right. split; auto. right. exists k. apply W.
    + do 3 eexists. split; [reflexivity|]. split; [|discriminate]. right. split; auto. right. exists k. apply W.
  - do 3 eexists. split; [reflexivity|]. split; [|discriminate]. right. split; auto. left. intros q. reflexivity.
  - do 3 eexists. split; [reflexivity|]. split; [|discriminate]. right. split; auto. destruct (k =? 0)%nat; [left; intros q; reflexivity|]. right. exists 0. apply T.
Qed.
Lemma put_ext : forall ws f g, same_files f g -> same_files (put_all ws f) (put_all ws g).
Proof.
  induction ws as [|w ws IH]; intros f g H; auto. unfold put_all. cbn [fold_left]. apply IH. intros q. destruct (q =? fst w); auto.
Qed.
Lemma put_cons : forall w ws f, put_all (w :: ws) f = put_all ws (put_all [w] f).
Proof. reflexivity. Qed.
Lemma files_loop : forall dir o0 cs o outs s, bo_ext o0 = None -> reused o0 o -> forall s' r, build_files_loop dir o cs outs s = (s', r) ->
  exists k, stopped dir o0 cs (files s) (files s') k /\
    (r = BFok -> exists ws, map (written dir o0) cs = map Some ws /\ same_files (files s') (put_all ws (files s))) /\
    (r = BFpanic -> exists c, nth_error cs k = Some c /\ written dir o0 c = None) /\
    (outs = [] -> r = BFok \/ r = BFpanic).
Proof.
  intros dir o0 cs. induction cs as [|c cs IH]; intros o outs s N R s' r H; cbn [build_files_loop] in H.
  { inversion H; subst. exists 0. split; [apply (st_between _ _ _ _ _ 0 []); [reflexivity|intros q; reflexivity]|]. split; [|split; [discriminate|auto]]. intros _. exists []. split; [reflexivity|intros q; reflexivity]. }
  change (target dir (cf_file c)) with (place dir (cf_file c)) in H.
  destruct (run1 (dir_name (place dir (cf_file c))) outs s) as (s1 & r1 & outs1 & E1 & F1 & R1 & O1). rewrite E1 in H.
  assert (ST0 : forall f, same_files f (files s) -> stopped dir o0 (c :: cs) (files s) f 0).
  { intros f Hf. apply (st_between _ _ _ _ _ 0 []); [reflexivity|exact Hf]. }
  destruct r1 as [r1|].
  { inversion H; subst s' r. clear H. exists 0. split; [apply ST0; rewrite F1; intros q; reflexivity|]. destruct R1 as [R1|[R1|R1]]; inversion R1; subst; (split; [discriminate|split; [discriminate|]]; intros E; destruct (O1 E); congruence). }
  pose proof (reuse o0 o (cf_parsed c) N R) as TX. rewrite TX in H.
  destruct (build_text o0 (cf_parsed c)) as [t|] eqn:BT.
  2: { inversion H; subst s' r. exists 0. split; [apply ST0; rewrite F1; intros q; reflexivity|]. split; [discriminate|]. split; [|auto]. intros _. exists c. split; [reflexivity|]. unfold written. now rewrite BT. }
  assert (WR : written dir o0 c = Some (place dir (cf_file c), trim_output t)) by (unfold written; rewrite BT; reflexivity).
  destruct (run3 (place dir (cf_file c)) (trim_output t) outs1 s1) as (s2 & r2 & outs2 & E2 & D & O2). rewrite E2 in H.
  destruct D as [[-> W]|[RR D]].
  - destruct (IH (build_opts o) outs2 s2 N (ru_build _ _ R) s' r H) as (k & ST & A & B & C). exists (S k).
    assert (G : forall f ws, same_files f (put_all ws (files s2)) -> same_files f (put_all ((place dir (cf_file c), trim_output t) :: ws) (files s))).
    { intros f ws Hf q. rewrite (Hf q), put_cons. apply put_ext. intros q'. rewrite (W q'), F1. reflexivity. }
    split; [|split; [|split]].
    + destruct ST as [k ws M SF|k ws c' path out j M NT W' SF].
      * apply (st_between _ _ _ _ _ (S k) ((place dir (cf_file c), trim_output t) :: ws)); [cbn [firstn map]; rewrite M, WR; reflexivity|now apply G].
      * apply (st_inside _ _ _ _ _ (S k) ((place dir (cf_file c), trim_output t) :: ws) c' path out j); [cbn [firstn map]; rewrite M, WR; reflexivity|exact NT|exact W'|]. cbn [app]. now apply G.
    + intros E. destruct (A E) as (ws & M & SF). exists ((place dir (cf_file c), trim_output t) :: ws). split; [cbn [map]; rewrite M, WR; reflexivity|now apply G].
    + intros E. destruct (B E) as (c' & X & Y). exists c'. auto.
    + intros E. apply C. destruct (O1 E) as [_ E']. destruct (O2 E') as [_ E'']. exact E''.
  - assert (X : exists r', r2 = Some r' /\ (r' = BFerr \/ r' = BFdead)) by (destruct RR as [-> | ->]; eauto). destruct X as (r' & -> & RR'). inversion H; subst s2 r'. clear H. exists 0.
    split; [|destruct RR' as [-> | ->]; (split; [discriminate|split; [discriminate|]]; intros E; destruct (O1 E) as [_ E']; destruct (O2 E'); congruence)].
    destruct D as [D|[j D]].
    + apply ST0. intros q. now rewrite (D q), F1.
    + apply (st_inside _ _ _ _ _ 0 [] c (place dir (cf_file c)) (trim_output t) j); [reflexivity|reflexivity|exact WR|]. intros q. rewrite (D q), F1. reflexivity.
Qed.

(** The operations, one after the other. *)
Lemma run_app : forall a b outs s, run_fs (a ++ b) outs s =
  let '(s', r, outs') := run_fs a outs s in match r with None => run_fs b outs' s' | Some _ => (s', r, outs') end.
Proof.
  induction a as [|op a IH]; intros b outs s; [reflexivity|]. cbn [app run_fs]. destruct outs as [|o outs]; [apply IH|]. destruct o; auto.
Qed.
Lemma files_ops : forall dir o0 cs rest ws outs s o, bo_ext o0 = None -> reused o0 o -> map (written dir o0) cs = map Some ws ->
  exists o', reused o0 o' /\ build_files_loop dir o (cs ++ rest) outs s =
    let '(s', r, outs') := run_fs (flat_map file_ops ws) outs s in match r with None => build_files_loop dir o' rest outs' s' | Some e => (s', e) end.
Proof.
  intros dir o0 cs rest. induction cs as [|c cs IH]; intros ws outs s o N R M.
  { destruct ws; [|discriminate]. exists o. split; [auto|reflexivity]. }
  destruct ws as [|w ws]; [discriminate|]. cbn [map] in M. inversion M as [[W M']]. cbn [app build_files_loop flat_map].
  rewrite (reuse o0 o (cf_parsed c) N R). unfold written in W. destruct (build_text o0 (cf_parsed c)) as [t|]; [|discriminate]. inversion W; subst w. clear W M.
  change (target dir (cf_file c)) with (place dir (cf_file c)). change (trim_output t) with (trim_right is_space_rune t ++ s_nl).
  unfold file_ops at 1. cbn [fst snd].
  set (p := place dir (cf_file c)). set (b := trim_right is_space_rune t ++ s_nl).
  change ([MkDir (dir_name p); Create p; Write p b; Close p] ++ flat_map file_ops ws)%list with ([MkDir (dir_name p)] ++ [Create p; Write p b; Close p] ++ flat_map file_ops ws)%list.
  rewrite (run_app [MkDir (dir_name p)] ([Create p; Write p b; Close p] ++ flat_map file_ops ws)). destruct (run_fs [MkDir (dir_name p)] outs s) as [[s1 r1] outs1]. destruct r1 as [e|].
  { exists o. split; [auto|reflexivity]. }
  rewrite (run_app [Create p; Write p b; Close p] (flat_map file_ops ws)). destruct (run_fs [Create p; Write p b; Close p] outs1 s1) as [[s2 r2] outs2]. destruct r2 as [e|].
  { exists o. split; [auto|reflexivity]. }
  destruct (IH ws outs2 s2 (build_opts o) N (ru_build _ _ R) M') as (o' & R' & E). exists o'. split; auto.
Qed.
Lemma files_all_ops : forall cwd p dir o outs s root ws, bo_ext o = None -> where_to cwd dir = Some root ->
  map (written root o) (pl_config p) = map Some ws -> build_files cwd p dir o outs s = performed (flat_map file_ops ws) outs s BFok.
Proof.
  intros cwd p dir o outs s root ws N W M. unfold build_files. fold (where_to cwd dir). rewrite W.
  destruct (files_ops root o (pl_config p) [] ws outs s (register_all o) N (ru_files _ _ (ru_new _)) M) as (o' & _ & E). rewrite app_nil_r in E. rewrite E.
  unfold performed. destruct (run_fs _ _ _) as [[s' r] outs']. destruct r; reflexivity.
Qed.
Lemma files_panic_ops : forall cwd p dir o outs s root ws pre c post, bo_ext o = None -> where_to cwd dir = Some root ->
  pl_config p = (pre ++ c :: post)%list -> map (written root o) pre = map Some ws -> written root o c = None ->
  build_files cwd p dir o outs s = performed (flat_map file_ops ws ++ [MkDir (dir_name (place root (cf_file c)))]) outs s BFpanic.
Proof.
  intros cwd p dir o outs s root ws pre c post N W P M WN. unfold build_files. fold (where_to cwd dir). rewrite W, P.
  destruct (files_ops root o pre (c :: post) ws outs s (register_all o) N (ru_files _ _ (ru_new _)) M) as (o' & R & E). rewrite E.
  unfold performed. rewrite run_app. destruct (run_fs (flat_map file_ops ws) outs s) as [[s1 r1] outs1]. destruct r1 as [e|]; [reflexivity|].
  cbn [build_files_loop]. change (target root (cf_file c)) with (place root (cf_file c)). destruct (run_fs [_] outs1 s1) as [[s2 r2] outs2]. destruct r2 as [e|]; [reflexivity|].
  rewrite (reuse o o' (cf_parsed c) N R). unfold written in WN. destruct (build_text o (cf_parsed c)); [discriminate|reflexivity].
Qed.
Lemma files_nowhere : forall cwd p dir o outs s, where_to cwd dir = None -> build_files cwd p dir o outs s = (s, BFerr).
Proof. intros cwd p dir o outs s W. unfold build_files. fold (where_to cwd dir). now rewrite W. Qed.

(** With pairwise different paths. *)
Lemma nth_error_firstn_lt : forall A (l : list A) k i, i < k -> nth_error (firstn k l) i = nth_error l i.
Proof. intros A l. induction l as [|x l IH]; intros [|k] [|i] L; auto; try lia. cbn. apply IH. lia. Qed.
Lemma nth_error_skipn : forall A (l : list A) k i, nth_error (skipn k l) i = nth_error l (k + i).
Proof. intros A l. induction l as [|x l IH]; intros [|k] i; auto. destruct i; reflexivity. cbn. apply IH. Qed.
Lemma NoDup_app_l : forall A (a b : list A), NoDup (a ++ b) -> NoDup a.
Proof. induction a as [|x a IH]; intros b H; [constructor|]. inversion H; subst. constructor; [intros I; apply H2; apply in_or_app; auto|eauto]. Qed.
Lemma NoDup_app_disjoint : forall A (a b : list A) x, NoDup (a ++ b) -> In x a -> In x b -> False.
Proof. induction a as [|y a IH]; intros b x H I J; [destruct I|]. inversion H; subst. destruct I as [->|I]; [apply H2; apply in_or_app; auto|eauto]. Qed.
Lemma firstn_incl_S : forall A (l : list A) k x, In x (firstn k l) -> In x (firstn (S k) l).
Proof. intros A l. induction l as [|y l IH]; intros [|k] x I; try destruct I. - left; auto. - right. now apply IH. Qed.
Lemma put_other : forall ws f q, ~ In q (map fst ws) -> put_all ws f q = f q.
Proof.
  induction ws as [|w ws IH]; intros f q H; auto. rewrite put_cons, IH by (intros I; apply H; now right). unfold put_all. cbn [fold_left].
  destruct (String.eqb_spec q (fst w)) as [E|]; auto. exfalso. apply H. left. auto.
Qed.
Lemma put_in : forall ws f p b, NoDup (map fst ws) -> In (p, b) ws -> put_all ws f p = Some b.
Proof.
  induction ws as [|w ws IH]; intros f p b ND I; [destruct I|]. inversion ND; subst. rewrite put_cons. destruct I as [->|I].
  - rewrite put_other by auto. unfold put_all. cbn [fold_left fst snd]. now rewrite String.eqb_refl.
  - now apply IH.
Qed.
Lemma stopped_distinct : forall dir o cs f f' k, stopped dir o cs f f' k -> NoDup (map (fun c => place dir (cf_file c)) cs) ->
  (forall i c p b, i < k -> nth_error cs i = Some c -> written dir o c = Some (p, b) -> f' p = Some b) /\
  (forall i c, k < i -> nth_error cs i = Some c -> f' (place dir (cf_file c)) = f (place dir (cf_file c))) /\
  (forall q, (forall c, In c cs -> q <> place dir (cf_file c)) -> f' q = f q) /\
  (forall c, nth_error cs k = Some c -> f' (place dir (cf_file c)) = f (place dir (cf_file c)) \/
     exists b j, written dir o c = Some (place dir (cf_file c), b) /\ f' (place dir (cf_file c)) = Some (take j b)).
Proof.
  intros dir o cs f f' k ST ND.
  assert (WT : forall c p b, written dir o c = Some (p, b) -> p = place dir (cf_file c)).
  { intros c p b H. unfold written in H. destruct (build_text o (cf_parsed c)); inversion H; auto. }
  assert (MF : forall l ws, map (written dir o) l = map Some ws -> map fst ws = map (fun c => place dir (cf_file c)) l).
  { induction l as [|c l IH]; intros [|[p b] ws] M; try discriminate; auto. cbn [map] in *. inversion M as [[M1 M2]]. f_equal; [cbn; symmetry; symmetry; now apply WT with b|auto]. }
  assert (NF : forall (l : list config) (n : nat), (firstn n l ++ skipn n l)%list = l) by (intros; apply firstn_skipn).
  assert (IN : forall i c p b ws, i < k -> nth_error cs i = Some c -> written dir o c = Some (p, b) -> map (written dir o) (firstn k cs) = map Some ws -> In (p, b) ws).
  { intros i c p b ws L E W M. assert (I : In c (firstn k cs)). { apply nth_error_In with i. rewrite nth_error_firstn_lt; auto. }
    apply (in_map (written dir o)) in I. rewrite M, W in I. apply in_map_iff in I as (w & X & I). inversion X; subst. exact I. }
  assert (AFTER : forall i c, k < i -> nth_error cs i = Some c -> ~ In (place dir (cf_file c)) (map (fun c => place dir (cf_file c)) (firstn (S k) cs))).
  { intros i c L E I. rewrite <- (NF cs (S k)), map_app in ND. apply (NoDup_app_disjoint _ _ _ (place dir (cf_file c)) ND); auto. apply in_map_iff. exists c. split; auto.
    apply nth_error_In with (i - S k). rewrite nth_error_skipn. replace (S k + (i - S k)) with i by lia. exact E. }
  assert (SUB : forall x, In x (map (fun c => place dir (cf_file c)) (firstn k cs)) -> In x (map (fun c => place dir (cf_file c)) (firstn (S k) cs))).
  { intros x I. apply in_map_iff in I as (c & E & I). apply in_map_iff. exists c. split; auto. now apply firstn_incl_S. }
  assert (NDk : NoDup (map (fun c => place dir (cf_file c)) (firstn k cs))). { rewrite <- (NF cs k), map_app in ND. now apply NoDup_app_l in ND. }
  assert (ATK : forall c, nth_error cs k = Some c -> ~ In (place dir (cf_file c)) (map (fun c => place dir (cf_file c)) (firstn k cs))).
  { intros c E I. rewrite <- (NF cs k), map_app in ND. apply (NoDup_app_disjoint _ _ _ (place dir (cf_file c)) ND); auto. apply in_map_iff. exists c. split; auto.
    apply nth_error_In with 0. rewrite nth_error_skipn. now rewrite Nat.add_0_r. }
  assert (INK : forall x, In x (firstn k cs) -> In x cs) by (intros x I; rewrite <- (NF cs k); apply in_or_app; auto).
  destruct ST as [k ws M SF|k ws c0 path out j M NT W SF].
  - pose proof (MF _ _ M) as FS. split; [|split; [|split]].
    + intros i c p b L E W. rewrite (SF p). apply put_in; [rewrite FS; auto|eauto].
    + intros i c L E. rewrite (SF _). apply put_other. rewrite FS. intros I. apply (AFTER i c L E). auto.
    + intros q H. rewrite (SF q). apply put_other. rewrite FS. intros I. apply in_map_iff in I as (c & E & I). apply (H c); auto.
    + intros c E. left. rewrite (SF _). apply put_other. rewrite FS. auto.
  - pose proof (MF _ _ M) as FS. pose proof (WT _ _ _ W) as ->. split; [|split; [|split]].
    + intros i c p b L E W'. rewrite (SF p), put_snoc. cbn [fst snd]. destruct (String.eqb_spec p (place dir (cf_file c0))) as [X|X].
      * exfalso. pose proof (WT _ _ _ W') as Y. apply (ATK c0 NT). rewrite <- X, Y. apply in_map_iff. exists c. split; auto. apply nth_error_In with i. rewrite nth_error_firstn_lt; auto.
      * apply put_in; [rewrite FS; auto|eauto].
    + intros i c L E. rewrite (SF _), put_snoc. cbn [fst snd]. assert (X : place dir (cf_file c) <> place dir (cf_file c0)).
      { intros X. apply (AFTER i c L E). rewrite X. apply in_map_iff. exists c0. split; auto. apply nth_error_In with k. rewrite nth_error_firstn_lt; auto. }
      rewrite (proj2 (String.eqb_neq _ _) X). apply put_other. rewrite FS. intros I. apply (AFTER i c L E). auto.
    + intros q H. rewrite (SF q), put_snoc. cbn [fst snd]. rewrite (proj2 (String.eqb_neq _ _)) by (apply H; now apply nth_error_In with k).
      apply put_other. rewrite FS. intros I. apply in_map_iff in I as (c & E & I). apply (H c); auto.
    + intros c E. right. rewrite NT in E. inversion E; subst c. exists out, j. split; auto. rewrite (SF _), put_snoc. cbn [fst snd]. now rewrite String.eqb_refl.
Qed.

(** ** BuildInto *)
Lemma put_nth_last : forall A (l : list A) x y, put_nth (List.length l) y (l ++ [x]) = (l ++ [y])%list.
Proof. induction l as [|z l IH]; intros x y; auto. cbn [List.length app put_nth]. now rewrite IH. Qed.
Lemma nth_last : forall A (l : list A) x, nth_error (l ++ [x]) (List.length l) = Some x.
Proof. induction l as [|z l IH]; intros x; auto. cbn. apply IH. Qed.
Lemma write_last : forall h n t b fl, cr_write (List.length h) b (Creat (h ++ [FStr n t]) fl) = Creat (h ++ [FStr n (t ++ b)]) fl.
Proof. intros h n t b fl. unfold cr_write. cbn [cr_heap cr_files]. rewrite nth_last. cbn [fs_name fs_text]. now rewrite put_nth_last. Qed.
Lemma body_text : forall o ds, build_text o ds = option_map (fun t => (if bo_header o then header else "") ++ t) (build_body (plain_opts (build_opts o)) ds).
Proof.
  intros o ds. unfold build_text, build, build_body. destruct (build_block _ _ _ _ _); cbn [obind option_map]; auto.
  assert (H : b_header (default_indent (plain_opts (build_opts o))) = bo_header o).
  { unfold build_opts. set (o1 := BO _ _ _ _ _ _). cbn [default_indent b_header plain_opts]. destruct (bo_ext o1); auto. unfold register_all. now destruct (bo_builders o1). }
  now rewrite H.
Qed.
Lemma into_run : forall o0 cs o c, bo_ext o0 = None -> reused o0 o ->
  (exists ts, map (fun g => build_text o0 (cf_parsed g)) cs = map Some ts /\
     build_into cs o c = (Creat (cr_heap c ++ map (fun gt => FStr (cf_file (fst gt)) (snd gt ++ s_nl)) (List.combine cs ts))
                                (cr_files c ++ seq (List.length (cr_heap c)) (List.length cs)), true)) \/
  (exists g, In g cs /\ build_text o0 (cf_parsed g) = None /\ snd (build_into cs o c) = false).
Proof.
  intros o0. induction cs as [|g cs IH]; intros o c N R.
  { left. exists []. split; auto. cbn [build_into combine map List.length seq]. rewrite !app_nil_r. now destruct c. }
  cbn [build_into cr_create]. unfold cr_create. unfold build_write.
  pose proof (reuse o0 o (cf_parsed g) N R) as T. rewrite body_text in T.
  set (c1 := if bo_header o then cr_write (List.length (cr_heap c)) header (Creat (cr_heap c ++ [FStr (cf_file g) ""]) (cr_files c ++ [List.length (cr_heap c)])) else Creat (cr_heap c ++ [FStr (cf_file g) ""]) (cr_files c ++ [List.length (cr_heap c)])).
  assert (C1 : c1 = Creat (cr_heap c ++ [FStr (cf_file g) (if bo_header o then header else "")]) (cr_files c ++ [List.length (cr_heap c)])) by (unfold c1; destruct (bo_header o); [rewrite write_last|]; reflexivity).
  destruct (build_body (plain_opts (build_opts o)) (cf_parsed g)) as [b|].
  2: { right. exists g. split; [now left|]. cbn [option_map] in T. split; [congruence|reflexivity]. }
  cbn [option_map] in T. rewrite C1, write_last. unfold cr_close. rewrite write_last.
  set (t := (if bo_header o then header else "") ++ b) in *.
  destruct (IH (build_opts o) (Creat (cr_heap c ++ [FStr (cf_file g) (t ++ s_nl)]) (cr_files c ++ [List.length (cr_heap c)])) N (ru_build _ _ R)) as [(ts & M & E)|(g' & I & X & E)].
  - left. exists (t :: ts). split; [cbn [map]; rewrite M, <- T; reflexivity|]. rewrite E. cbn [cr_heap cr_files combine map fst snd List.length seq]. rewrite app_length, <- !app_assoc. cbn [app List.length]. now rewrite Nat.add_1_r.
  - right. exists g'. split; [now right|]. auto.
Qed.
Definition sound_cr (c : creator) : Prop := Forall (fun h => h < List.length (cr_heap c)) (cr_files c).
Lemma put_nth_length : forall A (l : list A) n x, List.length (put_nth n x l) = List.length l.
Proof. induction l as [|y l IH]; intros [|n] x; auto. cbn. now rewrite IH. Qed.
Lemma sound_do : forall c op, sound_cr c -> sound_cr (cr_do c op).
Proof.
  intros c op H. unfold sound_cr in *. destruct op as [n|h b|h|]; cbn [cr_do].
  - cbn [cr_create fst cr_heap cr_files]. rewrite app_length. apply Forall_app. split; [eapply Forall_impl; [|exact H]; cbn; lia|]. constructor; [cbn; lia|constructor].
  - unfold cr_write. destruct (nth_error _ _); auto. cbn [cr_heap cr_files]. now rewrite put_nth_length.
  - unfold cr_close, cr_write. destruct (nth_error _ _); auto. cbn [cr_heap cr_files]. now rewrite put_nth_length.
  - constructor.
Qed.
Lemma sound_after : forall ops, sound_cr (cr_after ops).
Proof.
  intros ops. unfold cr_after. assert (X : sound_cr (Creat [] [])) by constructor. revert X. generalize (Creat [] []). induction ops as [|op ops IH]; intros c H; auto. cbn [fold_left]. apply IH. now apply sound_do.
Qed.
Lemma map_seq_nth : forall A (l l' : list A), map (nth_error (l ++ l')) (seq (List.length l) (List.length l')) = map Some l'.
Proof.
  intros A l l'. revert l. induction l' as [|x l' IH]; intros l; auto. cbn [List.length seq map]. f_equal.
  - rewrite nth_error_app2, Nat.sub_diag by lia. reflexivity.
  - specialize (IH (l ++ [x])%list). rewrite app_length in IH. cbn [List.length] in IH. rewrite Nat.add_1_r, <- app_assoc in IH. exact IH.
Qed.
Lemma into_shown : forall o0 cs o ops, bo_ext o0 = None -> reused o0 o ->
  (exists ts, map (fun g => build_text o0 (cf_parsed g)) cs = map Some ts /\
     exists c', build_into cs o (cr_after ops) = (c', true) /\
       shown c' = (shown (cr_after ops) ++ map (fun gt => Some (FStr (cf_file (fst gt)) (snd gt ++ s_nl))) (List.combine cs ts))%list /\
       firstn (List.length (cr_heap (cr_after ops))) (cr_heap c') = cr_heap (cr_after ops)) \/
  (exists g, In g cs /\ build_text o0 (cf_parsed g) = None /\ snd (build_into cs o (cr_after ops)) = false).
Proof.
  intros o0 cs o ops N R. pose proof (sound_after ops) as SO. set (c := cr_after ops) in *. clearbody c. destruct (into_run o0 cs o c N R) as [(ts & M & E)|H]; [left|right; exact H].
  exists ts. split; auto. eexists. split; [exact E|]. cbn [cr_heap cr_files]. split; [|rewrite firstn_app, Nat.sub_diag, firstn_all; cbn; apply app_nil_r].
  unfold shown. cbn [cr_heap cr_files]. rewrite map_app. f_equal.
  - apply map_ext_in. intros h I. unfold sound_cr in SO. rewrite Forall_forall in SO. apply nth_error_app1. auto.
  - set (nf := map (fun gt : config * string => FStr _ _) _). assert (L : List.length cs = List.length nf).
    { unfold nf. rewrite map_length, List.combine_length. apply (f_equal (@List.length _)) in M. rewrite !map_length in M. lia. }
    rewrite L, map_seq_nth. unfold nf. now rewrite map_map.
Qed.
Lemma files_all : forall cwd p dir o outs s s' r root, bo_ext o = None -> where_to cwd dir = Some root ->
  build_files cwd p dir o outs s = (s', r) ->
  exists k, stopped root o (pl_config p) (files s) (files s') k /\
    (r = BFok -> exists ws, map (written root o) (pl_config p) = map Some ws /\ same_files (files s') (put_all ws (files s))) /\
    (r = BFpanic -> exists c, nth_error (pl_config p) k = Some c /\ written root o c = None) /\
    (outs = [] -> r = BFok \/ r = BFpanic).
Proof.
  intros cwd p dir o outs s s' r root N W H. unfold build_files in H. unfold where_to in W. rewrite W in H.
  eapply files_loop; [exact N| |exact H]. constructor. constructor.
Qed.
Lemma files_distinct : forall cwd p dir o outs s s' r root, bo_ext o = None -> where_to cwd dir = Some root ->
  build_files cwd p dir o outs s = (s', r) -> NoDup (map (fun c => place root (cf_file c)) (pl_config p)) ->
  exists k,
    (forall i c p' b, i < k -> nth_error (pl_config p) i = Some c -> written root o c = Some (p', b) -> files s' p' = Some b) /\
    (forall i c, k < i -> nth_error (pl_config p) i = Some c -> files s' (place root (cf_file c)) = files s (place root (cf_file c))) /\
    (forall q, (forall c, In c (pl_config p) -> q <> place root (cf_file c)) -> files s' q = files s q) /\
    (forall c, nth_error (pl_config p) k = Some c -> files s' (place root (cf_file c)) = files s (place root (cf_file c)) \/
       exists b j, written root o c = Some (place root (cf_file c), b) /\ files s' (place root (cf_file c)) = Some (take j b)).
Proof.
  intros cwd p dir o outs s s' r root N W H D. destruct (files_all _ _ _ _ _ _ _ _ _ N W H) as (k & S & _). exists k. eapply stopped_distinct; eauto.
Qed.
Lemma reset_shown : forall ops, shown (cr_after (ops ++ [OReset])) = [].
Proof. intros ops. unfold cr_after. rewrite fold_left_app. reflexivity. Qed.
