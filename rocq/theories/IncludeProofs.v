(** The include queue, index map and include graph: invariant of Parse. *)
From Verif Require Export StopProofs SpecInclude SpecRun SpecGraph.
Local Open Scope string_scope.

(** ** Specification vocabulary versus code *)
Lemma str_exists_iff : forall f s, str_exists f s = true <-> exists a c b, s = a ++ String c b /\ f c = true.
Proof.
  unfold str_exists. induction s as [|c s IH]; cbn [list_of_str existsb].
  - split; [discriminate|]. intros (a & c & b & E & _). destruct a; discriminate.
  - rewrite orb_true_iff, IH. split.
    + intros [H|(a & c' & b & -> & H)].
      * exists "", c, s. auto.
      * exists (String c a), c', b. auto.
    + intros (a & c' & b & E & H). destruct a as [|x a]; cbn in E; inversion E; subst; auto.
      right. exists a, c', b. auto.
Qed.
Lemma has_magic_iff : forall p, has_magic p = true <-> magic p.
Proof.
  intros p. unfold has_magic, contains_any, magic. rewrite str_exists_iff.
  split; intros (a & c & b & E & H); exists a, c, b; split; auto.
  - cbn in H. rewrite !orb_true_iff, !Ascii.eqb_eq in H. cbn.
    destruct H as [H|[H|[H|H]]]; auto. discriminate.
  - cbn in *. rewrite !orb_true_iff, !Ascii.eqb_eq. intuition.
Qed.
Lemma str_leb_iff : forall a b, str_leb a b = true <-> bytes_le a b.
Proof.
  intros. unfold str_leb, bytes_le. destruct (String.compare a b); split; intros; congruence.
Qed.
Lemma ascii_compare_trans : forall a b c : ascii, Ascii.compare a b <> Gt -> Ascii.compare b c <> Gt ->
  Ascii.compare a c <> Gt.
Proof.
  intros a b c. unfold Ascii.compare. rewrite !N.compare_gt_iff || idtac.
  destruct (N.compare_spec (N_of_ascii a) (N_of_ascii b)), (N.compare_spec (N_of_ascii b) (N_of_ascii c)),
    (N.compare_spec (N_of_ascii a) (N_of_ascii c)); intros; try congruence; lia.
Qed.
Lemma ascii_compare_Eq : forall a b : ascii, Ascii.compare a b = Eq -> a = b.
Proof.
  intros a b H. unfold Ascii.compare in H. apply N.compare_eq in H.
  rewrite <- (ascii_N_embedding a), <- (ascii_N_embedding b). congruence.
Qed.
Lemma ascii_compare_refl : forall a : ascii, Ascii.compare a a = Eq.
Proof. intros. unfold Ascii.compare. apply N.compare_refl. Qed.
Lemma bytes_le_trans : forall a b c, bytes_le a b -> bytes_le b c -> bytes_le a c.
Proof.
  unfold bytes_le. induction a as [|x a IH]; intros [|y b] [|z c]; cbn; intros H1 H2; try congruence.
  destruct (Ascii.compare x y) eqn:E1; try congruence.
  - apply ascii_compare_Eq in E1. subst y. destruct (Ascii.compare x z) eqn:E2; try congruence. eauto.
  - destruct (Ascii.compare y z) eqn:E2; try congruence.
    + apply ascii_compare_Eq in E2. subst z. rewrite E1. congruence.
    + pose proof (ascii_compare_trans x y z ltac:(congruence) ltac:(congruence)) as T.
      destruct (Ascii.compare x z) eqn:E3; try congruence. apply ascii_compare_Eq in E3. subst z.
      exfalso. rewrite Ascii.compare_antisym, E1 in E2. discriminate.
Qed.
Lemma bytes_le_total : forall a b, bytes_le a b \/ bytes_le b a.
Proof.
  unfold bytes_le. intros a b. rewrite (String.compare_antisym b a).
  destruct (String.compare a b); cbn; [left|left|right]; congruence.
Qed.
Lemma insert_perm : forall x l, Permutation (x :: l) (insert_str x l).
Proof.
  induction l as [|y l IH]; cbn; auto. destruct (str_leb x y); auto.
  eapply perm_trans; [apply perm_swap|]. now constructor.
Qed.
Lemma sort_perm : forall l, Permutation l (sort_strings l).
Proof.
  induction l as [|x l IH]; cbn; auto. eapply perm_trans; [|apply insert_perm]. now constructor.
Qed.
Lemma insert_sorted : forall x l, StronglySorted bytes_le l -> StronglySorted bytes_le (insert_str x l).
Proof.
  induction l as [|y l IH]; intros H; cbn; [repeat constructor|].
  inversion H as [|? ? HS HF]; subst. destruct (str_leb x y) eqn:E.
  - apply str_leb_iff in E. constructor; auto. constructor; auto.
    eapply Forall_impl; [|exact HF]. intros z Z. eapply bytes_le_trans; eauto.
  - assert (Y : bytes_le y x).
    { destruct (bytes_le_total y x); auto. apply str_leb_iff in H0. congruence. }
    constructor; auto. rewrite Forall_forall in *. intros z Z.
    apply (Permutation_in z (Permutation_sym (insert_perm x l))) in Z. destruct Z as [<-|Z]; auto.
Qed.
Lemma sort_sorted : forall l, StronglySorted bytes_le (sort_strings l).
Proof. induction l; cbn; [constructor|]. now apply insert_sorted. Qed.

Lemma read_args_first : forall cm r a more cs term rest,
  read_args cm r = Some (a :: more, cs, term, rest) -> first_arg r a.
Proof.
  intros cm r. induction r as [|t r IH]; intros a more cs term rest H; [discriminate|].
  cbn [read_args] in H. destruct (is_term t) eqn:IT; [discriminate|].
  destruct (read_args cm r) as [[[[args c] tm] rs]|] eqn:E; [|discriminate].
  destruct (negb (tok_comment t)) eqn:TC.
  - inversion H; subst. apply fa_here.
    + intros [Q V]. unfold is_term, tok_is in IT. rewrite Q in IT. cbn in IT, V.
      destruct V as [V|[V|[V|[]]]]; rewrite <- V in IT; discriminate.
    + intros [Q V]. unfold tok_comment in TC. rewrite Q, V in TC. discriminate.
  - apply negb_false_iff in TC. unfold tok_comment in TC. apply andb_true_iff in TC as [C1 C2].
    apply negb_true_iff in C2. apply fa_comment; auto.
    destruct cm; inversion H; subst; eapply IH; eauto.
Qed.
Lemma deep_within : forall Q ds d, within d ds -> Forall (deep Q) ds -> Q d.
Proof.
  intros Q ds d H. induction H as [ds H|e b ds H B W IH]; intros F.
  - rewrite Forall_forall in F. destruct (F _ H); auto.
  - apply IH. rewrite Forall_forall in F. specialize (F _ H). inversion F as [e' Q0 F0]; subst.
    rewrite B in F0. exact F0.
Qed.

(** ** The statement that includes *)
Definition inc_error (st : pst) (ctx : slice) (d : directive) (msg : string) : goerr :=
  EParse (PE msg (Some (cf_file (p_cur st))) (Some (d_line d)) (dir_string d)
             (last_block (read_slice (p_heap st) ctx)) None).
Inductive kept (o : popts) (dir : string) (ctx : slice) (d : directive) (st : pst)
  : directive -> pst -> Prop :=
| k_plain : forall args, (d_name d <> "include" \/ o_single o = true) ->
    kept o dir ctx d st (set_args d args) st
| k_glob : forall arg more fs, d_name d = "include" -> o_single o = false -> d_args d = arg :: more ->
    has_magic (path_of dir arg) = true -> o_glob o (path_of dir arg) = inl fs ->
    kept o dir ctx d st (set_includes d (snd (add_includes ctx st (sort_strings fs))))
         (fst (add_includes ctx st (sort_strings fs)))
| k_file : forall arg more c, d_name d = "include" -> o_single o = false -> d_args d = arg :: more ->
    has_magic (path_of dir arg) = false -> o_open o (path_of dir arg) = inl c ->
    kept o dir ctx d st (set_includes d (snd (add_includes ctx (log_open st (path_of dir arg)) [path_of dir arg])))
         (fst (add_includes ctx (log_open st (path_of dir arg)) [path_of dir arg]))
| k_missing : forall arg more msg, d_name d = "include" -> o_single o = false -> d_args d = arg :: more ->
    has_magic (path_of dir arg) = false -> o_open o (path_of dir arg) = inr msg -> o_stop o = false ->
    kept o dir ctx d st d (handle_error o (log_open st (path_of dir arg)) (inc_error st ctx d msg)).

(** What the other decisions do to the state. *)
Inductive dropped (o : popts) (dir : string) (d : directive) (st : pst) : pst -> Prop :=
| dr_none : dropped o dir d st st
| dr_err : forall e, o_stop o = false -> dropped o dir d st (handle_error o st e)
| dr_missing : forall arg more msg, d_name d = "include" -> o_single o = false -> d_args d = arg :: more ->
    has_magic (path_of dir arg) = false -> o_open o (path_of dir arg) = inr msg -> o_stop o = true ->
    dropped o dir d st (log_open st (path_of dir arg)).

Lemma set_args_same : forall d, set_args d (d_args d) = d.
Proof. destruct d; reflexivity. Qed.

Lemma decide_cases : forall o dir ctx d term st,
  match decide o dir ctx d term st with
  | DKeep d' st' => kept o dir ctx d st d' st'
  | DMap d' => d' = set_ismap d
  | DSkip _ st' => dropped o dir d st st'
  | DBreak st' => dropped o dir d st st'
  | DErr _ st' => dropped o dir d st st'
  | DPanic => True
  end.
Proof.
  intros o dir ctx d term st. unfold decide.
  destruct (match read_slice (p_heap st) ctx with [] => None | _ => _ end) as [m|].
  { destruct (analyze_map_body _ _ _ _); [destruct (o_stop o) eqn:SE|]; cbn; auto; constructor; auto. }
  destruct (mem_str _ _); [constructor|].
  destruct (analyze _ _ _ _ _) as [e|].
  { destruct (o_stop o) eqn:SE; [constructor|].
    destruct (has_suffix _ _); [destruct (negb _)|]; cbn; constructor; auto. }
  destruct (if String.eqb (d_name d) "if" then prepare_if (d_args d) else Some (d_args d)) as [args|] eqn:IFE;
    [|auto].
  destruct (negb (o_single o) && _)%bool eqn:INC.
  2:{ apply k_plain. apply andb_false_iff in INC. cbn [d_name set_args] in INC. destruct INC as [INC|INC].
      - apply negb_false_iff in INC. auto.
      - apply String.eqb_neq in INC. auto. }
  apply andb_true_iff in INC as [SG NM]. apply negb_true_iff in SG. cbn [d_name set_args] in NM.
  apply String.eqb_eq in NM.
  assert (AE : args = d_args d).
  { rewrite NM in IFE. cbn in IFE. congruence. }
  subst args. rewrite set_args_same. unfold do_include.
  destruct (d_args d) as [|a0 more] eqn:AE; [constructor|].
  change (resolve dir a0) with (path_of dir a0).
  destruct (has_magic (path_of dir a0)) eqn:HM.
  - destruct (o_glob o (path_of dir a0)) as [fs|msg] eqn:G; [|constructor].
    pose proof (k_glob o dir ctx d st a0 more fs NM SG AE HM G) as K.
    destruct (add_includes ctx st (sort_strings fs)) as [s is]. exact K.
  - destruct (o_open o (path_of dir a0)) as [c|msg] eqn:OP.
    + pose proof (k_file o dir ctx d st a0 more c NM SG AE HM OP) as K.
      destruct (add_includes ctx (log_open st (path_of dir a0)) [path_of dir a0]) as [s is]. exact K.
    + destruct (o_stop o) eqn:SE.
      * eapply dr_missing; eauto.
      * eapply (k_missing o dir ctx d st); eauto.
Qed.

(** ** The invariant *)
Definition numbered (m : list (string * Z)) : Prop :=
  forall i k z, nth_error m i = Some (k, z) -> z = Z.of_nat i.
Definition edge_of (m : list (string * list string)) (a b : string) : Prop :=
  exists l, assoc a m = Some l /\ In b l.
Definition edge (st : pst) (a b : string) : Prop := edge_of (p_edges st) a b.

Definition reported (o : popts) (st : pst) (f : string) : Prop :=
  exists msg, o_open o f = inr msg /\
    (o_stop o = true \/ exists e pe, In e (pl_errors (p_pay st)) /\ py_err e = EParse pe /\ pe_what pe = msg).

(** [fin]: the files parsed so far, including the current one. *)
Record inv (o : popts) (filename : string) (fin : list string) (st : pst) : Prop := {
  iv_files : (fin ++ keys (p_queue st))%list = keys (p_included st);
  iv_nodup : NoDup (keys (p_included st));
  iv_num : numbered (p_included st);
  iv_first : exists rest, keys (p_included st) = filename :: rest;
  iv_reach : Forall (reach o filename) (keys (p_included st));
  iv_opens : Forall (reach o filename) (p_opens st);
  iv_seen : forall f, In f (p_opens st) -> In f (keys (p_included st)) \/ reported o st f;
  iv_fin_open : forall f, In f fin -> In f (p_opens st) /\ exists c, o_open o f = inl c;
  iv_indeg : keys (p_indeg st) = keys (p_included st);
  iv_count : forall f, get_z f (p_indeg st) = Z.of_nat (occ f (flat_map snd (p_edges st)));
  iv_ekeys : NoDup (keys (p_edges st));
  iv_esrc : incl (keys (p_edges st)) fin;
  iv_edst : forall f, In f (flat_map snd (p_edges st)) -> In f (keys (p_included st));
  iv_esound : forall a b, edge st a b -> inc_step o (dir_name filename) a b;
  iv_eoff : o_single o = true -> p_edges st = [] }.

Definition grows (a b : pst) : Prop :=
  (exists m, p_included b = (p_included a ++ m)%list) /\ (forall x y, edge a x y -> edge b x y).
Lemma grows_refl : forall a, grows a a.
Proof. intros a. split; auto. exists []. now rewrite app_nil_r. Qed.
Lemma grows_trans : forall a b c, grows a b -> grows b c -> grows a c.
Proof.
  intros a b c [[m1 E1] H1] [[m2 E2] H2]. split; auto. exists (m1 ++ m2)%list. now rewrite E2, E1, app_assoc.
Qed.

Lemma assoc_set_fresh : forall A k (v : A) m, assoc k m = None -> assoc_set k v m = (m ++ [(k, v)])%list.
Proof.
  induction m as [|[k' v'] m IH]; cbn; intros H; auto.
  destruct (String.eqb k k'); [discriminate|]. now rewrite IH.
Qed.
Lemma numbered_nth : forall m k z, numbered m -> assoc k m = Some z ->
  (0 <= z)%Z /\ nth_error (keys m) (Z.to_nat z) = Some k.
Proof.
  intros m k z N H. apply assoc_In in H. apply In_nth_error in H as [i H].
  pose proof (N _ _ _ H). subst z. rewrite Nat2Z.id. split; [lia|].
  unfold keys. now rewrite nth_error_map, H.
Qed.
Lemma numbered_snoc : forall m k, numbered m -> numbered (m ++ [(k, Z.of_nat (List.length m))]).
Proof.
  intros m k N i k' z H. destruct (Nat.lt_ge_cases i (List.length m)) as [L|L].
  - rewrite nth_error_app1 in H by auto. eauto.
  - rewrite nth_error_app2 in H by auto. destruct (i - List.length m) as [|j] eqn:E.
    + cbn in H. inversion H; subst. f_equal. lia.
    + destruct j; discriminate.
Qed.
Lemma NoDup_snoc : forall A (l : list A) x, NoDup l -> ~ In x l -> NoDup (l ++ [x]).
Proof.
  intros A l x ND NI. apply (Permutation_NoDup (l := x :: l)); [|constructor; auto].
  apply Permutation_cons_append.
Qed.

(** Occurrences in edge lists. *)
Lemma occ_app : forall x a b, occ x (a ++ b) = occ x a + occ x b.
Proof. intros. unfold occ. apply count_occ_app. Qed.
Lemma occ_assoc_set : forall (m : list (string * list string)) k l y x,
  assoc k m = Some l ->
  occ x (flat_map snd (assoc_set k (l ++ [y])%list m)) = occ x (flat_map snd m) + occ x [y].
Proof.
  induction m as [|[k' l'] m IH]; intros k l y x H; [discriminate|]. cbn [assoc] in H. cbn [assoc_set].
  destruct (String.eqb k k').
  - inversion H; subst. cbn [flat_map snd]. rewrite !occ_app. lia.
  - cbn [flat_map snd]. rewrite !occ_app, (IH k l y x H). lia.
Qed.
Definition old_edges (st : pst) : list string :=
  match assoc (cf_file (p_cur st)) (p_edges st) with Some l => l | None => [] end.
Lemma occ_edges : forall (m : list (string * list string)) k y x,
  occ x (flat_map snd (assoc_set k ((match assoc k m with Some l => l | None => [] end) ++ [y])%list m))
  = occ x (flat_map snd m) + occ x [y].
Proof.
  intros m k y x. destruct (assoc k m) as [l|] eqn:E.
  - now apply occ_assoc_set.
  - rewrite assoc_set_fresh by auto. rewrite flat_map_app. cbn. now rewrite occ_app.
Qed.

(** Adding one file. *)
Lemma add_include_facts : forall o filename fin ctx st f,
  inv o filename fin st -> reach o filename f -> In (cf_file (p_cur st)) fin ->
  inc_step o (dir_name filename) (cf_file (p_cur st)) f -> o_single o = false ->
  let st' := fst (add_include ctx st f) in
  let i := snd (add_include ctx st f) in
  inv o filename fin st' /\ grows st st' /\ assoc f (p_included st') = Some i /\
  edge st' (cf_file (p_cur st)) f.
Proof.
  intros o filename fin ctx st f V RF CF IS SG.
  destruct V as [V1 V2 V3 [first V4] V5 V6 V7 V7' V8 V9 V10 V11 V12 V13 V14].
  pose proof (occ_edges (p_edges st) (cf_file (p_cur st)) f) as OE. fold (old_edges st) in OE.
  assert (DG : forall x, get_z x (assoc_set f (get_z f (p_indeg st) + 1)%Z (p_indeg st)) =
     Z.of_nat (occ x (flat_map snd (assoc_set (cf_file (p_cur st)) (old_edges st ++ [f])%list (p_edges st))))).
  { intros x. rewrite OE. unfold get_z at 1. destruct (string_dec f x) as [<-|N].
    - rewrite assoc_set_same, V9. unfold occ at 3. cbn. destruct (string_dec f f); [lia|congruence].
    - rewrite assoc_set_other by auto. fold (get_z x (p_indeg st)). rewrite V9.
      unfold occ at 3. cbn. destruct (string_dec f x); [congruence|lia]. }
  assert (EK : NoDup (keys (assoc_set (cf_file (p_cur st)) (old_edges st ++ [f])%list (p_edges st)))).
  { now apply NoDup_assoc_set. }
  assert (ES : incl (keys (assoc_set (cf_file (p_cur st)) (old_edges st ++ [f])%list (p_edges st))) fin).
  { unfold keys. rewrite assoc_set_keys. destruct (assoc _ (p_edges st)); auto.
    intros x X. apply in_app_iff in X as [X|[<-|[]]]; auto. }
  assert (ED : forall x, In x (flat_map snd (assoc_set (cf_file (p_cur st)) (old_edges st ++ [f])%list (p_edges st))) ->
                         In x (flat_map snd (p_edges st)) \/ x = f).
  { intros x X. destruct (string_dec x f) as [|N]; auto. left.
    apply (count_occ_In string_dec) in X. fold (occ x) in X. apply (count_occ_In string_dec). unfold occ in *.
    rewrite OE in X. cbn in X. destruct (string_dec f x); [congruence|lia]. }
  assert (EO : forall a b, edge_of (assoc_set (cf_file (p_cur st)) (old_edges st ++ [f])%list (p_edges st)) a b <->
                           edge st a b \/ a = cf_file (p_cur st) /\ b = f).
  { intros a b. unfold edge, edge_of. destruct (string_dec (cf_file (p_cur st)) a) as [<-|N].
    - rewrite assoc_set_same. unfold old_edges. split.
      + intros (l & E & B). inversion E; subst. apply in_app_iff in B as [B|[<-|[]]]; auto.
        left. destruct (assoc _ (p_edges st)); [eauto|contradiction].
      + intros [(l & -> & B)|[_ ->]]; eexists; split; [reflexivity| |reflexivity|];
          apply in_app_iff; cbn; auto.
    - rewrite assoc_set_other by auto. split; [auto|]. intros [H|[-> _]]; [auto|congruence]. }
  unfold add_include. fold (old_edges st).
  destruct (assoc f (p_included st)) as [z|] eqn:A; cbn [fst snd].
  - assert (IN : In f (keys (p_included st))) by (apply assoc_In_key; eauto).
    split; [constructor; cbn; eauto|].
    + unfold keys. rewrite assoc_set_keys. rewrite <- V8 in IN. apply assoc_In_key in IN as [w W].
      rewrite W. exact V8.
    + intros x X. apply ED in X as [X| ->]; auto.
    + intros a b E. apply EO in E as [E|[-> ->]]; auto.
    + intros ST. congruence.
    + split; [split; [exists []; cbn; now rewrite app_nil_r|]|].
      * intros x y E. apply EO. auto.
      * cbn. unfold get_z. rewrite A. split; auto. apply EO. auto.
  - pose proof (proj1 (assoc_None _ _ _) A) as NI. fold (keys (p_included st)) in NI.
    assert (KI : keys (assoc_set f (Z.of_nat (List.length (p_included st))) (p_included st)) =
                 (keys (p_included st) ++ [f])%list).
    { unfold keys. rewrite assoc_set_keys, A. reflexivity. }
    split; [constructor; cbn; try rewrite KI; eauto|].
    + assert (KQ : keys (p_queue st ++ [(f, ctx)])%list = (keys (p_queue st) ++ [f])%list).
      { unfold keys. now rewrite map_app. }
      now rewrite KQ, app_assoc, V1.
    + now apply NoDup_snoc.
    + rewrite assoc_set_fresh by auto. now apply numbered_snoc.
    + exists (first ++ [f])%list. rewrite V4. reflexivity.
    + apply Forall_app. split; auto.
    + intros x X. destruct (V7 x X) as [H|H]; auto. left. apply in_app_iff. auto.
    + unfold keys. rewrite assoc_set_keys. fold (keys (p_indeg st)).
      destruct (assoc f (p_indeg st)) as [w|] eqn:W.
      * exfalso. apply NI. rewrite <- V8. apply assoc_In_key. eauto.
      * unfold keys in V8 |- *. now rewrite V8.
    + intros x X. apply in_app_iff. apply ED in X as [X| ->]; cbn; auto.
    + intros a b E. apply EO in E as [E|[-> ->]]; auto.
    + intros ST. congruence.
    + split; [split|].
      * cbn. rewrite assoc_set_fresh by auto. eauto.
      * intros x y E. apply EO. auto.
      * cbn. unfold get_z. rewrite assoc_set_same. split; auto. apply EO. auto.
Qed.

Lemma assoc_app_l : forall A k (m m' : list (string * A)) v, assoc k m = Some v -> assoc k (m ++ m')%list = Some v.
Proof.
  induction m as [|[k' v'] m IH]; cbn; intros m' v H; [discriminate|]. destruct (String.eqb k k'); auto.
Qed.

Lemma add_includes_facts : forall o filename fin ctx fs st,
  inv o filename fin st -> Forall (reach o filename) fs -> In (cf_file (p_cur st)) fin ->
  Forall (inc_step o (dir_name filename) (cf_file (p_cur st))) fs -> o_single o = false ->
  let st' := fst (add_includes ctx st fs) in
  let is := snd (add_includes ctx st fs) in
  inv o filename fin st' /\ grows st st' /\
  Forall2 (fun i f => assoc f (p_included st') = Some i /\ edge st' (cf_file (p_cur st)) f) is fs.
Proof.
  intros o filename fin ctx fs. induction fs as [|f fs IH]; intros st V RF CF IS SG; cbn [add_includes].
  - cbn. auto using grows_refl.
  - inversion RF as [|? ? R1 R2]; subst. inversion IS as [|? ? I1 I2]; subst.
    pose proof (add_include_facts o filename fin ctx st f V R1 CF I1 SG) as F.
    pose proof (add_include_frame ctx f st) as (_ & FC & _ & _).
    destruct (add_include ctx st f) as [st1 i]. cbn [fst snd] in *.
    destruct F as (V1 & G1 & A1 & E1). rewrite <- FC in CF, I2.
    specialize (IH st1 V1 R2 CF I2 SG). rewrite FC in IH.
    destruct (add_includes ctx st1 fs) as [st2 is]. cbn [fst snd] in *.
    destruct IH as (V2 & G2 & F2). split; auto. split; [eapply grows_trans; eauto|].
    constructor; auto. destruct G2 as [[m ->] GE]. split; auto. now apply assoc_app_l.
Qed.

(** Transfer of the invariant along changes of other fields. *)
Lemma inv_frame : forall o filename fin st st',
  p_queue st' = p_queue st -> p_included st' = p_included st -> p_edges st' = p_edges st ->
  p_indeg st' = p_indeg st -> p_opens st' = p_opens st ->
  incl (pl_errors (p_pay st)) (pl_errors (p_pay st')) ->
  inv o filename fin st -> inv o filename fin st'.
Proof.
  intros o filename fin st st' E1 E2 E3 E4 E5 E6 [V1 V2 V3 V4 V5 V6 V7 V7' V8 V9 V10 V11 V12 V13 V14].
  constructor; unfold edge in *; rewrite ?E1, ?E2, ?E3, ?E4, ?E5; auto.
  intros f F. destruct (V7 f F) as [H|(msg & O & H)]; auto. right. exists msg. split; auto.
  destruct H as [H|(e & pe & I & H)]; auto. right. exists e, pe. split; auto.
Qed.
Lemma inv_handle : forall o filename fin st e,
  inv o filename fin st -> inv o filename fin (handle_error o st e).
Proof.
  intros o filename fin st e V. eapply inv_frame; [..|exact V]; try reflexivity.
  intros x X. cbn. apply in_app_iff. auto.
Qed.
Lemma inv_open : forall o filename fin st f,
  reach o filename f -> In f (keys (p_included st)) \/ reported o st f ->
  inv o filename fin st -> inv o filename fin (log_open st f).
Proof.
  intros o filename fin st f RF H [V1 V2 V3 V4 V5 V6 V7 V7' V8 V9 V10 V11 V12 V13 V14].
  constructor; auto; cbn.
  - apply Forall_app. auto.
  - intros g G. apply in_app_iff in G as [G|[<-|[]]]; [exact (V7 g G)|exact H].
  - intros g G. destruct (V7' g G). split; auto. apply in_app_iff. auto.
Qed.

Lemma Forall2_impl : forall A B (R R' : A -> B -> Prop) l m,
  (forall x y, R x y -> R' x y) -> Forall2 R l m -> Forall2 R' l m.
Proof. intros A B R R' l m H F. induction F; auto. Qed.

Lemma add_include_open : forall ctx st p f,
  add_include ctx (log_open st p) f = (log_open (fst (add_include ctx st f)) p, snd (add_include ctx st f)).
Proof. intros. unfold add_include. cbn. destruct (assoc f (p_included st)); reflexivity. Qed.
Lemma add_includes_open : forall ctx p fs st,
  add_includes ctx (log_open st p) fs = (log_open (fst (add_includes ctx st fs)) p, snd (add_includes ctx st fs)).
Proof.
  intros ctx p fs. induction fs as [|f fs IH]; intros st; cbn [add_includes]; [reflexivity|].
  rewrite add_include_open. destruct (add_include ctx st f) as [st1 i]. cbn [fst snd].
  rewrite IH. destruct (add_includes ctx st1 fs) as [st2 is]. reflexivity.
Qed.

(** ** Directives *)
Definition dir_ok (o : popts) (dir file : string) (st : pst) (d : directive) : Prop :=
  (d_name d = "include" -> d_ismap d = false -> o_single o = false ->
   exists arg more fs, d_args d = arg :: more /\ targets o dir arg fs /\
     Forall2 (fun i f => assoc f (p_included st) = Some i /\ edge st file f) (opt_list (d_includes d)) fs /\
     (d_includes d = None <-> fs = [])) /\
  (d_name d <> "include" \/ d_ismap d = true \/ o_single o = true -> d_includes d = None).

Lemma dir_ok_mono : forall o dir file a b d, grows a b -> dir_ok o dir file a d -> dir_ok o dir file b d.
Proof.
  intros o dir file a b d [[m E] G] [H1 H2]. split; auto. intros N M SG.
  destruct (H1 N M SG) as (arg & more & fs & A & T & F & Z). exists arg, more, fs. repeat split; auto; try apply Z.
  eapply Forall2_impl; [|exact F]. intros i f [K L]. split; auto. rewrite E. now apply assoc_app_l.
Qed.

(** While file [file] with content [content] is being parsed. *)
Section File.
Variables (o : popts) (filename file content : string) (done : list config).
Let dir := dir_name filename.
Hypothesis file_open : o_open o file = inl content.
Hypothesis file_reach : reach o filename file.

Definition during (st : pst) : Prop :=
  pl_config (p_pay st) = done /\ cf_file (p_cur st) = file /\ cf_parsed (p_cur st) = [] /\
  inv o filename (map cf_file done ++ [file]) st.
Definition here (toks : list token) : Prop := suffix toks (lex (o_lexers o) content).

Lemma here_mention : forall t r args cs term rest arg more, here (t :: r) -> starts t -> t_val t = "include" ->
  read_args (o_comments o) r = Some (args, cs, term, rest) -> args = arg :: more -> mentions o content arg.
Proof.
  intros t r args cs term rest arg more [pre H] [SE _] N RA ->. exists pre, t, r.
  repeat split; auto. eapply read_args_first; eauto.
Qed.

Lemma in_sort : forall f l, In f (sort_strings l) -> In f l.
Proof. intros f l. apply Permutation_in, Permutation_sym, sort_perm. Qed.

Lemma Forall2_nil_iff : forall A B (R : A -> B -> Prop) l m, Forall2 R l m -> (l = [] <-> m = []).
Proof. intros A B R l m H. destruct H; split; congruence. Qed.

Lemma during_decide : forall ctx t r args cs term rest st,
  here (t :: r) -> starts t -> read_args (o_comments o) r = Some (args, cs, term, rest) -> during st ->
  match decide o dir ctx (fresh o st t args) term st with
  | DKeep d' st' => during st' /\ grows st st' /\ dir_ok o dir file st' d'
  | DMap d' => dir_ok o dir file st d'
  | DSkip _ st' => during st' /\ grows st st'
  | DBreak st' => during st' /\ grows st st'
  | DErr _ st' => during st' /\ grows st st'
  | DPanic => True
  end.
Proof.
  intros ctx t r args cs term rest st HT ST RA (B1 & B2 & B4 & B3).
  assert (IC : In (cf_file (p_cur st)) (map cf_file done ++ [file])%list).
  { rewrite B2. apply in_app_iff. cbn. auto. }
  assert (RD : forall f, o_single o = false -> inc_step o dir file f -> reach o filename f).
  { intros f SG IS. eapply reach_step; eauto. }
  assert (DR : forall st', dropped o dir (fresh o st t args) st st' -> during st' /\ grows st st').
  { intros st' D. destruct D as [|e SE|arg more msg N SG A HM OP SE].
    - split; [refine (conj B1 (conj B2 (conj B4 _))); auto|apply grows_refl].
    - split; [refine (conj B1 (conj B2 (conj B4 _)))|apply (grows_refl st)]. now apply inv_handle.
    - split; [refine (conj B1 (conj B2 (conj B4 _)))|apply (grows_refl st)]. apply inv_open; auto.
      + apply RD; auto. apply is_file with content arg; auto.
        * eapply here_mention; eauto.
        * rewrite <- has_magic_iff. congruence.
      + right. exists msg. auto. }
  pose proof (decide_cases o dir ctx (fresh o st t args) term st) as DC.
  destruct (decide o dir ctx (fresh o st t args) term st) as [d' st'|d'|eat st'|st'|e st'|]; auto.
  2:{ subst d'. split; [cbn; discriminate|reflexivity]. }
  destruct DC as [args' NI|arg more fs N SG A HM G|arg more c N SG A HM OP|arg more msg N SG A HM OP SE];
    try change (t_val t = "include") in N; try change (args = arg :: more) in A.
  - split; [refine (conj B1 (conj B2 (conj B4 B3)))|]. split; [apply grows_refl|]. split.
    + intros N _ SG. destruct NI as [NI|NI]; [now destruct NI|congruence].
    + reflexivity.
  - assert (ME : mentions o content arg) by (eapply here_mention; eauto).
    assert (IS : forall f, In f (sort_strings fs) -> inc_step o dir file f).
    { intros f F. eapply is_glob; eauto. now apply has_magic_iff. now apply in_sort. }
    pose proof (add_includes_facts o filename _ ctx (sort_strings fs) st B3
      (proj2 (Forall_forall _ _) (fun f F => RD f SG (IS f F))) IC
      (proj2 (Forall_forall _ _) (fun f F => eq_ind_r (fun x => inc_step o dir x f) (IS f F) B2)) SG) as AF.
    pose proof (add_includes_frame ctx (sort_strings fs) st) as (_ & F2 & F3 & _).
    destruct (add_includes ctx st (sort_strings fs)) as [s is]. cbn [fst snd] in *.
    destruct AF as (V & GR & F). split; [repeat (split; [cbn; congruence|]); exact V|]. split; auto.
    split; [|cbn; intros [X|[X|X]]; congruence].
    intros _ _ _. exists arg, more, (sort_strings fs). split; [exact A|]. split.
    { apply tg_glob with fs; auto using sort_perm, sort_sorted. now apply has_magic_iff. }
    rewrite B2 in F. pose proof (Forall2_nil_iff _ _ _ _ _ F) as NI. destruct is as [|i is].
    + cbn. split; auto. split; intros; [now apply NI|reflexivity].
    + cbn. split; auto. split; intros X; [discriminate|]. apply NI in X. discriminate.
  - assert (ME : mentions o content arg) by (eapply here_mention; eauto).
    assert (NM : ~ magic (path_of dir arg)) by (rewrite <- has_magic_iff; congruence).
    assert (IS : inc_step o dir file (path_of dir arg)) by (eapply is_file; eauto).
    pose proof (RD _ SG IS) as RF.
    assert (IS' : inc_step o dir (cf_file (p_cur st)) (path_of dir arg)) by (rewrite B2; exact IS).
    pose proof (add_includes_facts o filename _ ctx [path_of dir arg] st B3
        (Forall_cons _ RF (Forall_nil _)) IC (Forall_cons _ IS' (Forall_nil _)) SG) as AF.
    pose proof (add_includes_frame ctx [path_of dir arg] st) as (_ & F2 & F3 & _).
    rewrite add_includes_open. rewrite B2 in AF.
    destruct (add_includes ctx st [path_of dir arg]) as [s is]. cbn [fst snd] in *.
    destruct AF as (V & GR & F).
    apply (inv_open o filename _ s (path_of dir arg)) in V; auto.
    2:{ left. inversion F as [|? ? ? ? [AS _] _]; subst. apply assoc_In_key. eauto. }
    split; [repeat (split; [cbn; congruence|]); exact V|]. split; auto.
    split; [|cbn; intros [X|[X|X]]; congruence].
    intros _ _ _. exists arg, more, [path_of dir arg]. split; [exact A|].
    split; [eapply tg_file; eauto|]. inversion F; subst. cbn. split; auto. split; intros; discriminate.
  - assert (NM : ~ magic (path_of dir arg)) by (rewrite <- has_magic_iff; congruence).
    split; [split; [exact B1|split; [exact B2|split; [exact B4|]]]|split; [apply (grows_refl st)|]].
    + apply (inv_handle o filename _ st (inc_error st ctx (fresh o st t args) msg)) in B3.
      apply (inv_open o filename _ _ (path_of dir arg)) in B3; [exact B3| |].
      * apply RD; auto. eapply is_file; eauto. eapply here_mention; eauto.
      * right. exists msg. split; auto. right. eexists _, _. split.
        -- apply in_app_iff. right. left. reflexivity.
        -- split; reflexivity.
    + split; [|cbn; intros [X|[X|X]]; congruence].
      intros _ _ _. exists arg, more, []. split; [exact A|]. split; [eapply tg_missing; eauto|].
      split; [constructor|]. cbn. tauto.
Qed.

Lemma during_run : forall ctx toks st r, Run o dir ctx toks st r -> here toks -> during st ->
  match r with
  | POk ds _ st' => during st' /\ grows st st' /\ Forall (deep (dir_ok o dir file st')) ds
  | PErr _ _ st' => during st' /\ grows st st'
  | _ => True
  end.
Proof.
  intros ctx toks st r H HT B.
  refine (run_inv_tok o dir during grows (dir_ok o dir file) here _ _ _ _ _ _ _ _ ctx toks st r H HT B).
  - intros a b SA SB. eapply suffix_trans; eauto.
  - apply grows_refl.
  - apply grows_trans.
  - apply dir_ok_mono.
  - exact during_decide.
  - intros s h (B1 & B2 & B4 & B3). split; [|apply (grows_refl s)]. refine (conj B1 (conj B2 (conj B4 _))).
    eapply inv_frame; [..|exact B3]; try reflexivity. apply incl_refl.
  - intros s d blk _ [Q1 Q2]. split; auto.
  - intros s line c _. split; [cbn; discriminate|reflexivity].
Qed.
End File.

(** ** Between files *)
Definition between (o : popts) (filename : string) (st : pst) : Prop :=
  inv o filename (map cf_file (pl_config (p_pay st))) st /\
  Forall (fun c => Forall (deep (dir_ok o (dir_name filename) (cf_file c) st)) (cf_parsed c)) (pl_config (p_pay st)).

Lemma between_file : forall o filename path ctx q st, between o filename st -> p_queue st = (path, ctx) :: q ->
  match parse_file o (dir_name filename) path ctx (set_queue st q) with
  | FDone st' => between o filename st' /\
      List.length (pl_config (p_pay st')) = S (List.length (pl_config (p_pay st)))
  | FErr _ st' => Forall (reach o filename) (p_opens st') /\ NoDup (keys (p_included st'))
  | _ => True
  end.
Proof.
  intros o filename path ctx q st [V F] Q.
  assert (IP : In path (keys (p_included st))).
  { rewrite <- (iv_files _ _ _ _ V), Q. apply in_app_iff. right. left. reflexivity. }
  assert (RP : reach o filename path).
  { pose proof (iv_reach _ _ _ _ V) as RA. rewrite Forall_forall in RA. auto. }
  unfold parse_file. destruct (o_open o path) as [content|msg] eqn:OP.
  2:{ cbn. split; [|exact (iv_nodup _ _ _ _ V)]. apply Forall_app.
      split; [exact (iv_opens _ _ _ _ V)|constructor; [exact RP|constructor]]. }
  set (toks := lex (o_lexers o) content).
  set (st0 := set_cur (log_use (log_open (set_queue st q) path) path ctx) (Cfg path "ok" [] [])).
  assert (B : during o filename path (pl_config (p_pay st)) st0).
  { split; [reflexivity|split; [reflexivity|split; [reflexivity|]]].
    destruct V as [V1 V2 V3 V4 V5 V6 V7 V7' V8 V9 V10 V11 V12 V13 V14].
    constructor; auto; cbn.
    - rewrite Q in V1. rewrite <- app_assoc. exact V1.
    - apply Forall_app. auto.
    - intros f G. apply in_app_iff in G as [G|[<-|[]]]; auto. destruct (V7 f G); auto.
    - intros f G. apply in_app_iff in G as [G|[<-|[]]].
      + destruct (V7' f G). split; auto. apply in_app_iff. auto.
      + split; [apply in_app_iff; cbn; auto|eauto].
    - intros x X. apply in_app_iff. auto. }
  pose proof (during_run o filename path content (pl_config (p_pay st)) OP RP ctx toks st0 _
    (parse_run o (dir_name filename) ctx toks st0) (suffix_refl _) B) as R.
  destruct (parse o (dir_name filename) (S (List.length toks)) ctx toks st0) as [ds rest st'|e rest st'| |]; auto.
  - destruct R as ((B1 & B2 & B4 & B3) & G & FD). split; [split|].
    + cbn. rewrite map_app, B1. cbn. rewrite B2.
      eapply inv_frame; [..|exact B3]; try reflexivity. apply incl_refl.
    + cbn. rewrite B1. apply Forall_app. split.
      * eapply Forall_impl; [|exact F]. intros c. apply Forall_impl. intros d. apply deep_mono.
        intros x. apply dir_ok_mono. exact G.
      * constructor; [|constructor]. cbn. rewrite B2. exact FD.
    + cbn. rewrite B1, app_length. cbn. lia.
  - destruct R as ((B1 & B2 & B4 & B3) & G). destruct (o_stop o).
    + split; [exact (iv_opens _ _ _ _ B3)|exact (iv_nodup _ _ _ _ B3)].
    + split; [split|].
      * match goal with |- inv _ _ ?f _ => replace f with (map cf_file (pl_config (p_pay st)) ++ [path])%list
          by (cbn; rewrite map_app, B1; cbn; now rewrite B2) end. apply (inv_handle o filename _ st' e) in B3.
        eapply inv_frame; [..|exact B3]; try reflexivity. apply incl_refl.
      * cbn. rewrite B1. apply Forall_app. split.
        -- eapply Forall_impl; [|exact F]. intros c. apply Forall_impl. intros d. apply deep_mono.
           intros x. apply dir_ok_mono. exact G.
        -- constructor; [|constructor]. cbn. rewrite B4. constructor.
      * cbn. rewrite B1, app_length. cbn. lia.
Qed.

Lemma between_init : forall o filename, between o filename (init_state filename).
Proof.
  intros o filename. split; [|constructor]. constructor; cbn; auto.
  - repeat constructor. auto.
  - intros i k z H. destruct i as [|[|i]]; cbn in H; inversion H; reflexivity.
  - exists []. reflexivity.
  - repeat constructor.
  - tauto.
  - tauto.
  - intros f. unfold get_z. cbn. destruct (String.eqb f filename); reflexivity.
  - constructor.
  - intros x [].
  - tauto.
  - intros a b [l [H _]]. discriminate.
Qed.

Lemma between_files : forall fuel o filename st, between o filename st ->
  match run_files fuel o (dir_name filename) st with
  | FDone st' => between o filename st' /\ p_queue st' = []
  | FErr _ st' => Forall (reach o filename) (p_opens st') /\ NoDup (keys (p_included st'))
  | _ => True
  end.
Proof.
  induction fuel as [|fuel IH]; intros o filename st B; cbn [run_files].
  - destruct (p_queue st) as [|[path ctx] q] eqn:Q; auto.
  - destruct (p_queue st) as [|[path ctx] q] eqn:Q; auto.
    pose proof (between_file o filename path ctx q st B Q) as BF.
    destruct (parse_file o (dir_name filename) path ctx (set_queue st q)); auto.
    apply IH. apply BF.
Qed.
Lemma collect_between : forall fuel o filename,
  match collect fuel o filename with
  | FDone st => between o filename st /\ p_queue st = []
  | FErr _ st => Forall (reach o filename) (p_opens st) /\ NoDup (keys (p_included st))
  | _ => True
  end.
Proof. intros. apply between_files. apply between_init. Qed.

(** ** C14 *)
Lemma collect_includes_ok : forall fuel o filename st, collect fuel o filename = FDone st ->
  includes_ok o filename (p_pay st).
Proof.
  intros fuel o filename st C. pose proof (collect_between fuel o filename) as CB. rewrite C in CB.
  destruct CB as [[V F] Q].
  assert (FE : map cf_file (pl_config (p_pay st)) = keys (p_included st)).
  { rewrite <- (iv_files _ _ _ _ V), Q. cbn. now rewrite app_nil_r. }
  constructor.
  - rewrite FE. apply V.
  - rewrite FE. apply V.
  - intros c d IC W N M SG. rewrite Forall_forall in F. pose proof (deep_within _ _ _ W (F c IC)) as [D _].
    destruct (D N M SG) as (arg & more & fs & A & T & G & Z). exists arg, more, fs. repeat split; auto; try apply Z.
    eapply Forall2_impl; [|exact G]. intros i f [I _].
    destruct (numbered_nth _ _ _ (iv_num _ _ _ _ V) I) as [P X]. split; auto. rewrite <- FE, nth_error_map in X.
    destruct (nth_error (pl_config (p_pay st)) (Z.to_nat i)) as [c'|]; [|discriminate].
    exists c'. split; auto. now inversion X.
  - intros c d IC W H. rewrite Forall_forall in F. now apply (deep_within _ _ _ W (F c IC)).
Qed.
Lemma parse_includes_ok : forall fuel o filename p, parse_main fuel o filename = ROk p ->
  o_combine o = false -> includes_ok o filename p.
Proof.
  intros fuel o filename p H NC. unfold parse_main in H.
  destruct (collect fuel o filename) as [st|e st| |] eqn:C; try discriminate.
  unfold finish in H. rewrite NC in H. destruct (has_cycle _ _ _); [discriminate|].
  inversion H. eapply collect_includes_ok; eauto.
Qed.

(** ** C29 *)
Lemma file_no_fuel : forall o dir path ctx st, parse_file o dir path ctx st <> FFuel.
Proof.
  intros o dir path ctx st. unfold parse_file. destruct (o_open o path) as [content|]; [|discriminate].
  match goal with |- context [parse o dir ?n ctx ?toks ?s] =>
    pose proof (parse_no_fuel o dir ctx toks s n (Nat.lt_succ_diag_r _)) as NF; destruct (parse o dir n ctx toks s) end;
    try discriminate.
  - destruct (o_stop o); discriminate.
  - congruence.
Qed.
Lemma files_terminate : forall F o filename, (forall f, reach o filename f -> In f F) ->
  forall fuel st, between o filename st ->
  List.length F <= fuel + List.length (pl_config (p_pay st)) ->
  run_files fuel o (dir_name filename) st <> FFuel.
Proof.
  intros F o filename HF. induction fuel as [|fuel IH]; intros st B L; cbn [run_files].
  - destruct (p_queue st) as [|[path ctx] q] eqn:Q; [discriminate|].
    exfalso. destruct B as [V _].
    assert (LE : List.length (keys (p_included st)) <= List.length F).
    { apply NoDup_incl_length; [apply V|]. intros f I. apply HF.
      pose proof (iv_reach _ _ _ _ V) as R. rewrite Forall_forall in R. auto. }
    rewrite <- (iv_files _ _ _ _ V), Q, app_length in LE. unfold keys in LE. rewrite !map_length in LE. cbn in LE, L. lia.
  - destruct (p_queue st) as [|[path ctx] q] eqn:Q; [discriminate|].
    pose proof (between_file o filename path ctx q st B Q) as BF.
    pose proof (file_no_fuel o (dir_name filename) path ctx (set_queue st q)) as NF.
    destruct (parse_file o (dir_name filename) path ctx (set_queue st q)); try discriminate; [|congruence].
    destruct BF as [BF LN]. apply IH; auto. lia.
Qed.
Lemma collect_terminates : forall F o filename fuel, (forall f, reach o filename f -> In f F) ->
  List.length F <= fuel -> collect fuel o filename <> FFuel.
Proof.
  intros F o filename fuel HF L. eapply files_terminate; eauto using between_init. cbn. lia.
Qed.

(** ** C42 *)
Lemma with_stop_back : forall o, o_stop o = true -> with_stop (with_stop o false) true = o.
Proof. intros [] H. cbn in *. subst. reflexivity. Qed.
Lemma reach_stop : forall o b filename f, reach (with_stop o b) filename f -> reach o filename f.
Proof.
  intros o b filename f H. induction H as [|g f SG H IH [content arg A M N ->|content arg l A M N G I]].
  - constructor.
  - eapply reach_step; eauto. eapply is_file; eauto.
  - eapply reach_step; eauto. eapply is_glob; eauto.
Qed.
Lemma collect_nonstop : forall o fuel filename st, o_stop o = true ->
  collect fuel o filename = FDone st -> collect fuel (with_stop o false) filename = FDone st.
Proof.
  intros o fuel filename st SE C. unfold collect in *.
  pose proof (files_stop (with_stop o false) eq_refl fuel (dir_name filename) (init_state filename)) as FS.
  rewrite with_stop_back in FS by auto. rewrite C in FS.
  destruct (run_files fuel (with_stop o false) (dir_name filename) (init_state filename)); cbn in FS.
  - destruct FS as [[_ FS]|[]]. congruence.
  - destruct FS as [[_ FS]|[]]. congruence.
  - destruct FS as [FS|(e & s & FS)]; congruence.
  - destruct FS as [FS|(e & s & FS)]; congruence.
Qed.


Lemma collect_reads : forall fuel o filename st, collect fuel o filename = FDone st -> reads_ok o filename st.
Proof.
  assert (NS : forall fuel o filename st, o_stop o = false -> collect fuel o filename = FDone st -> reads_ok o filename st).
  { intros fuel o filename st SE C. pose proof (collect_between fuel o filename) as CB. rewrite C in CB.
    destruct CB as [[V F] Q].
    assert (FE : map cf_file (pl_config (p_pay st)) = keys (p_included st)).
    { rewrite <- (iv_files _ _ _ _ V), Q. cbn. now rewrite app_nil_r. }
    constructor.
    - intros f I. rewrite FE. destruct (iv_seen _ _ _ _ V f I) as [H|(msg & O & H)]; auto.
      right. destruct H as [H|(e & pe & H1 & H2 & H3)]; [congruence|]. exists msg, e, pe. auto.
    - intros c I. apply (iv_fin_open _ _ _ _ V). now apply in_map. }
  intros fuel o filename st C. destruct (o_stop o) eqn:SE; [|eauto].
  apply (collect_nonstop _ _ _ _ SE) in C. apply NS in C; auto.
  destruct C as [C1 C2]. constructor; auto.
Qed.
Lemma collect_opens : forall fuel o filename st,
  collect fuel o filename = FDone st \/ (exists e, collect fuel o filename = FErr e st) ->
  forall f, In f (p_opens st) -> reach o filename f.
Proof.
  intros fuel o filename st H f I. pose proof (collect_between fuel o filename) as CB.
  destruct H as [H|[e H]]; rewrite H in CB.
  - destruct CB as [[V _] _]. pose proof (iv_opens _ _ _ _ V) as R. rewrite Forall_forall in R. auto.
  - destruct CB as [R _]. rewrite Forall_forall in R. auto.
Qed.

(** ** C34 *)
Lemma reach_single : forall o filename f, o_single o = true -> reach o filename f -> f = filename.
Proof. intros o filename f SG H. destruct H; auto. congruence. Qed.
Lemma all_same_nodup : forall A (l : list A) x, NoDup l -> Forall (fun y => y = x) l -> l = [] \/ l = [x].
Proof.
  intros A [|a [|b l]] x ND F; auto.
  - inversion F; subst. auto.
  - exfalso. inversion F as [|? ? E1 F1]; subst. inversion F1; subst. inversion ND as [|? ? NI _]; subst.
    apply NI. cbn. auto.
Qed.
Lemma single_file : forall fuel o filename p, o_single o = true -> o_combine o = false ->
  parse_main fuel o filename = ROk p ->
  exists c, pl_config p = [c] /\ cf_file c = filename /\ forall d, within d (cf_parsed c) -> d_includes d = None.
Proof.
  intros fuel o filename p SG NC H. pose proof (parse_includes_ok _ _ _ _ H NC) as I.
  unfold parse_main in H. destruct (collect fuel o filename) as [st|e st| |] eqn:C; try discriminate.
  unfold finish in H. rewrite NC in H. destruct (has_cycle _ _ _); [discriminate|]. inversion H; subst p. clear H.
  pose proof (collect_between fuel o filename) as CB. rewrite C in CB. destruct CB as [[V _] Q].
  assert (FE : map cf_file (pl_config (p_pay st)) = keys (p_included st)).
  { rewrite <- (iv_files _ _ _ _ V), Q. cbn. now rewrite app_nil_r. }
  assert (AS : Forall (fun y => y = filename) (map cf_file (pl_config (p_pay st)))).
  { rewrite FE. eapply Forall_impl; [|apply (iv_reach _ _ _ _ V)]. intros f. now apply reach_single. }
  pose proof (inc_distinct _ _ _ I) as ND. destruct (inc_first _ _ _ I) as [rest E].
  destruct (all_same_nodup _ _ _ ND AS) as [E'|E']; [congruence|].
  destruct (pl_config (p_pay st)) as [|c [|c' cs]] eqn:PC; try discriminate. inversion E'.
  exists c. repeat split; auto. intros d W. eapply (inc_others _ _ _ I); eauto. rewrite PC. cbn. auto.
Qed.
Lemma single_opens : forall fuel o filename st, o_single o = true ->
  collect fuel o filename = FDone st \/ (exists e, collect fuel o filename = FErr e st) ->
  forall f, In f (p_opens st) -> f = filename.
Proof. intros. eapply reach_single; eauto. eapply collect_opens; eauto. Qed.
