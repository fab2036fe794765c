(** Generic invariants of the parser, lifted from single statements to whole runs. *)
From Verif Require Export ParseFacts Main.
Local Open Scope string_scope.

(** A property of a directive and of everything below it. *)
Inductive deep (Q : directive -> Prop) : directive -> Prop :=
| deep_intro : forall d, Q d -> Forall (deep Q) (opt_list (d_block d)) -> deep Q d.

Fixpoint deep_mono (Q Q' : directive -> Prop) (H : forall d, Q d -> Q' d) (d : directive)
  (D : deep Q d) {struct D} : deep Q' d :=
  match D with
  | deep_intro _ d q f =>
    deep_intro _ d (H d q)
      ((fix go l (f : Forall (deep Q) l) : Forall (deep Q') l :=
          match f with
          | Forall_nil _ => Forall_nil _
          | @Forall_cons _ _ x l' a b => Forall_cons x (deep_mono Q Q' H x a) (go l' b)
          end) _ f)
  end.

Lemma decide_shape : forall o dir ctx d term st d' st',
  decide o dir ctx d term st = DKeep d' st' ->
  d_name d' = d_name d /\ d_line d' = d_line d /\ d_file d' = d_file d /\ d_block d' = d_block d /\
  d_comment d' = d_comment d /\ d_ismap d' = d_ismap d.
Proof.
  intros o dir ctx d term st d' st' H. unfold decide in H.
  destruct (match read_slice (p_heap st) ctx with [] => None | _ => _ end) as [m|].
  { destruct (analyze_map_body _ _ _ _); [destruct (o_stop o)|]; discriminate. }
  destruct (mem_str _ _); [discriminate|].
  destruct (analyze _ _ _ _ _) as [e|].
  { destruct (o_stop o); [discriminate|].
    destruct (has_suffix _ _); [destruct (negb _)|]; discriminate. }
  destruct (if String.eqb (d_name d) "if" then prepare_if (d_args d) else Some (d_args d)) as [args|];
    [|discriminate].
  destruct (_ && _)%bool eqn:INC.
  2:{ inversion H; subst. cbn. tauto. }
  unfold do_include in H. cbn [d_args set_args] in H. destruct args as [|a0 args]; [discriminate|].
  destruct (has_magic _).
  - destruct (o_glob o _) as [fs|msg]; [|discriminate].
    destruct (add_includes _ _ _) as [s is]. inversion H; subst. cbn. tauto.
  - destruct (o_open o _) as [c|msg].
    + destruct (add_includes _ _ _) as [s is]. inversion H; subst. cbn. tauto.
    + destruct (o_stop o); [discriminate|]. inversion H; subst. cbn. tauto.
Qed.
Lemma decide_map : forall o dir ctx d term st d',
  decide o dir ctx d term st = DMap d' -> d' = set_ismap d.
Proof.
  intros o dir ctx d term st d' H. unfold decide in H.
  destruct (match read_slice (p_heap st) ctx with [] => None | _ => _ end) as [m|].
  { destruct (analyze_map_body _ _ _ _); [destruct (o_stop o); discriminate|]. now inversion H. }
  destruct (mem_str _ _); [discriminate|].
  destruct (analyze _ _ _ _ _) as [e|].
  { destruct (o_stop o); [discriminate|].
    destruct (has_suffix _ _); [destruct (negb _)|]; discriminate. }
  destruct (if String.eqb (d_name d) "if" then prepare_if (d_args d) else Some (d_args d)) as [args|];
    [|discriminate].
  destruct (_ && _)%bool; [|discriminate].
  unfold do_include in H. cbn [d_args set_args] in H. destruct args as [|a0 args]; [discriminate|].
  destruct (has_magic _).
  - destruct (o_glob o _) as [fs|msg]; [|discriminate]. destruct (add_includes _ _ _). discriminate.
  - destruct (o_open o _) as [c|msg].
    + destruct (add_includes _ _ _). discriminate.
    + destruct (o_stop o); discriminate.
Qed.

(** What is left of the tokens is a suffix of what was given. *)
Definition suffix (a b : list token) : Prop := exists pre, b = (pre ++ a)%list.
Lemma suffix_refl : forall a, suffix a a.
Proof. intros a. exists []. reflexivity. Qed.
Lemma suffix_trans : forall a b c, suffix a b -> suffix b c -> suffix a c.
Proof. intros a b c [p ->] [q ->]. exists (q ++ p)%list. now rewrite app_assoc. Qed.
Lemma suffix_cons : forall t a b, suffix (t :: a) b -> suffix a b.
Proof. intros t a b [p ->]. exists (p ++ [t])%list. now rewrite <- app_assoc. Qed.
Lemma suffix_tail : forall t a b, suffix a b -> suffix a (t :: b).
Proof. intros t a b [p ->]. exists (t :: p). reflexivity. Qed.
Lemma read_args_suffix : forall cm toks args cs term rest,
  read_args cm toks = Some (args, cs, term, rest) -> suffix rest toks.
Proof.
  intros cm toks. induction toks as [|t toks IH]; intros args cs term rest H; [discriminate|].
  cbn [read_args] in H. destruct (is_term t).
  - inversion H; subst. apply suffix_tail, suffix_refl.
  - destruct (read_args cm toks) as [[[[a c] tm] rs]|] eqn:E; [|discriminate].
    apply suffix_tail. specialize (IH _ _ _ _ eq_refl).
    destruct (negb (tok_comment t)); [|destruct cm]; inversion H; subst; auto.
Qed.
Lemma consume_suffix : forall toks n, suffix (consume n toks) toks.
Proof.
  induction toks as [|t toks IH]; intros n; cbn [consume]; [apply suffix_refl|].
  assert (L : forall n, suffix (match n with O => toks | S d => consume d toks end) (t :: toks)).
  { intros m. apply suffix_tail. destruct m; [apply suffix_refl|apply IH]. }
  destruct (t_err t); auto. destruct (tok_is t "}"); auto.
  destruct (tok_is t "{"); apply suffix_tail, IH.
Qed.
Lemma run_suffix : forall o dir ctx toks st r, Run o dir ctx toks st r ->
  match r with POk _ rest _ => suffix rest toks | PErr _ rest _ => suffix rest toks | _ => True end.
Proof.
  assert (PA : forall ds r toks,
    match r with POk _ rest _ => suffix rest toks | PErr _ rest _ => suffix rest toks | _ => True end ->
    match padd ds r with POk _ rest _ => suffix rest toks | PErr _ rest _ => suffix rest toks | _ => True end).
  { intros ds [] toks; auto. }
  assert (TR : forall a b r, suffix a b ->
    match r with POk _ rest _ => suffix rest a | PErr _ rest _ => suffix rest a | _ => True end ->
    match r with POk _ rest _ => suffix rest b | PErr _ rest _ => suffix rest b | _ => True end).
  { intros a b [] H; auto; intros; eapply suffix_trans; eauto. }
  intros o dir ctx toks st r H.
  induction H as
    [ctx st|ctx st t r e TE|ctx st t r TE TC|ctx st t r res TE TC TM H IH|ctx st t r ST RA
    |ctx st t r args cs term rest ST RA D|ctx st t r args cs term rest e st' ST RA D
    |ctx st t r args cs term rest st' ST RA D|ctx st t r args cs term rest eat st' res ST RA D H IH
    |ctx st t r args cs term rest d res ST RA D H IH
    |ctx st t r args cs term rest d st' res ST RA D TB H IH
    |ctx st t r args cs term rest d st' h inner blk rest' st'' res ST RA D TB EB H1 IH1 H2 IH2
    |ctx st t r args cs term rest d st' h inner res ST RA D TB EB H IH F];
    try (apply read_args_suffix in RA; apply (suffix_tail t) in RA); auto using suffix_refl, suffix_tail.
  - apply PA. eapply TR; [|exact IH]. apply suffix_tail, suffix_refl.
  - exists (t :: r). now rewrite app_nil_r.
  - eapply TR; [|exact IH]. destruct eat; auto. eapply suffix_trans; [apply consume_suffix|exact RA].
  - apply PA. eapply TR; eauto.
  - apply PA. eapply TR; eauto.
  - apply PA. eapply TR; [|exact IH2]. cbn in IH1. eapply suffix_trans; eauto.
  - eapply TR; eauto.
Qed.

Section Inv.
Variables (o : popts) (dir : string).
Variable P : pst -> Prop.
Variable R : pst -> pst -> Prop.
Variable Q : pst -> directive -> Prop.
Variable T : list token -> Prop.
Hypothesis T_suffix : forall a b, suffix a b -> T b -> T a.
Hypothesis R_refl : forall st, R st st.
Hypothesis R_trans : forall a b c, R a b -> R b c -> R a c.
Hypothesis Q_mono : forall a b d, R a b -> Q a d -> Q b d.
Hypothesis decide_inv : forall ctx t r args cs term rest st,
  T (t :: r) -> starts t -> read_args (o_comments o) r = Some (args, cs, term, rest) -> P st ->
  match decide o dir ctx (fresh o st t args) term st with
  | DKeep d' st' => P st' /\ R st st' /\ Q st' d'
  | DMap d' => Q st d'
  | DSkip _ st' => P st' /\ R st st'
  | DBreak st' => P st' /\ R st st'
  | DErr _ st' => P st' /\ R st st'
  | DPanic => True
  end.
Hypothesis heap_inv : forall st h, P st -> P (set_heap st h) /\ R st (set_heap st h).
Hypothesis Q_block : forall st d blk, d_comment d = None -> Q st d -> Q st (set_block d blk).
Hypothesis Q_comment : forall st line c, P st -> Q st (comment_dir (file_label o st) line c).

Definition inv_res (st : pst) (r : pres) : Prop :=
  match r with
  | POk ds _ st' => P st' /\ R st st' /\ Forall (deep (Q st')) ds
  | PErr _ _ st' => P st' /\ R st st'
  | _ => True
  end.
Lemma deep_R : forall a b ds, R a b -> Forall (deep (Q a)) ds -> Forall (deep (Q b)) ds.
Proof.
  intros a b ds H F. eapply Forall_impl; [|exact F]. intros d. apply deep_mono. eauto.
Qed.
Lemma deep_leaf : forall (q : directive -> Prop) d, q d -> d_block d = None -> deep q d.
Proof. intros q d H B. constructor; auto. rewrite B. constructor. Qed.
Lemma inv_padd : forall st1 st2 ds r, R st1 st2 -> inv_res st2 r -> P st2 ->
  Forall (deep (Q st2)) ds -> inv_res st1 (padd ds r).
Proof.
  intros st1 st2 ds [ds' rest st'|e rest st'| |] H I PS F; cbn in *; auto.
  - destruct I as (I1 & I2 & I3). repeat split; eauto. apply Forall_app. split; auto.
    eapply deep_R; eauto.
  - destruct I as (I1 & I2). eauto.
Qed.
Lemma inv_weaken : forall st1 st2 r, R st1 st2 -> inv_res st2 r -> inv_res st1 r.
Proof.
  intros st1 st2 [ds' rest st'|e rest st'| |] H I; cbn in *; auto.
  - destruct I as (I1 & I2 & I3). eauto.
  - destruct I as (I1 & I2). eauto.
Qed.
Lemma comments_deep : forall st st' line cs, P st -> R st st' ->
  Forall (deep (Q st')) (comments_of o st line cs).
Proof.
  intros st st' line cs PS H. apply Forall_map. apply Forall_forall. intros c _.
  apply deep_leaf; [|reflexivity]. eauto.
Qed.

Lemma run_inv_tok : forall ctx toks st r, Run o dir ctx toks st r -> T toks -> P st -> inv_res st r.
Proof.
  intros ctx toks st r H.
  induction H as
    [ctx st|ctx st t r e TE|ctx st t r TE TC|ctx st t r res TE TC TM H IH|ctx st t r ST RA
    |ctx st t r args cs term rest ST RA D|ctx st t r args cs term rest e st' ST RA D
    |ctx st t r args cs term rest st' ST RA D|ctx st t r args cs term rest eat st' res ST RA D H IH
    |ctx st t r args cs term rest d res ST RA D H IH
    |ctx st t r args cs term rest d st' res ST RA D TB H IH
    |ctx st t r args cs term rest d st' h inner blk rest' st'' res ST RA D TB EB H1 IH1 H2 IH2
    |ctx st t r args cs term rest d st' h inner res ST RA D TB EB H IH F];
    intros TT PS; try (pose proof (decide_inv ctx t r args cs term rest st TT ST RA PS) as DI; rewrite D in DI);
    try (pose proof (T_suffix _ _ (suffix_tail t _ _ (suffix_refl r)) TT) as TR);
    try (pose proof (T_suffix _ _ (read_args_suffix _ _ _ _ _ _ RA) TR) as TA).
  - cbn. auto.
  - cbn. auto.
  - cbn. auto.
  - eapply inv_padd; [apply R_refl|now apply IH|auto|].
    destruct (o_comments o); constructor; [|constructor]. apply deep_leaf; auto.
  - cbn. auto.
  - exact I.
  - exact DI.
  - cbn. destruct DI. auto.
  - destruct DI as [P' R']. eapply inv_weaken; eauto. apply IH; auto.
    destruct eat; auto. eapply T_suffix; [apply consume_suffix|exact TA].
  - eapply inv_padd; [apply R_refl|now apply IH|auto|]. constructor; [|constructor].
    apply deep_leaf; auto. apply decide_map in D. subst d. reflexivity.
  - destruct DI as (P' & R' & Q'). eapply inv_padd; [exact R'|now apply IH|auto|].
    constructor; [|now apply comments_deep]. apply deep_leaf; auto.
    apply decide_shape in D. destruct D as (_ & _ & _ & -> & _). reflexivity.
  - destruct DI as (P' & R' & Q'). destruct (heap_inv st' h P') as [PH RH].
    destruct (IH1 TA PH) as (P2 & R2 & F2). cbn in *.
    assert (RR : R st st'') by eauto.
    eapply inv_padd; [exact RR|apply IH2; auto; eapply T_suffix; [exact (run_suffix _ _ _ _ _ _ H1)|exact TA]|auto|]. constructor; [|now apply comments_deep].
    constructor; [|exact F2]. apply Q_block; eauto. apply decide_shape in D. destruct D as (_ & _ & _ & _ & -> & _). reflexivity.
  - destruct DI as (P' & R' & Q'). destruct (heap_inv st' h P') as [PH RH].
    eapply inv_weaken; [|now apply IH]. eauto.
Qed.
End Inv.

Lemma run_inv : forall o dir (P : pst -> Prop) (R : pst -> pst -> Prop) (Q : pst -> directive -> Prop),
  (forall st, R st st) -> (forall a b c, R a b -> R b c -> R a c) ->
  (forall a b d, R a b -> Q a d -> Q b d) ->
  (forall ctx t args term st, P st ->
    match decide o dir ctx (fresh o st t args) term st with
    | DKeep d' st' => P st' /\ R st st' /\ Q st' d'
    | DMap d' => Q st d'
    | DSkip _ st' => P st' /\ R st st'
    | DBreak st' => P st' /\ R st st'
    | DErr _ st' => P st' /\ R st st'
    | DPanic => True
    end) ->
  (forall st h, P st -> P (set_heap st h) /\ R st (set_heap st h)) ->
  (forall st d blk, d_comment d = None -> Q st d -> Q st (set_block d blk)) ->
  (forall st line c, P st -> Q st (comment_dir (file_label o st) line c)) ->
  forall ctx toks st r, Run o dir ctx toks st r -> P st -> inv_res P R Q st r.
Proof.
  intros o dir P R Q H1 H2 H3 H4 H5 H6 H7 ctx toks st r H B.
  eapply run_inv_tok with (T := fun _ => True); eauto.
  intros c t r0 args cs term rest s _ _ _ PS. apply H4. exact PS.
Qed.
