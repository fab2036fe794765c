(** C75: a newer table accepts what an older one did. *)
From Verif Require Export SpecRelease LooseProofs.
Local Open Scope string_scope.

(** ** Forms: the low bits of two masks *)
Definition form_le (m m' : N) : bool :=
  (Bool.eqb (N.testbit m 8) (N.testbit m' 8) && implb (N.testbit m' 9) (N.testbit m 9) &&
   N.eqb (N.land (N.land m 0x3CFF) m') (N.land m 0x3CFF))%bool.
Lemma low_bit : forall m m' n, N.land (N.land m 0x3CFF) m' = N.land m 0x3CFF -> N.testbit 0x3CFF n = true ->
  bit n m -> bit n m'.
Proof.
  unfold bit. intros m m' n E L B. apply (f_equal (fun x => N.testbit x n)) in E.
  rewrite !N.land_spec, B, L in E. exact E.
Qed.
Lemma form_more : forall m m' d term, form_le m m' = true -> form_fits m d term -> form_fits m' d term.
Proof.
  intros m m' d term H (E & B & S & A). unfold form_le in H.
  apply andb_prop in H. destruct H as [H L]. apply andb_prop in H. destruct H as [H8 H9].
  apply Bool.eqb_prop in H8. apply N.eqb_eq in L. unfold form_fits, bit in *. rewrite <- H8. split; [|split; [exact B|split; [exact S|]]].
  - intros X. apply E. rewrite X in H9. cbn in H9. exact H9.
  - destruct A as [N7 X|a Ea X I|X|X N1|X N2].
    + apply fit_take; [exact N7|]. eapply low_bit; [exact L| |exact X].
      revert N7. generalize (List.length (d_args d)). intros n N7.
      do 8 (destruct n as [|n]; [reflexivity|]). lia.
    + eapply fit_flag; [exact Ea| |exact I]. eapply low_bit; [exact L|reflexivity|exact X].
    + apply fit_any. eapply low_bit; [exact L|reflexivity|exact X].
    + apply fit_1more; [|exact N1]. eapply low_bit; [exact L|reflexivity|exact X].
    + apply fit_2more; [|exact N2]. eapply low_bit; [exact L|reflexivity|exact X].
Qed.

(** ** Tables *)
Definition places : list N := [17;18;19;20;21;22;23;24;25;26;27;28;29;30;31;32]%N.
Lemma path_places : forall p b, path_bit p = Some b -> In b places.
Proof.
  intros p b H. unfold path_bit in H.
  repeat match type of H with context [match ?x with _ => _ end] => destruct x end;
    try discriminate; inversion H; cbn; tauto.
Qed.
Definition mask_le (ms : list N) (m : N) : bool :=
  (existsb (form_le m) ms &&
   forallb (fun b => implb (N.testbit m b) (existsb (fun m' => N.testbit m' b && form_le m m')%bool ms)) places)%bool.
Definition entry_le (t : table) (e : string * list N) : bool :=
  match assoc (fst e) t with Some ms => forallb (mask_le ms) (snd e) | None => false end.
Definition table_le (a b : table) : bool := forallb (entry_le b) a.

Lemma steps_le : forallb (fun s => table_le (fst s) (snd s)) steps = true.
Proof. vm_compute. reflexivity. Qed.

Lemma assoc_entry : forall (t : table) k ms, assoc k t = Some ms -> In (k, ms) t.
Proof.
  induction t as [|[k0 v] t IH]; intros k ms H; [discriminate|]. cbn in H.
  destruct (String.eqb k k0) eqn:E; [apply String.eqb_eq in E; subst; inversion H; now left|right; auto].
Qed.
Lemma table_step : forall a b, table_le a b = true -> forall name ms, lookup a name = Some ms ->
  exists ms', lookup b name = Some ms' /\ forall m, In m ms -> mask_le ms' m = true.
Proof.
  intros a b T name ms H. unfold lookup in *. apply assoc_entry in H. unfold table_le in T. rewrite forallb_forall in T.
  specialize (T _ H). unfold entry_le in T. cbn [fst snd] in T. destruct (assoc name b) as [ms'|] eqn:E; [|discriminate].
  exists ms'. split; [reflexivity|]. now apply forallb_forall.
Qed.

(** ** Verdicts *)
Section Step.
Variables (o : popts) (a b : table).
Hypothesis T : table_le a b = true.
Local Notation masks name := (flat_map (fun f : match_func => match f name with Some l => l | None => [] end) (o_sources o)).

Lemma known_cases : forall t name ms, knows (strictly o t) name ms ->
  ms = ((match lookup t name with Some l => l | None => [] end) ++ masks name)%list /\
  (lookup t name <> None \/ exists f, In f (o_sources o) /\ f name <> None).
Proof.
  intros t name ms [[H _]|(_ & f & I & K & ->)]; [discriminate|]. split; [reflexivity|].
  destruct I as [<-|I]; [now left|right; eauto].
Qed.
Lemma known_make : forall t name, (lookup t name <> None \/ exists f, In f (o_sources o) /\ f name <> None) ->
  knows (strictly o t) name ((match lookup t name with Some l => l | None => [] end) ++ masks name)%list.
Proof.
  intros t name H. right. split; [discriminate|]. destruct H as [H|(f & I & K)].
  - exists (lookup t). split; [now left|]. split; [exact H|reflexivity].
  - exists f. split; [now right|]. split; [exact K|reflexivity].
Qed.
Lemma known_step : forall name ms, knows (strictly o a) name ms ->
  exists ms', knows (strictly o b) name ms' /\ forall m, In m ms -> In m ms' \/ exists l, incl l ms' /\ mask_le l m = true.
Proof.
  intros name ms K. apply known_cases in K. destruct K as [-> C]. eexists. split.
  - apply known_make. destruct C as [C|C]; [left|now right].
    destruct (lookup a name) as [l|] eqn:E; [|contradiction].
    destruct (table_step a b T name l E) as (l' & E' & _). congruence.
  - intros m I. apply in_app_or in I. destruct I as [I|I]; [|left; apply in_or_app; now right].
    destruct (lookup a name) as [l|] eqn:E; [|contradiction].
    destruct (table_step a b T name l E) as (l' & E' & M). right. exists l'. rewrite E'. split; [|auto].
    apply incl_appl, incl_refl.
Qed.
Lemma accepts_step : forall p d term, accepts (strictly o a) p d term -> accepts (strictly o b) p d term.
Proof.
  intros p d term A. destruct A as [U ST|ms K PB|ms K SC SA|ms mask c K PB I C F]; [discriminate| | |].
  - destruct (known_step _ _ K) as (ms' & K' & _). eapply acc_path; eauto.
  - destruct (known_step _ _ K) as (ms' & K' & _). eapply acc_unchecked; eauto.
  - destruct (known_step _ _ K) as (ms' & K' & J). destruct (J mask I) as [I'|(l & IL & M)].
    { eapply acc_mask; eauto. }
    unfold mask_le in M. apply andb_prop in M. destruct M as [M1 M2].
    assert (X : exists m', In m' l /\ form_le mask m' = true /\ (o_skipctx o = true \/ bit c m')).
    { destruct C as [C|C].
      - apply existsb_exists in M1. destruct M1 as (m' & I' & L'). exists m'. cbn in C. auto.
      - rewrite forallb_forall in M2. specialize (M2 c (path_places _ _ PB)). unfold bit in C. rewrite C in M2.
        cbn in M2. apply existsb_exists in M2. destruct M2 as (m' & I' & L'). apply andb_prop in L'.
        destruct L' as [B' L']. exists m'. auto. }
    destruct X as (m' & I' & L' & C'). eapply acc_mask; [exact K'|exact PB|apply IL; exact I'|exact C'|].
    destruct F as [F|F]; [now left|right; eapply form_more; eauto].
Qed.
End Step.

Lemma upgrade_accepts : forall a b, upgrade a b -> forall o p d term,
  accepts (strictly o a) p d term -> accepts (strictly o b) p d term.
Proof.
  intros a b U. induction U as [a b I|a b c U1 IH1 U2 IH2]; intros o p d term A; [|auto].
  pose proof steps_le as S. rewrite forallb_forall in S. specialize (S _ I). cbn [fst snd] in S.
  eapply accepts_step; eauto.
Qed.
Lemma upgrade_statement : forall a b o f d term path, upgrade a b ->
  analyze (strictly o a) f d term path = None -> analyze (strictly o b) f d term path = None.
Proof.
  intros a b o f d term path U. apply analyze_loose. intros p d0 t0. now apply upgrade_accepts.
Qed.
Lemma upgrade_main : forall a b fuel o filename p, upgrade a b ->
  parse_main fuel (strictly o a) filename = ROk p -> pl_errors p = [] ->
  parse_main fuel (strictly o b) filename = ROk p.
Proof.
  intros a b fuel o filename p U. apply main_loose; [constructor; reflexivity|].
  intros q d0 t0. now apply upgrade_accepts.
Qed.
