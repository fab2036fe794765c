(** What one statement can do to the parser state. *)
From Verif Require Export ParseInv.
Local Open Scope string_scope.

Inductive effect (o : popts) (ctx : slice) (st : pst) : pst -> Prop :=
| eff_none : effect o ctx st st
| eff_err : forall e, o_stop o = false -> effect o ctx st (handle_error o st e)
| eff_open : forall p, o_single o = false -> effect o ctx st (log_open st p)
| eff_open_err : forall p e, o_single o = false -> o_stop o = false ->
    effect o ctx st (handle_error o (log_open st p) e)
| eff_inc : forall p c, o_single o = false -> o_open o p = inl c ->
    effect o ctx st (fst (add_includes ctx (log_open st p) [p]))
| eff_glob : forall p fs, o_single o = false -> o_glob o p = inl fs ->
    effect o ctx st (fst (add_includes ctx st (sort_strings fs))).

Definition decision_state (st : pst) (d : decision) : pst :=
  match d with
  | DKeep _ st' => st' | DMap _ => st | DSkip _ st' => st' | DBreak st' => st' | DErr _ st' => st'
  | DPanic => st
  end.

Lemma decide_effect : forall o dir ctx d term st,
  effect o ctx st (decision_state st (decide o dir ctx d term st)).
Proof.
  intros o dir ctx d term st. unfold decide.
  destruct (match read_slice (p_heap st) ctx with [] => None | _ => _ end) as [m|].
  { destruct (analyze_map_body _ _ _ _); [destruct (o_stop o) eqn:S|]; cbn; constructor; auto. }
  destruct (mem_str _ _); [constructor|].
  destruct (analyze _ _ _ _ _) as [e|].
  { destruct (o_stop o) eqn:S; [constructor|].
    destruct (has_suffix _ _); [destruct (negb _)|]; cbn; constructor; auto. }
  destruct (if String.eqb (d_name d) "if" then prepare_if (d_args d) else Some (d_args d)) as [args|];
    [|constructor].
  destruct (negb (o_single o) && _)%bool eqn:INC; [|constructor].
  apply andb_true_iff in INC as [SG _]. apply negb_true_iff in SG.
  unfold do_include. cbn [d_args set_args]. destruct args as [|a0 args]; [constructor|].
  destruct (has_magic _).
  - destruct (o_glob o _) as [fs|msg] eqn:G; [|constructor].
    pose proof (eff_glob o ctx st _ _ SG G) as E.
    destruct (add_includes _ _ _) as [s is]. exact E.
  - destruct (o_open o _) as [c|msg] eqn:OP.
    + pose proof (eff_inc o ctx st _ _ SG OP) as E.
      destruct (add_includes _ _ _) as [s is]. exact E.
    + destruct (o_stop o) eqn:S; cbn; constructor; auto.
Qed.

(** Parts of the state that including leaves alone. *)
Lemma add_include_frame : forall ctx f st,
  let st' := fst (add_include ctx st f) in
  p_heap st' = p_heap st /\ p_cur st' = p_cur st /\ p_pay st' = p_pay st /\ p_opens st' = p_opens st.
Proof.
  intros ctx f st. unfold add_include. destruct (assoc f (p_included st)); cbn; auto.
Qed.
Lemma add_includes_frame : forall ctx fs st,
  let st' := fst (add_includes ctx st fs) in
  p_heap st' = p_heap st /\ p_cur st' = p_cur st /\ p_pay st' = p_pay st /\ p_opens st' = p_opens st.
Proof.
  intros ctx fs. induction fs as [|f fs IH]; intros st; cbn [add_includes]; [cbn; auto|].
  pose proof (add_include_frame ctx f st) as F. destruct (add_include ctx st f) as [st1 i].
  specialize (IH st1). destruct (add_includes ctx st1 fs) as [st2 is]. cbn in *.
  destruct F as (F1 & F2 & F3 & F4), IH as (I1 & I2 & I3 & I4). repeat split; congruence.
Qed.

(** State invariants of whole runs. *)
Lemma run_state_inv : forall o dir (P : pst -> Prop),
  (forall ctx st st', effect o ctx st st' -> P st -> P st') ->
  (forall st h, P st -> P (set_heap st h)) ->
  forall ctx toks st r, Run o dir ctx toks st r -> P st ->
  match r with POk _ _ st' => P st' | PErr _ _ st' => P st' | _ => True end.
Proof.
  intros o dir P HE HH ctx toks st r H B.
  assert (I : inv_res P (fun _ _ => True) (fun _ _ => True) st r).
  { refine (run_inv o dir P (fun _ _ => True) (fun _ _ => True) _ _ _ _ _ _ _ ctx toks st r H B); auto.
    intros c t args term s Bs.
    pose proof (HE _ _ _ (decide_effect o dir c (fresh o s t args) term s) Bs) as Bs'.
    destruct (decide o dir c (fresh o s t args) term s); cbn in *; auto. }
  destruct r; cbn in *; tauto.
Qed.
(** A relation between the states before and after. *)
Lemma run_state_rel : forall o dir (R : pst -> pst -> Prop),
  (forall st, R st st) -> (forall a b c, R a b -> R b c -> R a c) ->
  (forall ctx st st', effect o ctx st st' -> R st st') ->
  (forall st h, R st (set_heap st h)) ->
  forall ctx toks st r, Run o dir ctx toks st r ->
  match r with POk _ _ st' => R st st' | PErr _ _ st' => R st st' | _ => True end.
Proof.
  intros o dir R R1 R2 HE HH ctx toks st r H.
  assert (I : inv_res (fun _ => True) R (fun _ _ => True) st r).
  { refine (run_inv o dir (fun _ => True) R (fun _ _ => True) _ _ _ _ _ _ _ ctx toks st r H Logic.I); eauto.
    intros c t args term s _.
    pose proof (HE _ _ _ (decide_effect o dir c (fresh o s t args) term s)) as Bs'.
    destruct (decide o dir c (fresh o s t args) term s); cbn in *; auto. }
  destruct r; cbn in *; tauto.
Qed.
