(** The parser as a big-step relation, fuel facts. *)
From Verif Require Export Util Parse.
Local Open Scope string_scope.

Lemma read_args_len : forall c toks a cs t rest,
  read_args c toks = Some (a, cs, t, rest) -> List.length rest < List.length toks.
Proof.
  intros c toks. induction toks as [|x toks IH]; cbn [read_args]; intros a cs t rest H; [discriminate|].
  destruct (is_term x).
  - inversion H; subst. cbn. lia.
  - destruct (read_args c toks) as [[[[a' cs'] t'] rest']|] eqn:E; [|discriminate].
    specialize (IH _ _ _ _ eq_refl).
    destruct (negb (tok_comment x)); [|destruct c]; inversion H; subst; cbn; lia.
Qed.
Lemma consume_len : forall toks d, List.length (consume d toks) <= List.length toks.
Proof.
  induction toks as [|x toks IH]; intros d; cbn [consume]; auto.
  assert (L : List.length (match d with 0 => toks | S d' => consume d' toks end) <= S (List.length toks)).
  { destruct d; [lia|]. specialize (IH d). lia. }
  cbn [List.length]. destruct (t_err x); [exact L|].
  destruct (tok_is x "}"); [exact L|].
  destruct (tok_is x "{"); [specialize (IH (S d)) | specialize (IH d)]; lia.
Qed.

(** A token that starts a statement. *)
Definition starts (t : token) : Prop :=
  t_err t = None /\ tok_is t "}" = false /\ tok_comment t = false.
Definition fresh (o : popts) (st : pst) (t : token) (args : list string) : directive :=
  Dir (t_val t) (t_line t) args (file_label o st) None None None false.
Definition comments_of (o : popts) (st : pst) (line : Z) (cs : list string) : list directive :=
  map (comment_dir (file_label o st) line) cs.

Definition failed (r : pres) : Prop := match r with POk _ _ _ => False | PFuel => False | _ => True end.

Section Run.
Variables (o : popts) (dir : string).

Inductive Run : slice -> list token -> pst -> pres -> Prop :=
| R_end : forall ctx st, Run ctx [] st (POk [] [] st)
| R_tokerr : forall ctx st t r e, t_err t = Some e ->
    Run ctx (t :: r) st
      (PErr (token_error (cf_file (p_cur st)) (last_block (read_slice (p_heap st) ctx)) t e) r st)
| R_close : forall ctx st t r, t_err t = None -> tok_is t "}" = true ->
    Run ctx (t :: r) st (POk [] r st)
| R_comment : forall ctx st t r res, t_err t = None -> tok_is t "}" = false -> tok_comment t = true ->
    Run ctx r st res ->
    Run ctx (t :: r) st
      (padd (if o_comments o then [comment_dir (file_label o st) (t_line t) (drop 1 (t_val t))] else []) res)
| R_premature : forall ctx st t r, starts t -> read_args (o_comments o) r = None ->
    Run ctx (t :: r) st
      (PErr (premature_error (cf_file (p_cur st)) (last_block (read_slice (p_heap st) ctx)) (t_line t)) [] st)
| R_panic : forall ctx st t r args cs term rest, starts t ->
    read_args (o_comments o) r = Some (args, cs, term, rest) ->
    decide o dir ctx (fresh o st t args) term st = DPanic ->
    Run ctx (t :: r) st PPanic
| R_err : forall ctx st t r args cs term rest e st', starts t ->
    read_args (o_comments o) r = Some (args, cs, term, rest) ->
    decide o dir ctx (fresh o st t args) term st = DErr e st' ->
    Run ctx (t :: r) st (PErr e rest st')
| R_break : forall ctx st t r args cs term rest st', starts t ->
    read_args (o_comments o) r = Some (args, cs, term, rest) ->
    decide o dir ctx (fresh o st t args) term st = DBreak st' ->
    Run ctx (t :: r) st (POk [] rest st')
| R_skip : forall ctx st t r args cs term rest eat st' res, starts t ->
    read_args (o_comments o) r = Some (args, cs, term, rest) ->
    decide o dir ctx (fresh o st t args) term st = DSkip eat st' ->
    Run ctx (if eat then consume 0 rest else rest) st' res ->
    Run ctx (t :: r) st res
| R_map : forall ctx st t r args cs term rest d res, starts t ->
    read_args (o_comments o) r = Some (args, cs, term, rest) ->
    decide o dir ctx (fresh o st t args) term st = DMap d ->
    Run ctx rest st res ->
    Run ctx (t :: r) st (padd [d] res)
| R_simple : forall ctx st t r args cs term rest d st' res, starts t ->
    read_args (o_comments o) r = Some (args, cs, term, rest) ->
    decide o dir ctx (fresh o st t args) term st = DKeep d st' ->
    String.eqb term "{" = false ->
    Run ctx rest st' res ->
    Run ctx (t :: r) st (padd (d :: comments_of o st (t_line t) cs) res)
| R_block : forall ctx st t r args cs term rest d st' h inner blk rest' st'' res, starts t ->
    read_args (o_comments o) r = Some (args, cs, term, rest) ->
    decide o dir ctx (fresh o st t args) term st = DKeep d st' ->
    String.eqb term "{" = true ->
    enter_block (p_heap st') ctx (d_name d) = (h, inner) ->
    Run inner rest (set_heap st' h) (POk blk rest' st'') ->
    Run ctx rest' st'' res ->
    Run ctx (t :: r) st (padd (set_block d blk :: comments_of o st (t_line t) cs) res)
| R_blockfail : forall ctx st t r args cs term rest d st' h inner res, starts t ->
    read_args (o_comments o) r = Some (args, cs, term, rest) ->
    decide o dir ctx (fresh o st t args) term st = DKeep d st' ->
    String.eqb term "{" = true ->
    enter_block (p_heap st') ctx (d_name d) = (h, inner) ->
    Run inner rest (set_heap st' h) res -> failed res ->
    Run ctx (t :: r) st res.

Definition rest_le (n : nat) (r : pres) : Prop :=
  match r with POk _ rest _ => List.length rest <= n | PErr _ _ _ => True | PPanic => True | PFuel => False end.

Lemma rest_le_padd : forall n ds r, rest_le n (padd ds r) <-> rest_le n r.
Proof. intros n ds []; cbn; tauto. Qed.
Lemma rest_le_weak : forall n m r, n <= m -> rest_le n r -> rest_le m r.
Proof. intros n m []; cbn; lia. Qed.

Lemma parse_run_len : forall fuel ctx toks st, List.length toks < fuel ->
  Run ctx toks st (parse o dir fuel ctx toks st) /\
  rest_le (List.length toks) (parse o dir fuel ctx toks st).
Proof.
  induction fuel as [|fuel IH]; intros ctx toks st L; [lia|]. cbn [parse].
  destruct toks as [|t toks]; [split; [constructor|cbn; lia]|]. cbn [List.length] in L.
  destruct (t_err t) as [e|] eqn:TE; [split; [now constructor|exact I]|].
  destruct (tok_is t "}") eqn:TC; [split; [now constructor|cbn; lia]|].
  destruct (tok_comment t) eqn:TM.
  { destruct (IH ctx toks st ltac:(lia)) as [R LE]. split; [now constructor|].
    rewrite rest_le_padd. eapply rest_le_weak; [|exact LE]. cbn; lia. }
  assert (ST : starts t) by (repeat split; auto).
  destruct (read_args (o_comments o) toks) as [[[[args cs] term] rest]|] eqn:RA;
    [|split; [now constructor|exact I]].
  pose proof (read_args_len _ _ _ _ _ _ RA) as LR.
  destruct (decide o dir ctx (Dir (t_val t) (t_line t) args (file_label o st) None None None false) term st)
    as [d st'|d|eat st'|st'|e st'|] eqn:D.
  - destruct (String.eqb term "{") eqn:TB.
    + destruct (enter_block (p_heap st') ctx (d_name d)) as [h inner] eqn:EB.
      destruct (IH inner rest (set_heap st' h) ltac:(lia)) as [R LE].
      destruct (parse o dir fuel inner rest (set_heap st' h)) as [blk rest' st''|e r' s'| |] eqn:PI.
      * cbn in LE. destruct (IH ctx rest' st'' ltac:(lia)) as [R2 LE2]. split.
        -- eapply R_block; eauto.
        -- rewrite rest_le_padd. eapply rest_le_weak; [|exact LE2]. cbn; lia.
      * split; [eapply R_blockfail; eauto; exact I|exact I].
      * split; [eapply R_blockfail; eauto; exact I|exact I].
      * destruct LE.
    + destruct (IH ctx rest st' ltac:(lia)) as [R LE]. split.
      * eapply R_simple; eauto.
      * rewrite rest_le_padd. eapply rest_le_weak; [|exact LE]. cbn; lia.
  - destruct (IH ctx rest st ltac:(lia)) as [R LE]. split.
    + eapply R_map; eauto.
    + rewrite rest_le_padd. eapply rest_le_weak; [|exact LE]. cbn; lia.
  - assert (LC : List.length (if eat then consume 0 rest else rest) <= List.length rest).
    { destruct eat; [apply consume_len|lia]. }
    destruct (IH ctx (if eat then consume 0 rest else rest) st' ltac:(lia)) as [R LE]. split.
    + eapply R_skip; eauto.
    + eapply rest_le_weak; [|exact LE]. cbn; lia.
  - split; [eapply R_break; eauto|cbn; lia].
  - split; [eapply R_err; eauto|exact I].
  - split; [eapply R_panic; eauto|exact I].
Qed.
Lemma parse_run : forall ctx toks st,
  Run ctx toks st (parse o dir (S (List.length toks)) ctx toks st).
Proof. intros. apply parse_run_len. lia. Qed.
Lemma parse_no_fuel : forall ctx toks st fuel, List.length toks < fuel ->
  parse o dir fuel ctx toks st <> PFuel.
Proof.
  intros ctx toks st fuel L H. destruct (parse_run_len fuel ctx toks st L) as [_ LE].
  rewrite H in LE. exact LE.
Qed.

Lemma run_det : forall ctx toks st r1, Run ctx toks st r1 -> forall r2, Run ctx toks st r2 -> r1 = r2.
Proof.
  intros ctx toks st r1 H. induction H; intros r2 RR; inversion RR; subst;
    repeat match goal with
    | A : starts ?t, B : t_err ?t = Some _ |- _ => destruct A as (A1 & A2 & A3); congruence
    | A : starts ?t, B : tok_is ?t _ = true |- _ => destruct A as (A1 & A2 & A3); congruence
    | A : starts ?t, B : tok_comment ?t = true |- _ => destruct A as (A1 & A2 & A3); congruence
    | A : read_args ?c ?r = _, B : read_args ?c ?r = _ |- _ => rewrite A in B; inversion B; subst; clear B
    | A : decide ?o ?d ?c ?x ?t ?s = _, B : decide ?o ?d ?c ?x ?t ?s = _ |- _ =>
        rewrite A in B; inversion B; subst; clear B
    | A : enter_block ?h ?c ?n = _, B : enter_block ?h ?c ?n = _ |- _ =>
        rewrite A in B; inversion B; subst; clear B
    end; try congruence; auto.
  all: try (f_equal; eauto; fail).
  all: try match goal with
       | IH : forall r2, Run ?c ?t ?s r2 -> POk _ _ _ = r2, B : Run ?c ?t ?s ?x |- _ =>
         apply IH in B; subst; try (inversion B; subst)
       end.
  all: try match goal with
       | IH : forall r2, Run ?c ?t ?s r2 -> ?r = r2, B : Run ?c ?t ?s (POk _ _ _) |- _ =>
         apply IH in B; subst
       end.
  all: try match goal with F : failed (POk _ _ _) |- _ => destruct F end.
  all: try (f_equal; eauto; fail).
Qed.

Lemma run_parse : forall ctx toks st r fuel, List.length toks < fuel -> Run ctx toks st r ->
  parse o dir fuel ctx toks st = r.
Proof.
  intros ctx toks st r fuel L R. eapply run_det; eauto. now apply parse_run_len.
Qed.
End Run.
