(** C53: proofs. *)
From Verif Require Export SpecComplain RejectProofs.
Local Open Scope string_scope.

Lemma expr_bool : forall m d, (N.testbit m 9 && negb (valid_expr (d_args d)))%bool = true <-> bit 9 m /\ ~ paren_expr (d_args d).
Proof. intros m d. unfold bit. rewrite <- valid_expr_iff, andb_true_iff, negb_true_iff, not_true_iff_false. reflexivity. Qed.
Lemma expr_ok : forall m d, (N.testbit m 9 && negb (valid_expr (d_args d)))%bool = false <-> (bit 9 m -> paren_expr (d_args d)).
Proof.
  intros m d. unfold bit. rewrite <- valid_expr_iff. destruct (N.testbit m 9), (valid_expr (d_args d)); cbn; intuition congruence.
Qed.
(** Each mask has exactly one thing against a statement it does not fit. *)
Lemma against_misfit : forall m d term what, against m d term what -> ~ form_fits m d term.
Proof. intros m d term what A (F1 & F2 & F3 & F4). inversion A; subst; auto. Qed.
Lemma against_one : forall m d term w w', against m d term w -> against m d term w' -> w = w'.
Proof.
  intros m d term w w' A B.
  inversion A as [A1 A2|A1 A2 A3|A1 A2 A3|a A1 A2 A3 A4 A5 A6|A1 A2 A3 A4 A5]; inversion B as [B1 B2|B1 B2 B3|B1 B2 B3|a' B1 B2 B3 B4 B5 B6|B1 B2 B3 B4 B5]; subst; auto;
    try (exfalso; now auto).
  - now rewrite A6 in B6; inversion B6.
  - exfalso. apply B5. rewrite A6. auto.
  - exfalso. apply A5. rewrite B6. auto.
Qed.
Lemma check_last : forall d term ms what, Forall (fun m => ~ form_fits m d term) ms ->
  check_masks d term what ms = Some (match rev ms with [] => what | m :: _ => match check_masks d term "" [m] with Some w => w | None => "" end end).
Proof.
  intros d term ms. induction ms as [|m ms IH]; intros what F; [reflexivity|]. inversion F as [|? ? F1 F2]; subst.
  assert (X : exists w, check_masks d term "" [m] = Some w /\ forall w0, check_masks d term w0 (m :: ms) = check_masks d term w ms).
  { destruct (check_masks d term "" [m]) as [w|] eqn:C.
    - exists w. split; auto. intros w0. cbn [check_masks] in C |- *.
      destruct (_ && _)%bool; [now inversion C|]. destruct (_ && _)%bool; [now inversion C|]. destruct (_ && _)%bool; [now inversion C|].
      destruct (valid_args _ _); [discriminate|]. now inversion C.
    - apply check_masks_iff in C as (x & [<-|[]] & FX). contradiction. }
  destruct X as (w & C & N). rewrite N, (IH w F2). cbn [rev]. destruct (rev ms) as [|y l]; [cbn [app]; now rewrite C|reflexivity].
Qed.
Lemma against_eq : forall m d term w w', against m d term w -> w = w' -> against m d term w'.
Proof. intros. now subst. Qed.
Ltac same_text := unfold in_quotes; change s_dq with dq; rewrite !app_assoc_s; reflexivity.
Ltac say C := match type of C with Some ?a = Some ?b => let E := fresh in assert (E : a = b) by congruence; rewrite <- E; clear C E end.
Lemma check_one : forall d term m w, ~ form_fits m d term -> (check_masks d term "" [m] = Some w <-> against m d term w).
Proof.
  intros d term m w NF.
  assert (H : forall v, check_masks d term "" [m] = Some v -> against m d term v).
  { intros v C. cbn [check_masks] in C. change ngxConfExpr with (2 ^ 9)%N in C. change ngxConfBlock with (2 ^ 8)%N in C. change ngxConfFlag with (2 ^ 10)%N in C.
    rewrite !has_bit_pow in C.
    destruct (N.testbit m 9 && negb (valid_expr (d_args d)))%bool eqn:E.
    { say C. apply expr_bool in E as [E1 E2]. eapply against_eq; [exact (ag_expr m d term E1 E2)|same_text]. }
    pose proof (proj1 (expr_ok m d) E) as E0. clear E. rename E0 into E.
    destruct (N.testbit m 8 && negb (String.eqb term "{"))%bool eqn:B.
    { say C. apply andb_true_iff in B as [B1 B2]. apply negb_true_iff, String.eqb_neq in B2. eapply against_eq; [exact (ag_open m d term E B1 B2)|same_text]. }
    destruct (negb (N.testbit m 8) && negb (String.eqb term ";"))%bool eqn:T.
    { say C. apply andb_true_iff in T as [T1 T2]. apply negb_true_iff in T1, T2. apply String.eqb_neq in T2.
      eapply against_eq; [apply (ag_end m d term E); auto; unfold bit; congruence|same_text]. }
    assert (X1 : bit 8 m -> term = "{"). { unfold bit. intros X. rewrite X in B. cbn in B. now apply negb_false_iff, String.eqb_eq in B. }
    assert (X2 : ~ bit 8 m -> term = ";"). { unfold bit. intros X. apply not_true_iff_false in X. rewrite X in T. cbn in T. now apply negb_false_iff, String.eqb_eq in T. }
    destruct (valid_args m (d_args d)) eqn:V; [discriminate|].
    assert (NA : ~ args_fit m (d_args d)). { intros A. apply valid_args_iff in A. congruence. }
    destruct (d_args d) as [|a [|a' r]] eqn:DA.
    - say C. eapply against_eq; [apply ag_count; rewrite ?DA; auto; cbn; intuition discriminate|same_text].
    - destruct (N.testbit m 10 && negb (valid_flag a))%bool eqn:FL.
      + say C. apply andb_true_iff in FL as [F1 F2]. eapply against_eq; [apply (ag_flag m d term a); rewrite ?DA; auto|same_text].
      + say C. eapply against_eq; [apply ag_count; rewrite ?DA; auto|same_text]. unfold bit. intros [F1 _]. rewrite F1 in FL. cbn in FL. apply negb_false_iff in FL.
        apply NA. eapply fit_flag; [reflexivity|exact F1|]. now apply valid_flag_iff.
    - say C. eapply against_eq; [apply ag_count; rewrite ?DA; auto; cbn; intuition discriminate|same_text]. }
  split; [auto|]. intros A. destruct (check_masks d term "" [m]) as [v|] eqn:C.
  - f_equal. eapply against_one; eauto.
  - apply check_masks_iff in C as (x & [<-|[]] & FX). contradiction.
Qed.

(** Only the name and the arguments count. *)
Lemma against_dir : forall m d d' term w, d_name d' = d_name d -> d_args d' = d_args d -> against m d term w -> against m d' term w.
Proof.
  intros m d d' term w N A H. inversion H as [A1 A2|A1 A2 A3|A1 A2 A3|a A1 A2 A3 A4 A5 A6|A1 A2 A3 A4 A5]; subst; rewrite <- N; rewrite <- A in *.
  - now apply ag_expr.
  - now apply ag_open.
  - now apply ag_end.
  - now apply ag_flag.
  - now apply ag_count.
Qed.
Lemma objects_dir : forall o path d d' term w, d_name d' = d_name d -> d_args d' = d_args d -> objects o path d term w -> objects o path d' term w.
Proof.
  intros o path d d' term w N A H. inversion H as [U ST|ms b K PB SC FA|ms b before m after w' K PB SA EM HM FA FB AG|b K PB SC SA]; subst; rewrite <- N in *.
  - now apply ob_unknown.
  - eapply ob_place; eauto.
  - eapply ob_form; eauto.
    + eapply Forall_impl; [|exact FB]. cbn. intros x NF HX F. apply (NF HX). unfold form_fits in *. now rewrite A in F.
    + eapply against_dir; eauto.
  - eapply ob_nothing; eauto.
Qed.
Lemma entry_dir : forall b d d' term w, d_name d' = d_name d -> d_args d' = d_args d -> objects_entry b d term w -> objects_entry b d' term w.
Proof. intros b d d' term w N A H. inversion H; subst; [now apply oe_end|]. apply oe_count; auto. now rewrite N, A. Qed.

(** [analyze] reports what is said against the statement. *)
Lemma last_filter : forall (f : N -> bool) ms, rev (filter f ms) = filter f (rev ms).
Proof.
  intros f ms. induction ms as [|m ms IH]; [reflexivity|]. cbn. rewrite filter_app. cbn. destruct (f m); cbn; rewrite IH; auto using app_nil_r.
Qed.
Lemma objection_stmt : forall f path d what, d_block d = None -> EParse (stmt_error f d (last_block path) what) = objection f path d what.
Proof.
  intros f path d what N. unfold objection, stmt_error, dir_string. rewrite N. cbn [opt_list]. f_equal. f_equal.
  unfold last_block, innermost. destruct path as [|x p]; auto. revert x. induction p as [|y p IH]; intros x; [reflexivity|]. cbn [last] in *. apply IH.
Qed.
Ltac say_same := unfold stmt_error, in_quotes; change s_dq with dq; rewrite ?app_assoc_s; reflexivity.
Lemma analyze_objects : forall o f d term path, plain_path path -> d_block d = None -> forall what,
  objects o path d term what -> option_map EParse (analyze o f d term path) = Some (objection f path d what).
Proof.
  intros o f d term path PP NB what O. unfold analyze. rewrite contexts_spec by auto. destruct (find_masks_spec o (d_name d)) as [FK FU].
  inversion O as [U ST|ms b K PB SC FA|ms b before m after w K PB SA EM HM FA FB AG|b K PB SC SA]; subst.
  - rewrite (FU U), ST. cbn [negb andb option_map]. rewrite <- objection_stmt by exact NB. say_same.
  - rewrite (FK _ K), PB, SC. cbn [negb andb option_map]. rewrite andb_false_r.
    assert (E : filter (fun m => has_bit m (2 ^ b)) ms = []).
    { clear - FA. induction FA as [|m ms N F IH]; [reflexivity|]. cbn. rewrite has_bit_pow. apply not_true_iff_false in N. now rewrite N. }
    rewrite E. cbn [option_map]. rewrite <- objection_stmt by exact NB. say_same.
  - rewrite (FK _ K), PB, SA. cbn [negb option_map]. rewrite andb_false_r.
    set (cm := if o_skipctx o then (before ++ m :: after)%list else filter (fun m => has_bit m (2 ^ b)) (before ++ m :: after)%list).
    set (P := fun x => o_skipctx o = true \/ bit b x).
    assert (CM : exists c, cm = (c ++ [m])%list /\ Forall (fun x => In x before /\ P x) c).
    { unfold cm, P. destruct (o_skipctx o) eqn:SC.
      - destruct after as [|x after]; [|inversion FA as [|? ? X]; exfalso; apply X; auto]. exists before. split; auto. apply Forall_forall. auto.
      - exists (filter (fun m => has_bit m (2 ^ b)) before). split.
        + rewrite filter_app. f_equal. cbn. rewrite has_bit_pow. destruct HM as [?|HM]; [discriminate|]. unfold bit in HM. rewrite HM. f_equal.
          clear - FA. induction FA as [|x l N F IH]; [reflexivity|]. cbn. rewrite has_bit_pow. destruct (N.testbit x b) eqn:T; auto. exfalso. apply N. auto.
        + apply Forall_forall. intros x I. apply filter_In in I as [I1 I2]. rewrite has_bit_pow in I2. auto. }
    destruct CM as (c & CM & FC).
    assert (NA : (negb (o_skipctx o) && match cm with [] => true | _ => false end)%bool = false).
    { rewrite CM. destruct c; cbn; apply andb_false_r. }
    rewrite NA.
    assert (NF : ~ form_fits m d term) by (eapply against_misfit; eauto).
    assert (FF : Forall (fun x => ~ form_fits x d term) cm).
    { rewrite CM. apply Forall_app. split; [|constructor; auto]. rewrite Forall_forall in FC, FB |- *. intros x I. destruct (FC x I) as [I1 I2]. auto. }
    rewrite (check_last d term cm "" FF), CM, rev_app_distr. cbn [rev app].
    apply (check_one d term m _ NF) in AG. rewrite AG. cbn [option_map]. rewrite <- objection_stmt by exact NB. say_same.
  - rewrite (FK _ K), PB, SC, SA. cbn [negb andb option_map check_masks]. rewrite andb_false_r. cbn [option_map]. rewrite <- objection_stmt by exact NB. say_same.
Qed.
Lemma objects_total : forall o path d term, ~ accepts o path d term -> exists what, objects o path d term what.
Proof.
  intros o path d term N. destruct (knows_dec o (d_name d)) as [[ms K]|U].
  2: { destruct (o_strict o) eqn:S; [|exfalso; apply N; apply acc_unknown; auto]. eexists. apply ob_unknown; auto. }
  destruct (path_bit path) as [b|] eqn:PB; [|exfalso; apply N; eapply acc_path; eauto].
  assert (D : forall x, o_skipctx o = true \/ bit b x \/ ~ (o_skipctx o = true \/ bit b x)).
  { intros x. unfold bit. destruct (o_skipctx o), (N.testbit x b); auto. right. right. intros [X|X]; discriminate. }
  assert (L : Forall (fun x => ~ (o_skipctx o = true \/ bit b x)) ms \/
              exists before m after, ms = (before ++ m :: after)%list /\ (o_skipctx o = true \/ bit b m) /\ Forall (fun x => ~ (o_skipctx o = true \/ bit b x)) after).
  { clear - D. induction ms as [|x ms IH]; [left; constructor|]. destruct IH as [IH|(be & m & af & -> & A & B)].
    - destruct (D x) as [X|[X|X]]; [right; exists [], x, ms; auto..|left; constructor; auto].
    - right. exists (x :: be), m, af. auto. }
  destruct L as [L|(before & m & after & -> & HM & FA)].
  - destruct (o_skipctx o) eqn:SC.
    + destruct ms as [|x ms]; [|inversion L as [|? ? X]; exfalso; apply X; auto].
      destruct (o_skipargs o) eqn:SA; [exfalso; apply N; eapply acc_unchecked; eauto|]. eexists. eapply ob_nothing; eauto.
    + eexists. eapply ob_place; eauto. eapply Forall_impl; [|exact L]. cbn. tauto.
  - destruct (o_skipargs o) eqn:SA.
    { exfalso. apply N. eapply acc_mask; [exact K|exact PB| |exact HM|auto]. apply in_or_app. right. now left. }
    assert (NF : forall x, In x (before ++ m :: after) -> o_skipctx o = true \/ bit b x -> ~ form_fits x d term).
    { intros x I HX F. apply N. eapply acc_mask; eauto. }
    assert (NM : ~ form_fits m d term). { apply NF; auto. apply in_or_app. right. now left. }
    destruct (check_masks d term "" [m]) as [w|] eqn:C.
    + exists w. eapply ob_form; eauto.
      * apply Forall_forall. intros x I. apply NF. apply in_or_app. auto.
      * now apply check_one.
    + apply check_masks_iff in C as (x & [<-|[]] & F). contradiction.
Qed.
Theorem analyze_says : forall o f d term path e, plain_path path -> d_block d = None ->
  (analyze o f d term path = Some e <-> exists what, objects o path d term what /\ EParse e = objection f path d what).
Proof.
  intros o f d term path e PP NB. split.
  - intros A. destruct (objects_total o path d term) as [w W].
    { intros AC. apply (analyze_accepts o f) in AC; auto. congruence. }
    exists w. split; auto. pose proof (analyze_objects o f d term path PP NB w W) as X. rewrite A in X. now inversion X.
  - intros (w & W & E). pose proof (analyze_objects o f d term path PP NB w W) as X. destruct (analyze o f d term path) as [e'|]; [|discriminate]. cbn [option_map] in X. rewrite <- E in X. congruence.
Qed.
(** A statement is accepted, or exactly one thing is said against it. *)
Theorem objects_one : forall o path d term, plain_path path -> d_block d = None -> forall w w',
  objects o path d term w -> objects o path d term w' -> w = w'.
Proof.
  intros o path d term PP NB w w' A B. apply (analyze_objects o "" d term path PP NB) in A, B. rewrite A in B. inversion B. auto.
Qed.
Theorem objects_iff : forall o path d term, plain_path path -> d_block d = None ->
  (~ accepts o path d term <-> exists what, objects o path d term what).
Proof.
  intros o path d term PP NB. split; [apply objects_total|]. intros (w & W) A. apply (analyze_accepts o "") in A; auto.
  apply (analyze_objects o "" d term path PP NB) in W. rewrite A in W. discriminate.
Qed.

(** Entries of map-like blocks. *)
Lemma map_objects : forall f d term path, inside_map path -> d_block d = None -> forall what,
  objects_entry (last path "") d term what -> option_map EParse (analyze_map_body f d term (last path "")) = Some (objection f path d what).
Proof.
  intros f d term path [NE MB] NB what O.
  assert (I : innermost path = last path "") by (unfold innermost; now destruct path).
  assert (X : forall w, EParse (stmt_error f d (last path "") w) = objection f path d w).
  { intros w. unfold objection, stmt_error, dir_string. rewrite NB, I. reflexivity. }
  destruct (analyze_map_body f d term (last path "")) as [e|] eqn:A.
  - cbn [option_map]. f_equal. rewrite <- X. unfold analyze_map_body in A. destruct (assoc (last path "") map_bodies) as [mm|]; [|discriminate].
    inversion O as [T|T F]; subst.
    + apply String.eqb_neq in T. rewrite T in A. cbn [negb] in A. inversion A. say_same.
    + cbn [String.eqb negb] in A. change (String.eqb ";" ";") with true in A. cbn [negb] in A. destruct (assoc (d_name d) (mm_special mm)); destruct (valid_args _ _); inversion A; reflexivity.
  - exfalso. apply analyze_map_body_iff in A; auto. destruct A as [A1 A2]. inversion O; subst; auto.
Qed.
Theorem map_says : forall f d term path e, inside_map path -> d_block d = None ->
  (analyze_map_body f d term (last path "") = Some e <-> exists what, objects_entry (last path "") d term what /\ EParse e = objection f path d what).
Proof.
  intros f d term path e M NB. split.
  - intros A.
    assert (W : exists w, objects_entry (last path "") d term w).
    { destruct (string_dec term ";") as [T|T]; [|eexists; now apply oe_end]. eexists. apply oe_count; auto. intros F.
      assert (X : analyze_map_body f d term (last path "") = None) by (apply analyze_map_body_iff; [apply M|auto]). congruence. }
    destruct W as [w W]. exists w. split; auto. pose proof (map_objects f d term path M NB w W) as X. rewrite A in X. now inversion X.
  - intros (w & W & E). pose proof (map_objects f d term path M NB w W) as X. destruct (analyze_map_body _ _ _ _) as [e'|]; [|discriminate].
    cbn [option_map] in X. rewrite <- E in X. congruence.
Qed.
