(** Proofs about analyze.go/analyze_map.go (C20, C21, C24). *)
From Verif Require Import Util SpecValidate.
Local Open Scope string_scope.

Lemma has_bit_pow : forall mask n, has_bit mask (2 ^ n) = N.testbit mask n.
Proof.
  intros. unfold has_bit, nz. destruct (N.testbit mask n) eqn:E.
  - destruct (N.eqb_spec (N.land mask (2 ^ n)) 0) as [Z|]; auto.
    assert (T : N.testbit (N.land mask (2 ^ n)) n = true)
      by (rewrite N.land_spec, E, N.pow2_bits_true; auto).
    rewrite Z, N.bits_0 in T. discriminate.
  - destruct (N.eqb_spec (N.land mask (2 ^ n)) 0) as [Z|NZ]; auto.
    exfalso. apply NZ. apply N.bits_inj_0. intros m. rewrite N.land_spec.
    destruct (N.eq_dec n m) as [<-|D].
    + now rewrite E.
    + rewrite N.pow2_bits_false by auto. apply andb_false_r.
Qed.
Lemma take_bit : forall mask n, nz (N.land (N.shiftr mask n) 1) = N.testbit mask n.
Proof.
  intros. change 1%N with (2 ^ 0)%N. change (nz (N.land ?a ?b)) with (has_bit a b).
  rewrite has_bit_pow, N.shiftr_spec by lia. f_equal; lia.
Qed.

Lemma lower_byte_cases : forall c x,
  In x ["o"%char; "n"%char; "f"%char] ->
  (lower_byte c = x <-> c = x \/ c = byte (bval x - 32)).
Proof.
  intros c x Hx. destruct Hx as [<-|[<-|[<-|[]]]];
    destruct c as [[] [] [] [] [] [] [] []]; vm_compute; split; intros H; auto; try discriminate;
    destruct H; discriminate.
Qed.

Lemma valid_flag_iff : forall a, valid_flag a = true <-> In a flag_words.
Proof.
  intros a. split.
  - unfold valid_flag. intros H. apply orb_true_iff in H.
    assert (L : forall c x, In x ["o"%char; "n"%char; "f"%char] -> lower_byte c = x ->
              c = x \/ c = byte (bval x - 32)) by (intros; now apply lower_byte_cases).
    destruct H as [H|H]; apply String.eqb_eq in H.
    + destruct a as [|c1 [|c2 [|c3 a]]]; cbn in H; try discriminate.
      injection H as H1 H2. apply L in H1; [|cbn; tauto]. apply L in H2; [|cbn; tauto].
      destruct H1 as [->| ->], H2 as [->| ->]; cbn; auto 20.
    + destruct a as [|c1 [|c2 [|c3 [|c4 a]]]]; cbn in H; try discriminate.
      injection H as H1 H2 H3. apply L in H1; [|cbn; tauto]. apply L in H2; [|cbn; tauto].
      apply L in H3; [|cbn; tauto].
      destruct H1 as [->| ->], H2 as [->| ->], H3 as [->| ->]; cbn; auto 20.
  - intros H. cbn in H. repeat (destruct H as [<-|H]; [reflexivity|]). destruct H.
Qed.

Lemma valid_args_iff : forall mask args, valid_args mask args = true <-> args_fit mask args.
Proof.
  intros. unfold valid_args.
  change ngxConfFlag with (2 ^ 10)%N. change ngxConfAny with (2 ^ 11)%N.
  change ngxConf1More with (2 ^ 12)%N. change ngxConf2More with (2 ^ 13)%N.
  rewrite !has_bit_pow, take_bit. split.
  - intros H. repeat rewrite orb_true_iff in H. repeat rewrite andb_true_iff in H.
    destruct H as [[[[[H1 H2]|[[H1 H2] H3]]|H]|[H1 H2]]|[H1 H2]].
    + apply fit_take; auto. now apply Nat.leb_le.
    + apply Nat.eqb_eq in H2. destruct args as [|a [|]]; try discriminate.
      eapply fit_flag; eauto. now apply valid_flag_iff.
    + now apply fit_any.
    + apply fit_1more; auto. now apply Nat.leb_le.
    + apply fit_2more; auto. now apply Nat.leb_le.
  - intros H. repeat rewrite orb_true_iff. repeat rewrite andb_true_iff.
    destruct H as [H1 H2|a -> H1 H2|H|H1 H2|H1 H2]; unfold bit in *.
    + left; left; left; left. split; auto. now apply Nat.leb_le.
    + left; left; left; right. apply valid_flag_iff in H2. auto.
    + auto.
    + left; right. split; auto. now apply Nat.leb_le.
    + right. split; auto. now apply Nat.leb_le.
Qed.

Lemma valid_expr_iff : forall args, valid_expr args = true <-> paren_expr args.
Proof.
  intros args. unfold valid_expr, paren_expr. destruct args as [|a0 r].
  - split; [discriminate|]. intros (_ & _ & H & _). congruence.
  - set (args := a0 :: r). cbn [hd]. rewrite !andb_true_iff.
    rewrite has_prefix_iff, has_suffix_iff. rewrite !orb_true_iff, !andb_true_iff, !orb_true_iff.
    rewrite !Nat.eqb_eq, !Nat.ltb_lt.
    split.
    + intros [[P S] C]. repeat split; auto; unfold args in *; try congruence.
      * intros E. inversion E; subst. cbn in C. lia.
      * intros E. inversion E; subst. cbn in C. lia.
    + intros (P & S & _ & N1 & N2). repeat split; auto.
      destruct P as [p P]. destruct S as [s S].
      unfold args in *. clear args. cbn [hd] in P.
      destruct r as [|a1 [|a2 r]]; cbn [List.length last] in *.
      * left; left. split; auto. rewrite P in S, N1 |- *. clear P. cbn in S |- *.
        destruct p as [|c p].
        { destruct s as [|? [|]]; discriminate. }
        { cbn. destruct p; cbn; try lia. destruct s as [|? [|? [|]]]; try discriminate.
          cbn in S. inversion S; subst. cbn in N1. congruence. }
      * left; right. split; auto.
        destruct (Nat.lt_ge_cases 1 (slen a0)); auto.
        destruct (Nat.lt_ge_cases 1 (slen a1)); auto.
        exfalso. apply N2. subst a0. destruct p; [|cbn in *; lia].
        unfold last in S. subst a1. rewrite app_slen in *. cbn in *.
        destruct s; [|cbn in *; lia]. reflexivity.
      * right. cbn. lia.
Qed.

Lemma check_masks_iff : forall d term ms what,
  check_masks d term what ms = None <-> exists mask, In mask ms /\ form_fits mask d term.
Proof.
  intros d term ms. induction ms as [|m ms IH]; intros what; cbn [check_masks].
  - split; [discriminate | intros [m [[] _]]].
  - change ngxConfExpr with (2 ^ 9)%N. change ngxConfBlock with (2 ^ 8)%N.
    rewrite !has_bit_pow.
    assert (E : (N.testbit m 9 && negb (valid_expr (d_args d)))%bool = false <->
                (bit 9 m -> paren_expr (d_args d))).
    { unfold bit. rewrite <- valid_expr_iff. destruct (N.testbit m 9), (valid_expr (d_args d)); cbn;
        split; intros H; auto; try discriminate; exfalso; specialize (H eq_refl); discriminate. }
    assert (B : (N.testbit m 8 && negb (String.eqb term "{"))%bool = false <->
                (bit 8 m -> term = "{")).
    { unfold bit. rewrite <- String.eqb_eq. destruct (N.testbit m 8), (String.eqb term "{"); cbn;
        split; intros H; auto; try discriminate; exfalso; specialize (H eq_refl); discriminate. }
    assert (C : (negb (N.testbit m 8) && negb (String.eqb term ";"))%bool = false <->
                (~ bit 8 m -> term = ";")).
    { unfold bit. rewrite <- String.eqb_eq. destruct (N.testbit m 8), (String.eqb term ";"); cbn;
        split; intros H; auto; try discriminate; try (exfalso; apply H; discriminate).
      assert (X : false = true) by (apply H; discriminate). discriminate. }
    assert (R : forall w, ~ form_fits m d term -> (check_masks d term w ms = None <->
       exists mask, In mask (m :: ms) /\ form_fits mask d term)).
    { intros w NF. rewrite IH. split; intros [k [I F]]; exists k; split; auto.
      - now right.
      - destruct I as [->|I]; auto. contradiction. }
    destruct (N.testbit m 9 && negb (valid_expr (d_args d)))%bool.
    { apply R. intros (F & _). apply E in F. discriminate. }
    destruct (N.testbit m 8 && negb (String.eqb term "{"))%bool.
    { apply R. intros (_ & F & _). apply B in F. discriminate. }
    destruct (negb (N.testbit m 8) && negb (String.eqb term ";"))%bool.
    { apply R. intros (_ & _ & F & _). apply C in F. discriminate. }
    destruct (valid_args m (d_args d)) eqn:VA.
    + split; auto. intros _. exists m. split; [now left|].
      apply valid_args_iff in VA. unfold form_fits.
      split; [now apply E|split; [now apply B|split; [now apply C|exact VA]]].
    + apply R. intros (_ & _ & _ & F). apply valid_args_iff in F. congruence.
Qed.

(** ** Sources *)
Definition answers (name : string) (f : match_func) : bool :=
  match f name with Some _ => true | None => false end.
Definition answer (name : string) (f : match_func) : list N :=
  match f name with Some l => l | None => [] end.
Lemma answers_iff : forall name f, answers name f = true <-> f name <> None.
Proof. intros. unfold answers. destruct (f name); split; congruence. Qed.
Lemma source_masks_acc : forall sources name acc,
  fold_left (fun (acc : list N * bool) (fn : match_func) => match fn name with
                           | Some ms => ((fst acc ++ ms)%list, true)
                           | None => acc
                           end) sources acc =
  ((fst acc ++ flat_map (answer name) sources)%list,
   (snd acc || existsb (answers name) sources)%bool).
Proof.
  unfold answer, answers. induction sources as [|f s IH]; intros name acc; cbn.
  - rewrite app_nil_r, orb_false_r. destruct acc; auto.
  - rewrite IH. destruct (f name); cbn.
    + rewrite app_assoc, orb_true_r. auto.
    + auto.
Qed.
Lemma knows_sources : forall o name ms, o_sources o <> [] ->
  (knows o name ms <-> existsb (answers name) (o_sources o) = true /\
   ms = flat_map (answer name) (o_sources o)).
Proof.
  intros o name ms N. unfold knows. split.
  - intros [[H _]|(_ & f & I & A & ->)]; [contradiction|]. split; [|reflexivity].
    apply existsb_exists. exists f. rewrite answers_iff. auto.
  - intros [X ->]. right. split; auto. apply existsb_exists in X. destruct X as [f [I A]].
    apply answers_iff in A. exists f. auto.
Qed.

Lemma find_masks_spec : forall o name,
  (forall ms, knows o name ms -> find_masks o name = (ms, true)) /\
  (unknown o name -> find_masks o name = ([], false)).
Proof.
  intros o name. unfold find_masks, source_masks, unknown.
  destruct (o_sources o) as [|f s] eqn:E.
  - unfold knows. rewrite E. split.
    + intros ms [[_ H]|[H _]]; [now rewrite H | congruence].
    + intros H. destruct (o_default o name) as [ms|]; auto. exfalso. eapply H. left; eauto.
  - rewrite source_masks_acc. cbn [fst snd app orb].
    assert (N : o_sources o <> []) by (rewrite E; discriminate).
    rewrite <- E. split.
    + intros ms K. apply knows_sources in K; auto. destruct K as [-> ->]. reflexivity.
    + intros H. destruct (existsb (answers name) (o_sources o)) eqn:X.
      * exfalso. eapply H. apply knows_sources; auto.
      * f_equal. revert X. generalize (o_sources o). induction l as [|g l IH]; cbn; intros A; auto.
        apply orb_false_iff in A as [A1 A2]. rewrite IH by auto.
        unfold answers in A1. unfold answer. destruct (g name); [discriminate|auto].
Qed.
Lemma knows_dec : forall o name, (exists ms, knows o name ms) \/ unknown o name.
Proof.
  intros. unfold unknown. destruct (o_sources o) as [|f s] eqn:E.
  - unfold knows. rewrite E. destruct (o_default o name) as [ms|] eqn:D.
    + left. exists ms. auto.
    + right. intros ms [[_ H]|[H _]]; congruence.
  - assert (N : o_sources o <> []) by (rewrite E; discriminate).
    destruct (existsb (answers name) (o_sources o)) eqn:X.
    + left. eexists. apply knows_sources; eauto.
    + right. intros ms K. apply knows_sources in K; auto. destruct K. congruence.
Qed.
Lemma knows_fun : forall o name m1 m2, knows o name m1 -> knows o name m2 -> m1 = m2.
Proof.
  intros o name m1 m2 [[A B]|(A & f & _ & _ & B)] [[C D]|(C & g & _ & _ & D)]; congruence.
Qed.

(** ** Context keys *)
Lemma join_cons2 : forall a b l sep, join (a :: b :: l) sep = a ++ sep ++ join (b :: l) sep.
Proof. reflexivity. Qed.

Lemma split_join : forall c l, l <> [] -> Forall (fun s => str_exists (Ascii.eqb c) s = false) l ->
  split c (join l (str1 c)) = l.
Proof.
  assert (W : forall c s, str_exists (Ascii.eqb c) s = false -> split c s = [s]).
  { induction s as [|d s IH]; cbn; intros H; auto.
    unfold str_exists in H. cbn in H. apply orb_false_iff in H as [H1 H2].
    rewrite Ascii.eqb_sym, H1. fold (str_exists (Ascii.eqb c) s) in H2. rewrite IH; auto. }
  assert (A : forall c s t, str_exists (Ascii.eqb c) s = false ->
                split c (s ++ String c t) = s :: split c t).
  { induction s as [|d s IH]; cbn; intros t H.
    - now rewrite Ascii.eqb_refl.
    - unfold str_exists in H. cbn in H. apply orb_false_iff in H as [H1 H2].
      rewrite Ascii.eqb_sym, H1. fold (str_exists (Ascii.eqb c) s) in H2. now rewrite IH. }
  intros c l. induction l as [|a [|b l] IH]; intros N F; [congruence| |].
  - inversion F; subst. cbn. now apply W.
  - rewrite join_cons2. cbn [str1 String.append]. inversion F; subst. rewrite A by auto.
    f_equal. apply IH; auto. discriminate.
Qed.

Lemma ctx_key_inj : forall p q, plain_path p -> plain_path q -> ctx_key p = ctx_key q -> p = q.
Proof.
  unfold ctx_key, plain_path. intros p q P Q E.
  assert (P' : Forall (fun s => str_exists (Ascii.eqb ">"%char) s = false) p)
    by (eapply Forall_impl; [|exact P]; intros a H; apply H).
  assert (Q' : Forall (fun s => str_exists (Ascii.eqb ">"%char) s = false) q)
    by (eapply Forall_impl; [|exact Q]; intros a H; apply H).
  assert (Z : forall l, Forall (fun n => n <> "" /\ str_exists (Ascii.eqb ">"%char) n = false) l ->
             join l ">" = "" -> l = []).
  { intros [|a [|b l]] F H; auto; inversion F; subst.
    - cbn in H. destruct H2. congruence.
    - rewrite join_cons2 in H. apply app_eq_nil_s in H. destruct H2. destruct H. congruence. }
  destruct p as [|a p].
  { symmetry. apply Z; auto. }
  destruct q as [|b q].
  { apply Z; auto. }
  rewrite <- (split_join ">"%char (a :: p)), <- (split_join ">"%char (b :: q)); auto; try discriminate.
  change (str1 ">") with ">". now rewrite E.
Qed.

Definition context_paths : list (list string) :=
  [ []; ["events"]; ["mail"]; ["mail"; "server"]; ["stream"]; ["stream"; "server"];
    ["stream"; "upstream"]; ["http"]; ["http"; "server"]; ["http"; "location"]; ["http"; "upstream"];
    ["http"; "server"; "if"]; ["http"; "location"; "if"]; ["http"; "location"; "limit_except"];
    ["mgmt"]; ["http"; "oidc_provider"] ].
Lemma context_paths_plain : Forall plain_path context_paths.
Proof.
  unfold context_paths, plain_path.
  repeat (constructor; [repeat (constructor; [split; [discriminate|reflexivity]|]); constructor|]).
  constructor.
Qed.
Lemma path_bit_listed : forall p b, path_bit p = Some b -> In p context_paths.
Proof.
  intros p b. unfold path_bit, context_paths.
  repeat match goal with
         | |- context [match ?x with _ => _ end] => destruct x; cbn; try discriminate; auto 20
         end.
Qed.

Lemma assoc_map_key : forall (L : list (list string * N)) p,
  plain_path p -> Forall (fun q => plain_path (fst q)) L ->
  assoc (ctx_key p) (map (fun q => (ctx_key (fst q), snd q)) L) =
  match find (fun q => str_list_eqb p (fst q)) L with Some q => Some (snd q) | None => None end.
Proof.
  intros L p P. induction L as [|[q v] L IH]; cbn [map assoc find fst snd]; intros F; auto.
  inversion F; subst. cbn [fst] in H1.
  destruct (String.eqb (ctx_key p) (ctx_key q)) eqn:E.
  - apply String.eqb_eq in E. apply ctx_key_inj in E; auto. rewrite E.
    now rewrite (proj2 (str_list_eqb_eq q q) eq_refl).
  - destruct (str_list_eqb p q) eqn:X; auto. apply str_list_eqb_eq in X. subst.
    rewrite String.eqb_refl in E. discriminate.
Qed.

Lemma find_context : forall p,
  match find (fun q => str_list_eqb p (fst q)) (map (fun q => (q, match path_bit q with Some b => b | None => 0%N end)) context_paths)
  with Some q => Some (snd q) | None => None end = path_bit p.
Proof.
  intros p. destruct (path_bit p) as [b|] eqn:E.
  - pose proof (path_bit_listed _ _ E) as I. cbn in I.
    repeat (destruct I as [<-|I]; [vm_compute in E |- *; auto|]). destruct I.
  - destruct (find _ _) as [[q v]|] eqn:F; auto.
    apply find_some in F. destruct F as [I X]. cbn in X. apply str_list_eqb_eq in X. subst p.
    apply in_map_iff in I. destruct I as [q' [E' I]]. inversion E'; subst.
    exfalso. cbn in I. repeat (destruct I as [<-|I]; [discriminate E|]). destruct I.
Qed.

Lemma contexts_spec : forall p, plain_path p ->
  assoc (ctx_key p) contexts = option_map (fun b => (2 ^ b)%N) (path_bit p).
Proof.
  intros p P. rewrite <- find_context.
  set (L := map (fun q => (q, match path_bit q with Some b => (2 ^ b)%N | None => 0%N end)) context_paths).
  replace contexts with (map (fun q : list string * N => (ctx_key (fst q), snd q)) L) by reflexivity.
  rewrite assoc_map_key; auto.
  - unfold L. generalize context_paths_plain. 
    assert (G : Forall (fun q => path_bit q <> None) context_paths).
    { repeat (constructor; [discriminate|]). constructor. }
    revert G. generalize context_paths. induction l as [|q l IH]; intros G Q; auto.
    inversion G; inversion Q; subst. cbn.
    destruct (str_list_eqb p q); cbn; auto. destruct (path_bit q); cbn; congruence.
  - unfold L. apply Forall_forall. intros q I. apply in_map_iff in I. destruct I as [q' [<- I]]. cbn.
    eapply Forall_forall in I; [exact I | apply context_paths_plain].
Qed.

(** ** C20 *)
Lemma analyze_accepts : forall o fname d term path, plain_path path ->
  (analyze o fname d term path = None <-> accepts o path d term).
Proof.
  intros o fname d term path P. unfold analyze. rewrite contexts_spec by auto.
  destruct (find_masks_spec o (d_name d)) as [FK FU].
  destruct (knows_dec o (d_name d)) as [[ms K]|U].
  - rewrite (FK _ K). rewrite andb_false_r.
    destruct (path_bit path) as [b|] eqn:PB; cbn [option_map].
    + cbn [negb].
      set (cm := if o_skipctx o then ms else filter (fun m => has_bit m (2 ^ b)) ms).
      assert (CM : forall m, In m cm <-> In m ms /\ (o_skipctx o = true \/ bit b m)).
      { intros m. unfold cm, bit. destruct (o_skipctx o); [tauto|].
        rewrite filter_In, has_bit_pow. intuition discriminate. }
      destruct (negb (o_skipctx o) && match cm with [] => true | _ => false end)%bool eqn:NA.
      * apply andb_true_iff in NA as [NA1 NA2]. apply negb_true_iff in NA1.
        split; [discriminate|]. intros A. exfalso. destruct A.
        -- eapply H; eauto.
        -- congruence.
        -- congruence.
        -- assert (In mask cm) by (apply CM; split; [rewrite (knows_fun _ _ _ _ K H); auto|];
             assert (b = b0) by congruence; subst; auto).
           destruct cm; [auto|discriminate].
      * apply andb_false_iff in NA.
        destruct (o_skipargs o) eqn:SA.
        -- split; auto. intros _. destruct (o_skipctx o) eqn:SC.
           ++ eapply acc_unchecked; eauto.
           ++ destruct NA as [NA|NA]; [discriminate|]. destruct cm as [|m cm'] eqn:ECM; [discriminate|].
              assert (I : In m (m :: cm')) by (now left). apply CM in I. destruct I as [I1 I2].
              eapply acc_mask; eauto.
              rewrite SC. destruct I2; auto.
        -- destruct (check_masks d term "" cm) eqn:CK.
           ++ split; [discriminate|]. intros A. exfalso.
              assert (exists mask, In mask cm /\ form_fits mask d term).
              { destruct A; try congruence.
                - exfalso. eapply H; eauto.
                - exists mask. destruct H3; [congruence|]. split; auto. apply CM.
                  split; [rewrite (knows_fun _ _ _ _ K H); auto|].
                  assert (b = b0) by congruence; subst; auto. }
              rewrite <- check_masks_iff with (what := "") in H. congruence.
           ++ split; auto. intros _. apply check_masks_iff in CK. destruct CK as [m [I F]].
              apply CM in I. destruct I. eapply acc_mask; eauto.
    + split; auto. intros _. eapply acc_path; eauto.
  - rewrite (FU U). cbn [negb]. rewrite andb_true_r. destruct (o_strict o) eqn:S.
    + split; [discriminate|]. intros A. exfalso. destruct A; try congruence; eapply U; eauto.
    + split; [|now destruct (option_map _ _)]. intros _. apply acc_unknown; auto.
Qed.

(** The verdict does not depend on the order of masks or sources. *)
Lemma accepts_sources_perm : forall o o' path d term,
  Permutation (o_sources o) (o_sources o') ->
  o_default o' = o_default o -> o_strict o' = o_strict o ->
  o_skipctx o' = o_skipctx o -> o_skipargs o' = o_skipargs o ->
  accepts o path d term -> accepts o' path d term.
Proof.
  intros o o' path d term PM E1 E2 E3 E4 A.
  assert (K : forall ms, knows o (d_name d) ms -> exists ms', knows o' (d_name d) ms' /\ Permutation ms ms').
  { intros ms [[H1 H2]|(H1 & f & H2 & H3 & ->)].
    - exists ms. split; auto. left. rewrite H1 in PM. apply Permutation_nil in PM. rewrite E1. auto.
    - eexists. split.
      + right. split.
        * intros N. rewrite N in PM. apply Permutation_sym, Permutation_nil in PM. auto.
        * exists f. split; [eapply Permutation_in; eauto|]. split; [exact H3|reflexivity].
      + now apply Permutation_flat_map. }
  assert (U : unknown o (d_name d) -> unknown o' (d_name d)).
  { intros U ms [[H1 H2]|(H1 & f & H2 & H3 & _)].
    - rewrite H1 in PM. apply Permutation_sym, Permutation_nil in PM. eapply U. left.
      rewrite E1 in H2. eauto.
    - eapply U. right. split.
      + intros N. rewrite N in PM. apply Permutation_nil in PM. auto.
      + exists f. split; [eapply Permutation_in; [apply Permutation_sym; eauto | auto]|].
        split; [exact H3|reflexivity]. }
  destruct A.
  - apply acc_unknown; auto. congruence.
  - destruct (K _ H) as [ms' [K' _]]. eapply acc_path; eauto.
  - destruct (K _ H) as [ms' [K' _]]. eapply acc_unchecked; eauto; congruence.
  - destruct (K _ H) as [ms' [K' PM']]. eapply acc_mask; eauto.
    + eapply Permutation_in; eauto.
    + rewrite E3. auto.
    + rewrite E4. auto.
Qed.

Lemma accepts_masks_perm : forall o o' path d term,
  Forall2 (same_answer (d_name d)) (o_sources o) (o_sources o') ->
  same_answer (d_name d) (o_default o) (o_default o') ->
  o_strict o' = o_strict o -> o_skipctx o' = o_skipctx o -> o_skipargs o' = o_skipargs o ->
  accepts o path d term -> accepts o' path d term.
Proof.
  assert (G : forall n l l', Forall2 (same_answer n) l l' ->
    existsb (answers n) l = existsb (answers n) l' /\ Permutation (flat_map (answer n) l) (flat_map (answer n) l')).
  { intros n l l' F. induction F as [|f g l l' S F [IH1 IH2]]; cbn; auto.
    unfold same_answer in S. unfold answers, answer. destruct (f n), (g n); try contradiction.
    - split; auto. now apply Permutation_app.
    - split; auto. }
  intros o o' path d term F D E2 E3 E4 A.
  destruct (G _ _ _ F) as [G1 G2].
  assert (K : forall ms, knows o (d_name d) ms -> exists ms', knows o' (d_name d) ms' /\ Permutation ms ms').
  { intros ms K. destruct (o_sources o) as [|f l] eqn:S.
    - assert (S' : o_sources o' = []) by now inversion F.
      destruct K as [[_ H]|[H _]]; [|congruence].
      unfold same_answer in D. rewrite H in D. destruct (o_default o' (d_name d)) as [b|] eqn:B; [|contradiction].
      exists b. split; auto. left. auto.
    - assert (N' : o_sources o' <> []) by (inversion F; discriminate).
      apply knows_sources in K; [|congruence]. rewrite S in K. destruct K as [K1 ->].
      eexists. split; [apply knows_sources; auto; split; [rewrite <- G1; exact K1 | reflexivity]|]. exact G2. }
  assert (U : unknown o (d_name d) -> unknown o' (d_name d)).
  { intros U ms K'. destruct (o_sources o) as [|f l] eqn:S.
    - assert (S' : o_sources o' = []) by now inversion F.
      destruct K' as [[_ H]|[H _]]; [|congruence].
      unfold same_answer in D. rewrite H in D. destruct (o_default o (d_name d)) as [b|] eqn:B; [|contradiction].
      eapply U. left. eauto.
    - assert (N' : o_sources o' <> []) by (inversion F; discriminate).
      apply knows_sources in K'; auto. destruct K' as [K1 _].
      eapply U. apply knows_sources; [congruence|]. rewrite S, G1. auto. }
  destruct A.
  - apply acc_unknown; auto. congruence.
  - destruct (K _ H) as [ms' [K' _]]. eapply acc_path; eauto.
  - destruct (K _ H) as [ms' [K' _]]. eapply acc_unchecked; eauto; congruence.
  - destruct (K _ H) as [ms' [K' PM']]. eapply acc_mask; eauto.
    + eapply Permutation_in; eauto.
    + rewrite E3. auto.
    + rewrite E4. auto.
Qed.

(** ** C21 *)
Lemma map_block_iff : forall b, map_block b <-> assoc b map_bodies <> None.
Proof.
  intros b. unfold map_block.
  replace ["charset_map"; "geo"; "map"; "match"; "types"; "split_clients"; "geoip2"; "otel_exporter"]
    with (map fst map_bodies) by reflexivity.
  rewrite assoc_In_key. destruct (assoc b map_bodies); split; try congruence; eauto.
  intros [v H]; discriminate.
Qed.

Lemma valid_args_arity : forall mask args,
  (mask = ngxConfNoArgs -> (valid_args mask args = true <-> List.length args = 0)) /\
  (mask = ngxConfTake1 -> (valid_args mask args = true <-> List.length args = 1)) /\
  (mask = ngxConf1More -> (valid_args mask args = true <-> 1 <= List.length args)).
Proof.
  intros mask args. split; [|split]; intros ->; unfold valid_args;
    destruct args as [|a [|b [|c [|d [|e [|f [|g [|h r]]]]]]]]; cbn; split; intros H;
    try discriminate; auto; try lia;
    try (rewrite andb_false_r in H; discriminate); try (now rewrite !orb_true_r).
Qed.

Lemma analyze_map_body_iff : forall fname d term b, map_block b ->
  (analyze_map_body fname d term b = None <->
   term = ";" /\ fits_arity (entry_arity b (d_name d)) (d_args d)).
Proof.
  intros fname d term b M.
  unfold analyze_map_body.
  destruct (valid_args_arity ngxConfNoArgs (d_args d)) as (V0 & _ & _).
  destruct (valid_args_arity ngxConfTake1 (d_args d)) as (_ & V1 & _).
  destruct (valid_args_arity ngxConf1More (d_args d)) as (_ & _ & V2).
  specialize (V0 eq_refl). specialize (V1 eq_refl). specialize (V2 eq_refl).
  assert (TT : String.eqb term ";" = true <-> term = ";") by apply String.eqb_eq.
  unfold map_block in M. cbn in M.
  assert (G : forall mm, assoc b map_bodies = Some mm ->
     (forall mask, match assoc (d_name d) (mm_special mm) with Some m => m | None => mm_default mm end = mask ->
       (valid_args mask (d_args d) = true <-> fits_arity (entry_arity b (d_name d)) (d_args d))) ->
     (match assoc b map_bodies with
      | Some mm =>
          if negb (String.eqb term ";")
          then Some (stmt_error fname d b ("unexpected " ++ s_dq ++ term ++ s_dq))
          else match assoc (d_name d) (mm_special mm) with
               | Some mask => if valid_args mask (d_args d) then None
                              else Some (stmt_error fname d b "invalid number of parameters")
               | None => if valid_args (mm_default mm) (d_args d) then None
                         else Some (stmt_error fname d b "invalid number of parameters")
               end
      | None => None
      end = None <-> term = ";" /\ fits_arity (entry_arity b (d_name d)) (d_args d))).
  { intros mm E H. rewrite E. specialize (H _ eq_refl).
    destruct (String.eqb term ";") eqn:T; cbn [negb].
    - assert (term = ";") by now apply TT.
      destruct (assoc (d_name d) (mm_special mm));
        match goal with |- context [valid_args ?m ?a] => destruct (valid_args m a) eqn:VA end;
        split; intros X; try discriminate; auto.
      + split; auto. now apply H.
      + destruct X as [_ X]. apply H in X. congruence.
      + split; auto. now apply H.
      + destruct X as [_ X]. apply H in X. congruence.
    - split; [discriminate|]. intros [X _]. apply TT in X. congruence. }
  repeat (destruct M as [<-|M]; [
    eapply G; [reflexivity|]; cbn [mm_special mm_default assoc]; unfold entry_arity; cbn [String.eqb Ascii.eqb Bool.eqb];
    intros mask <-;
    repeat match goal with |- context [String.eqb (d_name d) ?x] => destruct (String.eqb (d_name d) x) end;
    cbn; auto|]).
  destruct M.
Qed.

(** ** C24: right-biased union *)
Lemma fold_assoc_set : forall A (m : list (string * A)) u k, NoDup (map fst m) ->
  assoc k (fold_left (fun u kv => assoc_set (fst kv) (snd kv) u) m u) =
  match assoc k m with Some v => Some v | None => assoc k u end.
Proof.
  induction m as [|[k' v'] m IH]; intros u k ND; cbn; auto. inversion ND; subst.
  rewrite IH by auto. destruct (String.eqb k k') eqn:E.
  - apply String.eqb_eq in E. subst.
    assert (X : assoc k' m = None) by now apply assoc_None. rewrite X. apply assoc_set_same.
  - destruct (assoc k m); auto. apply assoc_set_other. intros ->. rewrite String.eqb_refl in E. discriminate.
Qed.
Lemma union_maps_acc : forall ms u k, Forall (fun m => NoDup (map fst m)) ms ->
  assoc k (fold_left (fun u m => fold_left (fun u kv => assoc_set (fst kv) (snd kv) u) m u) ms u) =
  fold_left (fun acc m => match assoc k m with Some v => Some v | None => acc end) ms
    (assoc k u : option (list N)).
Proof.
  induction ms as [|m ms IH]; intros u k F; cbn; auto. inversion F; subst.
  rewrite IH by auto. rewrite fold_assoc_set by auto. destruct (assoc k m); auto.
Qed.
