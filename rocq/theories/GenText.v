(** The text the generator writes. *)
From Verif Require Export GenSource.
From Verif Require Import Util IncludeProofs.
From Coq Require Import Sorting.Sorted.
Local Open Scope string_scope.

Lemma bytes_le_antisym : forall a b, bytes_le a b -> bytes_le b a -> a = b.
Proof.
  unfold bytes_le. intros a b H1 H2. rewrite (String.compare_antisym b a) in H2. destruct (String.compare a b) eqn:E; cbn in *; try congruence. now apply String.compare_eq_iff.
Qed.
Lemma sorted_unique : forall a b, StronglySorted bytes_le a -> StronglySorted bytes_le b -> Permutation a b -> a = b.
Proof.
  induction a as [|x a IH]; intros b A B P; [apply Permutation_nil in P; auto|]. destruct b as [|y b]; [apply Permutation_sym, Permutation_nil in P; discriminate|].
  inversion A as [|? ? A1 A2]; subst. inversion B as [|? ? B1 B2]; subst. rewrite Forall_forall in A2, B2.
  assert (E : x = y).
  { apply bytes_le_antisym.
    - assert (I : In y (x :: a)) by (apply (Permutation_in _ (Permutation_sym P)); now left). destruct I as [->|I]; [|auto]. destruct (bytes_le_total y y); auto.
    - assert (I : In x (y :: b)) by (apply (Permutation_in _ P); now left). destruct I as [->|I]; [|auto]. destruct (bytes_le_total x x); auto. }
  subst y. f_equal. apply IH; auto. eapply Permutation_cons_inv; eauto.
Qed.
Lemma render_same : forall var fn cm m m', NoDup (map fst m) -> NoDup (map fst m') -> (forall d, assoc d m = assoc d m') -> render var fn cm m = render var fn cm m'.
Proof.
  intros var fn cm m m' N N' A.
  assert (P : Permutation (map fst m) (map fst m')).
  { apply NoDup_Permutation; auto. intros d. destruct (in_dec string_dec d (map fst m)) as [I|I], (in_dec string_dec d (map fst m')) as [J|J]; try tauto.
    - apply assoc_None in J. rewrite <- A in J. apply assoc_None in J. tauto.
    - apply assoc_None in I. rewrite A in I. apply assoc_None in I. tauto. }
  assert (S1 : sort_strings (map fst m) = sort_strings (map fst m')).
  { apply sorted_unique; try apply sort_sorted. eapply Permutation_trans; [apply Permutation_sym, sort_perm|]. eapply Permutation_trans; [exact P|apply sort_perm]. }
  unfold render. rewrite S1. replace (map (fun d => row_of d (lookup d m)) (sort_strings (map fst m'))) with (map (fun d => row_of d (lookup d m')) (sort_strings (map fst m'))); auto.
  apply map_ext. intros d. unfold lookup. now rewrite A.
Qed.
(** The text does not depend on the order in which maps are visited. *)
Lemma text_order : forall ord ord' es flt ovr m m' var fn cm, permutes ord -> permutes ord' ->
  generate_map ord es flt ovr = inl m -> generate_map ord' es flt ovr = inl m' -> render var fn cm m = render var fn cm m'.
Proof.
  intros ord ord' es flt ovr m m' var fn cm P P' G G'. destruct (generate_ok ord P _ _ _ _ G) as (ds & E & _ & N & A). destruct (generate_ok ord' P' _ _ _ _ G') as (ds' & E' & _ & N' & A').
  rewrite E in E'. inversion E'; subst ds'. apply render_same; auto. intros d. now rewrite A, A'.
Qed.
Lemma html_char_plain : forall c, html_char c = str1 c \/ In c (list_of_str html_special).
Proof. intros [[|] [|] [|] [|] [|] [|] [|] [|]]; vm_compute; auto 12. Qed.
Lemma html_plain : forall s, contains_any s html_special = false -> html s = s.
Proof.
  intros s H. rewrite contains_any_false in H. induction s as [|c s IH]; auto. cbn [html]. rewrite IH.
  - destruct (html_char_plain c) as [->|I]; [reflexivity|]. exfalso. apply (H c I). now left.
  - intros d I X. apply (H d I). now right.
Qed.
Lemma html_special_changes : forall s, contains_any s html_special = true -> html s <> s.
Proof.
  intros s H E. assert (L : forall c, 1 <= slen (html_char c) /\ (In c (list_of_str html_special) -> 1 < slen (html_char c))).
  { intros c. split; [destruct c as [[|] [|] [|] [|] [|] [|] [|] [|]]; vm_compute; lia|]. intros I. repeat (destruct I as [<-|I]; [vm_compute; lia|]). destruct I. }
  assert (G : forall s, slen s <= slen (html s) /\ (contains_any s html_special = true -> slen s < slen (html s))).
  { clear -L. induction s as [|c s [IH1 IH2]]; [split; [auto|discriminate]|]. cbn [html]. rewrite app_slen. cbn [String.length]. destruct (L c) as [L1 L2]. split; [lia|].
    intros H. unfold contains_any, str_exists in *. cbn [list_of_str existsb] in H. apply orb_true_iff in H as [H|H]; [|specialize (IH2 H); lia].
    apply existsb_exists in H as (d & I & Q). apply Ascii.eqb_eq in Q. subst d. specialize (L2 I). lia. }
  destruct (G s) as [_ X]. specialize (X H). rewrite E in X. lia.
Qed.
Lemma row_plain : forall d ms, plain_text d = true -> Forall (fun m => plain_text (join m " | ") = true) ms -> row_of d ms = plain_row d ms.
Proof.
  intros d ms D F. unfold row_of, plain_row. apply negb_true_iff in D. rewrite html_plain by auto. do 6 f_equal. f_equal. f_equal. apply map_ext_in. intros m I. rewrite Forall_forall in F. specialize (F m I). apply negb_true_iff in F. now rewrite html_plain.
Qed.
(** The text contains the map as a literal, sorted by name, each name once. *)
Lemma render_literal : forall var fn cm m, NoDup (map fst m) -> (forall d, In d (map fst m) -> plain_text d = true /\ Forall (fun k => plain_text (join k " | ") = true) (lookup d m)) ->
  exists rows before after, render var fn cm m = before ++ literal rows ++ after /\ StronglySorted bytes_lt (map fst rows) /\ forall d, assoc d rows = assoc d m.
Proof.
  intros var fn cm m N P. set (ks := sort_strings (map fst m)). exists (map (fun d => (d, lookup d m)) ks), (tmpl_head ++ "var " ++ html var ++ " = "), (s_nl ++ s_nl ++
    (if String.eqb cm "" then "" else "// " ++ html cm) ++ s_nl ++ "func " ++ html fn ++ "(directive string) ([]uint, bool) {" ++ s_nl ++ "    m, ok := " ++ html var ++ "[directive]" ++ s_nl ++ "    return m, ok" ++ s_nl ++ "}" ++ s_nl).
  assert (PK : Permutation (map fst m) ks) by apply sort_perm.
  assert (NK : NoDup ks) by (eapply Permutation_NoDup; eauto).
  split; [|split].
  - unfold render, literal. fold ks. rewrite map_map. cbn [fst snd].
    replace (map (fun d => row_of d (lookup d m)) ks) with (map (fun x => plain_row x (lookup x m)) ks).
    2: { apply map_ext_in. intros d I. symmetry. assert (J : In d (map fst m)) by (apply (Permutation_in _ (Permutation_sym PK)); auto). destruct (P d J). now apply row_plain. }
    rewrite !app_assoc_s. change (" = map[string][]uint{") with (" = " ++ "map[string][]uint{"). rewrite !app_assoc_s. reflexivity.
  - rewrite map_map. cbn [fst]. rewrite map_id. pose proof (sort_sorted (map fst m)) as S1. fold ks in S1. clear -S1 NK. induction S1 as [|x l S1 IH F]; [constructor|]. inversion NK as [|? ? NI NK']; subst. constructor; auto.
    rewrite Forall_forall in *. intros y I. specialize (F y I). unfold bytes_le in F. unfold bytes_lt. destruct (String.compare x y) eqn:E; try congruence. apply String.compare_eq_iff in E. subst. tauto.
  - intros d. assert (A : assoc d (map (fun d => (d, lookup d m)) ks) = if mem_str d ks then Some (lookup d m) else None).
    { clear. induction ks as [|k ks IH]; auto. cbn [map assoc mem_str existsb]. destruct (String.eqb_spec d k) as [->|]; auto. }
    rewrite A. unfold lookup. destruct (assoc d m) as [v|] eqn:E.
    + assert (I : In d ks) by (apply (Permutation_in _ PK); apply assoc_In in E; apply in_map_iff; exists (d, v); auto). apply mem_str_iff in I. now rewrite I.
    + destruct (mem_str d ks) eqn:M; auto. apply mem_str_iff in M. apply (Permutation_in _ (Permutation_sym PK)) in M. apply assoc_None in E. tauto.
Qed.

Lemma read_override_def : forall s, read_override s = inr FNoDef <-> exists l r d, s = l ++ ":" ++ r /\ lacks ":"%char l /\ trimmed l d /\ d <> "" /\ trimmed r "".
Proof.
  intros s. unfold read_override. destruct (cut ":"%char s) as [[l r]|] eqn:C.
  - apply cut_iff in C as [E L]. split.
    + intros H. destruct (String.eqb_spec (trim_space l) "") as [|N]; [discriminate|]. destruct (String.eqb_spec (trim_space r) "") as [Z|]; [|destruct (read_masks _); discriminate].
      exists l, r, (trim_space l). repeat split; auto; now apply trim_space_iff.
    + intros (l' & r' & d & E' & L' & T & N & Z). assert (C' : cut ":"%char s = Some (l', r')) by (apply cut_iff; auto). assert (C : cut ":"%char s = Some (l, r)) by (apply cut_iff; auto).
      rewrite C in C'. inversion C'; subst l' r'. apply trim_space_iff in T, Z. subst d. destruct (String.eqb_spec (trim_space l) ""); [tauto|]. now rewrite Z.
  - split; [discriminate|]. intros (l' & r' & d & E' & L' & T & N & Z). assert (C' : cut ":"%char s = Some (l', r')) by (apply cut_iff; auto). congruence.
Qed.
(** The remaining texts: some mask name is empty. *)
Lemma read_override_mask : forall s, read_override s = inr FNoMask <->
  exists l r d def, s = l ++ ":" ++ r /\ lacks ":"%char l /\ trimmed l d /\ d <> "" /\ trimmed r def /\ def <> "" /\
    exists part name, In part (split "," def) /\ In name (split "|" part) /\ trimmed name "".
Proof.
  assert (TN : forall l, trim_names l = None <-> exists n, In n l /\ trimmed n "").
  { induction l as [|x l IH]; cbn [trim_names]; [split; [discriminate|intros (n & [] & _)]|]. destruct (String.eqb_spec (trim_space x) "") as [E|E].
    - split; auto. intros _. exists x. split; [now left|]. now apply trim_space_iff.
    - split.
      + intros H. destruct (trim_names l); [discriminate|]. destruct (proj1 IH eq_refl) as (n & I & T). exists n. split; [now right|auto].
      + intros (n & [->|I] & T); [apply trim_space_iff in T; tauto|]. rewrite (proj2 IH); eauto. }
  assert (RM : forall l, read_masks l = None <-> exists p n, In p l /\ In n (split "|" p) /\ trimmed n "").
  { induction l as [|x l IH]; cbn [read_masks]; [split; [discriminate|intros (p & n & [] & _)]|]. destruct (trim_names (split "|" x)) as [m|] eqn:T.
    - split.
      + intros H. destruct (read_masks l); [discriminate|]. destruct (proj1 IH eq_refl) as (p & n & I & J & Z). exists p, n. split; [now right|auto].
      + intros (p & n & [->|I] & J & Z); [rewrite (proj2 (TN _)) in T by eauto; discriminate|]. rewrite (proj2 IH); eauto.
    - split; auto. intros _. apply TN in T as (n & I & Z). exists x, n. split; [now left|auto]. }
  intros s. unfold read_override. destruct (cut ":"%char s) as [[l r]|] eqn:C.
  - pose proof C as C0. apply cut_iff in C as [E L]. split.
    + intros H. destruct (String.eqb_spec (trim_space l) "") as [|N]; [discriminate|]. destruct (String.eqb_spec (trim_space r) "") as [|Z]; [discriminate|].
      destruct (read_masks _) eqn:R; [discriminate|]. apply RM in R. exists l, r, (trim_space l), (trim_space r). repeat split; auto; now apply trim_space_iff.
    + intros (l' & r' & d & def & E' & L' & T & N & T2 & Z & X). assert (C' : cut ":"%char s = Some (l', r')) by (apply cut_iff; auto).
      rewrite C0 in C'. inversion C'; subst l' r'. apply trim_space_iff in T, T2. subst d def. destruct (String.eqb_spec (trim_space l) ""); [tauto|]. destruct (String.eqb_spec (trim_space r) ""); [tauto|].
      apply RM in X. now rewrite X.
  - split; [discriminate|]. intros (l' & r' & d & def & E' & L' & _). assert (C' : cut ":"%char s = Some (l', r')) by (apply cut_iff; auto). congruence.
Qed.
Lemma html_iff : forall s, html s = s <-> plain_text s = true.
Proof.
  intros s. unfold plain_text. destruct (contains_any s html_special) eqn:E; cbn [negb]; split; intros H; auto; try discriminate.
  - now apply html_special_changes in E.
  - now apply html_plain.
Qed.

(** ** The text for arbitrary values *)
Lemma html_char_cases : forall c, (exists r, In (c, r) references /\ html_char c = r) \/ (~ In c (map fst references) /\ html_char c = str1 c).
Proof.
  intros [[|] [|] [|] [|] [|] [|] [|] [|]]; vm_compute;
  first [right; split; [intuition discriminate|reflexivity] | left; eexists; split; [|reflexivity]; auto 10].
Qed.
Lemma references_once : forall c r r', In (c, r) references -> In (c, r') references -> r = r'.
Proof. intros c r r' I J. cbn in I, J. repeat (destruct I as [I|I]; [inversion I; subst; repeat (destruct J as [J|J]; [inversion J; subst; reflexivity|]); destruct J|]). destruct I. Qed.
Lemma html_shown : forall s, shown s (html s).
Proof.
  induction s as [|c s IH]; [constructor|]. cbn [html]. destruct (html_char_cases c) as [(r & I & ->)|(I & ->)]; [now constructor|]. unfold str1. cbn [append]. now constructor.
Qed.
Lemma shown_unique : forall s t, shown s t -> html s = t.
Proof.
  intros s t H. induction H as [|c r s t I H IH|c s t I H IH]; [reflexivity| |]; cbn [html]; rewrite IH; destruct (html_char_cases c) as [(r' & J & ->)|(J & ->)]; try reflexivity.
  - f_equal. eapply references_once; eauto.
  - exfalso. apply J. change c with (fst (c, r)). now apply in_map.
  - exfalso. apply I. change c with (fst (c, r')). now apply in_map.
Qed.
Lemma html_shown_iff : forall s t, html s = t <-> shown s t.
Proof. intros s t. split; [intros <-; apply html_shown|apply shown_unique]. Qed.
Lemma html_app : forall a b, html (a ++ b) = html a ++ html b.
Proof. induction a as [|c a IH]; intros b; [reflexivity|]. cbn [html append]. now rewrite IH, app_assoc_s. Qed.
Lemma html_join : forall m, html (join m " | ") = join (map html m) " | ".
Proof.
  induction m as [|x m IH]; [reflexivity|]. destruct m as [|y m]; [reflexivity|]. change (join (x :: y :: m) " | ") with (x ++ " | " ++ join (y :: m) " | ").
  rewrite !html_app, IH. reflexivity.
Qed.
Definition html_row (r : string * list mask) : string * list mask := (html (fst r), map (map html) (snd r)).
Lemma row_shown : forall d ms, row_of d ms = plain_row (html d) (map (map html) ms).
Proof. intros d ms. unfold row_of, plain_row. do 6 f_equal. f_equal. f_equal. rewrite map_map. apply map_ext. intros m. now rewrite html_join. Qed.
Lemma html_row_shown : forall r, shown_row r (html_row r).
Proof.
  intros [d ms]. split; [apply html_shown|]. cbn [snd html_row]. induction ms as [|m ms IH]; constructor; auto. clear. induction m as [|x m IH]; constructor; auto. apply html_shown.
Qed.
Lemma render_any : forall var fn cm m, NoDup (map fst m) ->
  exists rows texts v f note, render var fn cm m = tmpl_head ++ support_file v f note texts /\
    StronglySorted bytes_lt (map fst rows) /\ (forall d, assoc d rows = assoc d m) /\ Forall2 shown_row rows texts /\ shown var v /\ shown fn f /\ note_of cm note.
Proof.
  intros var fn cm m N. set (ks := sort_strings (map fst m)). set (rows := map (fun d => (d, lookup d m)) ks).
  assert (PK : Permutation (map fst m) ks) by apply sort_perm.
  assert (NK : NoDup ks) by (eapply Permutation_NoDup; eauto).
  exists rows, (map html_row rows), (html var), (html fn), (if String.eqb cm "" then "" else "// " ++ html cm). split; [|split; [|split; [|split; [|split; [apply html_shown|split; [apply html_shown|]]]]]].
  - unfold render, support_file, literal. fold ks. unfold rows. rewrite !map_map. cbn [fst snd html_row].
    rewrite (map_ext (fun d => row_of d (lookup d m)) (fun x => plain_row (html x) (map (map html) (lookup x m)))) by (intros; apply row_shown).
    change (" = map[string][]uint{") with (" = " ++ "map[string][]uint{"). rewrite !app_assoc_s. reflexivity.
  - unfold rows. rewrite map_map. cbn [fst]. rewrite map_id. pose proof (sort_sorted (map fst m)) as S1. fold ks in S1. clear -S1 NK. induction S1 as [|x l S1 IH F]; [constructor|]. inversion NK as [|? ? NI NK']; subst. constructor; auto.
    rewrite Forall_forall in *. intros y I. specialize (F y I). unfold bytes_le in F. unfold bytes_lt. destruct (String.compare x y) eqn:E; try congruence. apply String.compare_eq_iff in E. subst. tauto.
  - intros d. assert (A : assoc d rows = if mem_str d ks then Some (lookup d m) else None).
    { unfold rows. clear. induction ks as [|k ks IH]; auto. cbn [map assoc mem_str existsb]. destruct (String.eqb_spec d k) as [->|]; auto. }
    rewrite A. unfold lookup. destruct (assoc d m) as [v|] eqn:E.
    + assert (I : In d ks) by (apply (Permutation_in _ PK); apply assoc_In in E; apply in_map_iff; exists (d, v); auto). apply mem_str_iff in I. now rewrite I.
    + destruct (mem_str d ks) eqn:M; auto. apply mem_str_iff in M. apply (Permutation_in _ (Permutation_sym PK)) in M. apply assoc_None in E. tauto.
  - induction rows as [|r rows' IH]; constructor; auto. apply html_row_shown.
  - unfold note_of. destruct (String.eqb_spec cm "") as [->|Q]; [now left|]. right. split; auto. exists (html cm). split; [apply html_shown|reflexivity].
Qed.
Lemma render_file : exists notes, only_comments PCode notes = true /\ forall var fn cm m, NoDup (map fst m) ->
  exists rows texts v f note, render var fn cm m = notes ++ "package crossplane" ++ s_nl ++ s_nl ++ support_file v f note texts /\
    StronglySorted bytes_lt (map fst rows) /\ (forall d, assoc d rows = assoc d m) /\ Forall2 shown_row rows texts /\ shown var v /\ shown fn f /\ note_of cm note.
Proof.
  exists (take (slen tmpl_head - 20) tmpl_head). split; [vm_compute; reflexivity|]. intros var fn cm m N. destruct (render_any var fn cm m N) as (rows & texts & v & f & note & E & R).
  exists rows, texts, v, f, note. split; [|exact R]. rewrite E. clear.
  assert (X : tmpl_head = take (slen tmpl_head - 20) tmpl_head ++ "package crossplane" ++ s_nl ++ s_nl) by (vm_compute; reflexivity).
  rewrite X at 1. now rewrite !app_assoc_s.
Qed.
