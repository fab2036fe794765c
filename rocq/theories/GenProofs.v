(** The generator. *)
From Verif Require Export SpecGen.
From Verif Require Import Util Utf8 IfProofs.
Local Open Scope string_scope.

(** ** Override flags *)
Lemma trim_space_iff : forall s t, trim_space s = t <-> trimmed s t.
Proof.
  intros s t. unfold trim_space, trimmed. split.
  - intros H. exists (trim_left is_space_rune s). split; [now apply trim_left_iff|now apply trim_right_iff].
  - intros (u & L & R). apply trim_left_iff in L. apply trim_right_iff in R. now rewrite L.
Qed.
Lemma lacks_cons : forall c a s, lacks c (String a s) <-> a <> c /\ lacks c s.
Proof. intros c a s. unfold lacks. cbn [list_of_str In]. tauto. Qed.
Lemma cut_iff : forall c s a b, cut c s = Some (a, b) <-> s = a ++ String c b /\ lacks c a.
Proof.
  intros c. induction s as [|x s IH]; intros a b; cbn [cut].
  - split; [discriminate|]. intros [E _]. destruct a; discriminate.
  - destruct (Ascii.eqb_spec x c) as [->|N].
    + split.
      * intros E. inversion E; subst. split; [reflexivity|intros []].
      * intros [E L]. destruct a as [|y a]; cbn in E; inversion E; subst; [reflexivity|]. apply lacks_cons in L. tauto.
    + destruct (cut c s) as [[p q]|] eqn:C.
      * split.
        -- intros E. inversion E; subst. destruct (proj1 (IH p b) eq_refl) as [-> L]. split; [reflexivity|]. apply lacks_cons. auto.
        -- intros [E L]. destruct a as [|y a]; cbn in E; inversion E; subst; [congruence|]. apply lacks_cons in L.
           assert (Y : Some (p, q) = Some (a, b)) by (apply (proj2 (IH a b)); tauto). now inversion Y.
      * split; [discriminate|]. intros [E L]. destruct a as [|y a]; cbn in E; inversion E; subst; [congruence|]. apply lacks_cons in L.
        assert (Y : None = Some (a, b)) by (apply (proj2 (IH a b)); tauto). discriminate.
Qed.
Lemma cut_none : forall c s, cut c s = None <-> lacks c s.
Proof.
  intros c. induction s as [|x s IH]; cbn [cut]; [split; auto; intros _ []|]. rewrite lacks_cons. destruct (Ascii.eqb_spec x c) as [->|N].
  - split; [discriminate|tauto].
  - destruct (cut c s) as [[p q]|]; split; try discriminate; try tauto. intros [_ L]. apply IH in L. discriminate.
Qed.
Lemma join_cons : forall x y l sep, join (x :: y :: l) sep = x ++ sep ++ join (y :: l) sep.
Proof. reflexivity. Qed.
Lemma split_ne : forall c s, split c s <> [].
Proof. intros c [|x s]; cbn [split]; [discriminate|]. destruct (Ascii.eqb x c); [discriminate|]. destruct (split c s); discriminate. Qed.
Lemma split_join : forall c s, join (split c s) (str1 c) = s /\ Forall (lacks c) (split c s).
Proof.
  intros c. induction s as [|x s [J F]]; cbn [split]; [split; [reflexivity|constructor; [intros []|constructor]]|].
  destruct (Ascii.eqb_spec x c) as [->|N].
  - split; [|constructor; [intros []|auto]]. destruct (split c s) as [|y l] eqn:E; [now destruct (split_ne c s)|]. rewrite join_cons, J. reflexivity.
  - destruct (split c s) as [|y l] eqn:E; [now destruct (split_ne c s)|]. inversion F; subst. split; [|constructor; auto; apply lacks_cons; auto].
    destruct l as [|z l]; [reflexivity|]. rewrite !join_cons. reflexivity.
Qed.
Lemma split_lacks : forall c s, lacks c s -> split c s = [s].
Proof.
  intros c. induction s as [|x s IH]; intros L; auto. apply lacks_cons in L as [N L]. cbn [split]. destruct (Ascii.eqb_spec x c); [tauto|]. now rewrite IH.
Qed.
Lemma split_app : forall c a s, lacks c a -> split c (a ++ String c s) = a :: split c s.
Proof.
  intros c. induction a as [|x a IH]; intros s L; [cbn [String.append split]; now rewrite Ascii.eqb_refl|].
  apply lacks_cons in L as [N L]. cbn [String.append split]. destruct (Ascii.eqb_spec x c); [tauto|]. now rewrite IH.
Qed.
Lemma split_iff : forall c s l, split c s = l <-> s = join l (str1 c) /\ l <> [] /\ Forall (lacks c) l.
Proof.
  intros c s l. split.
  - intros <-. destruct (split_join c s). split; auto. split; auto. apply split_ne.
  - intros (-> & N & F). induction F as [|x l L F IH]; [congruence|]. destruct l as [|y l]; [apply split_lacks; auto|].
    rewrite join_cons. change (x ++ str1 c ++ join (y :: l) (str1 c)) with (x ++ String c (join (y :: l) (str1 c))). rewrite split_app by auto. f_equal. apply IH. discriminate.
Qed.
Lemma trim_names_iff : forall l m, trim_names l = Some m <-> Forall2 trimmed l m /\ ~ In "" m.
Proof.
  induction l as [|x l IH]; intros m; cbn [trim_names].
  - split; [intros E; inversion E; split; [constructor|intros []]|]. intros [F _]. now inversion F.
  - destruct (String.eqb_spec (trim_space x) "") as [Z|Z].
    + split; [discriminate|]. intros [F N]. inversion F as [|? t ? m' T F']; subst. apply trim_space_iff in T. exfalso. apply N. left. congruence.
    + split.
      * intros E. destruct (trim_names l) as [m'|] eqn:T; [|discriminate]. cbn in E. inversion E; subst. destruct (proj1 (IH m') eq_refl) as [F N]. split.
        -- constructor; auto. now apply trim_space_iff.
        -- intros [H|H]; auto.
      * intros [F N]. inversion F as [|? t ? m' T F']; subst. apply trim_space_iff in T. subst t.
        rewrite (proj2 (IH m')); [reflexivity|]. split; auto. intros H. apply N. now right.
Qed.
Lemma read_masks_iff : forall l ms, read_masks l = Some ms <-> Forall2 spells_mask l ms.
Proof.
  assert (X : forall s m, trim_names (split "|"%char s) = Some m <-> spells_mask s m).
  { intros s m. rewrite trim_names_iff. unfold spells_mask. split.
    - intros [F N]. destruct (proj1 (split_iff "|"%char s _) eq_refl) as (E & NE & L). eauto 10.
    - intros (parts & E & NE & L & F & N). assert (S1 : split "|"%char s = parts) by (apply split_iff; auto). rewrite S1. auto. }
  induction l as [|x l IH]; intros ms; cbn [read_masks].
  - split; [intros E; inversion E; constructor|]. intros F. now inversion F.
  - destruct (trim_names (split "|"%char x)) as [m|] eqn:T.
    + split.
      * intros E. destruct (read_masks l) as [r|] eqn:R; [|discriminate]. cbn in E. inversion E; subst. constructor; [now apply X|now apply IH].
      * intros F. inversion F as [|? m' ? r M F']; subst. apply X in M. rewrite T in M. inversion M; subst. rewrite (proj2 (IH r) F'). reflexivity.
    + split; [discriminate|]. intros F. inversion F as [|? m' ? r M F']; subst. apply X in M. congruence.
Qed.
(** Exactly the texts that spell an override are read, as what they spell. *)
Lemma read_override_iff : forall s d ms, read_override s = inl (d, ms) <-> spells s d ms.
Proof.
  intros s d ms. unfold read_override, spells. split.
  - destruct (cut ":"%char s) as [[l r]|] eqn:C; [|discriminate]. apply cut_iff in C as [E L].
    destruct (String.eqb_spec (trim_space l) "") as [|N1]; [discriminate|]. destruct (String.eqb_spec (trim_space r) "") as [|N2]; [discriminate|].
    destruct (read_masks _) as [ms'|] eqn:R; [|discriminate]. intros H. inversion H; subst. apply read_masks_iff in R.
    destruct (proj1 (split_iff ","%char (trim_space r) _) eq_refl) as (J & _ & F).
    exists l, r, (trim_space r), (split ","%char (trim_space r)). repeat split; auto; try (now apply trim_space_iff).
  - intros (l & r & def & parts & E & L & T1 & N1 & T2 & N2 & J & F & S1).
    assert (C : cut ":"%char s = Some (l, r)) by (apply cut_iff; auto). rewrite C. apply trim_space_iff in T1. apply trim_space_iff in T2. rewrite T1, T2.
    destruct (String.eqb_spec d ""); [tauto|]. destruct (String.eqb_spec def ""); [tauto|].
    assert (S2 : split ","%char def = parts).
    { apply split_iff. split; auto. split; auto. intros ->. now cbn in J. }
    rewrite S2, (proj2 (read_masks_iff parts ms) S1). reflexivity.
Qed.
(** The errors. *)
Lemma read_override_colon : forall s, read_override s = inr FNoColon <-> lacks ":"%char s.
Proof.
  intros s. unfold read_override. rewrite <- cut_none. destruct (cut ":"%char s) as [[l r]|]; [|tauto]. split; [|discriminate].
  destruct (String.eqb _ _); [discriminate|]. destruct (String.eqb _ _); [discriminate|]. destruct (read_masks _); discriminate.
Qed.
Lemma read_override_name : forall s, read_override s = inr FNoName <-> exists l r, s = l ++ ":" ++ r /\ lacks ":"%char l /\ trimmed l "".
Proof.
  intros s. unfold read_override. split.
  - destruct (cut ":"%char s) as [[l r]|] eqn:C; [|discriminate]. apply cut_iff in C as [E L]. destruct (String.eqb_spec (trim_space l) "") as [Z|].
    + intros _. exists l, r. repeat split; auto. now apply trim_space_iff.
    + destruct (String.eqb _ _); [discriminate|]. destruct (read_masks _); discriminate.
  - intros (l & r & E & L & T). assert (C : cut ":"%char s = Some (l, r)) by (apply cut_iff; auto). rewrite C. apply trim_space_iff in T. now rewrite T.
Qed.
Lemma set_overrides_last : forall flags ov m, set_overrides flags ov = inl m ->
  exists items, Forall2 (fun f i => spells f (fst i) (snd i)) flags items /\ forall d, assoc d m = match assoc d (rev items) with Some x => Some x | None => assoc d ov end.
Proof.
  induction flags as [|f flags IH]; intros ov m H; cbn [set_overrides] in H.
  - inversion H; subst. exists []. split; [constructor|]. intros d. reflexivity.
  - destruct (read_override f) as [[d ms]|] eqn:R; [|discriminate]. apply read_override_iff in R. destruct (IH _ _ H) as (items & F & A). exists ((d, ms) :: items). split; [constructor; auto|].
    intros d'. rewrite A. cbn [rev]. assert (AA : forall (l : masks_map) x, assoc d' (l ++ [x]) = match assoc d' l with Some y => Some y | None => assoc d' [x] end).
    { induction l as [|[k v] l IHl]; intros x; auto. cbn [app assoc]. destruct (String.eqb d' k); [reflexivity|apply IHl]. }
    rewrite AA. destruct (assoc d' (rev items)); auto. cbn [assoc]. destruct (String.eqb_spec d' d) as [->|N]; [now rewrite assoc_set_same|]. rewrite assoc_set_other by auto. reflexivity.
Qed.

(** ** The map *)
Lemma defs_app : forall d a b, defs_of d (a ++ b) = (defs_of d a ++ defs_of d b)%list.
Proof. intros d a b. unfold defs_of. now rewrite filter_app, map_app. Qed.
Lemma defs_cons : forall d n k l, defs_of d ((n, k) :: l) = if String.eqb d n then k :: defs_of d l else defs_of d l.
Proof. intros d n k l. unfold defs_of. cbn [filter fst]. destruct (String.eqb d n); reflexivity. Qed.
Lemma maps_add : forall m ds n k, maps m ds -> maps (add_masks n [k] m) (ds ++ [(n, k)]).
Proof.
  intros m ds n k [ND A]. unfold add_masks. split; [now apply NoDup_assoc_set|]. intros d. rewrite defs_app, defs_cons. cbn [defs_of filter map].
  destruct (String.eqb_spec d n) as [->|N].
  - rewrite assoc_set_same, A. destruct (defs_of n ds); reflexivity.
  - rewrite assoc_set_other by auto. rewrite A. now rewrite app_nil_r.
Qed.
Lemma ngx_names_ok : forall n, assoc n ngx_names = go_name n.
Proof.
  intros n. destruct (mem_str n c_names) eqn:M.
  - apply mem_str_iff in M. assert (X : forallb (fun n => match assoc n ngx_names, go_name n with Some a, Some b => String.eqb a b | _, _ => false end) c_names = true) by (vm_compute; reflexivity).
    rewrite forallb_forall in X. specialize (X n M). cbv beta in X. destruct (assoc n ngx_names), (go_name n); try discriminate X. f_equal. now apply String.eqb_eq.
  - unfold go_name. rewrite M. apply assoc_None. intros I. apply in_map_iff in I as [[k g] [<- I]].
    assert (X : forallb (fun x => mem_str (fst x) c_names) ngx_names = true) by (vm_compute; reflexivity).
    rewrite forallb_forall in X. specialize (X _ I). congruence.
Qed.
Lemma c_source_ok : forall p, is_source p = c_source p.
Proof. intros p. unfold is_source, c_source. cbn [existsb]. now rewrite orb_false_r. Qed.
Lemma to_go_iff : forall l, match to_go l with inl m => opt_all (map (fun n => go_name (trim_space n)) l) = Some m | inr e => opt_all (map (fun n => go_name (trim_space n)) l) = None /\ In e l end.
Proof.
  induction l as [|n l IH]; [reflexivity|]. cbn [to_go map opt_all]. rewrite ngx_names_ok. destruct (go_name (trim_space n)); [|split; [reflexivity|now left]].
  destruct (to_go l) as [m|e]; [rewrite IH; reflexivity|]. destruct IH as [E I]. rewrite E. split; [reflexivity|now right].
Qed.
Lemma add_entries_ok : forall es m ds, maps m ds -> match add_entries es m with
  | inl m' => exists ds', opt_all (map def_of es) = Some ds' /\ maps m' (ds ++ ds')
  | inr _ => opt_all (map def_of es) = None
  end.
Proof.
  induction es as [|[n k] es IH]; intros m ds M; cbn [add_entries map opt_all].
  - exists []. rewrite app_nil_r. auto.
  - pose proof (to_go_iff (split "|"%char k)) as T. unfold def_of at 1. unfold def_of at 2. cbn [fst snd]. destruct (to_go _) as [g|e].
    + rewrite T. cbn [option_map]. specialize (IH _ _ (maps_add m ds (trim_space n) g M)). destruct (add_entries es _) as [m'|e].
      * destruct IH as (ds' & E & M'). exists ((trim_space n, g) :: ds'). rewrite E. split; [reflexivity|]. now rewrite <- app_assoc in M'.
      * now rewrite IH.
    + destruct T as [E _]. now rewrite E.
Qed.
Lemma maps_nil : maps [] [].
Proof. split; [constructor|]. intros d. reflexivity. Qed.
Lemma masks_of_text_ok : forall t, match masks_of_text t with
  | inl m => exists ds, opt_all (map def_of (pairs t)) = Some ds /\ maps m ds
  | inr _ => opt_all (map def_of (pairs t)) = None
  end.
Proof. intros t. exact (add_entries_ok (pairs t) [] [] maps_nil). Qed.
Section Order.
  Variable ord : nat -> list string -> list string.
  Hypothesis PO : permutes ord.
  Lemma merge_loop : forall mf ks m, NoDup ks -> NoDup (map fst m) ->
    let m' := fold_left (fun m d => match assoc d mf with Some ms => add_masks d ms m | None => m end) ks m in
    NoDup (map fst m') /\ forall d, assoc d m' = if mem_str d ks then match assoc d mf, assoc d m with
      | Some a, Some b => Some (b ++ a)%list | Some a, None => Some a | None, x => x end else assoc d m.
  Proof.
    intros mf. induction ks as [|k ks IH]; intros m NK NM; cbn [fold_left]; [split; auto|]. inversion NK as [|? ? NI NK']; subst.
    set (m1 := match assoc k mf with Some ms => add_masks k ms m | None => m end).
    assert (N1 : NoDup (map fst m1)) by (unfold m1; destruct (assoc k mf); auto; now apply NoDup_assoc_set).
    destruct (IH m1 NK' N1) as [N2 A]. split; auto. intros d. rewrite A. cbn [mem_str existsb]. destruct (String.eqb_spec d k) as [->|N]; cbn [orb].
    - assert (X : mem_str k ks = false) by (destruct (mem_str k ks) eqn:X; auto; apply mem_str_iff in X; tauto). rewrite X.
      unfold m1, add_masks. destruct (assoc k mf); [rewrite assoc_set_same|]; auto. destruct (assoc k m); auto.
    - assert (X : assoc d m1 = assoc d m) by (unfold m1, add_masks; destruct (assoc k mf); auto; apply assoc_set_other; auto). rewrite X. reflexivity.
  Qed.
  Lemma merge_ok : forall k mf m dsf ds, maps mf dsf -> maps m ds -> maps (merge ord k mf m) (ds ++ dsf).
  Proof.
    intros k mf m dsf ds [NF AF] [NM AM]. unfold merge. assert (NK : NoDup (ord k (map fst mf))) by (eapply Permutation_NoDup; [apply Permutation_sym, PO|auto]).
    destruct (merge_loop mf _ m NK NM) as [N A]. split; auto. intros d. rewrite A, defs_app, AM, AF.
    assert (X : mem_str d (ord k (map fst mf)) = match defs_of d dsf with [] => false | _ => true end).
    { destruct (mem_str d (ord k (map fst mf))) eqn:M.
      - apply mem_str_iff in M. apply (Permutation_in _ (PO k _)) in M. destruct (defs_of d dsf) eqn:D; auto. specialize (AF d). rewrite D in AF. apply assoc_None in AF. tauto.
      - destruct (defs_of d dsf) as [|y0 l0] eqn:D; auto. exfalso. specialize (AF d). rewrite D in AF.
        assert (I : In d (map fst mf)) by (apply assoc_In in AF; apply in_map_iff; exists (d, y0 :: l0); auto).
        apply (Permutation_in _ (Permutation_sym (PO k _))) in I. apply mem_str_iff in I. congruence. }
    rewrite X. destruct (defs_of d dsf) as [|x l]; [now rewrite app_nil_r|]. destruct (defs_of d ds) as [|y l']; reflexivity.
  Qed.
  Lemma walk_ok : forall es k m ds, maps m ds -> match walk ord k es m with
    | inl m' => exists ds', all_defs es = Some ds' /\ maps m' (ds ++ ds')
    | inr _ => all_defs es = None
    end.
  Proof.
    induction es as [|e es IH]; intros k m ds M; cbn [walk all_defs]; [exists []; rewrite app_nil_r; auto|].
    destruct e as [p|p c|p]; [apply IH; auto| |reflexivity]. rewrite c_source_ok. destruct (c_source p); [|apply IH; auto]. destruct c as [t|]; auto.
    pose proof (masks_of_text_ok t) as T. destruct (masks_of_text t) as [mf|e].
    - destruct T as (dsf & E & MF). rewrite E. specialize (IH (S k) _ _ (merge_ok (S k) _ _ _ _ MF M)). destruct (walk ord (S k) es _) as [m'|e].
      + destruct IH as (ds' & E' & M'). rewrite E'. exists (dsf ++ ds')%list. split; auto. now rewrite <- app_assoc in M'.
      + now rewrite IH.
    - now rewrite T.
  Qed.
  Lemma assoc_del_spec : forall A d n (m : list (string * A)), assoc n (assoc_del d m) = if String.eqb n d then None else assoc n m.
  Proof.
    intros A d n. induction m as [|[k v] m IH]; cbn [assoc_del assoc]; [now destruct (String.eqb n d)|].
    destruct (String.eqb_spec d k) as [->|N].
    - rewrite IH. destruct (String.eqb_spec n k); auto.
    - cbn [assoc]. rewrite IH. destruct (String.eqb_spec n k) as [->|]; auto. destruct (String.eqb_spec k d); congruence.
  Qed.
  Lemma assoc_del_keys : forall A d (m : list (string * A)) k, In k (map fst (assoc_del d m)) -> In k (map fst m).
  Proof. intros A d. induction m as [|[n v] m IH]; intros k H; auto. cbn [assoc_del] in H. destruct (String.eqb d n); [right; auto|]. destruct H as [H|H]; [now left|right; auto]. Qed.
  Lemma assoc_del_NoDup : forall A d (m : list (string * A)), NoDup (map fst m) -> NoDup (map fst (assoc_del d m)).
  Proof. intros A d. induction m as [|[n v] m IH]; intros H; auto. inversion H; subst. cbn [assoc_del]. destruct (String.eqb d n); auto. cbn [map fst]. constructor; auto. intros I. apply assoc_del_keys in I. tauto. Qed.
  Lemma filter_loop : forall flt ks (m : masks_map), NoDup (map fst m) ->
    let m' := fold_left (fun m d => if mem_str d flt then assoc_del d m else m) ks m in
    NoDup (map fst m') /\ forall d, assoc d m' = if (mem_str d ks && mem_str d flt)%bool then None else assoc d m.
  Proof.
    intros flt. induction ks as [|k ks IH]; intros m NM; cbn [fold_left]; [split; auto|].
    set (m1 := if mem_str k flt then assoc_del k m else m). assert (N1 : NoDup (map fst m1)) by (unfold m1; destruct (mem_str k flt); auto; now apply assoc_del_NoDup).
    destruct (IH m1 N1) as [N2 A]. split; auto. intros d. rewrite A. cbn [mem_str existsb]. unfold m1. destruct (String.eqb_spec d k) as [->|N]; cbn [orb].
    - destruct (mem_str k flt) eqn:F; [rewrite andb_true_r, assoc_del_spec, String.eqb_refl; now destruct (mem_str k ks)|]. now rewrite !andb_false_r.
    - change (existsb (String.eqb d) ks) with (mem_str d ks). destruct (mem_str d ks && mem_str d flt)%bool; auto. destruct (mem_str k flt); auto. rewrite assoc_del_spec. destruct (String.eqb_spec d k); congruence.
  Qed.
  Lemma override_loop : forall ovr ks (m : masks_map), NoDup (map fst m) -> (forall k, In k ks -> In k (map fst m)) ->
    let m' := fold_left (fun m d => match assoc d ovr with Some ms => assoc_set d ms m | None => m end) ks m in
    NoDup (map fst m') /\ forall d, assoc d m' = if mem_str d ks then match assoc d ovr with Some o => Some o | None => assoc d m end else assoc d m.
  Proof.
    intros ovr. induction ks as [|k ks IH]; intros m NM I; cbn [fold_left]; [split; auto|].
    set (m1 := match assoc k ovr with Some ms => assoc_set k ms m | None => m end). assert (N1 : NoDup (map fst m1)) by (unfold m1; destruct (assoc k ovr); auto; now apply NoDup_assoc_set).
    assert (K1 : forall x, In x (map fst m) -> In x (map fst m1)).
    { intros x H. unfold m1. destruct (assoc k ovr); auto. rewrite assoc_set_keys. destruct (assoc k m); auto. apply in_or_app. auto. }
    destruct (IH m1 N1) as [N2 A]; [intros x H; apply K1, I; now right|]. split; auto. intros d. rewrite A. cbn [mem_str existsb]. unfold m1. destruct (String.eqb_spec d k) as [->|N]; cbn [orb].
    - destruct (assoc k ovr); [rewrite assoc_set_same|]; now destruct (mem_str k ks).
    - change (existsb (String.eqb d) ks) with (mem_str d ks). assert (X : assoc d m1 = assoc d m) by (unfold m1; destruct (assoc k ovr); auto; apply assoc_set_other; auto). fold m1. rewrite X. reflexivity.
  Qed.
  Lemma mem_keys : forall A k (m : list (string * A)) d, mem_str d (ord k (map fst m)) = match assoc d m with Some _ => true | None => false end.
  Proof.
    intros A k m d. destruct (assoc d m) eqn:E.
    - apply mem_str_iff. apply (Permutation_in _ (Permutation_sym (PO k _))). apply assoc_In in E. apply in_map_iff. exists (d, a). auto.
    - destruct (mem_str d (ord k (map fst m))) eqn:M; auto. apply mem_str_iff in M. apply (Permutation_in _ (PO k _)) in M. apply assoc_None in E. tauto.
  Qed.
  Lemma generate_ok : forall es flt ovr m, generate_map ord es flt ovr = inl m ->
    exists ds, all_defs es = Some ds /\ ds <> [] /\ NoDup (map fst m) /\
      forall d, assoc d m = if mem_str d flt then None else match defs_of d ds with [] => None | ms => Some (match assoc d ovr with Some o => o | None => ms end) end.
  Proof.
    intros es flt ovr m H. unfold generate_map, get_masks in H. pose proof (walk_ok es 1 [] [] maps_nil) as W. destruct (walk ord 1 es []) as [m0|e]; [|discriminate].
    destruct W as (ds & E & M). cbn [app] in M. exists ds. split; auto. destruct m0 as [|x m0]; [discriminate|]. set (m1 := x :: m0) in *. inversion H; subst m. clear H.
    split. { intros ->. destruct M as [_ A]. destruct x as [k v]. specialize (A k). unfold m1 in A. cbn [assoc] in A. rewrite String.eqb_refl in A. discriminate. }
    destruct M as [N0 A0]. destruct (filter_loop flt (ord 0 (map fst m1)) m1 N0) as [N1 A1]. fold (drop_filtered ord flt m1) in *. set (m2 := drop_filtered ord flt m1) in *.
    destruct (override_loop ovr (ord 1 (map fst m2)) m2 N1) as [N2 A2]; [intros k I; now apply (Permutation_in _ (PO 1 _)) in I|].
    split; auto. intros d. unfold apply_override. rewrite A2, (mem_keys _ 1 m2 d), A1, (mem_keys _ 0 m1 d), A0.
    destruct (defs_of d ds) as [|y l]; cbn [andb]; [now destruct (mem_str d flt)|]. destruct (mem_str d flt); auto. destruct (assoc d ovr); auto.
  Qed.
  (** Errors: a file cannot be read, a name is not known, or nothing is found. *)
  Lemma generate_err : forall es flt ovr, (exists e, generate_map ord es flt ovr = inr e) <-> (all_defs es = None \/ all_defs es = Some []).
  Proof.
    intros es flt ovr. unfold generate_map, get_masks. pose proof (walk_ok es 1 [] [] maps_nil) as W. destruct (walk ord 1 es []) as [m0|e].
    - destruct W as (ds & E & [_ A]). rewrite E. cbn [app] in A. destruct m0 as [|[k v] m0].
      + split; [|intros _; eauto]. intros _. right. destruct ds as [|[n g] ds]; auto. specialize (A n). rewrite defs_cons, String.eqb_refl in A. discriminate.
      + split; [intros [e H]; discriminate|]. intros [H|H]; [discriminate|]. inversion H; subst. specialize (A k). cbn [assoc] in A. rewrite String.eqb_refl in A. discriminate.
    - rewrite W. split; [auto|]. intros _. eauto.
  Qed.
End Order.
