(** C24, C25: directive sources and the shipped tables. *)
From Verif Require Export SpecTables.
From Verif Require Import Util SpecValidate ValidateProofs Tables Main.
Local Open Scope string_scope.

(** ** Right-biased union *)
Lemma union_maps_spec : forall ms k, Forall (fun m => NoDup (map fst m)) ms ->
  assoc k (union_maps ms) =
  fold_left (fun acc m => match assoc k m with Some v => Some v | None => acc end) ms None.
Proof. intros. unfold union_maps. now rewrite union_maps_acc. Qed.

Lemma fold_last_none : forall (ms : list (list (string * list N))) k acc,
  Forall (fun m => assoc k m = None) ms ->
  fold_left (fun acc m => match assoc k m with Some v => Some v | None => acc end) ms acc = acc.
Proof.
  intros ms k acc F. revert acc. induction F as [|m ms E F IH]; intros acc; cbn; auto. now rewrite E.
Qed.
Lemma union_maps_last : forall before m after k v,
  Forall (fun m => NoDup (map fst m)) (before ++ m :: after) ->
  assoc k m = Some v -> Forall (fun m => assoc k m = None) after ->
  assoc k (union_maps (before ++ m :: after)) = Some v.
Proof.
  intros. rewrite union_maps_spec by auto. rewrite fold_left_app. cbn. rewrite H0. now apply fold_last_none.
Qed.
Lemma union_maps_none : forall ms k,
  Forall (fun m => NoDup (map fst m)) ms ->
  (assoc k (union_maps ms) = None <-> Forall (fun m => assoc k m = None) ms).
Proof.
  intros ms k F. rewrite union_maps_spec by auto. split.
  - clear F. assert (G : forall acc : option (list N),
      fold_left (fun acc m => match assoc k m with Some v => Some v | None => acc end) ms acc = None ->
      Forall (fun m => assoc k m = None) ms /\ acc = None).
    { induction ms as [|m ms IH]; intros acc H; cbn in *; auto. apply IH in H as [H1 H2].
      destruct (assoc k m) eqn:E; [discriminate|]. auto. }
    intros H. now apply G in H.
  - intros H. now apply fold_last_none.
Qed.

(** ** Shipped tables *)
Definition style_bits : N := 0x3CFF. (* bits 0-7 and 10-13 *)
Definition ctx_bits : N := 0x1FFFE0000. (* bits 17-32 *)

Definition example_args (mask : N) : list string :=
  let pad n := repeat "x" n in
  if N.testbit mask 9 then ["(x"; "x)"]
  else if N.testbit mask 10 then ["on"]
  else if N.testbit mask 13 then pad 2
  else if N.testbit mask 12 then pad 1
  else if N.testbit mask 11 then pad 0
  else match find (fun n => N.testbit mask (N.of_nat n)) (seq 0 8) with
       | Some n => pad n
       | None => []
       end.
Definition example_term (mask : N) : string := if N.testbit mask 8 then "{" else ";".
Definition example_path (mask : N) : option (list string) :=
  find (fun p => match path_bit p with Some b => N.testbit mask b | None => false end) context_paths.
Definition example_dir (name : string) (mask : N) : directive :=
  Dir name 1 (example_args mask) "" None None None false.

Definition no_ctx (masks : list N) : bool := forallb (fun m => N.eqb (N.land m ctx_bits) 0) masks.
Definition context_free : list string := ["status"; "header"; "trusted_certificate"].

Definition mask_ok (m : N) : bool := negb (N.eqb (N.land m style_bits) 0).
Definition mask_usable (name : string) (m : N) : bool :=
  match example_path m with
  | Some p => match check_masks (example_dir name m) (example_term m) "" [m] with
              | None => true | Some _ => false end
  | None => false
  end.
Definition entry_ok (e : string * list N) : bool :=
  let '(name, ms) := e in
  (negb (match ms with [] => true | _ => false end) && forallb mask_ok ms
   && (forallb (fun m => mask_usable name m || N.eqb (N.land m ctx_bits) 0) ms)
   && (mem_str name context_free || negb (no_ctx ms)))%bool.
Fixpoint nodupb (l : list string) : bool :=
  match l with [] => true | x :: r => (negb (mem_str x r) && nodupb r)%bool end.
Lemma nodupb_NoDup : forall l, nodupb l = true -> NoDup l.
Proof.
  induction l; cbn; intros H; constructor; apply andb_true_iff in H as [H1 H2]; auto.
  intros I. apply mem_str_iff in I. rewrite I in H1. discriminate.
Qed.
Definition table_ok (t : list (string * list N)) : bool :=
  (nodupb (map fst t) && forallb entry_ok t)%bool.
Lemma shipped_ok : forallb table_ok shipped = true.
Proof. vm_compute. reflexivity. Qed.

Lemma shipped_entry : forall t name ms, In t shipped -> assoc name t = Some ms ->
  NoDup (map fst t) /\ entry_ok (name, ms) = true.
Proof.
  intros t name ms I A. pose proof shipped_ok as OK. rewrite forallb_forall in OK.
  specialize (OK _ I). unfold table_ok in OK. apply andb_true_iff in OK as [N F].
  split; [now apply nodupb_NoDup|]. rewrite forallb_forall in F. apply F. now apply assoc_In.
Qed.

Lemma testbit_land_0 : forall m k n, N.land m k = 0%N -> N.testbit k n = true -> N.testbit m n = false.
Proof.
  intros m k n H K. assert (T : N.testbit (N.land m k) n = false) by (rewrite H; apply N.bits_0).
  rewrite N.land_spec, K, andb_true_r in T. auto.
Qed.

Lemma mask_usable_spec : forall name m, mask_usable name m = true ->
  exists path b args term, path_bit path = Some b /\ bit b m /\
    form_fits m (Dir name 1 args "" None None None false) term.
Proof.
  intros name m H. unfold mask_usable in H. destruct (example_path m) as [p|] eqn:P; [|discriminate].
  destruct (check_masks (example_dir name m) (example_term m) "" [m]) eqn:C; [discriminate|].
  apply check_masks_iff in C as [m' [[<-|[]] F]].
  unfold example_path in P. apply find_some in P as [_ P].
  destruct (path_bit p) as [b|] eqn:B; [|discriminate].
  exists p, b, (example_args m), (example_term m). auto.
Qed.

(** Every mask of every shipped entry has an argument style; every mask that names
    a context can be satisfied in it. *)
Lemma shipped_usable : forall t name ms, In t shipped -> assoc name t = Some ms ->
  ms <> [] /\
  (forall m, In m ms -> exists n, In n [0; 1; 2; 3; 4; 5; 6; 7; 10; 11; 12; 13]%N /\ bit n m) /\
  (forall m b, In m ms -> (17 <= b <= 32)%N -> bit b m ->
     exists path b' args term, path_bit path = Some b' /\ bit b' m /\
       form_fits m (Dir name 1 args "" None None None false) term) /\
  (In name ["status"; "header"; "trusted_certificate"] \/
   exists m b, In m ms /\ (17 <= b <= 32)%N /\ bit b m).
Proof.
  intros t name ms I A. destruct (shipped_entry _ _ _ I A) as [_ OK].
  cbn [entry_ok] in OK. repeat rewrite andb_true_iff in OK. destruct OK as [[[N S] U] C].
  split; [destruct ms; [discriminate|congruence]|]. split; [|split].
  - intros m Im. rewrite forallb_forall in S. specialize (S _ Im). unfold mask_ok in S.
    apply negb_true_iff, N.eqb_neq in S.
    destruct (existsb (N.testbit m) [0; 1; 2; 3; 4; 5; 6; 7; 10; 11; 12; 13]%N) eqn:E.
    + apply existsb_exists in E as [n [In1 T]]. exists n. auto.
    + exfalso. apply S. apply N.bits_inj_0. intros n. rewrite N.land_spec.
      destruct (N.testbit style_bits n) eqn:SB; [|apply andb_false_r].
      rewrite andb_true_r.
      assert (Hn : In n [0; 1; 2; 3; 4; 5; 6; 7; 10; 11; 12; 13]%N).
      { destruct (N.lt_ge_cases n 14) as [L|L].
        - assert (n = 0 \/ n = 1 \/ n = 2 \/ n = 3 \/ n = 4 \/ n = 5 \/ n = 6 \/ n = 7 \/
                  n = 8 \/ n = 9 \/ n = 10 \/ n = 11 \/ n = 12 \/ n = 13)%N by lia.
          cbn. repeat (destruct H as [H|H]; [subst; try discriminate; tauto|]). subst; tauto.
        - exfalso. rewrite N.bits_above_log2 in SB; [discriminate|].
          eapply N.lt_le_trans; [|exact L]. vm_compute. reflexivity. }
      destruct (N.testbit m n) eqn:T; auto.
      assert (existsb (N.testbit m) [0; 1; 2; 3; 4; 5; 6; 7; 10; 11; 12; 13]%N = true)
        by (apply existsb_exists; eauto). congruence.
  - intros m b Im Hb Tb. rewrite forallb_forall in U. specialize (U _ Im). apply orb_true_iff in U as [U|U].
    + now apply mask_usable_spec.
    + exfalso. apply N.eqb_eq in U. unfold bit in Tb.
      rewrite (testbit_land_0 _ _ b U) in Tb; [discriminate|].
      assert (b = 17 \/ b = 18 \/ b = 19 \/ b = 20 \/ b = 21 \/ b = 22 \/ b = 23 \/ b = 24 \/
              b = 25 \/ b = 26 \/ b = 27 \/ b = 28 \/ b = 29 \/ b = 30 \/ b = 31 \/ b = 32)%N by lia.
      repeat (destruct H as [->|H]; [reflexivity|]). subst; reflexivity.
  - apply orb_true_iff in C as [C|C].
    + left. now apply mem_str_iff in C.
    + right. apply negb_true_iff in C. unfold no_ctx in C.
      assert (E : existsb (fun m => negb (N.eqb (N.land m ctx_bits) 0)) ms = true).
      { clear -C. induction ms as [|m ms IH]; cbn in *; [discriminate|].
        apply andb_false_iff in C as [C|C]; [rewrite C; auto|]. rewrite IH by auto. apply orb_true_r. }
      apply existsb_exists in E as [m [Im E]]. apply negb_true_iff, N.eqb_neq in E.
      exists m. set (k := N.land m ctx_bits) in *. exists (N.log2 k).
      assert (T : N.testbit k (N.log2 k) = true) by now apply N.bit_log2.
      unfold k in T at 1. rewrite N.land_spec in T. apply andb_true_iff in T as [T1 T2].
      split; auto. split; auto.
      destruct (N.lt_ge_cases (N.log2 k) 33) as [L|L].
      * split; [|lia]. destruct (N.lt_ge_cases (N.log2 k) 17) as [L'|]; auto. exfalso.
        assert (forall x, (x < 17)%N -> N.testbit ctx_bits x = false).
        { intros x Hx. apply (N.mul_pow2_bits_low 0xFFFF 17 x Hx). }
        rewrite H in T2 by auto. discriminate.
      * exfalso. rewrite N.bits_above_log2 in T2; [discriminate|].
        eapply N.lt_le_trans; [|exact L]. vm_compute. reflexivity.
Qed.

(** Hence each such directive is accepted by strict validation against its table. *)
Lemma shipped_accepted : forall t name ms o, In t shipped -> assoc name t = Some ms ->
  o_sources o = [lookup t] -> ~ In name ["status"; "header"; "trusted_certificate"] ->
  exists path args term, accepts o path (Dir name 1 args "" None None None false) term /\
    path_bit path <> None.
Proof.
  intros t name ms o I A S NC. destruct (shipped_usable _ _ _ I A) as (_ & _ & U & [C|(m & b & Im & Hb & Tb)]);
    [contradiction|].
  destruct (U _ _ Im Hb Tb) as (path & b' & args & term & PB & B & F).
  exists path, args, term. split; [|congruence].
  eapply acc_mask with (ms := ms); eauto. right. split; [rewrite S; discriminate|].
  exists (lookup t). rewrite S. cbn. unfold lookup. rewrite A. repeat split; auto; try congruence.
  now rewrite app_nil_r.
Qed.
(** The three context-free entries carry no context bit at all in some table. *)
Lemma context_free_rejected :
  exists t name ms, In t shipped /\ assoc name t = Some ms /\
    forall m b, In m ms -> (17 <= b <= 32)%N -> ~ bit b m.
Proof.
  exists nginxPlusLatestDirectives, "status". eexists. split; [now left|].
  split; [vm_compute; reflexivity|].
  intros m b Im Hb. cbn in Im.
  assert (b = 17 \/ b = 18 \/ b = 19 \/ b = 20 \/ b = 21 \/ b = 22 \/ b = 23 \/ b = 24 \/
              b = 25 \/ b = 26 \/ b = 27 \/ b = 28 \/ b = 29 \/ b = 30 \/ b = 31 \/ b = 32)%N by lia.
  unfold bit. repeat (destruct Im as [<-|Im]; [repeat (destruct H as [->|H]; [discriminate|]); subst; discriminate|]).
  destruct Im.
Qed.

Lemma default_is_union : default_directives =
  union_maps [nginxPlusLatestDirectives; njsDirectives; otelDirectives] /\
  Forall (fun m => NoDup (map fst m)) [nginxPlusLatestDirectives; njsDirectives; otelDirectives].
Proof.
  split; [vm_compute; reflexivity|].
  repeat (constructor; [apply nodupb_NoDup; vm_compute; reflexivity|]). constructor.
Qed.

(** Default options over one file. *)
Definition one_file (name content : string) : string -> string + string :=
  fun f => if String.eqb f name then inl content else inr ("open " ++ f ++ ": no such file").
Definition plain_opts (open : string -> string + string) : popts :=
  Opts [] None open (fun _ => inl []) false false false false false false false [] default_match [].

Lemma if_crash_refuted : exists o filename fuel, parse_main fuel o filename = RPanic.
Proof.
  exists (plain_opts (one_file "c" ("http{server{if " ++ s_dq ++ "( )" ++ s_dq ++ " {}}}"))), "c", 10.
  vm_compute. reflexivity.
Qed.

Lemma odd_path_refuted : exists o fname d term path,
  analyze o fname d term path = None /\ ~ accepts o path d term \/
  analyze o fname d term path <> None /\ accepts o path d term.
Proof.
  exists (plain_opts (fun _ => inr "")), "f", (Dir "worker_processes" 1 ["1"] "" None None None false), ";", ["http>server"].
  right. split.
  - vm_compute. discriminate.
  - eapply acc_path; [|reflexivity]. left. split; [reflexivity|]. vm_compute. reflexivity.
Qed.
