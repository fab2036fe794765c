(** The Lua table against the names of the Lua lexer (C49). *)
From Verif Require Export SpecLuaTable Lua Tables.
From Verif Require Import Util ValidateProofs TableProofs.
Local Open Scope string_scope.

Definition row_ok (r : string * list N) : bool :=
  (negb (has_suffix (fst r) "_by_lua_block") || mem_str (fst r) lua_newer ||
   (mem_str (fst r) lua_names && negb (Nat.eqb (List.length (snd r)) 0) &&
    forallb (fun m => negb (N.testbit m 8) && negb (N.testbit m 9) && N.testbit m (N.of_nat (lua_arity (fst r)))) (snd r)))%bool.
Lemma rows_ok : forallb row_ok luaDirectives = true.
Proof. vm_compute. reflexivity. Qed.
Lemma names_ok : forallb (fun n => match assoc n luaDirectives with Some _ => (has_suffix n "_by_lua_block" && negb (mem_str n lua_newer))%bool | None => false end) lua_names = true.
Proof. vm_compute. reflexivity. Qed.
Lemma newer_ok : forallb (fun n => match assoc n luaDirectives with Some ms => (negb (mem_str n lua_names) && negb (Nat.eqb (List.length ms) 0) && forallb (fun m => N.testbit m 8) ms)%bool | None => false end) lua_newer = true.
Proof. vm_compute. reflexivity. Qed.

Lemma mem_str_In : forall s l, mem_str s l = true <-> In s l.
Proof.
  intros s l. unfold mem_str. rewrite existsb_exists. split.
  - intros (x & I & E). apply String.eqb_eq in E. now subst.
  - intros I. exists s. split; auto. apply String.eqb_refl.
Qed.
Lemma lua_row : forall n ms, assoc n luaDirectives = Some ms -> lua_block_name n -> ~ In n lua_newer ->
  In n lua_names /\ ms <> [] /\
  forall m, In m ms -> ~ bit 8 m /\ ~ bit 9 m /\ bit (N.of_nat (lua_arity n)) m.
Proof.
  intros n ms A S N. pose proof rows_ok as R. rewrite forallb_forall in R. specialize (R _ (assoc_In _ _ _ _ A)).
  unfold row_ok in R. cbn [fst snd] in R. apply has_suffix_iff in S. rewrite S in R.
  destruct (mem_str n lua_newer) eqn:E; [apply mem_str_In in E; contradiction|]. cbn [negb orb] in R.
  apply andb_true_iff in R as [R F]. apply andb_true_iff in R as [R L]. apply mem_str_In in R. rewrite forallb_forall in F.
  split; auto. split; [intros ->; discriminate|]. intros m I. specialize (F m I).
  apply andb_true_iff in F as [F F3]. apply andb_true_iff in F as [F1 F2].
  apply negb_true_iff in F1, F2. unfold bit. rewrite F1, F2. repeat split; auto; discriminate.
Qed.
Lemma lua_known : forall n, In n lua_names -> lua_block_name n /\ ~ In n lua_newer /\ exists ms, assoc n luaDirectives = Some ms.
Proof.
  intros n I. pose proof names_ok as R. rewrite forallb_forall in R. specialize (R n I).
  destruct (assoc n luaDirectives) as [ms|]; [|discriminate]. apply andb_true_iff in R as [R1 R2].
  apply negb_true_iff in R2. split; [now apply has_suffix_iff|]. split; [|eauto].
  intros J. apply mem_str_In in J. congruence.
Qed.
Lemma lua_form : forall n ms m line args, assoc n luaDirectives = Some ms -> lua_block_name n -> ~ In n lua_newer -> In m ms ->
  List.length args = lua_arity n -> form_fits m (Dir n line args "" None None None false) ";".
Proof.
  intros n ms m line args A S N I L. destruct (lua_row n ms A S N) as (_ & _ & F). destruct (F m I) as (F1 & F2 & F3).
  split; [|split; [|split]]; try contradiction; auto. cbn [d_args]. apply fit_take.
  - rewrite L. unfold lua_arity. destruct (String.eqb _ _); lia.
  - now rewrite L.
Qed.
Lemma lua_accepted : forall n ms m b path line args o, In n lua_names -> o_sources o = [Tables.lookup luaDirectives] ->
  assoc n luaDirectives = Some ms -> In m ms -> path_bit path = Some b -> bit b m ->
  List.length args = lua_arity n -> accepts o path (Dir n line args "" None None None false) ";".
Proof.
  intros n ms m b path line args o I O A IM P B L. destruct (lua_known n I) as (S & N & _).
  apply acc_mask with (ms := ms) (mask := m) (b := b); auto.
  - right. rewrite O. split; [discriminate|]. exists (Tables.lookup luaDirectives). split; [now left|]. cbn [d_name]. unfold Tables.lookup.
    split; [congruence|]. cbn [flat_map]. rewrite A. now rewrite app_nil_r.
  - right. eapply lua_form; eauto.
Qed.
Lemma newer_blocks : forall n, In n lua_newer -> lua_block_name n /\ ~ In n lua_names /\
  exists ms, assoc n luaDirectives = Some ms /\ ms <> [] /\ forall m, In m ms -> bit 8 m.
Proof.
  intros n I. split; [apply has_suffix_iff; unfold lua_newer in I; cbn in I; intuition subst; reflexivity|].
  pose proof newer_ok as R. rewrite forallb_forall in R. specialize (R n I).
  destruct (assoc n luaDirectives) as [ms|]; [|discriminate]. apply andb_true_iff in R as [R F]. apply andb_true_iff in R as [R1 R2].
  rewrite forallb_forall in F. apply negb_true_iff in R1. split; [intros J; apply mem_str_In in J; congruence|].
  exists ms. split; auto. split; [intros ->; discriminate|exact F].
Qed.
