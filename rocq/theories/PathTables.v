(** C25, C49: what the shipped tables make of validation. *)
From Verif Require Export PathProofs.
From Verif Require Import Tables TableProofs LuaTable.
Local Open Scope string_scope.

Theorem shipped_analyzed : forall t name ms o, In t shipped -> assoc name t = Some ms ->
  o_sources o = [lookup t] -> ~ In name ["status"; "header"; "trusted_certificate"] ->
  exists path args term, path_bit path <> None /\
    forall f, analyze o f (Dir name 1 args "" None None None false) term path = None.
Proof.
  intros t name ms o I A S NC. destruct (shipped_accepted t name ms o I A S NC) as (path & args & term & AC & P).
  exists path, args, term. split; auto. intros f. apply (analyze_every_path o f _ term path path); auto. now apply meant_known.
Qed.
Theorem lua_analyzed : forall n ms m b path line args o f, In n lua_names -> o_sources o = [Tables.lookup luaDirectives] ->
  assoc n luaDirectives = Some ms -> In m ms -> path_bit path = Some b -> bit b m ->
  List.length args = lua_arity n -> analyze o f (Dir n line args "" None None None false) ";" path = None.
Proof.
  intros n ms m b path line args o f I O A IM P B L. apply (analyze_every_path o f _ ";" path path).
  - apply meant_known. congruence.
  - eapply lua_accepted; eauto.
Qed.
