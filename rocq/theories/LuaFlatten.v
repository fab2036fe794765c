(** Proofs for C69: one file in place of a configuration with includes and Lua blocks. *)
From Verif Require Export LuaRoundProofs FlattenProofs.
Local Open Scope string_scope.

Lemma lw_ifs : forall pr ok d, lua_writable pr ok d = true -> ifs_fit pr d = true.
Proof.
  intros pr ok d. induction d as [d IH] using dir_ind'. intros W. destruct (is_comment d) eqn:C; [destruct d; cbn [ifs_fit]; now rewrite C|].
  destruct d as [nm ln args file inc blk cm mp]. cbn [ifs_fit]. rewrite C. cbn [lua_writable] in W. rewrite C in W. cbn [d_name d_args d_block d_comment] in *. apply andb_true_iff in W as [_ W].
  destruct (lua_dir (Dir nm ln args file inc blk cm mp)) eqn:L.
  - apply andb_true_iff in W as [_ W]. destruct blk; [discriminate|]. destruct (String.eqb_spec nm "if") as [E|E]; [|reflexivity]. subst nm. vm_compute in L. discriminate.
  - rewrite !andb_true_iff in W. destruct W as [[[[KN CN] A] IF] B]. apply andb_true_iff. split.
    + destruct (String.eqb_spec nm "if") as [E|E]; [|reflexivity]. rewrite IF, andb_true_r. rewrite forallb_forall in *. intros x I. specialize (A x I). now apply andb_true_iff in A.
    + destruct blk as [b|]; [|reflexivity]. apply andb_true_iff in B as [_ B]. eapply forallb_weak; [exact IH|exact B].
Qed.
Lemma lua_flatten : forall bo o filename l, ascii_right (b_print bo) -> b_ext bo = apply_builders [(lua_build, lua_names)] -> (0 <= b_indent bo)%Z ->
  o_combine o = true -> o_lexers o = apply_lexers [(lua_lex, lua_names)] -> loose_if o ->
  book o filename l -> ~ loops l -> one_home l ->
  (forall g, In g l -> pg_errors g = [] /\ forallb no_if_entry (pg_tree g) = true /\ forallb all_resolved (pg_tree g) = true) ->
  exists n ds, (forall fuel, n <= fuel -> parse_main fuel o filename = ROk (Pay "ok" [] [Cfg filename "ok" [] ds])) /\
    (lua_writables (b_print bo) not_note ds = true -> exists text, build bo ds = Some text /\
      forall op f, op f = inl text -> exists n ds', (forall k, n <= k -> parse_main k (with_open o op) f = ROk (Pay "ok" [] [Cfg f "ok" [] ds'])) /\
        map bare ds' = map bare (expected (o_comments o) (b_header bo) ds)).
Proof.
  intros bo o filename l AR NE IN CM NL LI BK LP HM FM.
  destruct (flatten_core (b_print bo) o filename l CM LI BK LP HM FM) as (n & ds & PM & LG'). exists n, ds. split; [exact PM|]. intros W.
  assert (LG : Forall (legal o []) ds).
  { apply LG'. unfold lua_writables in W. apply andb_true_iff in W as [_ W]. eapply forallb_weak; [|exact W]. apply Forall_forall. intros d _. apply lw_ifs. }
  clear LG'. destruct (lua_round bo o filename ds AR NE IN NL W LG) as (text & B & _). exists text. split; [exact B|]. intros op f OP.
  assert (LO : Forall (legal (with_open o op) []) ds) by (rewrite Forall_forall in *; intros d I; apply legal_open; auto).
  destruct (lua_round bo (with_open o op) f ds AR NE IN NL W LO) as (text' & B' & R). rewrite B in B'. injection B' as <-. exact (R OP).
Qed.
