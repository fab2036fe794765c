(** C71: checking less leaves what was accepted as it was. *)
From Verif Require Import SpecLoose LooseProofs Tables.
Local Open Scope string_scope.

(** What Parse accepts without an error it reads the same way with options that check less,
    whatever those do about errors. *)
Theorem C71_looser : forall fuel o o' filename p, looser o o' ->
  parse_main fuel o filename = ROk p -> pl_errors p = [] -> parse_main fuel o' filename = ROk p.
Proof. intros fuel o o' filename p H. exact (main_looser o o' H fuel filename p). Qed.
Print Assumptions C71_looser.
(** The switches and tables of ParseOptions that amount to checking less: unknown directives
    let through, the context check or the argument check skipped, and, for options that
    refuse unknown directives and name their tables, more tables. *)
Theorem C71_switches : forall fuel o filename p strict skipctx skipargs stop callback more,
  (strict = true -> o_strict o = true) -> (o_skipctx o = true -> skipctx = true) ->
  (o_skipargs o = true -> skipargs = true) ->
  more = [] \/ o_strict o = true /\ o_sources o <> [] ->
  parse_main fuel o filename = ROk p -> pl_errors p = [] ->
  parse_main fuel (relaxed o strict skipctx skipargs stop callback more) filename = ROk p.
Proof. exact relaxed_same. Qed.
Print Assumptions C71_switches.

Definition c71_files (path : string) : string + string :=
  if String.eqb path "d/a" then inl "http{server{listen 80 default_server;include b;}map $x $y{a b;}}"
  else if String.eqb path "d/b" then inl "location /x{if ($a = b){return 404;}}"
  else if String.eqb path "d/c" then inl "wonder 1;"
  else if String.eqb path "d/e" then inl "listen 80{bogus;bogus;}"
  else inr "no such file".
Definition c71_opts (strict skipctx skipargs : bool) (sources : list match_func) : popts :=
  Opts [] None c71_files (fun _ => inl []) false false false true strict skipctx skipargs sources default_match [].
Definition wonders (name : string) : option (list N) :=
  if String.eqb name "wonder" then Some [N.lor 4 4194304]%N else None.

(** More tables do not check less if unknown directives are let through: a table can forbid
    what was unknown before. *)
Theorem C71_tables_refuted : exists fuel o filename p more,
  parse_main fuel o filename = ROk p /\ pl_errors p = [] /\ o_sources o <> [] /\
  parse_main fuel (relaxed o (o_strict o) (o_skipctx o) (o_skipargs o) (o_stop o) (o_callback o) more) filename
  <> ROk p.
Proof.
  exists 9, (c71_opts false false false [default_match]), "d/c". eexists. exists [wonders].
  split; [vm_compute; reflexivity|]. split; [reflexivity|]. split; [discriminate|]. vm_compute. discriminate.
Qed.
Print Assumptions C71_tables_refuted.
(** Nor do fewer checks mean fewer errors where there are some: a block that is let in is
    read, and has errors of its own. *)
Theorem C71_fewer_refuted : exists fuel o o' filename p p', looser o o' /\
  parse_main fuel o filename = ROk p /\ parse_main fuel o' filename = ROk p' /\
  List.length (pl_errors p) < List.length (pl_errors p').
Proof.
  exists 9, (c71_opts true true false []), (c71_opts true true true []), "d/e". eexists _, _.
  split; [apply (relaxed_looser (c71_opts true true false []) true true true false None []); auto|].
  split; [vm_compute; reflexivity|]. split; [vm_compute; reflexivity|]. vm_compute. auto.
Qed.
Print Assumptions C71_fewer_refuted.

Example C71_case : exists p, looser (c71_opts true false false [default_match]) (c71_opts false true false [default_match; wonders]) /\
  parse_main 9 (c71_opts true false false [default_match]) "d/a" = ROk p /\ pl_errors p = [] /\
  List.length (pl_config p) = 2 /\
  parse_main 9 (c71_opts false true false [default_match; wonders]) "d/a" = ROk p.
Proof.
  eexists. split.
  { apply (relaxed_looser (c71_opts true false false [default_match]) false true false false None [wonders]); auto;
      try discriminate. right. split; [reflexivity|discriminate]. }
  split; [vm_compute; reflexivity|]. split; [reflexivity|]. split; [reflexivity|]. vm_compute. reflexivity.
Qed.
