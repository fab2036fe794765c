(** C85: the order of directive sources. *)
From Verif Require Import OrderProofs Tables.
Local Open Scope string_scope.

(** What Parse accepts without an error does not depend on the order of the sources, nor on
    how often one is named. *)
Theorem C85_sources : forall fuel o gs filename p, same_set (o_sources o) gs -> pl_errors p = [] ->
  (parse_main fuel o filename = ROk p <-> parse_main fuel (with_sources o gs) filename = ROk p).
Proof. exact sources_main. Qed.
Print Assumptions C85_sources.
(** Nor on how their forms are spread over them. *)
Theorem C85_tables : forall fuel o o' filename p, same_tables o o' -> pl_errors p = [] ->
  (parse_main fuel o filename = ROk p <-> parse_main fuel o' filename = ROk p).
Proof. exact tables_main. Qed.
Print Assumptions C85_tables.

(** [x] as a statement with one argument, and as a block without. *)
Definition x_simple (name : string) : option (list N) := if String.eqb name "x" then Some [ngxMainConf .| ngxConfTake1] else None.
Definition x_block (name : string) : option (list N) := if String.eqb name "x" then Some [ngxMainConf .| ngxConfBlock .| ngxConfNoArgs] else None.
Definition x_opts (sources : list match_func) (text : string) : popts :=
  Opts [] None (fun f => if String.eqb f "a" then inl text else inr "no such file") (fun _ => inl []) false false false false false false false sources (fun _ => None) [].
(** Where a block is rejected, the order decides which message is returned, and by its message
    Parse decides whether to skip the body: here one order loses the rest of the file. *)
Theorem C85_rejected_refuted : exists o f g text p q,
  o = x_opts [f; g] text /\ parse_main 5 o "a" = ROk p /\ parse_main 5 (with_sources o [g; f]) "a" = ROk q /\
  flat_map (fun c => map d_name (cf_parsed c)) (pl_config p) = ["y"] /\
  flat_map (fun c => map d_name (cf_parsed c)) (pl_config q) = ["z"].
Proof.
  exists (x_opts [x_simple; x_block] "x 1 { y; } z;"), x_simple, x_block, "x 1 { y; } z;". eexists _, _.
  split; [reflexivity|]. split; [vm_compute; reflexivity|]. split; [vm_compute; reflexivity|]. split; reflexivity.
Qed.
Print Assumptions C85_rejected_refuted.

Example C85_case : exists p, let o := x_opts [x_simple; x_block] "x 1; x { y; } z;" in
  same_set (o_sources o) [x_block; x_simple; x_block] /\ parse_main 5 o "a" = ROk p /\ pl_errors p = [] /\
  parse_main 5 (with_sources o [x_block; x_simple; x_block]) "a" = ROk p /\
  flat_map (fun c => map d_name (cf_parsed c)) (pl_config p) = ["x"; "x"; "z"].
Proof.
  eexists. cbv zeta. split; [intros f; cbn; tauto|]. split; [vm_compute; reflexivity|]. split; [reflexivity|]. split; [|reflexivity].
  apply C85_sources; [intros f; cbn; tauto|reflexivity|vm_compute; reflexivity].
Qed.
