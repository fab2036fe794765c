(** Property theorems about Parse (parse.go). *)
From Verif Require Import Util SpecPayload StatusProofs StopProofs Tables TableProofs
  SpecInclude IncludeProofs EdgeProofs SpecGraph KahnProofs SpecCombine CombineProofs SpecOutcome OutcomeProofs
  SpecClean CleanProofs.
Local Open Scope string_scope.

(** Two files, one of them with errors. *)
Definition ex_open (f : string) : string + string :=
  if String.eqb f "d/a" then inl "http { include b; server { listen; } } x"
  else if String.eqb f "d/b" then inl "listen 80; charset x;"
  else inr "missing".
Definition ex_opts (stop combine : bool) : popts :=
  Opts [] None ex_open (fun _ => inl []) stop combine false false false false false [] default_match [].

(** C12: status and error lists of every payload Parse returns. *)
Theorem C12_status_and_errors : forall fuel o filename p,
  parse_main fuel o filename = ROk p ->
  err_fields (o_callback o) p /\ if o_combine o then consistent_combined p else consistent p.
Proof. exact parse_consistent. Qed.
Print Assumptions C12_status_and_errors.
Example C12_case : exists p, parse_main 5 (ex_opts false false) "d/a" = ROk p /\
  pl_status p = "failed" /\ map cf_status (pl_config p) = ["failed"; "failed"] /\
  List.length (pl_errors p) = 3.
Proof. eexists. split; [vm_compute; reflexivity|]. repeat split. Qed.

(** C13: the stopping run returns the first error the other run records, or else the
    same result. *)
Theorem C13_stop_returns_first_error : forall o fuel filename, o_stop o = false ->
  match parse_main fuel o filename with
  | ROk p => match pl_errors p with
             | [] => parse_main fuel (with_stop o true) filename = ROk p
             | e :: _ => parse_main fuel (with_stop o true) filename = RErr (py_err e)
             end
  | r => parse_main fuel (with_stop o true) filename = r \/
         exists e, parse_main fuel (with_stop o true) filename = RErr e
  end.
Proof. intros o fuel filename H. exact (parse_stop o H fuel filename). Qed.
Print Assumptions C13_stop_returns_first_error.
(** Also when the run that records errors ends in an error itself (a cycle, a file
    that cannot be opened). *)
Theorem C13_stop_collect : forall o fuel filename st, o_stop o = false ->
  collect fuel o filename = FDone st \/ (exists e, collect fuel o filename = FErr e st) ->
  parse_main fuel (with_stop o true) filename =
    match pl_errors (p_pay st) with [] => parse_main fuel o filename | e :: _ => RErr (py_err e) end.
Proof. intros o fuel filename st H. exact (collect_stop o H fuel filename st). Qed.
Print Assumptions C13_stop_collect.
Example C13_case : exists p e l, parse_main 5 (ex_opts false false) "d/a" = ROk p /\ pl_errors p = e :: l /\ l <> [] /\ parse_main 5 (with_stop (ex_opts false false) true) "d/a" = RErr (py_err e).
Proof.
  eexists _, _, _. split; [vm_compute; reflexivity|]. split; [reflexivity|].
  split; [discriminate|vm_compute; reflexivity].
Qed.

(** Three files reached through nested and repeated includes and a glob. *)
Definition inc_open (f : string) : string + string :=
  if String.eqb f "d/a" then inl "http { include g/*; server { include b; } } include b;"
  else if String.eqb f "d/b" then inl "charset x; include c;"
  else if String.eqb f "d/c" then inl "charset y;"
  else inr "missing".
Definition inc_glob (f : string) : list string + string :=
  if String.eqb f "d/g/*" then inl ["d/c"; "d/b"] else inl [].
Definition inc_opts (combine single : bool) : popts :=
  Opts [] None inc_open inc_glob false combine single false false true true [] default_match [].
(** A cycle of length two, with a repeated edge. *)
Definition cyc_open (f : string) : string + string :=
  if String.eqb f "d/a" then inl "include b; include c; include b;"
  else if String.eqb f "d/b" then inl "charset x; include a;"
  else if String.eqb f "d/c" then inl ""
  else inr "missing".
Definition cyc_opts : popts :=
  Opts [] None cyc_open inc_glob false false false false false true true [] default_match [].

(** C14 *)
Theorem C14_include_indices : forall fuel o filename p,
  parse_main fuel o filename = ROk p -> o_combine o = false -> includes_ok o filename p.
Proof. exact parse_includes_ok. Qed.
Print Assumptions C14_include_indices.
Example C14_case : exists p, parse_main 9 (inc_opts false false) "d/a" = ROk p /\
  map cf_file (pl_config p) = ["d/a"; "d/b"; "d/c"] /\
  exists d, within d (flat_map cf_parsed (pl_config p)) /\ d_args d = ["g/*"] /\ d_includes d = Some [1; 2]%Z.
Proof.
  eexists. split; [vm_compute; reflexivity|]. split; [reflexivity|].
  eexists. split; [|split].
  - eapply in_block; [cbn; left; reflexivity|reflexivity|]. apply in_here. left. reflexivity.
  - reflexivity.
  - reflexivity.
Qed.

(** C15: the algorithm, in any iteration order of the map of in-degrees, on any graph
    whose in-degrees are those of its edges, with multiplicity. *)
Theorem C15_any_order : forall edges indeg order, graph_ok edges indeg ->
  Permutation order (keys indeg) -> (has_cycle order edges indeg = true <-> cyclic edges).
Proof. intros edges indeg order G P. exact (has_cycle_iff edges indeg G order P). Qed.
Print Assumptions C15_any_order.
(** Parse: once all the files were read, the cycle error is returned iff the include
    graph has a cycle; the graph's edges come from include statements of the files and
    cover every include of the trees. *)
Theorem C15_cycle_iff : forall fuel o filename st, collect fuel o filename = FDone st ->
  graph_ok (p_edges st) (p_indeg st) /\
  (parse_main fuel o filename = RErr cycle_error <-> cyclic (p_edges st)) /\
  (forall a b, arrow (p_edges st) a b -> inc_step o (dir_name filename) a b) /\
  (forall c d i b, In c (pl_config (p_pay st)) -> within d (cf_parsed c) ->
     In i (opt_list (d_includes d)) -> selects (p_pay st) i b -> arrow (p_edges st) (cf_file c) b).
Proof.
  intros fuel o filename st C. exact (conj (collect_graph _ _ _ _ C)
    (conj (parse_cycle_iff _ _ _ _ C) (graph_meaning _ _ _ _ C))).
Qed.
Print Assumptions C15_cycle_iff.
(** Every edge comes from an include directive of a tree, or from a file that was cut
    short by an error (its directives are lost). *)
Theorem C15_edges : forall fuel o filename st a b, collect fuel o filename = FDone st -> arrow (p_edges st) a b ->
  exists c, In c (pl_config (p_pay st)) /\ cf_file c = a /\
    ((exists d i, within d (cf_parsed c) /\ In i (opt_list (d_includes d)) /\ selects (p_pay st) i b) \/ cut_short c).
Proof. exact edges_from_trees. Qed.
Print Assumptions C15_edges.
Example C15_case : parse_main 9 cyc_opts "d/a" = RErr cycle_error /\
  exists st, collect 9 cyc_opts "d/a" = FDone st /\ cyclic (p_edges st).
Proof.
  split; [vm_compute; reflexivity|]. eexists. split; [vm_compute; reflexivity|].
  exists "d/a". apply p_step with "d/b"; [|apply p_one];
    eexists; (split; [vm_compute; reflexivity|]); cbn; auto.
Qed.

(** C16 *)
Theorem C16_combined : forall fuel old p, combined fuel old = CbOk p ->
  match pl_config old with [] => p = old | c0 :: _ => combination old p c0 end.
Proof. exact combined_is_combination. Qed.
Print Assumptions C16_combined.
(** The expansion is a function of the payload. *)
Theorem C16_expansion_unique : forall cs ds a b, expand cs ds a -> expand cs ds b -> a = b.
Proof. intros cs ds a b A B. exact (proj1 (expand_det cs) ds b B a A). Qed.
Print Assumptions C16_expansion_unique.
Example C16_case : exists p q c, parse_main 9 (inc_opts false false) "d/a" = ROk p /\
  combined 9 p = CbOk q /\ pl_config q = [c] /\
  map d_name (cf_parsed c) = ["http"; "charset"; "charset"] /\
  map d_args (flat_map (fun d => opt_list (d_block d)) (cf_parsed c)) = [["x"]; ["y"]; ["y"]; []].
Proof. eexists _, _, _. split; [vm_compute; reflexivity|]. split; [vm_compute; reflexivity|]. repeat split. Qed.

(** All other payloads: Combined returns an error exactly for the first index that is too
    large, panics exactly at the first negative one, and otherwise does not end. *)
Theorem C16_succeeds : forall old, (exists p, settles old (CbOk p)) <->
  pl_config old = [] \/ exists c0 cs ds, pl_config old = c0 :: cs /\ outcome (c0 :: cs) (cf_file c0) (cf_parsed c0) (Dirs ds).
Proof. exact combined_ok. Qed.
Print Assumptions C16_succeeds.
Theorem C16_error : forall old e, settles old (CbErr e) <->
  exists c0 cs, pl_config old = c0 :: cs /\ outcome (c0 :: cs) (cf_file c0) (cf_parsed c0) (Bad e).
Proof. exact combined_error. Qed.
Print Assumptions C16_error.
Theorem C16_panic : forall old, settles old CbPanic <->
  exists c0 cs, pl_config old = c0 :: cs /\ outcome (c0 :: cs) (cf_file c0) (cf_parsed c0) Negative.
Proof. exact combined_panic. Qed.
Print Assumptions C16_panic.
Theorem C16_endless : forall old, (forall k, combined k old = CbFuel) <->
  exists c0 cs, pl_config old = c0 :: cs /\ forall a, ~ outcome (c0 :: cs) (cf_file c0) (cf_parsed c0) a.
Proof. exact combined_endless. Qed.
Print Assumptions C16_endless.
(** What is found without failure is the expansion. *)
Theorem C16_outcome_expands : forall cs f ds out, outcome cs f ds (Dirs out) -> expand cs ds out.
Proof. exact outcome_dirs. Qed.
Print Assumptions C16_outcome_expands.
Definition pointing (is : list Z) : payload :=
  Pay "ok" [] [Cfg "a" "ok" [] [Dir "b" 1 [] "" None (Some [Dir "include" 2 ["x"; "y"] "" (Some is) None None false]) None false];
               Cfg "x" "ok" [] [Dir "include" 7 [] "" (Some [2%Z]) None None false]; Cfg "y" "ok" [] []].
Example C16_error_case : settles (pointing [2; 3]%Z) (CbErr (EParse (PE "include config with index: 3" (Some "a") (Some 2%Z) "include x y" "" None))).
Proof. exists 4. intros k L. replace k with (4 + (k - 4)) by lia. vm_compute. reflexivity. Qed.
Example C16_panic_case : settles (pointing [1; -1; 3]%Z) CbPanic.
Proof. exists 4. intros k L. replace k with (4 + (k - 4)) by lia. vm_compute. reflexivity. Qed.
Example C16_endless_case : forall k, combined k (pointing [0]%Z) = CbFuel.
Proof.
  set (cs := pl_config (pointing [0]%Z)). set (ds := cf_parsed (hd (Cfg "" "" [] []) cs)).
  assert (X : forall k, perform k cs "a" ds = CFuel).
  { intros k. induction k as [k IH] using lt_wf_ind. destruct k as [|[|k]]; [reflexivity|reflexivity|].
    unfold ds. cbn [cs hd pointing pl_config cf_parsed]. rewrite perform_cons. cbn [d_block]. rewrite perform_cons. cbn [d_block].
    match goal with |- context [perform_all k ?c ?f ?d ?is] => change (perform_all k c f d is) with (cseq (perform k cs "a" ds) (COk [])) end.
    rewrite (IH k) by lia. reflexivity. }
  intros k. change (combined k (pointing [0]%Z)) with (match perform k cs "a" ds with COk ds => CbOk (Pay "ok" [] [Cfg "a" "ok" [] ds]) | CErr e => CbErr e | CPanic => CbPanic | CFuel => CbFuel end).
  now rewrite X.
Qed.

(** C17: with enough fuel the expansion of what Parse read succeeds, always with the
    same result; so with CombineConfigs Parse ends well whenever it does without. *)
Theorem C17_combining_terminates : forall fuel o filename st, collect fuel o filename = FDone st ->
  ~ cyclic (p_edges st) -> exists n p, forall k, n <= k -> combined k (p_pay st) = CbOk p.
Proof. exact collect_combines. Qed.
Print Assumptions C17_combining_terminates.
Example C17_case : exists st, collect 9 (inc_opts true false) "d/a" = FDone st /\ ~ cyclic (p_edges st).
Proof.
  eexists. split; [vm_compute; reflexivity|].
  match goal with |- ~ cyclic (p_edges ?st) =>
    rewrite <- (combine_acyclic 9 (inc_opts true false) "d/a" st) by (vm_compute; reflexivity) end.
  vm_compute. discriminate.
Qed.

(** C29: [F] is a finite set of names containing all the reachable ones.  Reading ends
    with fuel [length F]: one unit per file read; the whole of Parse ends with one
    result for every sufficient fuel. *)
Theorem C29_reading_terminates : forall F o filename fuel, (forall f, reach o filename f -> In f F) ->
  List.length F <= fuel -> collect fuel o filename <> FFuel.
Proof. exact collect_terminates. Qed.
Print Assumptions C29_reading_terminates.
Theorem C29_parse_terminates : forall F o filename, (forall f, reach o filename f -> In f F) ->
  exists n r, r <> RFuel /\ forall k, n <= k -> parse_main k o filename = r.
Proof. exact parse_terminates. Qed.
Print Assumptions C29_parse_terminates.
Example C29_case : forall f, reach cyc_opts "d/zz" f -> In f ["d/zz"].
Proof.
  intros f R. induction R as [|g f _ R IH ST]; [cbn; auto|]. destruct IH as [<-|[]].
  inversion ST as [content arg O|content arg l O]; vm_compute in O; discriminate.
Qed.

(** C34 *)
Theorem C34_single_file : forall fuel o filename p, o_single o = true ->
  parse_main fuel o filename = ROk p ->
  exists c, pl_config p = [c] /\ cf_file c = filename /\ forall d, within d (cf_parsed c) -> d_includes d = None.
Proof. exact single_file_any. Qed.
Print Assumptions C34_single_file.
Theorem C34_opens : forall fuel o filename st, o_single o = true ->
  collect fuel o filename = FDone st \/ (exists e, collect fuel o filename = FErr e st) ->
  forall f, In f (p_opens st) -> f = filename.
Proof. exact single_opens. Qed.
Print Assumptions C34_opens.
Example C34_case : exists p, parse_main 9 (inc_opts false true) "d/a" = ROk p /\
  exists d, within d (flat_map cf_parsed (pl_config p)) /\ d_name d = "include" /\ d_args d = ["g/*"].
Proof.
  eexists. split; [vm_compute; reflexivity|]. eexists. split; [|split].
  - eapply in_block; [cbn; left; reflexivity|reflexivity|]. apply in_here. left. reflexivity.
  - reflexivity.
  - reflexivity.
Qed.

(** C42: every file opened, whether Parse returns a payload or an error, is reachable
    through include statements; and when all files were read, each file opened is in
    the payload or its failure to open is reported, and each file of the payload was
    opened. *)
Theorem C42_opens_reachable : forall fuel o filename st,
  collect fuel o filename = FDone st \/ (exists e, collect fuel o filename = FErr e st) ->
  forall f, In f (p_opens st) -> reach o filename f.
Proof. exact collect_opens. Qed.
Print Assumptions C42_opens_reachable.
Theorem C42_reads_reported : forall fuel o filename st, collect fuel o filename = FDone st -> reads_ok o filename st.
Proof. exact collect_reads. Qed.
Print Assumptions C42_reads_reported.
Example C42_case : exists st, collect 9 (inc_opts false false) "d/a" = FDone st /\
  p_opens st = ["d/a"; "d/b"; "d/b"; "d/b"; "d/c"; "d/c"].
Proof. eexists. split; [vm_compute; reflexivity|]. vm_compute. reflexivity. Qed.

(** C19 *)
Definition com_open (f : string) : string + string :=
  if String.eqb f "d/a" then inl ("# one
http { # two
  charset # three
   x; include b; } # four
include b; include zz;")
  else if String.eqb f "d/b" then inl "charset y; # five"
  else inr "missing".
Definition com_opts (combine : bool) : popts :=
  Opts [] None com_open inc_glob false combine false true false true true [] default_match [].
Theorem C19_comments_only_added : forall fuel o filename,
  parse_main fuel (with_comments o false) filename = strip_result (parse_main fuel o filename).
Proof. exact parse_strip. Qed.
Print Assumptions C19_comments_only_added.
Example C19_case : exists p q, parse_main 9 (com_opts true) "d/a" = ROk p /\
  parse_main 9 (with_comments (com_opts true) false) "d/a" = ROk q /\ p <> q /\ List.length (pl_errors p) = 1.
Proof.
  eexists _, _. split; [vm_compute; reflexivity|]. split; [vm_compute; reflexivity|].
  split; [discriminate|reflexivity].
Qed.

(** C35: labels of the returned directives; with CombineConfigs the label is the name
    of a file read that contains the directive. *)
Theorem C35_labels : forall fuel o filename p, parse_main fuel o filename = ROk p ->
  forall c d, In c (pl_config p) -> within d (cf_parsed c) ->
  if o_combine o then
    exists st c0 e, collect fuel o filename = FDone st /\ In c0 (pl_config (p_pay st)) /\
      within e (cf_parsed c0) /\ same_head d e /\ d_file d = cf_file c0
  else d_file d = "".
Proof. exact parse_labels. Qed.
Print Assumptions C35_labels.
(** Before combination: every label is the file of its config, and with the option off
    everything but the labels is the same. *)
Theorem C35_before_combination : forall fuel o filename,
  (forall st, collect fuel o filename = FDone st ->
   forall c d, In c (pl_config (p_pay st)) -> within d (cf_parsed c) ->
   d_file d = if o_combine o then cf_file c else "") /\
  match collect fuel o filename, collect fuel (with_off false true o) filename with
  | FDone st, FDone st' => p_pay st' = unlabel (p_pay st) /\ p_edges st' = p_edges st /\ p_opens st' = p_opens st
  | FErr e _, FErr e' _ => e = e'
  | FPanic, FPanic => True
  | FFuel, FFuel => True
  | _, _ => False
  end.
Proof.
  intros fuel o filename. split; [exact (collect_labels fuel o filename)|]. rewrite collect_unlabel.
  destruct (collect fuel o filename); cbn; auto.
Qed.
Print Assumptions C35_before_combination.
Example C35_case : exists p c, parse_main 9 (com_opts true) "d/a" = ROk p /\ pl_config p = [c] /\
  map d_file (cf_parsed c) = ["d/a"; "d/a"; "d/a"; "d/b"; "d/b"; "d/a"].
Proof. eexists _, _. split; [vm_compute; reflexivity|]. split; [reflexivity|]. vm_compute. reflexivity. Qed.
