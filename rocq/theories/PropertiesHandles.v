(** C81: the files Parse opens are closed when it returns. *)
From Verif Require Import HandlesProofs.
Local Open Scope string_scope.

(** The run with its opens and closes is the run of Main.v. *)
Theorem C81_same : forall fuel o filename, fst (parse_log fuel o filename) = parse_main fuel o filename.
Proof. exact log_same. Qed.
Print Assumptions C81_same.
(** Whatever Parse returns, and if it panics: each handle is closed once, after it was opened
    and after all that were opened later. *)
Theorem C81_closed : forall fuel o filename r log, parse_log fuel o filename = (r, log) -> paired log /\ NoDup (map fst (opens log)).
Proof. exact log_closed. Qed.
Print Assumptions C81_closed.
(** The log has every call that opened a file, in order. *)
Theorem C81_opened : forall fuel o filename st r log, parse_log fuel o filename = (r, log) ->
  collect fuel o filename = FDone st \/ (exists e, collect fuel o filename = FErr e st) ->
  map snd (opens log) = filter (can_open o) (p_opens st).
Proof. exact log_told. Qed.
Print Assumptions C81_opened.
(** Before they are closed, all files of the payload are open at once. *)
Theorem C81_all_open : forall fuel o filename p log, parse_log fuel o filename = (ROk p, log) -> o_combine o = false ->
  exists pre post, log = (pre ++ post)%list /\ opens post = [] /\ still_open pre = map cf_file (pl_config p).
Proof. exact main_open. Qed.
Print Assumptions C81_all_open.
(** So is the case with CombineConfigs, with the files that were combined. *)
Theorem C81_combined_open : forall fuel o filename st r log, parse_log fuel o filename = (r, log) -> collect fuel o filename = FDone st ->
  exists pre post, log = (pre ++ post)%list /\ opens post = [] /\ still_open pre = map cf_file (pl_config (p_pay st)).
Proof. exact log_all_open. Qed.
Print Assumptions C81_combined_open.

Definition hd_opts (stop : bool) : popts :=
  Opts [] None (fun f => if String.eqb f "a" then inl "include b; http { include c; include b; } include m;" else if String.eqb f "b" then inl "x;"
    else if String.eqb f "c" then inl "if ( ) { }" else inr "missing") (fun _ => inl [])
    stop false false true false true true [] (fun _ => None) [].
Example C81_case : exists p, parse_log 9 (hd_opts false) "a" =
  (ROk p, [Open 0 "a"; Open 1 "b"; Open 2 "c"; Open 3 "b"; Close 3; Close 2; Close 1; Open 4 "b"; Open 5 "c"; Close 5; Close 4; Close 0]) /\
  still_open [Open 0 "a"; Open 1 "b"; Open 2 "c"; Open 3 "b"; Close 3; Close 2; Close 1; Open 4 "b"; Open 5 "c"] = ["a"; "b"; "c"].
Proof. eexists. split; vm_compute; reflexivity. Qed.
Example C81_stopped : exists e, parse_log 9 (hd_opts true) "a" =
  (RErr e, [Open 0 "a"; Open 1 "b"; Open 2 "c"; Open 3 "b"; Close 3; Close 2; Close 1; Close 0]).
Proof. eexists. vm_compute. reflexivity. Qed.
(** A panic. *)
Example C81_panic : parse_log 9 (Opts [] None (fun f => if String.eqb f "a" then inl "include b; http { include b; if (); }" else inl "") (fun _ => inl [])
    false false false true false true true [] (fun _ => None) []) "a" =
  (RPanic, [Open 0 "a"; Open 1 "b"; Open 2 "b"; Close 2; Close 1; Close 0]).
Proof. vm_compute. reflexivity. Qed.
