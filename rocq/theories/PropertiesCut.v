(** Property theorems: statements cut off by the end of the file are reported (C50). *)
From Verif Require Import CutProofs Main Lua.
Local Open Scope string_scope.

(** A file that the lexer accepts and whose last statement has no end is reported as failed, and so
    is the result of Parse, combined or not.  Condition: the text does not start with "{".
    With external lexers the tokens must be orderly and blocks of ignored directives closed.
    Missing: these cases (the first one below).  Texts the lexer rejects are C30. *)
Theorem C50_reported_partial : forall fuel o filename st c text, collect fuel o filename = FDone st ->
  In c (pl_config (p_pay st)) -> o_open o (cf_file c) = inl text -> let toks := lex (o_lexers o) text in
  o_lexers o = [] \/ (orderly toks /\ ignored_shut (o_ignore o) toks) -> no_errors toks -> cut_off toks -> ~ leads toks ->
  cf_status c = "failed" /\ forall p, parse_main fuel o filename = ROk p ->
    pl_status p = "failed" /\ exists c', In c' (pl_config p) /\ cf_status c' = "failed" /\ (o_combine o = false -> c' = c).
Proof. exact parse_cut. Qed.
Print Assumptions C50_reported_partial.

Definition cut_opts (ignore : list string) (text : string) : popts :=
  Opts ignore None (fun f => if String.eqb f "a" then inl text else inr "missing") (fun _ => inl [])
       false false false false false true true [] (fun _ => None) [].
Definition cut_text : string := "foo { x; } events { } server_name a 'b;' # end".
Example C50_case : exists st c p, let o := cut_opts ["foo"] cut_text in
  collect 5 o "a" = FDone st /\ In c (pl_config (p_pay st)) /\ o_open o (cf_file c) = inl cut_text /\
  no_errors (lex [] cut_text) /\ cut_off (lex [] cut_text) /\ ~ leads (lex [] cut_text) /\ parse_main 5 o "a" = ROk p.
Proof.
  do 3 eexists. cbv zeta. split; [vm_compute; reflexivity|]. split; [cbn; left; reflexivity|]. split; [reflexivity|].
  split; [apply cleanb_ok; vm_compute; reflexivity|]. split; [apply cutb_cut; vm_compute; reflexivity|].
  split; [apply leadsb_ok; vm_compute; reflexivity|]. vm_compute. reflexivity.
Qed.
(** Without the condition: what follows the matching "}" is not looked at. *)
Theorem C50_refuted : exists text p, no_errors (lex [] text) /\ cut_off (lex [] text) /\
  parse_main 5 (cut_opts [] text) "a" = ROk p /\ pl_status p = "ok" /\ pl_errors p = [].
Proof.
  eexists "{ a; } b c", _. split; [apply cleanb_ok; vm_compute; reflexivity|].
  split; [apply cutb_cut; vm_compute; reflexivity|]. split; [vm_compute; reflexivity|]. split; reflexivity.
Qed.
Print Assumptions C50_refuted.
(** Lua code without end: the lexer reports nothing, Parse does. *)
Definition cut_lua : string := "events { } content_by_lua_block { if { x } ".
Example C50_lua_case : let toks := lex lua_lexers cut_lua in orderly toks /\ ignored_shut ["foo"] toks /\ no_errors toks /\ cut_off toks /\ ~ leads toks.
Proof.
  cbv zeta. split; [apply orderlyb_ok; vm_compute; reflexivity|]. split; [apply ignored_shutb_ok; vm_compute; reflexivity|]. split; [apply cleanb_ok; vm_compute; reflexivity|].
  split; [apply cutb_cut; vm_compute; reflexivity|]. apply leadsb_ok; vm_compute; reflexivity.
Qed.
