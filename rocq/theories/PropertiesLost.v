(** Property theorems: errors of the lexer (C30) and statements without terminator (C33)
    are reported. *)
From Verif Require Import StrayTables Lua.
Local Open Scope string_scope.

Definition lost_opts (ignore : list string) (stop combine strict skipargs : bool) (text : string) : popts :=
  Opts ignore None (fun f => if String.eqb f "a" then inl text else inr "missing") (fun _ => inl [])
       stop combine false false strict false skipargs [] default_match [].

(** ** C30 *)
(** A file whose tokens contain an error is reported as failed, and so is the result of
    Parse, combined or not.  Two conditions: what looks like a block of an ignored
    directive is closed, and the text does not start with "{".  With external lexers the tokens
    must be orderly: an error in the middle is taken for an argument.  Missing: these cases, where
    the error is lost (below). *)
Theorem C30_reported_partial : forall fuel o filename st c text, collect fuel o filename = FDone st ->
  In c (pl_config (p_pay st)) -> o_open o (cf_file c) = inl text -> let toks := lex (o_lexers o) text in
  o_lexers o = [] \/ orderly toks -> ~ no_errors toks -> ignored_shut (o_ignore o) toks -> ~ leads toks ->
  cf_status c = "failed" /\ forall p, parse_main fuel o filename = ROk p ->
    pl_status p = "failed" /\ exists c', In c' (pl_config p) /\ cf_status c' = "failed" /\ (o_combine o = false -> c' = c).
Proof. exact parse_tells. Qed.
Print Assumptions C30_reported_partial.
Definition lost_text : string := "# first
 foo { x { y; } } events { foo z; } http { server { listen 80; } # open
  foo { a; } charset ""u8"" ;".
Example C30_case : exists st c, let o := lost_opts ["foo"] false false false false lost_text in
  collect 5 o "a" = FDone st /\ In c (pl_config (p_pay st)) /\ o_open o (cf_file c) = inl lost_text /\
  ~ no_errors (lex [] lost_text) /\ ignored_shut (o_ignore o) (lex [] lost_text) /\ ~ leads (lex [] lost_text) /\
  exists p, parse_main 5 o "a" = ROk p.
Proof.
  do 2 eexists. cbv zeta. split; [vm_compute; reflexivity|]. split; [cbn; left; reflexivity|]. split; [reflexivity|].
  split; [apply cleanb_not; vm_compute; reflexivity|]. split; [apply ignored_shutb_ok; vm_compute; reflexivity|].
  split; [apply leadsb_ok; vm_compute; reflexivity|]. eexists. vm_compute. reflexivity.
Qed.
(** Without the conditions: the block of an ignored directive is left open; a text that
    starts with "{" (what follows the matching "}" is not even looked at). *)
Theorem C30_refuted :
  (exists text p, ~ no_errors (lex [] text) /\ ~ leads (lex [] text) /\
     parse_main 5 (lost_opts ["foo"] true false false false text) "a" = ROk p /\ pl_status p = "ok" /\ pl_errors p = [] /\
     map cf_errors (pl_config p) = [[]]) /\
  (exists text p, ~ no_errors (lex [] text) /\ ignored_shut [] (lex [] text) /\
     parse_main 5 (lost_opts [] true false false false text) "a" = ROk p /\ pl_status p = "ok" /\ pl_errors p = [] /\
     map cf_errors (pl_config p) = [[]]).
Proof.
  split.
  - exists "events { } foo { a; http {", (Pay "ok" [] [Cfg "a" "ok" [] [Dir "events" 1 [] "" None (Some []) None false]]).
    split; [apply cleanb_not; vm_compute; reflexivity|]. split; [apply leadsb_ok; vm_compute; reflexivity|].
    split; [vm_compute; reflexivity|]. repeat split.
  - eexists "{ a; } http { server {", _.
    split; [apply cleanb_not; vm_compute; reflexivity|]. split; [apply ignored_shutb_ok; vm_compute; reflexivity|].
    split; [vm_compute; reflexivity|]. repeat split.
Qed.
Print Assumptions C30_refuted.
(** With the Lua lexer, its table and strict mode: an unclosed block around Lua code is reported; the
    Lua lexer's own error is not. *)
Definition lua_opts (text : string) : popts :=
  Opts [] None (fun f => if String.eqb f "a" then inl text else inr "missing") (fun _ => inl [])
       true false false false true false false [lookup ossLatestDirectives; lookup luaDirectives] default_match lua_lexers.
Definition lua_open : string := "http { server { location / { content_by_lua_block { x } } ".
Example C30_lua_case : let toks := lex (o_lexers (lua_opts lua_open)) lua_open in
  orderly toks /\ ~ no_errors toks /\ ignored_shut [] toks /\ ~ leads toks /\ map t_val toks =
    ["http"; "{"; "server"; "{"; "location"; "/"; "{"; "content_by_lua_block"; " x "; ";"; "}"; ""].
Proof.
  cbv zeta. split; [apply orderlyb_ok; vm_compute; reflexivity|]. split; [apply cleanb_not; vm_compute; reflexivity|].
  split; [apply ignored_shutb_ok; vm_compute; reflexivity|]. split; [apply leadsb_ok; vm_compute; reflexivity|]. vm_compute. reflexivity.
Qed.
Theorem C30_lua_refuted : exists text p, let toks := lex (o_lexers (lua_opts text)) text in
  ~ no_errors toks /\ ignored_shut [] toks /\ ~ leads toks /\
  parse_main 5 (lua_opts text) "a" = ROk p /\ pl_status p = "ok" /\ pl_errors p = [] /\ map cf_errors (pl_config p) = [[]].
Proof.
  eexists "http { server { location / { content_by_lua_block x; } } }", _. cbv zeta.
  split; [apply cleanb_not; vm_compute; reflexivity|]. split; [apply ignored_shutb_ok; vm_compute; reflexivity|].
  split; [apply leadsb_ok; vm_compute; reflexivity|]. split; [vm_compute; reflexivity|]. repeat split.
Qed.
Print Assumptions C30_lua_refuted.

(** ** C33 *)
(** With all checks on, a file with a statement that runs into "}" is reported as failed,
    and so is the result.  The tables must lead from context to context but for the blocks
    [odd], and the files must not use these nor the ignored names.  Missing: unknown
    directives without strict mode, skipped checks, and the blocks [odd] (below). *)
Theorem C33_reported_partial : forall fuel o odd filename st c text, checking o -> blocks_lead o odd ->
  (forall f s, o_open o f = inl s -> lacks (odd ++ o_ignore o) (lex (o_lexers o) s)) ->
  collect fuel o filename = FDone st -> In c (pl_config (p_pay st)) -> o_open o (cf_file c) = inl text ->
  let toks := lex (o_lexers o) text in o_lexers o = [] \/ orderly toks -> runs_into toks -> ~ leads toks ->
  cf_status c = "failed" /\ forall p, parse_main fuel o filename = ROk p ->
    pl_status p = "failed" /\ exists c', In c' (pl_config p) /\ cf_status c' = "failed" /\ (o_combine o = false -> c' = c).
Proof. exact parse_stray. Qed.
Print Assumptions C33_reported_partial.
(** The shipped tables, in any combination; the default table; the open source tables. *)
Theorem C33_tables : forall o,
  (forall ts, o_sources o = map lookup ts -> ts <> [] -> incl ts shipped ->
     blocks_lead o ["num_map"; "precontent_by_lua_block"; "proxy_ssl_certificate_by_lua_block"; "proxy_ssl_verify_by_lua_block"]) /\
  (o_sources o = [] -> o_default o = default_match -> blocks_lead o ["num_map"]) /\
  (forall t, In t [oss124Directives; oss126Directives; ossLatestDirectives] -> o_sources o = [lookup t] -> blocks_lead o []).
Proof. intros o. split; [exact (blocks_shipped o)|]. split; [exact (blocks_default o)|exact (blocks_oss o)]. Qed.
Print Assumptions C33_tables.
(** One statement in front of "}", in any context and under any options: accepted only if
    it is unknown and strict mode off, or the block path is not a context, or arguments are
    not checked. *)
Theorem C33_statement : forall o path d fname, plain_path path -> analyze o fname d "}" path = None ->
  (unknown o (d_name d) /\ o_strict o = false) \/ path_bit path = None \/ o_skipargs o = true.
Proof. intros o path d fname P H. apply accepts_close. now apply analyze_accepts in H. Qed.
Print Assumptions C33_statement.

Definition stray_text : string := "events { } http { server { listen 80 # no semicolon
   } server { charset x; } }".
Example C33_case : exists st c, let o := lost_opts ["nothing"] false false true false stray_text in
  checking o /\ blocks_lead o ["num_map"] /\ o_lexers o = [] /\
  (forall f s, o_open o f = inl s -> lacks (["num_map"] ++ o_ignore o) (lex [] s)) /\
  collect 5 o "a" = FDone st /\ In c (pl_config (p_pay st)) /\
  o_open o (cf_file c) = inl stray_text /\ runs_into (lex [] stray_text) /\ ~ leads (lex [] stray_text).
Proof.
  do 2 eexists. cbv zeta. split; [repeat split|]. split; [now apply blocks_default|]. split; [reflexivity|]. split.
  { intros f s E. cbn in E. destruct (String.eqb f "a"); inversion E; subst s. apply lacks_dec. vm_compute. reflexivity. }
  split; [vm_compute; reflexivity|]. split; [cbn; left; reflexivity|]. split; [reflexivity|]. split.
  - exists (firstn 10 (lex [] stray_text)), (nth 10 (lex [] stray_text) (Tok "" 0 false None)), (skipn 11 (lex [] stray_text)). vm_compute. repeat split.
  - apply leadsb_ok. vm_compute. reflexivity.
Qed.

(** Accepted, and the text behind the "}" has moved into the block: an unknown directive,
    skipped argument checks, an ignored directive, and with all checks on a block without
    context. *)
Fixpoint outline (d : directive) : list string :=
  (d_name d :: match d_block d with Some b => "{" :: flat_map outline b ++ ["}"] | None => [";"] end)%list.
Theorem C33_refuted :
  (exists p, parse_main 5 (lost_opts [] true false false false "http { foo } bar;") "a" = ROk p /\ pl_status p = "ok" /\
     map (fun c => flat_map outline (cf_parsed c)) (pl_config p) = [["http"; "{"; "foo"; ";"; "bar"; ";"; "}"]]) /\
  (exists p, parse_main 5 (lost_opts [] true false true true "http { charset x } ssi on;") "a" = ROk p /\ pl_status p = "ok" /\
     map (fun c => flat_map outline (cf_parsed c)) (pl_config p) = [["http"; "{"; "charset"; ";"; "ssi"; ";"; "}"]]) /\
  (exists p, parse_main 5 (lost_opts ["foo"] true false true false "http { foo } charset x;") "a" = ROk p /\ pl_status p = "ok" /\
     map (fun c => flat_map outline (cf_parsed c)) (pl_config p) = [["http"; "{"; "charset"; ";"; "}"]]) /\
  (exists p, checking (lost_opts [] true false true false "") /\
     parse_main 5 (lost_opts [] true false true false "http { num_map $a $b { listen } } charset x;") "a" = ROk p /\ pl_status p = "ok" /\
     map (fun c => flat_map outline (cf_parsed c)) (pl_config p) = [["http"; "{"; "num_map"; "{"; "listen"; ";"; "}"; "charset"; ";"; "}"]]).
Proof.
  split; [|split; [|split]].
  all: eexists; repeat match goal with |- checking _ /\ _ => split; [repeat split|] end; split; [vm_compute; reflexivity|]; split; vm_compute; reflexivity.
Qed.
Print Assumptions C33_refuted.
