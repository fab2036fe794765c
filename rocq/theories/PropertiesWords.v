(** C48 (words of parsed configs) and C49 (Lua table and Lua lexer). *)
From Verif Require Import PathTables WordsProofs LuaTable Main.
Local Open Scope string_scope.

(** C48: names, lines and arguments of a parsed config stand in the tokens of its file, in order. *)
Theorem C48_words : forall fuel o filename p, o_combine o = false -> parse_main fuel o filename = ROk p ->
  forall c, In c (pl_config p) -> exists content, o_open o (cf_file c) = inl content /\
    spelled (flat_map words (cf_parsed c)) (lex (o_lexers o) content).
Proof. exact parse_words. Qed.
Print Assumptions C48_words.
(** C48: so the lines ascend in the order of the text and lie within the file. *)
Theorem C48_lines : forall fuel o filename p, o_combine o = false -> o_lexers o = [] -> parse_main fuel o filename = ROk p ->
  forall c, In c (pl_config p) -> exists content, o_open o (cf_file c) = inl content /\
    rising 1 (1 + newlines content) (name_lines (flat_map words (cf_parsed c))).
Proof. exact parse_lines. Qed.
Print Assumptions C48_lines.

Definition words_text : string :=
  "http { # c" ++ s_nl ++ "server {" ++ s_nl ++ "listen 80" ++ s_nl ++ "default_server; } }" ++ s_nl ++ "nope 'x y';".
Definition words_opts : popts :=
  Opts [] None (fun f => if String.eqb f "a" then inl words_text else inr "missing") (fun _ => inl [])
    false false false true false true true [] (fun _ => None) [].
Example C48_case : exists c, parse_main 5 words_opts "a" = ROk (Pay "ok" [] [c]) /\
  flat_map words (cf_parsed c) = [Name "http" 1; Name "server" 2; Name "listen" 3; Arg "80"; Arg "default_server"; Name "nope" 5; Arg "x y"].
Proof. eexists. split; vm_compute; reflexivity. Qed.

(** C49: apart from three names, every Lua block directive of the table is known to the
    Lua lexer, and all its masks allow the form in which the lexer delivers it. *)
Theorem C49_registered_partial : forall n ms, assoc n luaDirectives = Some ms -> lua_block_name n -> ~ In n lua_newer ->
  In n lua_names /\ ms <> [] /\ forall m line args, In m ms -> List.length args = lua_arity n ->
    form_fits m (Dir n line args "" None None None false) ";".
Proof.
  intros n ms A S N. destruct (lua_row n ms A S N) as (I & E & _). split; [exact I|]. split; [exact E|].
  intros m line args IM L. exact (lua_form n ms m line args A S N IM L).
Qed.
Print Assumptions C49_registered_partial.
Theorem C49_accepted : forall n ms m b path line args o f, In n lua_names -> o_sources o = [Tables.lookup luaDirectives] ->
  assoc n luaDirectives = Some ms -> In m ms -> path_bit path = Some b -> bit b m ->
  List.length args = lua_arity n -> analyze o f (Dir n line args "" None None None false) ";" path = None.
Proof. exact lua_analyzed. Qed.
Print Assumptions C49_accepted.
Theorem C49_known : forall n, In n lua_names -> lua_block_name n /\ ~ In n lua_newer /\ exists ms, assoc n luaDirectives = Some ms.
Proof. exact lua_known. Qed.
Print Assumptions C49_known.
Example C49_case : exists ms, assoc "set_by_lua_block" luaDirectives = Some ms /\ In "set_by_lua_block" lua_names /\
  exists m, In m ms /\ path_bit ["http"; "server"] = Some 26%N /\ bit 26 m /\ List.length ["$a"; "return 1"] = lua_arity "set_by_lua_block".
Proof.
  eexists. split; [vm_compute; reflexivity|]. split; [cbn; auto 10|]. eexists. split; [now left|]. repeat split; vm_compute; reflexivity.
Qed.

(** C49 is false for the three: the table wants a block, and the Lua code is read as nginx
    statements.  The same file with an older name is accepted. *)
Definition lua_file (n : string) : string := "http { server { location / { " ++ n ++ " { local a = 1 } } } }".
Definition lua_opts (n : string) : popts :=
  Opts [] None (fun f => if String.eqb f "a" then inl (lua_file n) else inr "missing") (fun _ => inl [])
    false false false false true false false [Tables.lookup ossLatestDirectives; Tables.lookup luaDirectives] (fun _ => None) lua_lexers.
Theorem C49_refuted :
  (forall n, In n lua_newer -> lua_block_name n /\ ~ In n lua_names /\
     exists ms, assoc n luaDirectives = Some ms /\ ms <> [] /\ forall m, In m ms -> bit 8 m) /\
  (forall n, In n lua_newer -> exists p, parse_main 5 (lua_opts n) "a" = ROk p /\ pl_status p = "failed") /\
  (exists p, parse_main 5 (lua_opts "content_by_lua_block") "a" = ROk p /\ pl_status p = "ok").
Proof.
  split; [exact newer_blocks|]. split.
  - intros n [<-|[<-|[<-|[]]]]; (eexists; split; vm_compute; reflexivity).
  - eexists; split; vm_compute; reflexivity.
Qed.
Print Assumptions C49_refuted.
