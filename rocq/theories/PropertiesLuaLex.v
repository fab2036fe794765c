(** C58: the Lua lexer on every text. *)
From Verif Require Import LuaLexProofs HandProofs.
Local Open Scope string_scope.

(** The names LexLua registers. *)
Theorem C58_names : forall name, assoc name lua_lexers <> None <-> exists p, In p lua_phases /\ name = p ++ "_by_lua_block".
Proof. exact lua_registered. Qed.
Print Assumptions C58_names.
(** Whatever follows such a name, the lexer sends the tokens of [lua_reads], takes as many characters,
    and no others. *)
Theorem C58_exact : forall name f line rs toks n, assoc name lua_lexers = Some f -> Forall (fun r => one_char r = true) rs ->
  (lua_reads name line rs toks n <-> f name line rs = (toks, n)).
Proof. exact lua_lexers_exact. Qed.
Print Assumptions C58_exact.

Definition lua_chars (s : string) : list string := scan_runes s.
(** A block with a string that contains a brace, one that is never closed since a quote is open, and a
    variable with nothing but a word behind it. *)
Example C58_code : lua_reads "init_by_lua_block" 3 (lua_chars (" " ++ s_nl ++ "{ a = ""}"" { } " ++ s_nl ++ "} x"))
    [Tok (" a = ""}"" { } " ++ s_nl) 5 true None; Tok ";" 5 false None] 18.
Proof. apply (C58_exact _ lua_lex); [reflexivity|apply Forall_forall, forallb_forall; vm_compute; reflexivity|vm_compute; reflexivity]. Qed.
Example C58_open : lua_reads "init_by_lua_block" 3 (lua_chars "{ it's } }") [] 10.
Proof. apply (C58_exact _ lua_lex); [reflexivity|apply Forall_forall, forallb_forall; vm_compute; reflexivity|vm_compute; reflexivity]. Qed.
Example C58_var : lua_reads "set_by_lua_block" 3 (lua_chars (" $x" ++ s_nl ++ " y }")) [Tok "$x" 4 false None; no_block 4] 6.
Proof. apply (C58_exact _ lua_lex); [reflexivity|apply Forall_forall, forallb_forall; vm_compute; reflexivity|vm_compute; reflexivity]. Qed.
(** In a whole text (C57): the white space behind the name comes after the block. *)
Example C58_text : lexing lua_lexers true 1 1 [] (scan_runes ("http {" ++ s_nl ++ "  init_by_lua_block {" ++ s_nl ++ "f()" ++ s_nl ++ "} }"))
  [Tok "http" 1 false None; Tok "{" 1 false None; Tok "init_by_lua_block" 2 false None; Tok (s_nl ++ "f()" ++ s_nl) 4 true None; Tok ";" 4 false None; Tok "}" 4 false None].
Proof. apply hand_exact. vm_compute. reflexivity. Qed.
