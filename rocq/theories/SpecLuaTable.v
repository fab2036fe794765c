(** Specification: the Lua table and the Lua lexer (C49). *)
From Verif Require Export SpecValidate.
Local Open Scope string_scope.

Definition lua_block_name (n : string) : Prop := exists p, n = p ++ "_by_lua_block".
(** What a Lua block statement becomes: the code is the last argument. *)
Definition lua_arity (n : string) : nat := if String.eqb n "set_by_lua_block" then 2 else 1.
(** Directives newer than the list of names in lua.go. *)
Definition lua_newer : list string :=
  ["precontent_by_lua_block"; "proxy_ssl_certificate_by_lua_block"; "proxy_ssl_verify_by_lua_block"].
