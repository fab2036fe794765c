(** C88: external lexers are asked about tokens only. *)
From Verif Require Import TriggerProofs Lua.
Local Open Scope string_scope.

(** Registrations that differ in no name that is a token of the text, read with either, give the same tokens. *)
Theorem C88_lex : forall ext ext' s, (forall t, read_with ext ext' s t -> same_lexer ext ext' (t_val t)) -> lex ext s = lex ext' s.
Proof. exact lex_asked. Qed.
Print Assumptions C88_lex.
(** What was registered when, and for what else, does not matter. *)
Theorem C88_map : forall ext ext' s, (forall name, same_lexer ext ext' name) -> lex ext s = lex ext' s.
Proof. exact lex_map. Qed.
Print Assumptions C88_map.
(** So Parse returns the same, whatever it is. *)
Theorem C88_parse : forall o ext, (forall f text t, o_open o f = inl text -> read_with (o_lexers o) ext text t -> same_lexer (o_lexers o) ext (t_val t)) ->
  forall fuel filename, parse_main fuel (with_lexers o ext) filename = parse_main fuel o filename.
Proof. exact main_with. Qed.
Print Assumptions C88_parse.

(** The Lua lexer beside a text without Lua blocks; in a text with one it does matter. *)
Definition c88_text : string := "http { lua_package_path x; }".
Example C88_case : (forall t, read_with [] (apply_lexers [(lua_lex, lua_names)]) c88_text t -> same_lexer [] (apply_lexers [(lua_lex, lua_names)]) (t_val t)) /\
  List.length (lex (apply_lexers [(lua_lex, lua_names)]) c88_text) = 6 /\
  lex [] "content_by_lua_block { }" <> lex (apply_lexers [(lua_lex, lua_names)]) "content_by_lua_block { }".
Proof.
  split; [|split; [vm_compute; reflexivity|vm_compute; discriminate]].
  assert (L : forall t, read_with [] (apply_lexers [(lua_lex, lua_names)]) c88_text t -> In (t_val t) ["http"; "{"; "lua_package_path"; "x"; ";"; "}"]).
  { intros t [I|I]; apply (in_map t_val) in I; revert I; generalize (t_val t) as v; intros v I.
    - assert (E : map t_val (lex [] c88_text) = ["http"; "{"; "lua_package_path"; "x"; ";"; "}"]) by (vm_compute; reflexivity). now rewrite E in I.
    - assert (E : map t_val (lex (apply_lexers [(lua_lex, lua_names)]) c88_text) = ["http"; "{"; "lua_package_path"; "x"; ";"; "}"]) by (vm_compute; reflexivity). now rewrite E in I. }
  intros t R. apply L in R. revert R. generalize (t_val t) as v. intros v R.
  repeat (destruct R as [<-|R]; [vm_compute; reflexivity|]). destruct R.
Qed.
