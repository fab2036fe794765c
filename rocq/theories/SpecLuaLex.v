(** C58: the Lua lexer on any text. *)
From Verif Require Export SpecLua.
Local Open Scope string_scope.

Definition no_block (line : Z) : token :=
  Tok "" 0 false (Some (EParse (PE "expected ""{"" to start lua block" (Some "lexer") (Some line) "" "" None))).

(** [lua_block line rs toks n]: the block at the start of the characters [rs], the first of them on
    line [line]; [n] of them are taken. *)
Inductive lua_block (line : Z) : list string -> list token -> nat -> Prop :=
| lb_none : forall g, gap_ok g = true -> lua_block line g [] (List.length g)
| lb_other : forall g c rest, gap_ok g = true -> white c = false -> c <> "{" ->
    lua_block line (g ++ c :: rest) [no_block (line + newlines (concat_str g))] (List.length (g ++ [c]))
| lb_code : forall g body rest, gap_ok g = true -> balanced 0 "" body = true ->
    let last := (line + newlines (concat_str g) + newlines (concat_str body))%Z in
    lua_block line (g ++ "{" :: body ++ "}" :: rest) [Tok (concat_str body) last true None; Tok ";" last false None]
      (List.length (g ++ "{" :: body ++ ["}"]))
| lb_open : forall g rest, gap_ok g = true -> (forall body rest', rest = (body ++ "}" :: rest')%list -> balanced 0 "" body = false) ->
    lua_block line (g ++ "{" :: rest) [] (List.length (g ++ "{" :: rest)).

(** The same with the variable of set_by_lua_block before it. *)
Inductive lua_setting (line : Z) : list string -> list token -> nat -> Prop :=
| ls_none : forall g v, gap_ok g = true -> forallb (fun r => negb (white r)) v = true ->
    lua_setting line (g ++ v) [] (List.length (g ++ v))
| ls_var : forall g v w rest toks n, gap_ok g = true -> v <> [] -> forallb (fun r => negb (white r)) v = true -> white w = true ->
    let at_ := (line + newlines (concat_str g) + newlines w)%Z in
    lua_block at_ rest toks n ->
    lua_setting line (g ++ v ++ w :: rest) (Tok (concat_str v) at_ false None :: toks) (List.length (g ++ v ++ [w]) + n).
Definition lua_reads (name : string) (line : Z) (rs : list string) (toks : list token) (n : nat) : Prop :=
  (name = "set_by_lua_block" -> lua_setting line rs toks n) /\ (name <> "set_by_lua_block" -> lua_block line rs toks n).
Definition lua_phases : list string :=
  ["init"; "init_worker"; "exit_worker"; "set"; "content"; "server_rewrite"; "rewrite"; "access"; "header_filter"; "body_filter"; "log"; "balancer";
   "ssl_client_hello"; "ssl_certificate"; "ssl_session_fetch"; "ssl_session_store"].
