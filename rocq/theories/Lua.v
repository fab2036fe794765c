(** lua.go: the Lua block lexer and builder. *)
From Verif Require Export Lex.
Local Open Scope string_scope.

(** lua.go:9 (lua.go numbering restarts at 1 in that file). *)
Definition set_by_lua_block : string := "set_by_lua_block".

(** lua.go:25-44 [directiveNames]. *)
Definition lua_names : list string :=
  [ "init_by_lua_block"; "init_worker_by_lua_block"; "exit_worker_by_lua_block";
    "set_by_lua_block"; "content_by_lua_block"; "server_rewrite_by_lua_block";
    "rewrite_by_lua_block"; "access_by_lua_block"; "header_filter_by_lua_block";
    "body_filter_by_lua_block"; "log_by_lua_block"; "balancer_by_lua_block";
    "ssl_client_hello_by_lua_block"; "ssl_certificate_by_lua_block";
    "ssl_session_fetch_by_lua_block"; "ssl_session_store_by_lua_block" ].

Definition lua_error (line : Z) (what : string) : token :=
  Tok EmptyString 0 false
      (Some (EParse (PE what (Some "lexer") (Some line) EmptyString EmptyString None))).

(** lua.go:110-172: the block body after the opening brace; [n] counts the
    successful Scan calls so far.  Reader errors (lua.go:117-120) are not
    modelled: Scan would have returned false. *)
Fixpoint lua_body (tok : string) (depth : Z) (inq : bool) (qt : string)
         (line : Z) (n : nat) (rs : list string) : list token * nat :=
  match rs with
  | [] => ([], n)                                            (* 112-114 *)
  | next :: rest =>
    let line := if is_eol next then (line + 1)%Z else line in
    let n := S n in
    if (String.eqb next "{" && negb inq)%bool then           (* 123-127 *)
      let depth := (depth + 1)%Z in
      lua_body (if Z.ltb 1 depth then tok ++ next else tok) depth inq qt line n rest
    else if (String.eqb next "}" && negb inq)%bool then      (* 129-146 *)
      let depth := (depth - 1)%Z in
      if Z.ltb depth 0 then ([lua_error line ("unexpected " ++ s_dq ++ "}" ++ s_dq)], n)
      else
        let tok := if Z.ltb 0 depth then tok ++ next else tok in
        if Z.eqb depth 0 then ([Tok tok line true None; Tok ";" line false None], n)
        else lua_body tok depth inq qt line n rest
    else if (String.eqb next s_dq || String.eqb next s_sq)%bool then  (* 148-155 *)
      let inq' := if negb inq then true else if String.eqb next qt then false else inq in
      let qt' := if negb inq then next else qt in
      lua_body (tok ++ next) depth inq' qt' line n rest
    else if (is_space next && Z.eqb depth 0)%bool then       (* 161-163 *)
      lua_body tok depth inq qt line n rest
    else if Z.eqb depth 0 then                               (* 166-169 *)
      ([Tok next line false None], n)
    else lua_body (tok ++ next) depth inq qt line n rest     (* 170 *)
  end.

(** lua.go:93-108: the opening brace. *)
Fixpoint lua_open (line : Z) (n : nat) (rs : list string) : list token * nat :=
  match rs with
  | [] => ([], n)
  | next :: rest =>
    let line := if is_eol next then (line + 1)%Z else line in
    if is_space next then lua_open line (S n) rest
    else if String.eqb next "{" then lua_body EmptyString 1 false EmptyString line (S n) rest
    else ([lua_error line ("expected " ++ s_dq ++ "{" ++ s_dq ++ " to start lua block")], S n)
  end.

(** lua.go:68-90: the variable argument of set_by_lua_block.  The inner loop
    (81-86) skips blanks before the argument, then appends the first other rune. *)
Fixpoint lua_arg (arg : string) (line : Z) (n : nat) (rs : list string) : list token * nat :=
  match rs with
  | [] => ([], n)
  | next :: rest =>
    let line := if is_eol next then (line + 1)%Z else line in
    if is_space next then
      if str_nonempty arg then
        let '(ts, m) := lua_open line (S n) rest in (Tok arg line false None :: ts, m)
      else lua_arg arg line (S n) rest
    else lua_arg (arg ++ next) line (S n) rest
  end.

(** lua.go:51-176 [Lua.Lex]. *)
Definition lua_lex : ext_lexer := fun matched line rs =>
  if String.eqb matched set_by_lua_block then lua_arg EmptyString line 0 rs
  else lua_open line 0 rs.

(** lua.go:47-49 [RegisterLexer]. *)
Definition lua_lexers : ext_lexers := apply_lexers [(lua_lex, lua_names)].

(** lua.go:184-195 [Lua.Build]. *)
Definition lua_build (d : directive) : string :=
  if String.eqb (d_name d) set_by_lua_block then
    match d_args d with
    | a0 :: a1 :: _ => d_name d ++ " " ++ a0 ++ " {" ++ a1 ++ "}"
    | _ => d_name d
    end
  else
    match d_args d with
    | a0 :: _ => d_name d ++ " {" ++ a0 ++ "}"
    | [] => d_name d
    end.
