(** C68: Build followed by Parse, with the Lua builder and the Lua lexer. *)
From Verif Require Import Tables LuaRoundProofs PropertiesRound.
Local Open Scope string_scope.

(** Every tree of a decidable class that the options accept comes back from the text built from it with the
    Lua blocks in it, the code unchanged. *)
Theorem C68_round_trip : forall bo o f ds, ascii_right (b_print bo) -> b_ext bo = apply_builders [(lua_build, lua_names)] -> (0 <= b_indent bo)%Z ->
  o_lexers o = apply_lexers [(lua_lex, lua_names)] -> lua_writables (b_print bo) not_note ds = true -> Forall (legal o []) ds ->
  exists text, build bo ds = Some text /\ (o_open o f = inl text ->
    exists n ds', (forall k, n <= k -> parse_main k o f = ROk (Pay "ok" [] [Cfg f "ok" [] ds'])) /\
      map bare ds' = map bare (expected (o_comments o) (b_header bo) ds)).
Proof. exact lua_round. Qed.
Print Assumptions C68_round_trip.

Definition lr_opts (combine comments strict : bool) (files : string -> string) : popts :=
  Opts [] None (fun f => inl (files f)) (fun _ => inl []) true combine false comments strict false false [lookup nginxPlusLatestDirectives; lookup luaDirectives] default_match (apply_lexers [(lua_lex, lua_names)]).
Definition lr_bopts (header : bool) : bopts := BOpts 3 false header (apply_builders [(lua_build, lua_names)]) ascii_print.
(** Code with braces, quotes, comments, line breaks and escapes; notes in front of, between and behind. *)
Definition lr_code : string := s_nl ++ "  -- it" ++ s_nl ++ "  local t = { a = ""}"", ['b'] = '\n""#' }" ++ s_nl.
Definition lr_tree : list directive :=
  [mkd "user" 3 ["nobody"] None; mkc 3 " who";
   mkd "http" 5 [] (Some
     [mkc 5 "opening"; mkd "init_by_lua_block" 6 [lr_code] None; mkc 6 " after"; mkd "init_worker_by_lua_block" 6 [""] None;
      mkd "server" 8 [] (Some
        [mkd "location" 8 ["/a b"] (Some [mkd "set_by_lua_block" 9 ["$x;"; " return 1 "] None; mkd "content_by_lua_block" 9 [" f{}{} "] None; mkc 9 " same"]);
         mkd "if" 9 ["$c"; "="; "x y"] (Some [mkd "return" 9 ["200"; ""] None])])]);
   mkc 5 " the end"].
Lemma lr_legal : forall combine comments strict files, Forall (legal (lr_opts combine comments strict files) []) lr_tree.
Proof. intros combine comments strict files. destruct strict; rt_each; rt_each; rt_each; rt_each. Qed.
Example C68_case : lua_writables ascii_print not_note lr_tree = true /\ Forall (legal (lr_opts false true true (fun _ => "")) []) lr_tree /\
  exists text, build (lr_bopts true) lr_tree = Some text /\
    exists ds', parse_main 5 (lr_opts true true true (fun _ => text)) "f" = ROk (Pay "ok" [] [Cfg "f" "ok" [] ds']) /\ map bare ds' = map bare (map (mkc 0) header_notes ++ lr_tree).
Proof.
  split; [vm_compute; reflexivity|]. split; [apply lr_legal|]. eexists. split; [vm_compute; reflexivity|]. eexists. split; vm_compute; reflexivity.
Qed.
(** Built again, the tree read back gives the same text; comments the parser drops stay dropped. Not for a
    comment directly behind a block, Lua or not, nor for Header together with comments. *)
Theorem C68_same_text : forall bo o f ds, ascii_right (b_print bo) -> b_ext bo = apply_builders [(lua_build, lua_names)] -> (0 <= b_indent bo)%Z ->
  o_lexers o = apply_lexers [(lua_lex, lua_names)] -> (b_header bo && o_comments o)%bool = false ->
  lua_writables (b_print bo) (if o_comments o then on_line else not_note) ds = true -> Forall (legal o []) ds ->
  exists text, build bo ds = Some text /\ (o_open o f = inl text ->
    exists n ds', (forall k, n <= k -> parse_main k o f = ROk (Pay "ok" [] [Cfg f "ok" [] ds'])) /\
      build bo ds' = if o_comments o then Some text else build bo (flat_map quiet ds)).
Proof. exact lua_again. Qed.
Print Assumptions C68_same_text.
Definition lr_tree2 : list directive := (removelast lr_tree ++ [mkc 9 " the end"])%list.
Lemma lr_legal2 : forall combine comments strict files, Forall (legal (lr_opts combine comments strict files) []) lr_tree2.
Proof.
  intros combine comments strict files. pose proof (lr_legal combine comments strict files) as L. assert (E : lr_tree = (removelast lr_tree ++ [mkc 5 " the end"])%list) by reflexivity. rewrite E in L.
  apply Forall_app in L as [L _]. unfold lr_tree2. apply Forall_app. split; [exact L|]. apply Forall_cons; [now apply lg_comment|apply Forall_nil].
Qed.
Example C68_same_case : lua_writables ascii_print on_line lr_tree2 = true /\ Forall (legal (lr_opts false true true (fun _ => "")) []) lr_tree2 /\
  exists text, build (lr_bopts false) lr_tree2 = Some text /\
    exists ds', parse_main 5 (lr_opts false true true (fun _ => text)) "f" = ROk (Pay "ok" [] [Cfg "f" "ok" [] ds']) /\ build (lr_bopts false) ds' = Some text.
Proof.
  split; [vm_compute; reflexivity|]. split; [apply lr_legal2|]. eexists. split; [vm_compute; reflexivity|]. eexists. split; [vm_compute; reflexivity|]. vm_compute. reflexivity.
Qed.
(** A comment with the line of the statement in front of a Lua block is written behind the block, and then on a line of its own. *)
Example C68_moves : let ds := [mkd "http" 1 [] (Some [mkd "gzip" 2 ["on"] None; mkd "init_by_lua_block" 3 ["x"] None; mkc 2 "c"])] in
  exists text, build (lr_bopts false) ds = Some text /\
    exists ds', parse_main 5 (lr_opts false true true (fun _ => text)) "f" = ROk (Pay "ok" [] [Cfg "f" "ok" [] ds']) /\ map bare ds' = map bare ds /\ build (lr_bopts false) ds' <> Some text.
Proof. cbv zeta. eexists. split; [vm_compute; reflexivity|]. eexists. split; [vm_compute; reflexivity|]. split; vm_compute; [reflexivity|discriminate]. Qed.
(** The text itself: no separator behind a block, and a note on the line of a block under it. *)
Example C68_text : build (lr_bopts false) [mkd "http" 1 [] (Some [mkd "init_by_lua_block" 2 [" x "] None; mkc 2 "c"; mkd "set_by_lua_block" 3 ["$v"; "y"] None; mkd "gzip" 4 ["on"] None])] =
  Some ("http {" ++ s_nl ++ "   init_by_lua_block { x }" ++ s_nl ++ "   #c" ++ s_nl ++ "   set_by_lua_block $v {y}" ++ s_nl ++ "   gzip on;" ++ s_nl ++ "}").
Proof. vm_compute. reflexivity. Qed.
(** Outside the class: code that does not balance, a variable that is a separator or a comment, an ordinary name that begins
    with a Lua name, and a second argument, which is not written. *)
Definition lr_back (ds : list directive) : Prop := exists text ds', build (lr_bopts false) ds = Some text /\
  parse_main 5 (lr_opts false true false (fun _ => text)) "f" = ROk (Pay "ok" [] [Cfg "f" "ok" [] ds']) /\ map bare ds' = map bare ds.
Theorem C68_outside_refuted : Forall (fun ds => ~ lr_back ds)
  [[mkd "http" 1 [] (Some [mkd "init_by_lua_block" 2 [" } "] None])];
   [mkd "http" 1 [] (Some [mkd "init_by_lua_block" 2 [" it's "] None])];
   [mkd "http" 1 [] (Some [mkd "set_by_lua_block" 2 ["{"; "x"] None])];
   [mkd "http" 1 [] (Some [mkd "set_by_lua_block" 2 ["#v"; "x"] None])];
   [mkd "http" 1 [] (Some [mkd "init_by_lua_blocks" 2 ["x"] None])];
   [mkd "http" 1 [] (Some [mkd "init_by_lua_block" 2 ["x"; "y"] None])]].
Proof.
  repeat (apply Forall_cons || apply Forall_nil); intros (text & ds' & B & P & E); vm_compute in B; injection B as <-; vm_compute in P; try discriminate P; injection P as <-; vm_compute in E; discriminate E.
Qed.
Print Assumptions C68_outside_refuted.
