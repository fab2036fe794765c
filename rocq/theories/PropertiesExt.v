(** External lexers and builders, Lua (C07, C36, C37, C38). *)
From Verif Require Import RegProofs.
Local Open Scope string_scope.

(** C07: a Lua block is captured byte for byte; lexing resumes behind its brace. *)
Theorem C07_block : forall P ts n g body rest, directive_place P ts -> calm lua_lexers None ts -> In n lua_names -> n <> set_by_lua_block ->
  name_gap g = true -> lua_code body = true ->
  let l1 := (1 + newlines P)%Z in
  let l2 := (l1 + newlines (concat_str g) + newlines body)%Z in
  lex lua_lexers (P ++ n ++ concat_str g ++ "{" ++ body ++ "}" ++ rest) =
    (ts ++ [Tok n l1 false None; Tok body l2 true None; Tok ";" l2 false None] ++ lex_from lua_lexers l2 l1 (net ts) (scan_runes rest))%list.
Proof. exact lua_block. Qed.
Print Assumptions C07_block.
Theorem C07_set : forall P ts g v g2 body rest, directive_place P ts -> calm lua_lexers None ts -> name_gap g = true -> lua_var v = true ->
  gap_ok g2 = true -> g2 <> [] -> lua_code body = true ->
  let l1 := (1 + newlines P)%Z in
  let lv := (l1 + newlines (concat_str g))%Z in
  let l2 := (lv + newlines (concat_str g2) + newlines body)%Z in
  lex lua_lexers (P ++ set_by_lua_block ++ concat_str g ++ v ++ concat_str g2 ++ "{" ++ body ++ "}" ++ rest) =
    (ts ++ [Tok set_by_lua_block l1 false None; Tok v (lv + first_newline g2) false None; Tok body l2 true None; Tok ";" l2 false None] ++
     lex_from lua_lexers l2 l1 (net ts) (scan_runes rest))%list.
Proof. exact lua_set. Qed.
Print Assumptions C07_set.
(** The text behind a block may start with another one. *)
Theorem C07_next : forall line start depth g0 n g body rest, gap_ok g0 = true -> In n lua_names -> n <> set_by_lua_block ->
  name_gap g = true -> lua_code body = true ->
  let l1 := (line + newlines (concat_str g0))%Z in
  let l2 := (l1 + newlines (concat_str g) + newlines body)%Z in
  lex_from lua_lexers line start depth (scan_runes (concat_str g0 ++ n ++ concat_str g ++ "{" ++ body ++ "}" ++ rest)) =
    ([Tok n l1 false None; Tok body l2 true None; Tok ";" l2 false None] ++ lex_from lua_lexers l2 l1 depth (scan_runes rest))%list.
Proof. exact lua_next. Qed.
Print Assumptions C07_next.
(** [lex_from] is Lex itself at the start of a text. *)
Theorem C07_from : forall ext s, lex_from ext 1 1 0 (scan_runes s) = lex ext s.
Proof. reflexivity. Qed.
Print Assumptions C07_from.

Definition lua_head : string := "http { # } {" ++ s_nl ++ "  server {" ++ s_nl ++ "    location / { set $x content_by_lua_block '}'; ".
Definition lua_head_toks : list token := lex [] lua_head.
Definition lua_text : string := s_cr ++ s_nl ++ " local t = { x = '}' }; -- \\ " ++ s_dq ++ "{{" ++ s_dq ++ s_nl ++ " ngx.say(t) ".
Example C07_case : let ts := firstn 13 lua_head_toks in
  directive_place lua_head ts /\ calm lua_lexers None ts /\ In "content_by_lua_block" lua_names /\ name_gap [s_cr; " "; s_nl] = true /\ lua_code lua_text = true /\
  net ts = 3%Z /\ List.length ts = 13.
Proof.
  intros ts. split; [|split].
  - split; [|split; [|split]].
    + vm_compute. repeat constructor.
    + vm_compute. reflexivity.
    + exists (skipn 13 lua_head_toks). split; [vm_compute; repeat constructor; discriminate|vm_compute; reflexivity].
    + exists 3%Z, (skipn 14 (lex [] (lua_head ++ "x"))). split; [vm_compute; repeat constructor; discriminate|vm_compute; reflexivity].
  - apply calmb_calm. vm_compute. reflexivity.
  - vm_compute. auto 20.
Qed.
Example C07_set_case : name_gap [" "] = true /\ lua_var "$res" = true /\ gap_ok [s_nl; " "] = true /\ lua_code "return {1, '{'}" = true /\
  lex lua_lexers ("set_by_lua_block $res" ++ s_nl ++ " {return {1, '{'}} x;") =
    [Tok "set_by_lua_block" 1 false None; Tok "$res" 2 false None; Tok "return {1, '{'}" 2 true None; Tok ";" 2 false None; Tok "x" 2 false None; Tok ";" 2 false None].
Proof. do 4 (split; [vm_compute; reflexivity|]). vm_compute. reflexivity. Qed.
(** Bytes that are not UTF-8 do not survive. *)
Theorem C07_bytes_refuted : exists body, balanced 0 "" (scan_runes body) = true /\
  ~ In body (map t_val (lex lua_lexers ("content_by_lua_block {" ++ body ++ "}"))).
Proof. exists (str1 "200"). split; [vm_compute; reflexivity|]. vm_compute. intuition discriminate. Qed.
Print Assumptions C07_bytes_refuted.
(** The lexer knows no Lua comments: an apostrophe in one hides the closing brace. *)
Theorem C07_comment_refuted : exists body, lex lua_lexers ("content_by_lua_block {" ++ body ++ "}") = [Tok "content_by_lua_block" 1 false None] /\
  body = " -- don't ".
Proof. eexists. split; [|reflexivity]. vm_compute. reflexivity. Qed.
Print Assumptions C07_comment_refuted.

Definition mkDir (n : string) (line : Z) (args : list string) : directive := Dir n line args "" None None None false.
(** C36: the last registration listing a name wins; others are not affected. *)
Theorem C36_lexers : forall rs n, assoc n (apply_lexers rs) = registered n rs None.
Proof. exact reg_lexers. Qed.
Print Assumptions C36_lexers.
Theorem C36_builders : forall rs n, assoc n (apply_builders rs) = registered n rs None.
Proof. exact reg_builders. Qed.
Print Assumptions C36_builders.
Theorem C36_lex_same : forall rs rs' s, (forall n, registered n rs None = registered n rs' None) -> lex (apply_lexers rs) s = lex (apply_lexers rs') s.
Proof. intros rs rs' s H. apply lex_lookup. intros n. now rewrite !reg_lexers. Qed.
Print Assumptions C36_lex_same.
Theorem C36_build_same : forall o rs rs' ds,
  (forall d n, In d ds -> In n (asked (b_print o) d) -> registered n rs None = registered n rs' None) ->
  build (with_ext o (apply_builders rs)) ds = build (with_ext o (apply_builders rs')) ds.
Proof. intros o rs rs' ds H. rewrite (build_ext (with_ext o (apply_builders rs)) (apply_builders rs')); [reflexivity|]. intros d n I N. cbn [with_ext b_ext]. rewrite !reg_builders. now apply (H d). Qed.
Print Assumptions C36_build_same.
(** Trees without registered names are built as without builders; a registered
    builder renders its directive. *)
Theorem C36_build_untouched : forall o ds, (forall d n, In d ds -> In n (asked (b_print o) d) -> assoc n (b_ext o) = None) -> build o ds = build (with_ext o []) ds.
Proof. intros o ds H. apply build_ext. intros d n I N. now apply (H d). Qed.
Print Assumptions C36_build_untouched.
Theorem C36_build_used : forall o rs d f, b_ext o = apply_builders rs -> registered (enquote (b_print o) (d_name d)) rs None = Some f -> d_line d <> 0%Z ->
  build o [d] = Some ((if b_header o then header else "") ++ chomp (f d)).
Proof. intros o rs d f E R. apply build_one. now rewrite E, reg_builders. Qed.
Print Assumptions C36_build_used.
Example C36_case : let d := mkDir "content_by_lua_block" 1 ["x"] in let up := fun _ : directive => "UP" in
  let rs := [(lua_build, lua_names); (up, ["content_by_lua_block"; "other"]); (lua_build, ["other"])] in
  registered "content_by_lua_block" rs None = Some up /\ registered "other" rs None = Some lua_build /\ registered "events" rs None = None /\
  build (BOpts 4 false false (apply_builders rs) (fun _ => true)) [d; mkDir "init_by_lua_block" 2 ["y"]; mkDir "z" 3 ["y"]] =
    Some ("UP" ++ s_nl ++ "init_by_lua_block {y}" ++ s_nl ++ "z y;").
Proof. do 3 (split; [reflexivity|]). vm_compute. reflexivity. Qed.

(** C37, full statement: an external lexer is invoked exactly for the directives with
    its name.  That is false, see the refutations; what holds: *)
(** texts none of whose tokens starts with a registered name are lexed as without
    external lexers; *)
Theorem C37_untouched_partial : forall ext s, untouched ext (lex [] s) -> lex ext s = lex [] s.
Proof. exact lex_untouched. Qed.
Print Assumptions C37_untouched_partial.
(** so are texts where such tokens are arguments, behind an unquoted word and before
    another token of their line; *)
Theorem C37_arguments_partial : forall ext s, calm ext None (lex [] s) -> lex ext s = lex [] s.
Proof. exact lex_calm. Qed.
Print Assumptions C37_arguments_partial.
Example C37_arguments_case : let s := "http {" ++ s_nl ++ " a 'q' content_by_lua_block set_by_lua_blocks x; # content_by_lua_block" ++ s_nl ++ "}" in
  calm lua_lexers None (lex [] s) /\ ~ untouched lua_lexers (lex [] s).
Proof.
  intros s. split; [apply calmb_calm; vm_compute; reflexivity|]. intros U.
  destruct (lua_assoc "content_by_lua_block") as (A & _); [vm_compute; auto 20|].
  specialize (U (Tok "content_by_lua_block" 2 false None) "content_by_lua_block" ltac:(vm_compute; auto 10) ltac:(rewrite A; discriminate) ltac:(discriminate)).
  discriminate.
Qed.
(** a directive name followed by white space is handed over, with the text behind the
    white character, and lexing goes on behind what the external lexer took. *)
Theorem C37_invoked_partial : forall ext P ts n f w rest, directive_place P ts -> calm ext None ts -> assoc n ext = Some f -> simple_name n = true -> no_shorter ext n ->
  one_char w = true -> white w = true -> is_cr w = false ->
  let start := (1 + newlines P)%Z in
  let line := (start + newlines w)%Z in
  let res := f n line (scan_runes rest) in
  lex ext (P ++ n ++ w ++ rest) =
    (ts ++ Tok n start false None :: fst res ++
     lex_from ext (line + count_eol (firstn (snd res) (scan_runes rest))) start (net ts) (skipn (snd res) (scan_runes rest)))%list.
Proof. exact invoked. Qed.
Print Assumptions C37_invoked_partial.
Definition shout : ext_lexer := fun m line rs => ([Tok ("<" ++ m ++ ">") line true None; Tok ";" line false None], List.length rs - 2).
Example C37_case : let ext := [("ab", shout); ("cd", shout)] in
  directive_place ("x y;" ++ s_nl) (lex [] "x y;") /\ calm ext None (lex [] "x y;") /\ simple_name "ab" = true /\ no_shorter ext "ab" /\
  lex ext ("x y;" ++ s_nl ++ "ab 1 2 3 q;") = [Tok "x" 1 false None; Tok "y" 1 false None; Tok ";" 1 false None; Tok "ab" 2 false None; Tok "<ab>" 2 true None; Tok ";" 2 false None; Tok "q" 2 false None; Tok ";" 2 false None].
Proof.
  intros ext. split.
  { split; [vm_compute; repeat constructor|]. split; [vm_compute; reflexivity|]. split; [exists []; split; [constructor|vm_compute; reflexivity]|exists 2%Z, []; split; [constructor|vm_compute; reflexivity]]. }
  split. { apply calmb_calm. vm_compute. reflexivity. }
  split; [vm_compute; reflexivity|]. split.
  { intros a b E NA NB. destruct a as [|c [|c' a]]; [congruence|inversion E; subst; reflexivity|]. inversion E as [[E1 E2 E3]]. destruct a; [|discriminate]. destruct b; [congruence|discriminate]. }
  vm_compute. reflexivity.
Qed.
(** A registered name that merely starts a directive's name takes it over; *)
Theorem C37_prefix_refuted : exists ext s, (forall t, In t (lex [] s) -> assoc (t_val t) ext = None) /\ lex ext s <> lex [] s.
Proof.
  exists lua_lexers, "set_by_lua_blocks a;". split; [|vm_compute; discriminate]. intros t I. vm_compute in I. intuition subst; vm_compute; reflexivity.
Qed.
Print Assumptions C37_prefix_refuted.
(** a name that stands first on a line is taken for a directive even as an argument. *)
Theorem C37_argument_refuted : exists s, map t_val (lex [] s) = ["server_name"; "content_by_lua_block"; ";"] /\ lex lua_lexers s <> lex [] s.
Proof. exists ("server_name " ++ s_nl ++ "content_by_lua_block ;"). split; [vm_compute; reflexivity|vm_compute; discriminate]. Qed.
Print Assumptions C37_argument_refuted.
(** So is an argument that ends its line, and one behind a quoted directive name. *)
Theorem C37_line_end_refuted : exists s, map t_val (lex [] s) = ["set"; "$x"; "content_by_lua_block"; ";"] /\
  map t_line (lex [] s) = [1; 1; 1; 2]%Z /\ lex lua_lexers s <> lex [] s.
Proof. exists ("set $x content_by_lua_block" ++ s_nl ++ ";"). do 2 (split; [vm_compute; reflexivity|]). vm_compute. discriminate. Qed.
Print Assumptions C37_line_end_refuted.
Theorem C37_quoted_name_refuted : exists s, map t_val (lex [] s) = ["set"; "content_by_lua_block"; "x"; ";"] /\
  map t_line (lex [] s) = [1; 1; 1; 1]%Z /\ lex lua_lexers s <> lex [] s.
Proof. exists "'set' content_by_lua_block x;". do 2 (split; [vm_compute; reflexivity|]). vm_compute. discriminate. Qed.
Print Assumptions C37_quoted_name_refuted.
(** Without white space behind the name the opening brace is lost. *)
Theorem C37_brace_refuted : exists s, map t_val (lex [] s) = ["content_by_lua_block"; "{"; "x"; "}"] /\
  exists t, In t (lex lua_lexers s) /\ t_err t <> None.
Proof. exists "content_by_lua_block{ x }". split; [vm_compute; reflexivity|]. exists (nth 1 (lex lua_lexers "content_by_lua_block{ x }") (Tok "" 0 false None)). split; [vm_compute; auto|vm_compute; discriminate]. Qed.
Print Assumptions C37_brace_refuted.

(** C38: what Lua.Build writes is lexed back to the directive's arguments. *)
Theorem C38_block : forall n body, In n lua_names -> n <> set_by_lua_block -> lua_code body = true -> forall d, d_name d = n -> d_args d = [body] ->
  lex lua_lexers (lua_build d) = [Tok n 1 false None; Tok body (1 + newlines body) true None; Tok ";" (1 + newlines body) false None].
Proof. exact lua_build_lex. Qed.
Print Assumptions C38_block.
Theorem C38_set : forall v body, lua_var v = true -> lua_code body = true -> forall d, d_name d = set_by_lua_block -> d_args d = [v; body] ->
  lex lua_lexers (lua_build d) = [Tok set_by_lua_block 1 false None; Tok v 1 false None; Tok body (1 + newlines body) true None; Tok ";" (1 + newlines body) false None].
Proof. exact lua_build_set. Qed.
Print Assumptions C38_set.
Example C38_case : lua_code lua_text = true /\ lua_var "$v{" = true /\
  map t_val (lex lua_lexers (lua_build (mkDir "set_by_lua_block" 7 ["$v{"; lua_text]))) = ["set_by_lua_block"; "$v{"; lua_text; ";"].
Proof. do 2 (split; [vm_compute; reflexivity|]). vm_compute. reflexivity. Qed.

(** C04 speaks of no external lexers; with the Lua lexer it is false: the token for a
    missing brace has the line of the name of the last Lua block, unlike its error (finding 46). *)
Theorem C04_lua_refuted : exists s, map t_line (lex lua_lexers s) = [1; 1; 2; 4; 4; 2]%Z /\
  ~ ascending 1 (1 + newlines s) (lex lua_lexers s) /\
  map t_err (lex lua_lexers s) = [None; None; None; None; None;
    Some (EParse (PE "unexpected end of file, expecting ""}""" (Some "lexer") (Some 4%Z) "" "" None))].
Proof.
  exists ("a {" ++ s_nl ++ "content_by_lua_block {" ++ s_nl ++ s_nl ++ "}"). split; [vm_compute; reflexivity|]. split; [|vm_compute; reflexivity].
  intros A. vm_compute in A. repeat match goal with H : ascending _ _ (_ :: _) |- _ => inversion H; clear H; subst end. cbn in *. lia.
Qed.
Print Assumptions C04_lua_refuted.
