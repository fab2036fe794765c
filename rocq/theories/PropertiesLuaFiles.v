(** C69: configurations of several files with Lua blocks. *)
From Verif Require Import Tables TableProofs PropertiesFlatten PropertiesFormat LuaFormat ForestTools PropertiesForest PropertiesRead PropertiesLuaRound.
Local Open Scope string_scope.

(** Parse with CombineConfigs, Build, and Parse of that text alone, with the Lua lexer and the Lua builder. *)
Theorem C69_flatten : forall bo o filename l, ascii_right (b_print bo) -> b_ext bo = apply_builders [(lua_build, lua_names)] -> (0 <= b_indent bo)%Z ->
  o_combine o = true -> o_lexers o = apply_lexers [(lua_lex, lua_names)] -> loose_if o -> book o filename l -> ~ loops l -> one_home l ->
  (forall g, In g l -> pg_errors g = [] /\ forallb no_if_entry (pg_tree g) = true /\ forallb all_resolved (pg_tree g) = true) ->
  exists n ds, (forall fuel, n <= fuel -> parse_main fuel o filename = ROk (Pay "ok" [] [Cfg filename "ok" [] ds])) /\
    (lua_writables (b_print bo) not_note ds = true -> exists text, build bo ds = Some text /\
      forall op f, op f = inl text -> exists n ds',
        (forall k, n <= k -> parse_main k (with_open o op) f = ROk (Pay "ok" [] [Cfg f "ok" [] ds'])) /\
        map bare ds' = map bare (expected (o_comments o) (b_header bo) ds)).
Proof. exact lua_flatten. Qed.
Print Assumptions C69_flatten.

Definition lf_a : string := "http { # c
  include b # d
    ;
  server { location / { content_by_lua_block { ngx.say(""}"")
} } }
}".
Definition lf_b : string := "init_by_lua_block { x = {
 1 } }
charset utf-8; # e".
Definition lf_disk : fs := Fs (fun f => if String.eqb f "/a" then Some lf_a else if String.eqb f "/b" then Some lf_b else None) [].
Definition lf_opts (combine : bool) : popts := Opts [] None (disk lf_disk (fun _ => "missing")) (fun _ => inl []) false combine false true true false false [lookup nginxPlusLatestDirectives; lookup luaDirectives] default_match (apply_lexers [(lua_lex, lua_names)]).
Definition lf_pages (a b : string) : list page :=
  [Page "/a"
     [dir3 a "http" 1 [] None (Some
        [note a 1 " c"; dir3 a "include" 2 ["b"] (Some [1%Z]) None; note a 2 " d";
         dir3 a "server" 4 [] None (Some
           [dir3 a "location" 4 ["/"] None (Some [dir3 a "content_by_lua_block" 4 [" ngx.say(""}"")
"] None None])])])]
     [] ["/b"];
   Page "/b" [dir3 b "init_by_lua_block" 1 [" x = {
 1 } "] None None;
              dir3 b "charset" 3 ["utf-8"] None None; note b 3 " e"] [] []].
Lemma lf_book : forall combine, book (lf_opts combine) "/a" (lf_pages (if combine then "/a" else "") (if combine then "/b" else "")).
Proof.
  intros combine. unfold book. change (dir_name "/a") with "/". unfold lf_pages. set (o := lf_opts combine).
  eapply (pg_whole o "/" 0 [("/a", [])] "/a" [] lf_a (ForestTools.forest_of (lex (apply_lexers [(lua_lex, lua_names)]) lf_a)) _ [] _ [("/a", []); ("/b", ["http"])]).
  1: reflexivity. 1: reflexivity. 1: vm_compute; reflexivity. 1: apply all_wf; vm_compute; reflexivity.
  1: constructor. 1: cbn; auto with arith.
  - match goal with |- reads _ _ _ _ _ ?F _ _ _ _ => evalF F end.
    eapply reads_eq.
    { eapply rd_block; [nomap|intros []|acc|nofollow|notif|quiet|apply plainb_plain; reflexivity| |apply rd_nil].
      apply (rd_comment o "/" "/a" _ _ _ " c"); [reflexivity|].
      eapply (rd_include _ _ _ _ _ _ _ _ "b" [] ["/b"] [1%Z] [note (if combine then "/a" else "") 2 " d"]); [nomap|intros []|acc|now split|reflexivity| |right; discriminate| | |].
      { change ["/b"] with [path_of "/" "b"]. eapply tg_file; [no_magic|reflexivity]. }
      { apply (nu_new ["http"] [("/a", [])] "/b"); [cbn; intuition discriminate|apply nu_nil]. }
      { exists [" d"]; split; [|reflexivity]. apply rm_word; [nohash|]. eapply rm_comment; [reflexivity|reflexivity|constructor]. }
      eapply rd_block; [nomap|intros []|acc|nofollow|notif|quiet|apply plainb_plain; reflexivity| |apply rd_nil].
      eapply rd_block; [nomap|intros []|acc|nofollow|notif|quiet|apply plainb_plain; reflexivity| |apply rd_nil].
      eapply rd_simple; [nomap|intros []|acc|nofollow|notif|quiet|apply rd_nil]. }
    all: reflexivity.
  - eapply (pg_whole o "/" 1 _ "/b" ["http"] lf_b (ForestTools.forest_of (lex (apply_lexers [(lua_lex, lua_names)]) lf_b)) _ [] _ [("/a", []); ("/b", ["http"])]).
    1: reflexivity. 1: reflexivity. 1: vm_compute; reflexivity. 1: apply all_wf; vm_compute; reflexivity.
    1: apply plainb_plain; reflexivity. 1: cbn; auto with arith.
    + match goal with |- reads _ _ _ _ _ ?F _ _ _ _ => evalF F end.
      eapply reads_eq.
      { eapply rd_simple; [nomap|intros []|acc|nofollow|notif|quiet|]. eapply rd_simple; [nomap|intros []|acc|nofollow|notif|quiet|]. apply (rd_comment o "/" "/b" _ _ _ " e"); [reflexivity|apply rd_nil]. }
      all: reflexivity.
    + apply (pg_done o "/" [("/a", []); ("/b", ["http"])]).
Qed.
Lemma lf_loops : forall a b, ~ loops (lf_pages a b).
Proof.
  intros a b [x C]. assert (E : x = "/a" /\ x = "/b"); [|destruct E; congruence].
  assert (L : forall x y, clos_trans string (leads (lf_pages a b)) x y -> x = "/a" /\ y = "/b").
  { induction 1 as [x' y' (g & I & <- & J)|x' y' z' _ [A B] _ [A' B']]; [|congruence].
    destruct I as [<-|[<-|[]]]; [destruct J as [<-|[]]; now split|destruct J]. }
  exact (L _ _ C).
Qed.
Lemma lf_home : one_home (lf_pages "/a" "/b").
Proof.
  assert (H : forall n p, stands (lf_pages "/a" "/b") n p -> n = 0 /\ p = [] \/ n = 1 /\ p = ["http"]).
  { intros n p S. induction S as [|n path g i q S IH N P L]; [now left|]. apply points_list in P. destruct IH as [[-> ->]|[-> ->]]; injection N as <-; vm_compute in P.
    - destruct P as [P|[]]. injection P as <- <-. right. now split.
    - destruct P. }
  intros n p q A B. destruct (H n p A) as [[E ->]|[E ->]], (H n q B) as [[E' ->]|[E' ->]]; auto; congruence.
Qed.
Lemma lf_tables : forall combine, from_tables (lf_opts combine) shipped.
Proof.
  intros combine f [[_ N]|I]; [discriminate N|]. destruct I as [<-|[<-|[]]]; eexists; (split; [|intros name; reflexivity]); unfold shipped; repeat (try (left; reflexivity); right).
Qed.
Example C69_case : book (lf_opts true) "/a" (lf_pages "/a" "/b") /\ ~ loops (lf_pages "/a" "/b") /\ one_home (lf_pages "/a" "/b") /\ loose_if (lf_opts true) /\
  (forall g, In g (lf_pages "/a" "/b") -> pg_errors g = [] /\ forallb no_if_entry (pg_tree g) = true /\ forallb all_resolved (pg_tree g) = true).
Proof.
  split; [exact (lf_book true)|]. split; [apply lf_loops|]. split; [exact lf_home|]. split; [exact (C64_shipped _ (lf_tables true))|].
  intros g [<-|[<-|[]]]; (split; [reflexivity|split; reflexivity]).
Qed.
(** The text for these two files, and what is read from it. *)
Definition lf_bo (header : bool) : boptions := BO 2 false header [(lua_build, lua_names)] None (in_rng 32 126).
Example C69_result : exists ds ds', parse_main 5 (lf_opts true) "/a" = ROk (Pay "ok" [] [Cfg "/a" "ok" [] ds]) /\
  lua_writables (in_rng 32 126) not_note ds = true /\ build (BuildIO.plain_opts (build_opts (lf_bo false))) ds = Some "http { # c
  init_by_lua_block { x = {
 1 } }
  charset utf-8; # e
  # d
  server {
    location / {
      content_by_lua_block { ngx.say(""}"")
}
    }
  }
}" /\ parse_main 5 (with_open (lf_opts true) (fun _ => inl "http { # c
  init_by_lua_block { x = {
 1 } }
  charset utf-8; # e
  # d
  server {
    location / {
      content_by_lua_block { ngx.say(""}"")
}
    }
  }
}")) "/x" = ROk (Pay "ok" [] [Cfg "/x" "ok" [] ds']) /\ map bare ds' = map bare ds.
Proof. eexists _, _. split; [vm_compute; reflexivity|]. split; [vm_compute; reflexivity|]. split; [vm_compute; reflexivity|]. split; [vm_compute; reflexivity|]. vm_compute. reflexivity. Qed.

(** Every file is replaced by the text built from what was read of it; what is read then is the same but for lines
    and the header, and gives the same texts when it is built again. *)
Theorem C69_format : forall bo o op filename l fuel, ascii_right (b_print bo) -> b_ext bo = apply_builders [(lua_build, lua_names)] -> (0 <= b_indent bo)%Z ->
  o_combine o = false -> o_lexers o = apply_lexers [(lua_lex, lua_names)] -> loose_if o -> book o filename l -> ~ loops l ->
  (forall g, In g l -> pg_errors g = [] /\ lua_formattable (b_print bo) (pg_tree g) = true) -> formatted bo o l op -> List.length l <= fuel ->
  exists p p', parse_main fuel o filename = ROk p /\ parse_main fuel (with_open o op) filename = ROk p' /\ pl_status p = "ok" /\ map cf_parsed (pl_config p) = map pg_tree l /\
    same_payload (heading (o_comments o) (b_header bo)) p p' /\
    ((b_header bo && o_comments o)%bool = false -> (forall g, In g l -> lua_writables (b_print bo) (if o_comments o then on_line else not_note) (pg_tree g) = true) ->
     map (fun c => (cf_file c, build bo (cf_parsed c))) (pl_config p') = map (fun g => (pg_file g, build bo (pg_tree g))) l).
Proof. exact lua_format. Qed.
Print Assumptions C69_format.
(** Parse, BuildFiles over the same files, and Parse again; BuildFiles a second time changes no file. *)
Theorem C69_files : forall bo o s missing cwd dir filename l fuel, bo_ext bo = None -> bo_builders bo = [(lua_build, lua_names)] -> (0 <= bo_indent bo)%Z ->
  ascii_right (bo_print bo) -> SpecFiles.where_to cwd dir <> None -> (forall f, o_open o f = disk s missing f) ->
  o_combine o = false -> o_lexers o = apply_lexers [(lua_lex, lua_names)] -> loose_if o -> book o filename l -> ~ loops l ->
  (forall g, In g l -> pg_errors g = [] /\ lua_formattable (bo_print bo) (pg_tree g) = true /\ has_prefix (pg_file g) "/" = true) -> List.length l <= fuel ->
  exists p s' p', parse_main fuel o filename = ROk p /\ pl_status p = "ok" /\ build_files cwd p dir bo [] s = (s', BFok) /\
    parse_main fuel (with_open o (disk s' missing)) filename = ROk p' /\ same_payload (heading (o_comments o) (bo_header bo)) p p' /\
    ((bo_header bo && o_comments o)%bool = false -> (forall g, In g l -> lua_writables (bo_print bo) (if o_comments o then on_line else not_note) (pg_tree g) = true) ->
     exists s'', build_files cwd p' dir bo [] s' = (s'', BFok) /\ SpecFiles.same_files (files s'') (files s')).
Proof. exact lua_format_files. Qed.
Print Assumptions C69_files.
(** The premises of [C69_format] and [C69_files] for the files above. *)
Example C69_files_case : forall header, book (lf_opts false) "/a" (lf_pages "" "") /\ ~ loops (lf_pages "" "") /\ loose_if (lf_opts false) /\ ascii_right (bo_print (lf_bo header)) /\
  (forall g, In g (lf_pages "" "") -> pg_errors g = [] /\ lua_formattable (bo_print (lf_bo header)) (pg_tree g) = true /\ has_prefix (pg_file g) "/" = true) /\
  (forall g, In g (lf_pages "" "") -> lua_writables (bo_print (lf_bo header)) (if o_comments (lf_opts false) then on_line else not_note) (pg_tree g) = true).
Proof.
  intros header. split; [exact (lf_book false)|]. split; [apply lf_loops|]. split; [exact (C64_shipped _ (lf_tables false))|]. split; [intros r _; reflexivity|]. split.
  - intros g [<-|[<-|[]]]; (split; [reflexivity|split; vm_compute; reflexivity]).
  - intros g [<-|[<-|[]]]; vm_compute; reflexivity.
Qed.
Example C69_reformat : exists trees, reformat (lf_opts false) lf_disk (lf_bo false) ["/a"; "/b"] = Some (map pg_tree (lf_pages "" ""),
  [Some "http { # c
  include b; # d
  server {
    location / {
      content_by_lua_block { ngx.say(""}"")
}
    }
  }
}
"; Some "init_by_lua_block { x = {
 1 } }
charset utf-8; # e
"], trees) /\ map (map unlined) trees = map (map unlined) (map pg_tree (lf_pages "" "")).
Proof. eexists. split; [vm_compute; reflexivity|]. vm_compute. reflexivity. Qed.
(** Without the Lua builder the blocks are not written so that they can be read back. *)
Definition no_lua_bo : boptions := BO 2 false false [] None (in_rng 32 126).
Theorem C69_no_builder_refuted : exists trees texts trees', reformat (lf_opts false) lf_disk no_lua_bo ["/b"] = Some (trees, texts, trees') /\
  map (map unlined) trees' <> map (map unlined) trees.
Proof. eexists _, _, _. split; [vm_compute; reflexivity|]. vm_compute. discriminate. Qed.
Print Assumptions C69_no_builder_refuted.
