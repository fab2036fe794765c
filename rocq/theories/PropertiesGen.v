(** The generator of support files (C39, C40, C44, C45). *)
From Verif Require Import GenText GenFixtures.
From Coq Require Import Sorting.Sorted.
Local Open Scope string_scope.

(** ** C39 *)
(** The map holds the directives found below the path that are not filtered, each with
    its override if there is one, and with all the masks of its definitions otherwise. *)
Theorem C39_map : forall ord, permutes ord -> forall es flt ovr m, generate_map ord es flt ovr = inl m ->
  exists ds, all_defs es = Some ds /\ ds <> [] /\ NoDup (map fst m) /\
  forall d, assoc d m = if mem_str d flt then None else
    match defs_of d ds with [] => None | ms => Some (match assoc d ovr with Some o => o | None => ms end) end.
Proof. exact generate_ok. Qed.
Print Assumptions C39_map.
(** It fails exactly if something cannot be read, a mask name is unknown or there is no definition. *)
Theorem C39_errors : forall ord, permutes ord -> forall es flt ovr,
  (exists e, generate_map ord es flt ovr = inr e) <-> (all_defs es = None \/ all_defs es = Some []).
Proof. exact generate_err. Qed.
Print Assumptions C39_errors.
(** The order in which Go visits maps does not show in the text. *)
Theorem C39_order : forall ord ord' es flt ovr m m' var fn cm, permutes ord -> permutes ord' ->
  generate_map ord es flt ovr = inl m -> generate_map ord' es flt ovr = inl m' -> render var fn cm m = render var fn cm m'.
Proof. exact text_order. Qed.
Print Assumptions C39_order.
Definition c_src (name mask : string) : string :=
  "static ngx_command_t t[] = {" ++ s_nl ++ "  { ngx_string(" ++ s_dq ++ name ++ s_dq ++ ")," ++ s_nl ++ "    " ++ mask ++ "," ++ s_nl ++ "    NULL }," ++ s_nl ++ "  ngx_null_command" ++ s_nl ++ "};" ++ s_nl.
Definition tree : list entry :=
  [EDir "src"; EFile "src/a.c" (Some (c_src "foo" "NGX_HTTP_MAIN_CONF|NGX_CONF_TAKE1")); EFile "src/b.cpp" (Some (c_src "foo" "NGX_CONF_FLAG"));
   EFile "src/c.c" (Some (c_src "bar" "NGX_CONF_TAKE2")); EFile "src/d.c" (Some (c_src "gone" "NGX_CONF_TAKE3")); EFile "src/e.h" None].
Lemma as_is_permutes : permutes as_is.
Proof. intros k l. apply Permutation_refl. Qed.
Lemma backwards_permutes : permutes backwards.
Proof. intros k l. apply Permutation_sym, Permutation_rev. Qed.
Example C39_case : generate_map backwards tree ["gone"] [("bar", [["x"]; ["y"; "z"]]); ("new", [["x"]])] =
  inl [("foo", [["ngxHTTPMainConf"; "ngxConfTake1"]; ["ngxConfFlag"]]); ("bar", [["x"]; ["y"; "z"]])].
Proof. vm_compute. reflexivity. Qed.
Example C39_unknown : exists e, generate_map as_is [EFile "a.c" (Some (c_src "foo" "NGX_X"))] [] [] = inr e.
Proof. eexists. vm_compute. reflexivity. Qed.

(** ** C40 *)
(** A flag is accepted exactly if it spells a directive and its masks, and with this meaning. *)
Theorem C40_reads : forall s d ms, read_override s = inl (d, ms) <-> spells s d ms.
Proof. exact read_override_iff. Qed.
Print Assumptions C40_reads.
(** The four rejections. *)
Theorem C40_colon : forall s, read_override s = inr FNoColon <-> lacks ":"%char s.
Proof. exact read_override_colon. Qed.
Print Assumptions C40_colon.
Theorem C40_name : forall s, read_override s = inr FNoName <-> exists l r, s = l ++ ":" ++ r /\ lacks ":"%char l /\ trimmed l "".
Proof. exact read_override_name. Qed.
Print Assumptions C40_name.
Theorem C40_definition : forall s, read_override s = inr FNoDef <->
  exists l r d, s = l ++ ":" ++ r /\ lacks ":"%char l /\ trimmed l d /\ d <> "" /\ trimmed r "".
Proof. exact read_override_def. Qed.
Print Assumptions C40_definition.
Theorem C40_mask : forall s, read_override s = inr FNoMask <->
  exists l r d def, s = l ++ ":" ++ r /\ lacks ":"%char l /\ trimmed l d /\ d <> "" /\ trimmed r def /\ def <> "" /\
    exists part name, In part (split "," def) /\ In name (split "|" part) /\ trimmed name "".
Proof. exact read_override_mask. Qed.
Print Assumptions C40_mask.
(** Of several flags for one directive the last one counts. *)
Theorem C40_last : forall flags ov m, set_overrides flags ov = inl m ->
  exists items, Forall2 (fun f i => spells f (fst i) (snd i)) flags items /\
    forall d, assoc d m = match assoc d (rev items) with Some x => Some x | None => assoc d ov end.
Proof. exact set_overrides_last. Qed.
Print Assumptions C40_last.
Example C40_case : read_override " foo : a | b, c:d " = inl ("foo", [["a"; "b"]; ["c:d"]]).
Proof. vm_compute. reflexivity. Qed.
Example C40_cases : map read_override ["foo"; " :a"; "foo: "; "foo:a||b"; "foo:a,"] =
  [inr FNoColon; inr FNoName; inr FNoDef; inr FNoMask; inr FNoMask].
Proof. vm_compute. reflexivity. Qed.
Example C40_two : set_overrides ["foo:a"; "bar:b"; "foo:c"] [] = inl [("foo", [["c"]]); ("bar", [["b"]])].
Proof. vm_compute. reflexivity. Qed.

(** ** C44 *)
(** Comments and line ends are removed from every text in which block comments contain
    no "//" and are not directly followed by a comment. *)
Theorem C44_comments_partial : forall ps, pieces_ok ps = true -> flatten (source ps) = code ps.
Proof. exact flatten_source. Qed.
Print Assumptions C44_comments_partial.
(** In such a text all definitions of all tables are found, and nothing else. *)
Theorem C44_tables_partial : forall ps first l, pieces_ok ps = true -> code ps = with_tables first l -> other_code first = true ->
  Forall (fun x => table_ok (fst x) = true /\ other_code (snd x) = true) l ->
  exists m, masks_of_text (source ps) = inl m /\ maps m (flat_map (fun x => table_defs (fst x)) l).
Proof. exact tables_read. Qed.
Print Assumptions C44_tables_partial.
(** Every mask name in the map is that of a constant of the package, except for one that
    is commented out there (finding 19). *)
Theorem C44_constants_partial : forall t m d ms k n, masks_of_text t = inl m -> assoc d m = Some ms -> In k ms -> In n k ->
  In n go_constants \/ n = "ngxConfTake7".
Proof. exact masks_constants. Qed.
Print Assumptions C44_constants_partial.
Theorem C44_take7_refuted : exists t m d ms k n, masks_of_text t = inl m /\ assoc d m = Some ms /\ In k ms /\ In n k /\ ~ In n go_constants.
Proof.
  exists (c_src "foo" "NGX_CONF_TAKE7"), [("foo", [["ngxConfTake7"]])], "foo", [["ngxConfTake7"]], ["ngxConfTake7"], "ngxConfTake7".
  split; [vm_compute; reflexivity|]. split; [reflexivity|]. split; [now left|]. split; [now left|].
  vm_compute. intuition discriminate.
Qed.
Print Assumptions C44_take7_refuted.
Example C44_constants_case : masks_of_text (c_src "foo" "NGX_MAIN_CONF|NGX_CONF_TAKE12") = inl [("foo", [["ngxMainConf"; "ngxConfTake12"]])].
Proof. vm_compute. reflexivity. Qed.
(** The conditions on comments are needed: a "//" in a block comment removes the end of
    the comment, and so does a slash directly behind it (finding 23). *)
Theorem C44_url_refuted : exists s ds, has_sub "*/" s = false /\ masks_of_text (c_src "foo" "NGX_CONF_TAKE1") = inl ds /\ ds <> [] /\
  masks_of_text ("/*" ++ s ++ "*/" ++ s_nl ++ c_src "foo" "NGX_CONF_TAKE1" ++ "/* x */") = inl [].
Proof. exists " see http://x ", [("foo", [["ngxConfTake1"]])]. vm_compute. repeat split; congruence. Qed.
Print Assumptions C44_url_refuted.
Theorem C44_adjacent_refuted : exists ds, masks_of_text (c_src "foo" "NGX_CONF_TAKE1") = inl ds /\ ds <> [] /\
  masks_of_text ("/* a *//* b" ++ s_nl ++ "*/" ++ c_src "foo" "NGX_CONF_TAKE1" ++ "/* x */") = inl ds /\
  masks_of_text ("/* a *//* b */" ++ s_nl ++ c_src "foo" "NGX_CONF_TAKE1" ++ "/* x */") = inl [].
Proof. exists [("foo", [["ngxConfTake1"]])]. vm_compute. repeat split; congruence. Qed.
Print Assumptions C44_adjacent_refuted.
(** So is the blank behind ngx_command_t: a line end does not do. *)
Theorem C44_newline_refuted : exists s t, masks_of_text ("ngx_command_t " ++ s) = inl [("foo", [["ngxConfTake1"]])] /\
  masks_of_text ("ngx_command_t" ++ t ++ s) = inl [] /\ t = s_nl.
Proof.
  exists ("t[] = { { ngx_string(" ++ s_dq ++ "foo" ++ s_dq ++ "), NGX_CONF_TAKE1, NULL } };"), s_nl. vm_compute. repeat split.
Qed.
Print Assumptions C44_newline_refuted.
Definition foo_item : item_def := IDef "  { " "foo" "" [("      ", "NGX_HTTP_MAIN_CONF", ""); ("", "NGX_CONF_TAKE1", "")].
Definition bar_item : item_def := IDef "      0, NULL }, { " "bar" "" [(" ", "NGX_CONF_FLAG", "")].
Definition some_table : table := Tbl " " "cmds" " " " " [foo_item; bar_item] " 0 }, ngx_null_command" "".
Definition some_pieces : list piece :=
  [LineC " head" true; Code "static ngx_command_t cmds[] = {"; Eol false; Code "  { ngx_string("; Code (s_dq ++ "foo" ++ s_dq ++ "),");
   BlockC " a * b / c "; Eol true; Code "      NGX_HTTP_MAIN_CONF|"; Eol false; Code "NGX_CONF_TAKE1,"; LineC "no /* comment" false;
   Code "      0, NULL }, { ngx_string("; Code (s_dq ++ "bar" ++ s_dq ++ "), NGX_CONF_FLAG, 0 }, ngx_null_command};"); Eol false; Code "int x;"].
Example C44_case : pieces_ok some_pieces = true /\ code some_pieces = with_tables "static " [(some_table, "int x;")] /\
  other_code "static " = true /\ table_ok some_table = true /\ other_code "int x;" = true /\
  masks_of_text (source some_pieces) = inl [("foo", [["ngxHTTPMainConf"; "ngxConfTake1"]]); ("bar", [["ngxConfFlag"]])].
Proof. vm_compute. repeat split; reflexivity. Qed.

(** ** C45 *)
(** The text contains the map as a Go literal: one row for each directive, in byte order,
    provided no name has one of the characters html/template escapes. *)
Theorem C45_literal_partial : forall var fn cm m, NoDup (map fst m) ->
  (forall d, In d (map fst m) -> plain_text d = true /\ Forall (fun k => plain_text (join k " | ") = true) (lookup d m)) ->
  exists rows before after, render var fn cm m = before ++ literal rows ++ after /\
    StronglySorted bytes_lt (map fst rows) /\ forall d, assoc d rows = assoc d m.
Proof. exact render_literal. Qed.
Print Assumptions C45_literal_partial.
(** Escaping leaves exactly the texts without these characters alone. *)
Theorem C45_escape : forall s, html s = s <-> plain_text s = true.
Proof. exact html_iff. Qed.
Print Assumptions C45_escape.
(** Every other text is written with exactly these bytes replaced. *)
Theorem C45_shown : forall s t, html s = t <-> shown s t.
Proof. exact html_shown_iff. Qed.
Print Assumptions C45_shown.
(** The whole file for every map, name and comment: comments, the package clause, the map
    literal with a row for each directive in byte order, the match function. *)
Theorem C45_file : exists notes, only_comments PCode notes = true /\ forall var fn cm m, NoDup (map fst m) ->
  exists rows texts v f note, render var fn cm m = notes ++ "package crossplane" ++ s_nl ++ s_nl ++ support_file v f note texts /\
    StronglySorted bytes_lt (map fst rows) /\ (forall d, assoc d rows = assoc d m) /\ Forall2 shown_row rows texts /\ shown var v /\ shown fn f /\ note_of cm note.
Proof. exact render_file. Qed.
Print Assumptions C45_file.
Example C45_shown_case : shown "a<b>&'+c" "a&lt;b&gt;&amp;&#39;&#43;c" /\ shown (String "034" (String "000" "")) ("&#34;" ++ encode_rune rune_error).
Proof. split; apply C45_shown; vm_compute; reflexivity. Qed.
(** The comment of the match function is escaped too, although it is Go text (finding 23). *)
Theorem C45_comment_refuted : exists cm, cm = "isn't" /\ has_sub ("// " ++ cm) (render "v" "F" cm []) = false /\
  has_sub "// isn&#39;t" (render "v" "F" cm []) = true.
Proof. exists "isn't". vm_compute. auto. Qed.
Print Assumptions C45_comment_refuted.
Definition two : masks_map := [("foo", [["ngxHTTPMainConf"; "ngxConfTake1"]; ["ngxConfFlag"]]); ("bar", [["x"]])].
Example C45_case : NoDup (map fst two) /\ forallb (fun e => plain_text (fst e) && forallb (fun k => plain_text (join k " | ")) (snd e))%bool two = true /\
  literal [("bar", [["x"]])] = "map[string][]uint{" ++ s_nl ++ "    " ++ s_dq ++ "bar" ++ s_dq ++ ": {" ++ s_nl ++ "        x," ++ s_nl ++ "    }," ++ s_nl ++ "}".
Proof. split; [|vm_compute; auto]. repeat constructor; cbn; intuition discriminate. Qed.
