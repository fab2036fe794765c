(** C64: formatting the files of a configuration in place. *)
From Verif Require Import FormatProofs Tables TableProofs ForestTools PropertiesForest PropertiesRead.
Local Open Scope string_scope.

(** Every file is replaced by the text built from what was read of it; what is read
    then is the same but for lines and the header. *)
Theorem C64_format : forall bo o op filename l fuel, ascii_right (b_print bo) -> b_ext bo = [] -> (0 <= b_indent bo)%Z ->
  o_combine o = false -> o_lexers o = [] -> loose_if o -> book o filename l -> ~ loops l ->
  (forall g, In g l -> pg_errors g = [] /\ formattable (b_print bo) (pg_tree g) = true) ->
  formatted bo o l op -> List.length l <= fuel ->
  exists p p', parse_main fuel o filename = ROk p /\ parse_main fuel (with_open o op) filename = ROk p' /\
    pl_status p = "ok" /\ map cf_parsed (pl_config p) = map pg_tree l /\
    same_payload (heading (o_comments o) (b_header bo)) p p'.
Proof. exact format_parse. Qed.
Print Assumptions C64_format.
(** Parse, BuildFiles over the same files, and Parse again. *)
Theorem C64_files : forall bo o s missing cwd dir filename l fuel, bo_ext bo = None -> bo_builders bo = [] -> (0 <= bo_indent bo)%Z ->
  ascii_right (bo_print bo) -> SpecFiles.where_to cwd dir <> None -> (forall f, o_open o f = disk s missing f) ->
  o_combine o = false -> o_lexers o = [] -> loose_if o -> book o filename l -> ~ loops l ->
  (forall g, In g l -> pg_errors g = [] /\ formattable (bo_print bo) (pg_tree g) = true /\ has_prefix (pg_file g) "/" = true) ->
  List.length l <= fuel ->
  exists p s' p', parse_main fuel o filename = ROk p /\ pl_status p = "ok" /\ build_files cwd p dir bo [] s = (s', BFok) /\
    parse_main fuel (with_open o (disk s' missing)) filename = ROk p' /\
    same_payload (heading (o_comments o) (bo_header bo)) p p'.
Proof. exact format_files. Qed.
Print Assumptions C64_files.
(** Formatting a second time gives the same texts ... *)
Theorem C64_again : forall bo o op filename l fuel, ascii_right (b_print bo) -> b_ext bo = [] -> (0 <= b_indent bo)%Z ->
  o_combine o = false -> o_lexers o = [] -> loose_if o -> book o filename l -> ~ loops l ->
  (forall g, In g l -> pg_errors g = [] /\ formattable (b_print bo) (pg_tree g) = true) ->
  formatted bo o l op -> List.length l <= fuel ->
  (b_header bo && o_comments o)%bool = false ->
  (forall g, In g l -> writables (b_print bo) (if o_comments o then on_line else not_note) (pg_tree g) = true) ->
  exists p', parse_main fuel (with_open o op) filename = ROk p' /\
    map (fun c => (cf_file c, build bo (cf_parsed c))) (pl_config p') = map (fun g => (pg_file g, build bo (pg_tree g))) l.
Proof. exact format_again. Qed.
Print Assumptions C64_again.
(** ... and changes no file. *)
Theorem C64_files_again : forall bo o s missing cwd dir filename l fuel, bo_ext bo = None -> bo_builders bo = [] -> (0 <= bo_indent bo)%Z ->
  ascii_right (bo_print bo) -> SpecFiles.where_to cwd dir <> None -> (forall f, o_open o f = disk s missing f) ->
  o_combine o = false -> o_lexers o = [] -> loose_if o -> book o filename l -> ~ loops l ->
  (forall g, In g l -> pg_errors g = [] /\ formattable (bo_print bo) (pg_tree g) = true /\ has_prefix (pg_file g) "/" = true) ->
  List.length l <= fuel -> (bo_header bo && o_comments o)%bool = false ->
  (forall g, In g l -> writables (bo_print bo) (if o_comments o then on_line else not_note) (pg_tree g) = true) ->
  exists p s' p' s'', parse_main fuel o filename = ROk p /\ build_files cwd p dir bo [] s = (s', BFok) /\
    parse_main fuel (with_open o (disk s' missing)) filename = ROk p' /\
    build_files cwd p' dir bo [] s' = (s'', BFok) /\ SpecFiles.same_files (files s'') (files s').
Proof. exact format_files_again. Qed.
Print Assumptions C64_files_again.
(** The shipped tables leave the number of arguments of "if" open. *)
Theorem C64_shipped : forall o, from_tables o shipped -> loose_if o.
Proof. exact shipped_loose. Qed.
Print Assumptions C64_shipped.

Definition fmt_a : string := "http { # c
  include b # d
    ;
  server { if ( $a   =  b ) { return 404; } }
}".
Definition fmt_b : string := "map $x $y { default   'x'; }

charset utf-8; # e".
Definition fmt_disk : fs := Fs (fun f => if String.eqb f "/a" then Some fmt_a else if String.eqb f "/b" then Some fmt_b else None) [].
Definition fmt_opts_for (combine : bool) : popts := Opts [] None (disk fmt_disk (fun _ => "missing")) (fun _ => inl []) false combine false true true false false [] default_match [].
Definition fmt_opts : popts := fmt_opts_for false.
Definition fmt_bo (header : bool) : boptions := BO 2 false header [] None (in_rng 32 126).
Definition fmt_pages_for (a b : string) : list page :=
  [Page "/a"
     [dir3 a "http" 1 [] None (Some
        [note a 1 " c"; dir3 a "include" 2 ["b"] (Some [1%Z]) None; note a 2 " d";
         dir3 a "server" 4 [] None (Some
           [dir3 a "if" 4 ["$a"; "="; "b"] None (Some [dir3 a "return" 4 ["404"] None None])])])]
     [] ["/b"];
   Page "/b" [dir3 b "map" 1 ["$x"; "$y"] None (Some [Dir "default" 1 ["x"] b None None None true]);
              dir3 b "charset" 3 ["utf-8"] None None; note b 3 " e"] [] []].
Definition fmt_pages : list page := fmt_pages_for "" "".
Lemma fmt_book_for : forall combine, book (fmt_opts_for combine) "/a" (fmt_pages_for (if combine then "/a" else "") (if combine then "/b" else "")).
Proof.
  intros combine. unfold book. change (dir_name "/a") with "/". unfold fmt_pages_for. set (o := fmt_opts_for combine).
  eapply (pg_whole o "/" 0 [("/a", [])] "/a" [] fmt_a (ForestTools.forest_of (lex [] fmt_a)) _ [] _ [("/a", []); ("/b", ["http"])]).
  1: reflexivity. 1: reflexivity. 1: vm_compute; reflexivity. 1: apply all_wf; vm_compute; reflexivity.
  1: constructor. 1: cbn; auto with arith.
  - match goal with |- reads _ _ _ _ _ ?F _ _ _ _ => evalF F end.
    eapply reads_eq.
    { eapply rd_block; [nomap|intros []|acc|nofollow|notif|quiet|apply plainb_plain; reflexivity| |apply rd_nil].
      apply (rd_comment o "/" "/a" _ _ _ " c"); [reflexivity|].
      eapply (rd_include _ _ _ _ _ _ _ _ "b" [] ["/b"] [1%Z] [note (if combine then "/a" else "") 2 " d"]); [nomap|intros []|acc|now split|reflexivity| |right; discriminate| | |].
      { change ["/b"] with [path_of "/" "b"]. eapply tg_file; [no_magic|reflexivity]. }
      { apply (nu_new ["http"] [("/a", [])] "/b"); [cbn; intuition discriminate|apply nu_nil]. }
      { exists [" d"]; split; [|reflexivity]. apply rm_word; [nohash|]. eapply rm_comment; [reflexivity|reflexivity|constructor]. }
      eapply rd_block; [nomap|intros []|acc|nofollow|notif|quiet|apply plainb_plain; reflexivity| |apply rd_nil].
      eapply rd_block; [nomap|intros []|acc|nofollow| |quiet|apply plainb_plain; reflexivity| |apply rd_nil].
      { split; [|intros N; exfalso; apply N; reflexivity]. intros _. apply (if_many "" ["$a"; "="; "b"] "" "" "").
        - exists "". split; [reflexivity|]. split; [split; [reflexivity|constructor]|]. intros (r & l & X & _). discriminate.
        - exists "". split; [reflexivity|]. split; [split; [reflexivity|constructor]|]. intros (r & l & X & _). destruct l; discriminate. }
      eapply rd_simple; [nomap|intros []|acc|nofollow|notif|quiet|apply rd_nil]. }
    all: reflexivity.
  - eapply (pg_whole o "/" 1 _ "/b" ["http"] fmt_b (ForestTools.forest_of (lex [] fmt_b)) _ [] _ [("/a", []); ("/b", ["http"])]).
    1: reflexivity. 1: reflexivity. 1: vm_compute; reflexivity. 1: apply all_wf; vm_compute; reflexivity.
    1: apply plainb_plain; reflexivity. 1: cbn; auto with arith.
    + match goal with |- reads _ _ _ _ _ ?F _ _ _ _ => evalF F end.
      eapply reads_eq.
      { eapply rd_block; [nomap|intros []|acc|nofollow|notif|quiet|apply plainb_plain; reflexivity| |].
        - apply rd_entry; [inmap|cbn; auto|apply rd_nil].
        - eapply rd_simple; [nomap|intros []|acc|nofollow|notif|quiet|]. apply (rd_comment o "/" "/b" _ _ _ " e"); [reflexivity|apply rd_nil]. }
      all: reflexivity.
    + apply (pg_done o "/" [("/a", []); ("/b", ["http"])]).
Qed.
Lemma fmt_book : book fmt_opts "/a" fmt_pages.
Proof. exact (fmt_book_for false). Qed.
Lemma fmt_loops : ~ loops fmt_pages.
Proof.
  intros [x C]. assert (E : x = "/a" /\ x = "/b"); [|destruct E; congruence].
  assert (L : forall x y, clos_trans string (leads fmt_pages) x y -> x = "/a" /\ y = "/b").
  { induction 1 as [x' y' (g & I & <- & J)|x' y' z' _ [A B] _ [A' B']]; [|congruence].
    destruct I as [<-|[<-|[]]]; [destruct J as [<-|[]]; now split|destruct J]. }
  exact (L _ _ C).
Qed.
Example C64_shipped_case : from_tables fmt_opts shipped.
Proof. intros f [[-> _]|[]]. exists default_directives. split; [|reflexivity]. unfold shipped. repeat (try (left; reflexivity); right). Qed.
(** The premises of [C64_files], and what it says for these files. *)
Example C64_case : forall header, book fmt_opts "/a" fmt_pages /\ ~ loops fmt_pages /\ loose_if fmt_opts /\ ascii_right (bo_print (fmt_bo header)) /\
  (forall g, In g fmt_pages -> pg_errors g = [] /\ formattable (bo_print (fmt_bo header)) (pg_tree g) = true /\ has_prefix (pg_file g) "/" = true).
Proof.
  intros header. split; [exact fmt_book|]. split; [exact fmt_loops|]. split; [exact (C64_shipped _ C64_shipped_case)|]. split; [intros r _; reflexivity|].
  intros g [<-|[<-|[]]]; (split; [reflexivity|split; vm_compute; reflexivity]).
Qed.
(** The further premises of [C64_again] and [C64_files_again]. *)
Example C64_again_case : (bo_header (fmt_bo false) && o_comments fmt_opts)%bool = false /\
  (forall g, In g fmt_pages -> writables (bo_print (fmt_bo false)) (if o_comments fmt_opts then on_line else not_note) (pg_tree g) = true).
Proof. split; [reflexivity|]. intros g [<-|[<-|[]]]; vm_compute; reflexivity. Qed.
(** Parse, BuildFiles, Parse: what is read, the files written, what is read then. *)
Definition reformat (o : popts) (s : fs) (bo : boptions) (names : list string) : option (list (list directive) * list (option string) * list (list directive)) :=
  match parse_main 5 o "/a" with
  | ROk p =>
    let '(s', r) := build_files None p "/" bo [] s in
    match r, parse_main 5 (with_open o (disk s' (fun _ => "missing"))) "/a" with
    | BFok, ROk p' => Some (map cf_parsed (pl_config p), map (files s') names, map cf_parsed (pl_config p'))
    | _, _ => None
    end
  | _ => None
  end.
Example C64_result : exists trees, reformat fmt_opts fmt_disk (fmt_bo false) ["/a"; "/b"] = Some (map pg_tree fmt_pages,
  [Some "http { # c
  include b; # d
  server {
    if ($a = b) {
      return 404;
    }
  }
}
"; Some "map $x $y {
  default x;
}
charset utf-8; # e
"], trees) /\ map (map unlined) trees = map (map unlined) (map pg_tree fmt_pages).
Proof. eexists. split; vm_compute; reflexivity. Qed.
Definition one_disk (text : string) : fs := Fs (fun f => if String.eqb f "/a" then Some text else None) [].
Definition one_opts (text : string) : popts := Opts [] None (disk (one_disk text) (fun _ => "missing")) (fun _ => inl []) false false false true true false false [] default_match [].
Definition again (text : string) := reformat (one_opts text) (one_disk text) (fmt_bo false) [].
(** Outside the class: a parameter of a map block named "if" comes back in parentheses. *)
Example C64_entry_named_if : again "http { map $x $y { if 1; } }" = Some
  ([[dir3 "" "http" 1 [] None (Some [dir3 "" "map" 1 ["$x"; "$y"] None (Some [Dir "if" 1 ["1"] "" None None None true])])]], [],
   [[dir3 "" "http" 1 [] None (Some [dir3 "" "map" 2 ["$x"; "$y"] None (Some [Dir "if" 3 ["(1)"] "" None None None true])])]]).
Proof. vm_compute. reflexivity. Qed.
(** Outside the class: white space at the end of the last comment is lost. *)
Example C64_last_comment : again "user x; # y  " = Some
  ([[dir3 "" "user" 1 ["x"] None None; note "" 1 " y  "]], [], [[dir3 "" "user" 1 ["x"] None None; note "" 1 " y"]]).
Proof. vm_compute. reflexivity. Qed.
(** Outside the class of [C64_files_again]: a comment behind a closing brace is taken
    for one of the block's first line, and goes to a line of its own the second time;
    a header that is read as a comment is written twice. *)
Definition twice (text : string) (header : bool) : option (option string * option string) :=
  match parse_main 5 (one_opts text) "/a" with
  | ROk p =>
    let '(s', r) := build_files None p "/" (fmt_bo header) [] (one_disk text) in
    match r, parse_main 5 (with_open (one_opts text) (disk s' (fun _ => "missing"))) "/a" with
    | BFok, ROk p' => let '(s'', _) := build_files None p' "/" (fmt_bo header) [] s' in Some (files s' "/a", files s'' "/a")
    | _, _ => None
    end
  | _ => None
  end.
Example C64_again_brace : twice "events { worker_connections 1; } # c" false = Some
  (Some "events {
  worker_connections 1;
} # c
", Some "events {
  worker_connections 1;
}
# c
").
Proof. vm_compute. reflexivity. Qed.
Example C64_again_header : match twice "user x;" true with Some (Some a, Some b) => b <> a | _ => False end.
Proof. vm_compute. discriminate. Qed.
