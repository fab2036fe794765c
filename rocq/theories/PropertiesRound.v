(** Properties of Build followed by Parse (C09, C10). *)
From Verif Require Import Tables RoundProofs PropertiesBuild PropertiesForest.
Local Open Scope string_scope.

(** C09: every tree of a decidable class that the options accept comes back from the
    text built from it: same names, arguments, comments, nesting and order. *)
Theorem C09_round_trip : forall bo o f ds, ascii_right (b_print bo) -> b_ext bo = [] -> (0 <= b_indent bo)%Z -> o_lexers o = [] ->
  writables (b_print bo) not_note ds = true -> Forall (legal o []) ds ->
  exists text, build bo ds = Some text /\ (o_open o f = inl text ->
    exists n ds', (forall k, n <= k -> parse_main k o f = ROk (Pay "ok" [] [Cfg f "ok" [] ds'])) /\
      map bare ds' = map bare (expected (o_comments o) (b_header bo) ds)).
Proof. exact round_trip_bare. Qed.
Print Assumptions C09_round_trip.

Definition rt_opts (combine comments strict : bool) (files : string -> string) : popts :=
  Opts [] None (fun f => inl (files f)) (fun _ => inl []) true combine false comments strict false false [] default_match [].
Definition rt_tree : list directive :=
  [mkd "user" 3 ["nobody"] None; mkc 3 " who";
   mkd "http" 5 [] (Some
     [mkc 5 "opening"; mkd "map" 6 ["$a"; "$b"] (Some [mkd "default" 7 ["a b"] None; mkd "~^x;" 7 ["it's"] None]);
      mkd "server" 8 [] (Some
        [mkd "if" 9 ["$c"; "="; "x y"] (Some [mkd "return" 9 ["200"; ""] None]); mkc 9 " behind a block";
         mkd "if" 9 ["$c"] (Some []); mkd "server_name" 9 [s_dq ++ "${q}"; "\;"; "ok"] None])]);
   mkc 5 ""; mkc 9 " the end"].
Definition rt_bopts (header : bool) : bopts := BOpts 3 false header [] ascii_print.
Ltac rt_stmt := apply lg_stmt; [reflexivity|let H := fresh in intros H; cbn in H; intuition discriminate|intros []|
  discriminate || reflexivity|acc|let b := fresh in let H := fresh in intros b H; first [discriminate H|injection H as <-; split; [apply plainb_plain; reflexivity|]]].
Ltac rt_each := repeat (apply Forall_cons || apply Forall_nil); first [apply lg_comment; reflexivity|rt_stmt].
Lemma rt_legal : forall combine comments strict files, Forall (legal (rt_opts combine comments strict files) []) rt_tree.
Proof.
  intros combine comments strict files. destruct strict; rt_each; rt_each.
  all: first [repeat (apply Forall_cons || apply Forall_nil); (apply (lg_entry _ ["http"] "map"); cbn; auto; try discriminate; intuition auto); fail|rt_each; rt_each].
Qed.
Example C09_case : writables ascii_print not_note rt_tree = true /\ Forall (legal (rt_opts false true true (fun _ => "")) []) rt_tree /\
  expected true true rt_tree = (map (mkc 0) header_notes ++ rt_tree)%list /\ List.length (flat_map quiet rt_tree) = 2 /\
  exists text, build (rt_bopts true) rt_tree = Some text /\
    exists ds', parse_main 5 (rt_opts true true true (fun _ => text)) "f" = ROk (Pay "ok" [] [Cfg "f" "ok" [] ds']) /\ map bare ds' = map bare (map (mkc 0) header_notes ++ rt_tree).
Proof.
  split; [vm_compute; reflexivity|]. split; [apply rt_legal|]. split; [reflexivity|]. split; [vm_compute; reflexivity|].
  eexists. split; [vm_compute; reflexivity|]. eexists. split; vm_compute; reflexivity.
Qed.
(** Outside the class: two comments on the line of one statement are read as one; a
    first argument of "if" in quotes is not read as one argument; an entry "if" of a
    map is written with parentheses that stay. *)
Theorem C09_outside_refuted : Forall (fun ds => exists text ds', build (rt_bopts false) ds = Some text /\
    parse_main 5 (rt_opts false true false (fun _ => text)) "f" = ROk (Pay "ok" [] [Cfg "f" "ok" [] ds']) /\ map bare ds' <> map bare ds)
  [[mkd "user" 1 ["x"] None; mkc 1 "a"; mkc 1 "b"];
   [mkd "http" 1 [] (Some [mkd "server" 1 [] (Some [mkd "if" 1 ["a b"; "c"] (Some [])])])];
   [mkd "http" 1 [] (Some [mkd "map" 1 ["$a"; "$b"] (Some [mkd "if" 1 ["c"] None])])]].
Proof.
  repeat (apply Forall_cons || apply Forall_nil); eexists; eexists; (split; [vm_compute; reflexivity|]); (split; [vm_compute; reflexivity|]); vm_compute; discriminate.
Qed.
Print Assumptions C09_outside_refuted.

(** C10. Full statement: for every tree of C09's class, every Header setting and with or
    without comments, the built text comes back. Missing: comments directly behind the
    "}" of a block (or in front of everything, on line 0), and Header together with
    comments; both are false, see [C10_refuted]. Comments the parser drops stay dropped. *)
Theorem C10_same_text_partial : forall bo o f ds, ascii_right (b_print bo) -> b_ext bo = [] -> (0 <= b_indent bo)%Z -> o_lexers o = [] ->
  (b_header bo && o_comments o)%bool = false ->
  writables (b_print bo) (if o_comments o then on_line else not_note) ds = true -> Forall (legal o []) ds ->
  exists text, build bo ds = Some text /\ (o_open o f = inl text ->
    exists n ds', (forall k, n <= k -> parse_main k o f = ROk (Pay "ok" [] [Cfg f "ok" [] ds'])) /\
      build bo ds' = if o_comments o then Some text else build bo (flat_map quiet ds)).
Proof. exact build_again. Qed.
Print Assumptions C10_same_text_partial.
(** In the whole class of C09 the second text is final. *)
Theorem C10_second_text : forall bo o f f2 ds, ascii_right (b_print bo) -> b_ext bo = [] -> (0 <= b_indent bo)%Z -> o_lexers o = [] ->
  (b_header bo && o_comments o)%bool = false -> writables (b_print bo) not_note ds = true -> Forall (legal o []) ds ->
  exists text, build bo ds = Some text /\ (o_open o f = inl text ->
    exists n ds' text', (forall k, n <= k -> parse_main k o f = ROk (Pay "ok" [] [Cfg f "ok" [] ds'])) /\ build bo ds' = Some text' /\
      (o_open o f2 = inl text' -> exists n ds'', (forall k, n <= k -> parse_main k o f2 = ROk (Pay "ok" [] [Cfg f2 "ok" [] ds''])) /\ build bo ds'' = Some text')).
Proof. exact second_round. Qed.
Print Assumptions C10_second_text.
Definition rt_tree_on : list directive :=
  [mkd "user" 3 ["nobody"] None; mkc 3 " who";
   mkd "http" 5 [] (Some
     [mkc 5 "opening"; mkd "map" 6 ["$a"; "$b"] (Some [mkd "default" 7 ["a b"] None; mkc 7 "x"; mkc 8 "y"]);
      mkd "server" 8 [] (Some
        [mkd "if" 9 ["$c"; "="; "x y"] (Some [mkd "return" 9 ["200"; ""] None]); mkc 3 " behind a block, on its own line"])]);
   mkc 9 " the end"].
Lemma rt_legal_on : forall combine comments strict files, Forall (legal (rt_opts combine comments strict files) []) rt_tree_on.
Proof.
  intros combine comments strict files. destruct strict; rt_each; rt_each.
  all: first [repeat (apply Forall_cons || apply Forall_nil); first [apply lg_comment; reflexivity|apply (lg_entry _ ["http"] "map"); cbn; auto; try discriminate; intuition auto]; fail|rt_each; rt_each].
Qed.
Example C10_case : writables ascii_print on_line rt_tree_on = true /\ Forall (legal (rt_opts false true true (fun _ => "")) []) rt_tree_on /\
  exists text, build (rt_bopts false) rt_tree_on = Some text /\
  exists p, parse_main 5 (rt_opts false true true (fun _ => text)) "a" = ROk p /\ pl_config p <> [] /\ (forall c, In c (pl_config p) -> build (rt_bopts false) (cf_parsed c) = Some text).
Proof.
  split; [vm_compute; reflexivity|]. split; [apply rt_legal_on|]. eexists. split; [vm_compute; reflexivity|].
  eexists. split; [vm_compute; reflexivity|]. split; [discriminate|]. intros c [<-|[]]. vm_compute. reflexivity.
Qed.
Example C10_second_case : writables ascii_print not_note rt_tree = true /\ writables ascii_print on_line rt_tree = false /\
  exists text text', build (rt_bopts false) rt_tree = Some text /\
  (exists p, parse_main 5 (rt_opts false true true (fun f => if String.eqb f "a" then text else text')) "a" = ROk p /\ pl_config p <> [] /\ (forall c, In c (pl_config p) -> build (rt_bopts false) (cf_parsed c) = Some text') /\
  exists p', parse_main 5 (rt_opts false true true (fun f => if String.eqb f "a" then text else text')) "b" = ROk p' /\ pl_config p' <> [] /\ (forall c, In c (pl_config p') -> build (rt_bopts false) (cf_parsed c) = Some text')) /\
  text <> text'.
Proof.
  split; [vm_compute; reflexivity|]. split; [vm_compute; reflexivity|]. eexists. eexists. split; [vm_compute; reflexivity|]. split.
  - eexists. split; [vm_compute; reflexivity|]. split; [discriminate|]. split; [intros c [<-|[]]; vm_compute; reflexivity|]. eexists. split; [vm_compute; reflexivity|]. split; [discriminate|]. intros c [<-|[]]. vm_compute. reflexivity.
  - vm_compute. discriminate.
Qed.
(** A comment behind a block on one line moves to a row of its own; a header that the
    parser returns as comments is written twice; a first comment on line 0 moves. *)
Theorem C10_refuted : Forall (fun hd => let '(h, ds) := hd in writables ascii_print not_note ds = true /\
  exists text, build (rt_bopts h) ds = Some text /\
  exists p, parse_main 5 (rt_opts false true true (fun _ => text)) "f" = ROk p /\ map bare (concat (map cf_parsed (pl_config p))) = map bare (expected true h ds) /\
  forall c, In c (pl_config p) -> build (rt_bopts h) (cf_parsed c) <> Some text)
  [(false, [mkd "events" 1 [] (Some []); mkc 1 "x"]); (true, [mkd "user" 1 ["x"] None]); (false, [mkc 0 "x"])].
Proof.
  repeat (apply Forall_cons || apply Forall_nil); (split; [vm_compute; reflexivity|]); eexists; (split; [vm_compute; reflexivity|]); eexists; (split; [vm_compute; reflexivity|]);
    (split; [vm_compute; reflexivity|]); intros c [<-|[]]; vm_compute; discriminate.
Qed.
Print Assumptions C10_refuted.
