(** Property theorems about single statements inside Parse: ignored, map-like, rejected
    statements, contexts, crashes (parse.go). *)
From Verif Require Import SpecContext CtxProofs IgnoreProofs SpecMap MapProofs IgnoreEval SpecReject RejectProofs
  ForestTools Tables TableProofs SpecIf IfProofs ValidateProofs.
Local Open Scope string_scope.

(** ** C18 *)
Definition ign_text : string :=
  "http { server { listen 80; # kept
     listen # too
       81; if ($a) { charset x; listen 1; } } map $a $b { charset c; } server_name { x; } } charset y;".
Definition ign_pruned : string := "http {
   server { # kept
          if ($a) { } } map $a $b { charset c; } }".
Definition ign_opts (names : list string) (single comments : bool) (text : string) : popts :=
  Opts names None (fun f => if String.eqb f "a" then inl text else inr "missing") (fun _ => inl [])
       false false single comments false true true [] default_match [].

(** Deleting the named statements from every file gives the same result without the
    option.  Files include each other through block paths of at most three names (else
    the contexts may be mixed up, see C31). *)
Theorem C18_ignore : forall fuel o op filename st', pruned_files o op ->
  state_of (collect fuel o filename) = Some st' -> short (p_asked st') ->
  collect fuel (with_open (with_ignore o []) op) filename = collect fuel o filename /\
  parse_main fuel (with_open (with_ignore o []) op) filename = parse_main fuel o filename.
Proof. exact parse_ignore_short. Qed.
Print Assumptions C18_ignore.
(** With SingleFile no condition on the paths. *)
Theorem C18_ignore_single : forall fuel o op filename, o_single o = true -> pruned_files o op ->
  parse_main fuel (with_open (with_ignore o []) op) filename = parse_main fuel o filename.
Proof. exact single_ignore. Qed.
Print Assumptions C18_ignore_single.
(** One file in any state and context outside map-like blocks; map-like bodies are left
    alone, whatever the names of their entries. *)
Theorem C18_ignore_outside_maps : forall o dir ctx st F k k', Forall wf_stmt F -> good (p_heap st) ctx ->
  is_map (read_slice (p_heap st) ctx) = false -> eval_forest o dir ctx F st <> EWild ->
  List.length (flat F) < k -> List.length (flat (flat_map (prune_out (o_ignore o)) F)) < k' ->
  match parse o dir k ctx (flat F) st, parse (with_ignore o []) dir k' ctx (flat (flat_map (prune_out (o_ignore o)) F)) st with
  | PErr e _ s, PErr e' _ s' => e = e' /\ s = s'
  | a, b => a = b
  end.
Proof. exact parse_ignore_out. Qed.
Print Assumptions C18_ignore_outside_maps.
Definition ig_text : string := "events { a 1; } http { listen 80; server { listen 8 # c
 ; charset x; } } listen { y; }".
Definition ig_text' : string := "events { a 1; } http {        server {
                     charset x; } }".
Example C18_case : exists op, pruned_files (ign_opts ["listen"] false true ig_text) op /\
  exists st, collect 5 (ign_opts ["listen"] false true ig_text) "a" = FDone st /\ short (p_asked st) /\
  exists p, parse_main 5 (ign_opts ["listen"] false true ig_text) "a" = ROk p /\ p = p_pay st /\
  map d_name (flat_map cf_parsed (pl_config p)) = ["events"; "http"].
Proof.
  exists (fun f => if String.eqb f "a" then inl ig_text' else inr "missing"). split.
  - intros f. cbn [o_open ign_opts]. destruct (String.eqb f "a"); [|reflexivity].
    exists (forest_of (lex [] ig_text)).
    split; [vm_compute; reflexivity|]. split; [apply all_wf; vm_compute; reflexivity|].
    split; [apply all_clear; vm_compute; reflexivity|vm_compute; reflexivity].
  - eexists. split; [vm_compute; reflexivity|]. split; [constructor|].
    eexists. split; [vm_compute; reflexivity|]. split; vm_compute; reflexivity.
Qed.
Example C18_case_maps : exists F, lex [] ign_text = flat F /\ Forall wf_stmt F /\
  eval_forest (ign_opts ["listen"; "charset"; "server_name"] false true ign_text) "." (Slice 0 0) F (init_state "a") <> EWild /\
  map (fun t => t_val t) (flat (flat_map (prune_out ["listen"; "charset"; "server_name"]) F)) = map t_val (lex [] ign_pruned).
Proof.
  exists (forest_of (lex [] ign_text)). split; [vm_compute; reflexivity|].
  split; [apply all_wf; vm_compute; reflexivity|]. split; [|vm_compute; reflexivity].
  vm_compute. discriminate.
Qed.

(** ** C21 *)
(** The body of a map-like block, exactly: the entries that fit become map parameters,
    the others one error each with their line, and nothing else happens - no file is
    opened or queued, no directive validated or ignored. *)
Theorem C21_map_body : forall o dir ctx m F ds bad st fuel, entries (o_comments o) (file_label o st) m F ds bad ->
  Forall wf_stmt F -> read_slice (p_heap st) ctx <> [] -> last (read_slice (p_heap st) ctx) EmptyString = m ->
  map_block m -> o_stop o = false \/ bad = [] -> List.length (flat F) < fuel ->
  exists st', parse o dir fuel ctx (flat F) st = POk ds [] st' /\ only_errors (cf_file (p_cur st)) st st' bad.
Proof. exact map_parse. Qed.
Print Assumptions C21_map_body.
(** For all contents, in the result of reading all files: the children of map-like
    blocks are well-formed map parameters (and comments), the others never are. *)
Theorem C21_children : forall fuel o filename st, collect fuel o filename = FDone st ->
  forall c d, In c (pl_config (p_pay st)) -> within d (cf_parsed c) -> children_ok d.
Proof. exact collect_children. Qed.
Print Assumptions C21_children.
Definition map_text : string := "http { map $a $b { include x; default 1; a b c; foo { bar; } # c
 } geo { include y; ranges; } }".
Example C21_body_case : exists ds bad,
  entries true "" "map" (forest_of (lex [] "include x; default 1; a b c; foo { bar; } # c")) ds bad /\
  map d_name ds = ["include"; "default"; "#"] /\ List.length bad = 2.
Proof.
  eexists _, _. split.
  - change (forest_of _) with
      [SStm (Tok "include" 1 false None) [Tok "x" 1 false None] 1 None;
       SStm (Tok "default" 1 false None) [Tok "1" 1 false None] 1 None;
       SStm (Tok "a" 1 false None) [Tok "b" 1 false None; Tok "c" 1 false None] 1 None;
       SStm (Tok "foo" 1 false None) [] 1 (Some ([SStm (Tok "bar" 1 false None) [] 1 None], 1%Z));
       SCom (Tok "# c" 1 false None)].
    apply en_good; [reflexivity|]. apply en_good; [reflexivity|].
    apply en_bad; [right; vm_compute; discriminate|]. apply en_bad; [left; discriminate|].
    eapply en_comment; [reflexivity|]. apply en_nil.
  - split; reflexivity.
Qed.
Example C21_children_case : exists st c d b,
  collect 5 (ign_opts ["default"] false true map_text) "a" = FDone st /\ In c (pl_config (p_pay st)) /\
  within d (cf_parsed c) /\ d_name d = "map" /\ d_block d = Some b /\ map d_name b = ["include"; "default"; "#"] /\
  p_opens st = ["a"].
Proof.
  eexists _, _, _, _. split; [vm_compute; reflexivity|]. split; [left; reflexivity|].
  split; [eapply in_block; [left; reflexivity|reflexivity|apply in_here; left; reflexivity]|].
  repeat split; reflexivity.
Qed.

(** ** C22 *)
(** Whatever the options and files, Parse crashes only on an "if" whose single argument
    is blank parentheses, in a file it reads. *)
Theorem C22_only_crash : forall fuel o filename, parse_main fuel o filename = RPanic ->
  exists f content, reach o filename f /\ o_open o f = inl content /\ crash_site (lex (o_lexers o) content).
Proof. exact parse_panic. Qed.
Print Assumptions C22_only_crash.
Example C22_crash_case : parse_main 5 (ign_opts [] false true "if ""( )"" { }") "a" = RPanic.
Proof. vm_compute. reflexivity. Qed.

(** ** C31 *)
(** The context of every statement the parser reaches reads as its block path. *)
Theorem C31_context_is_path : forall o dir ctx p toks st c q d s, at_stmt o dir ctx p toks st c q d s ->
  good (p_heap st) ctx -> read_slice (p_heap st) ctx = p -> read_slice (p_heap s) c = q.
Proof. exact at_stmt_path. Qed.
Print Assumptions C31_context_is_path.
(** Full statement: without the hypothesis [short] (every include directive stands in at
    most three blocks); false in general, see [C31_contexts_refuted]. *)
Theorem C31_contexts_partial : forall fuel o filename st, collect fuel o filename = FDone st ->
  short (p_asked st) -> p_used st = (filename, []) :: p_asked st.
Proof. exact collect_contexts. Qed.
Print Assumptions C31_contexts_partial.
(** In every case the number of blocks and the outer three are right. *)
Theorem C31_contexts_alike : forall fuel o filename st, collect fuel o filename = FDone st ->
  Forall2 (fun u a => fst u = fst a /\ alike (snd u) (snd a)) (p_used st) ((filename, []) :: p_asked st).
Proof. exact collect_kin. Qed.
Print Assumptions C31_contexts_alike.
Definition two_files (a b : string) (f : string) : string + string :=
  if String.eqb f "a" then inl a else if String.eqb f "b" then inl b else inr "missing".
Definition two_opts (strict : bool) (a b : string) : popts :=
  Opts [] None (two_files a b) (fun _ => inl []) false false false true strict false false [] default_match [].
Example C31_case : exists st, collect 5 (two_opts false "http { server { include b; if ($a) { } } } stream { server { } }" "listen 1;") "a" = FDone st /\
  short (p_asked st) /\ p_used st = [("a", []); ("b", ["http"; "server"])].
Proof. eexists. split; [vm_compute; reflexivity|]. split; [|reflexivity]. repeat constructor. Qed.
(** Four blocks deep, a later block replaces the name of the innermost one. *)
Theorem C31_contexts_refuted : exists o fuel filename st, collect fuel o filename = FDone st /\
  p_asked st = [("b", ["p"; "q"; "r"; "s"])] /\ p_used st = [("a", []); ("b", ["p"; "q"; "r"; "map"])] /\
  pl_status (p_pay st) = "failed".
Proof.
  exists (two_opts false "p { q { r { s { include b; } map { } } } }" "x y z;"), 5, "a".
  eexists. split; [vm_compute; reflexivity|]. repeat split.
Qed.
Print Assumptions C31_contexts_refuted.

(** ** C32 *)
(** Full statement: [absent] without the last premise of its constructor [ab_rejected]
    (a rejected statement with a block must be a directive known there without block;
    one with ";" must not be named like an error message), and for paths of any names.
    False in general, see [C32_rejected_block_refuted]. *)
Theorem C32_rejected_partial : forall fuel o op filename st, o_stop o = false -> o_combine o = false ->
  same_errors (o_open o) op -> collect fuel o filename = FDone st -> Forall (absent_file o op) (p_used st) ->
  match parse_main fuel o filename, parse_main fuel (with_open o op) filename with
  | ROk p, ROk p' => trees p = trees p'
  | RErr e, RErr e' => e = e'
  | _, _ => False
  end.
Proof. exact parse_absent. Qed.
Print Assumptions C32_rejected_partial.
Definition rej_text : string := "http { listen; include b; server { listen 80; charset { x; } bogus; } }".
Definition rej_text' : string := "http {         include b; server { listen 80;                       } }".
Definition plainb (path : list string) : bool :=
  forallb (fun n => negb (String.eqb n "") && negb (str_exists (Ascii.eqb ">"%char) n))%bool path.
Lemma plainb_plain : forall path, plainb path = true -> plain_path path.
Proof.
  intros path H. apply Forall_forall. intros n I. unfold plainb in H. rewrite forallb_forall in H. specialize (H n I).
  apply andb_true_iff in H as [A B]. split; [now apply String.eqb_neq, negb_true_iff|now apply negb_true_iff].
Qed.
Lemma not_accepted : forall o path d term, plain_path path -> analyze o "" d term path <> None -> ~ accepts o path d term.
Proof. intros o path d term P N A. apply N. now apply analyze_accepts. Qed.
Ltac acc := apply (analyze_accepts _ ""); [apply plainb_plain; reflexivity|vm_compute; reflexivity].
Ltac rej := apply not_accepted; [apply plainb_plain; reflexivity|vm_compute; discriminate].
Ltac nomap := let H := fresh in let N := fresh in intros [N H]; cbn in H; intuition discriminate.
Example C32_case : let o := two_opts true rej_text "charset x y; charset z;" in let op := two_files rej_text' "charset z;" in
  same_errors (o_open o) op /\ exists st, collect 5 o "a" = FDone st /\ Forall (absent_file o op) (p_used st) /\
  map cf_status (pl_config (p_pay st)) = ["failed"; "failed"] /\ List.length (pl_errors (p_pay st)) = 4 /\
  exists p, parse_main 5 (with_open o op) "a" = ROk p /\ pl_errors p = [] /\ trees p = trees (p_pay st).
Proof.
  cbv zeta. set (o := two_opts true rej_text "charset x y; charset z;").
  split; [intros f; cbn; unfold two_files; destruct (String.eqb f "a"); auto; destruct (String.eqb f "b"); auto|].
  eexists. split; [vm_compute; reflexivity|]. split.
  - apply Forall_cons; [|apply Forall_cons; [|apply Forall_nil]].
    + exists (forest_of (lex [] rej_text)), (forest_of (lex [] rej_text')).
      split; [vm_compute; reflexivity|]. split; [vm_compute; reflexivity|].
      split; [apply all_wf; vm_compute; reflexivity|]. split; [constructor|].
      cbn [fst snd]. match goal with |- absent _ _ ?F ?F' => let a := eval vm_compute in F in let b := eval vm_compute in F' in change F with a; change F' with b end.
      apply ab_block; [nomap|intros []|acc|apply plainb_plain; reflexivity| |apply ab_nil].
      apply ab_rejected; [nomap|intros []|rej|intros [r X]; vm_compute in X; destruct r as [|c [|? [|? [|? [|? [|? [|? [|? ?]]]]]]]]; discriminate|].
      apply ab_simple; [nomap|intros []|acc|].
      apply ab_block; [nomap|intros []|acc|apply plainb_plain; reflexivity| |apply ab_nil].
      apply ab_simple; [nomap|intros []|acc|].
      apply ab_rejected; [nomap|intros []|rej| |].
      { split; [reflexivity|]. eexists _, _. split; [left; split; [reflexivity|vm_compute; reflexivity]|].
        split; [reflexivity|]. split; [eexists; split; [left; reflexivity|right; reflexivity]|].
        intros m [<-|[]] _. split; vm_compute; discriminate. }
      apply ab_rejected; [nomap|intros []|rej|intros [r X]; vm_compute in X; destruct r as [|c [|? [|? [|? [|? [|? [|? [|? ?]]]]]]]]; discriminate|].
      apply ab_nil.
    + exists (forest_of (lex [] "charset x y; charset z;")), (forest_of (lex [] "charset z;")).
      split; [vm_compute; reflexivity|]. split; [vm_compute; reflexivity|].
      split; [apply all_wf; vm_compute; reflexivity|]. split; [apply plainb_plain; reflexivity|].
      cbn [fst snd]. match goal with |- absent _ _ ?F ?F' => let a := eval vm_compute in F in let b := eval vm_compute in F' in change F with a; change F' with b end.
      apply ab_rejected; [nomap|intros []|rej|intros [r X]; vm_compute in X; destruct r as [|c [|? [|? [|? [|? [|? [|? [|? ?]]]]]]]]; discriminate|].
      apply ab_simple; [nomap|intros []|acc|]. apply ab_nil.
  - split; [reflexivity|]. split; [reflexivity|]. eexists. split; [vm_compute; reflexivity|]. split; reflexivity.
Qed.
(** An unknown directive with a block: its "}" ends the surrounding block (here the
    file), so what follows is lost. *)
Theorem C32_rejected_block_refuted : exists o op F1 s F2 p p', o_stop o = false /\ o_strict o = true /\
  o_open o "a" = inl "events { } bad { } http { server { listen 80; } }" /\
  lex [] "events { } bad { } http { server { listen 80; } }" = flat (F1 ++ s :: F2) /\
  match s with SStm h _ _ (Some ([], _)) => unknown o (t_val h) | _ => False end /\
  op "a" = inl "events { }         http { server { listen 80; } }" /\
  lex [] "events { }         http { server { listen 80; } }" = flat (F1 ++ F2) /\
  parse_main 5 o "a" = ROk p /\ parse_main 5 (with_open o op) "a" = ROk p' /\
  map (fun t => map d_name (snd t)) (trees p) = [["events"]] /\
  map (fun t => map d_name (snd t)) (trees p') = [["events"; "http"]].
Proof.
  exists (two_opts true "events { } bad { } http { server { listen 80; } }" ""), (two_files "events { }         http { server { listen 80; } }" "").
  exists [SStm (Tok "events" 1 false None) [] 1 (Some ([], 1%Z))], (SStm (Tok "bad" 1 false None) [] 1 (Some ([], 1%Z))),
    [SStm (Tok "http" 1 false None) [] 1 (Some ([SStm (Tok "server" 1 false None) [] 1 (Some ([SStm (Tok "listen" 1 false None) [Tok "80" 1 false None] 1 None], 1%Z))], 1%Z))].
  eexists _, _.
  split; [reflexivity|]. split; [reflexivity|]. split; [reflexivity|]. split; [vm_compute; reflexivity|].
  split; [|split; [reflexivity|]; split; [vm_compute; reflexivity|]; split; [vm_compute; reflexivity|]; split; [vm_compute; reflexivity|]; split; reflexivity].
  intros ms [[_ K]|[K _]]; [vm_compute in K; discriminate|now apply K].
Qed.
Print Assumptions C32_rejected_block_refuted.
(** A directive named like the end of an error message eats the rest of its block. *)
Theorem C32_odd_name_refuted : exists o p, o_strict o = true /\
  o_open o "a" = inl "'x is not terminated by "";' ; events { } http { }" /\
  parse_main 5 o "a" = ROk p /\ trees p = [("a", [])].
Proof.
  exists (two_opts true "'x is not terminated by "";' ; events { } http { }" ""). eexists.
  split; [reflexivity|]. split; [reflexivity|]. split; [vm_compute; reflexivity|]. reflexivity.
Qed.
Print Assumptions C32_odd_name_refuted.
