(** Built text and where it goes (C11, C26, C27, C43). *)
From Verif Require Import FilesProofs BuildFacts.
Local Open Scope string_scope.

(** ** C11 *)
(** The text is the rows of the tree, each on its own line behind the blanks of its
    depth; it exists (no panic) for every Indent that is not negative. *)
Theorem C11_layout : forall o ds, (0 <= b_indent o)%Z ->
  build o ds = Some ((if b_header o then header else "") ++
    chomp (rows_text (if Z.eqb (b_indent o) 0 then 4 else b_indent o) (b_tabs o) (all_rows o ds))).
Proof. exact build_rows. Qed.
Print Assumptions C11_layout.
(** The blanks: [depth] tabs, or [depth * indent] spaces. *)
Theorem C11_tabs : forall indent depth, list_of_str (blanks indent true depth) = repeat "009"%char depth.
Proof. exact blanks_tabs. Qed.
Print Assumptions C11_tabs.
Theorem C11_spaces : forall indent depth, list_of_str (blanks indent false depth) = repeat " "%char (depth * Z.to_nat indent).
Proof. exact blanks_spaces. Qed.
Print Assumptions C11_spaces.
(** A negative Indent panics (finding 14). *)
Theorem C11_negative_refuted : forall o n l, (b_indent o < 0)%Z -> b_tabs o = false -> b_ext o = [] ->
  build o [mkd n l [] (Some [mkd n l [] None])] = None.
Proof. exact negative_panics. Qed.
Print Assumptions C11_negative_refuted.
Definition yes (n : N) : bool := true.
Definition sample : list directive :=
  [mkd "http" 1 [] (Some [mkd "server" 2 [] (Some [mkd "listen" 3 ["80"; "a b"] None; mkc 3 " x"; mkc 4 " y"])])].
Example C11_case : build (BOpts 0 false true [] yes) sample = Some (header ++
  "http {" ++ s_nl ++ "    server {" ++ s_nl ++ "        listen 80 " ++ s_dq ++ "a b" ++ s_dq ++ "; # x" ++ s_nl ++ "        # y" ++ s_nl ++ "    }" ++ s_nl ++ "}").
Proof. vm_compute. reflexivity. Qed.

(** ** C43 *)
(** Options that were used before, by Build and BuildFiles in any order, give the
    text fresh options give. *)
Theorem C43_reuse : forall o0 o ds, bo_ext o0 = None -> reused o0 o -> build_text o ds = build_text o0 ds.
Proof. exact reuse. Qed.
Print Assumptions C43_reuse.
(** And BuildFiles does with them what it does with fresh ones: the same files, the
    same result, whatever the file system answers. *)
Theorem C43_files : forall cwd p dir o0 o outs s, bo_ext o0 = None -> reused o0 o ->
  build_files cwd p dir o outs s = build_files cwd p dir o0 outs s.
Proof. exact files_reuse. Qed.
Print Assumptions C43_files.
(** Builders added to options that were used are not used by Build (finding 22). *)
Definition shout (d : directive) : string := "X".
Definition add_builder (b : builder) (ns : list string) (o : boptions) : boptions :=
  BO (bo_indent o) (bo_tabs o) (bo_header o) (bo_builders o ++ [(b, ns)]) (bo_ext o) (bo_print o).
Theorem C43_added_refuted : exists o0 b ns ds, bo_ext o0 = None /\
  build_text (add_builder b ns (build_opts o0)) ds <> build_text (add_builder b ns o0) ds.
Proof.
  exists (BO 4 false false [(shout, ["a"])] None yes), shout, ["b"], [mkd "b" 1 [] None].
  split; [reflexivity|]. vm_compute. discriminate.
Qed.
Print Assumptions C43_added_refuted.
Definition opts0 : boptions := BO 0 false true [(shout, ["a"])] None yes.
Example C43_case : bo_ext opts0 = None /\ reused opts0 (build_opts (register_all opts0)) /\ build_opts (register_all opts0) <> opts0 /\
  build_text opts0 [mkd "a" 1 [] None; mkd "b" 2 [] None] = Some (header ++ "X" ++ s_nl ++ "b;").
Proof. split; [reflexivity|]. split; [repeat constructor|]. split; [vm_compute; discriminate|vm_compute; reflexivity]. Qed.

(** ** C26 *)
(** Wherever BuildFiles stops, it has written the first [k] configs and at most a
    part of the next; without failures only a panic of Build stops it. *)
Theorem C26_stop : forall cwd p dir o outs s s' r root, bo_ext o = None -> where_to cwd dir = Some root ->
  build_files cwd p dir o outs s = (s', r) ->
  exists k, stopped root o (pl_config p) (files s) (files s') k /\
    (r = BFok -> exists ws, map (written root o) (pl_config p) = map Some ws /\ same_files (files s') (put_all ws (files s))) /\
    (r = BFpanic -> exists c, nth_error (pl_config p) k = Some c /\ written root o c = None) /\
    (outs = [] -> r = BFok \/ r = BFpanic).
Proof. exact files_all. Qed.
Print Assumptions C26_stop.
(** When the configs name different files: the earlier ones are complete, the later
    ones and all other files untouched, one may be partial. *)
Theorem C26_distinct : forall cwd p dir o outs s s' r root, bo_ext o = None -> where_to cwd dir = Some root ->
  build_files cwd p dir o outs s = (s', r) -> NoDup (map (fun c => place root (cf_file c)) (pl_config p)) ->
  exists k,
    (forall i c p' b, i < k -> nth_error (pl_config p) i = Some c -> written root o c = Some (p', b) -> files s' p' = Some b) /\
    (forall i c, k < i -> nth_error (pl_config p) i = Some c -> files s' (place root (cf_file c)) = files s (place root (cf_file c))) /\
    (forall q, (forall c, In c (pl_config p) -> q <> place root (cf_file c)) -> files s' q = files s q) /\
    (forall c, nth_error (pl_config p) k = Some c -> files s' (place root (cf_file c)) = files s (place root (cf_file c)) \/
       exists b j, written root o c = Some (place root (cf_file c), b) /\ files s' (place root (cf_file c)) = Some (take j b)).
Proof. exact files_distinct. Qed.
Print Assumptions C26_distinct.
Definition two_files : payload := Pay "ok" [] [Cfg "a.conf" "ok" [] [mkd "x" 1 [] None]; Cfg "/b.conf" "ok" [] sample].
Definition no_files : fs := Fs (fun _ => None) [].
(** Exactly these operations are carried out, in this order, until one of them fails: the
    result is that of the first failure, or success, or the panic of Build. *)
Theorem C26_operations : forall cwd p dir o outs s root ws, bo_ext o = None -> where_to cwd dir = Some root ->
  map (written root o) (pl_config p) = map Some ws -> build_files cwd p dir o outs s = performed (flat_map file_ops ws) outs s BFok.
Proof. exact files_all_ops. Qed.
Print Assumptions C26_operations.
Theorem C26_panic : forall cwd p dir o outs s root ws pre c post, bo_ext o = None -> where_to cwd dir = Some root ->
  pl_config p = (pre ++ c :: post)%list -> map (written root o) pre = map Some ws -> written root o c = None ->
  build_files cwd p dir o outs s = performed (flat_map file_ops ws ++ [MkDir (dir_name (place root (cf_file c)))]) outs s BFpanic.
Proof. exact files_panic_ops. Qed.
Print Assumptions C26_panic.
Theorem C26_nowhere : forall cwd p dir o outs s, where_to cwd dir = None -> build_files cwd p dir o outs s = (s, BFerr).
Proof. exact files_nowhere. Qed.
Print Assumptions C26_nowhere.
Example C26_operations_case : exists ws, map (written "/w" opts0) (pl_config two_files) = map Some ws /\ map fst ws = ["/w/a.conf"; "/b.conf"] /\
  snd (build_files (Some "/w") two_files "" opts0 [Done; Done; Done; Done; Done; Err 0] no_files) = BFerr.
Proof. eexists [_; _]. split; [vm_compute; reflexivity|]. split; vm_compute; reflexivity. Qed.
Example C26_panic_case : let o := BO (-1) false false [] None yes in exists ws,
  map (written "/w" o) [Cfg "a" "ok" [] []] = map Some ws /\ written "/w" o (Cfg "b" "ok" [] [mkd "x" 1 [] (Some [mkd "y" 1 [] None])]) = None.
Proof. eexists [_]. split; vm_compute; reflexivity. Qed.
(** The directory is not a boundary: ".." leaves it (finding 18). *)
Theorem C26_outside_refuted : exists dir p s', (forall c, In c (pl_config p) -> has_prefix (cf_file c) "/" = false) /\
  build_files None p dir opts0 [] no_files = (s', BFok) /\ exists q, files s' q <> None /\ has_prefix q (dir ++ "/") = false.
Proof.
  exists "/etc/nginx", (Pay "ok" [] [Cfg "../passwd" "ok" [] [mkd "x" 1 [] None]]), (fst (build_files None (Pay "ok" [] [Cfg "../passwd" "ok" [] [mkd "x" 1 [] None]]) "/etc/nginx" opts0 [] no_files)).
  split; [|split; [vm_compute; reflexivity|]]; [intros c [<-|[]]; reflexivity|]. exists "/etc/passwd". vm_compute. split; [discriminate|reflexivity].
Qed.
Print Assumptions C26_outside_refuted.
Example C26_case : bo_ext opts0 = None /\ where_to (Some "/w") "" = Some "/w" /\
  NoDup (map (fun c => place "/w" (cf_file c)) (pl_config two_files)) /\
  (let '(s, r) := build_files (Some "/w") two_files "" opts0 [] no_files in
   r = BFok /\ files s "/w/a.conf" = Some (header ++ "x;" ++ s_nl) /\ files s "/b.conf" <> None /\ files s "/c" = None) /\
  (let '(s, r) := build_files (Some "/w") two_files "" opts0 [Done; Done; Done; Done; Done; Done; Crash 5] no_files in
   r = BFdead /\ files s "/w/a.conf" = Some (header ++ "x;" ++ s_nl) /\ files s "/b.conf" = Some "# Thi").
Proof.
  split; [reflexivity|]. split; [reflexivity|]. split; [|vm_compute; repeat split; discriminate].
  vm_compute. constructor; [intros [H|[]]; discriminate|]. constructor; [intros []|constructor].
Qed.

(** ** C27 *)
(** After any history, BuildInto adds one file per config and leaves the others as
    they were; otherwise Build panics on one of the configs. *)
Theorem C27_into : forall o0 cs o ops, bo_ext o0 = None -> reused o0 o ->
  (exists ts, map (fun g => build_text o0 (cf_parsed g)) cs = map Some ts /\
     exists c', build_into cs o (cr_after ops) = (c', true) /\
       shown c' = (shown (cr_after ops) ++ map (fun gt => Some (FStr (cf_file (fst gt)) (snd gt ++ s_nl))) (List.combine cs ts))%list /\
       firstn (List.length (cr_heap (cr_after ops))) (cr_heap c') = cr_heap (cr_after ops)) \/
  (exists g, In g cs /\ build_text o0 (cf_parsed g) = None /\ snd (build_into cs o (cr_after ops)) = false).
Proof. exact into_shown. Qed.
Print Assumptions C27_into.
Theorem C27_reset : forall ops, shown (cr_after (ops ++ [OReset])) = [].
Proof. exact reset_shown. Qed.
Print Assumptions C27_reset.
Example C27_case : let ops := [OCreate "old"; OWrite 0 "text"; OClose 0] in
  shown (cr_after ops) = [Some (FStr "old" ("text" ++ s_nl))] /\
  shown (fst (build_into (pl_config two_files) (BO 2 true false [] None yes) (cr_after ops))) =
    [Some (FStr "old" ("text" ++ s_nl)); Some (FStr "a.conf" ("x;" ++ s_nl));
     Some (FStr "/b.conf" ("http {" ++ s_nl ++ s_tab ++ "server {" ++ s_nl ++ s_tab ++ s_tab ++ "listen 80 " ++ s_dq ++ "a b" ++ s_dq ++ "; # x" ++ s_nl ++ s_tab ++ s_tab ++ "# y" ++ s_nl ++ s_tab ++ "}" ++ s_nl ++ "}" ++ s_nl))].
Proof. vm_compute. split; reflexivity. Qed.
