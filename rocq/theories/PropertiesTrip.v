(** C79: from Parse through JSON to files. *)
From Verif Require Import FormatProofs TripProofs PropertiesFormat.
Local Open Scope string_scope.

(** What JSON loses of a tree shows in the built text exactly if an empty block is written. *)
Theorem C79_text : forall o ds, (0 <= b_indent o)%Z -> blind o ->
  (build o (map (SpecJson.kept (fun s => s)) ds) = build o ds <-> existsb (loses o) ds = false).
Proof. exact trip_exact. Qed.
Print Assumptions C79_text.
(** A payload without errors is read back from its JSON text and gives the same files and
    the same result, whatever the operating system makes of each operation. *)
Theorem C79_files : forall na ne nc np other cb, (forall m, wf (other m) /\ other m <> JNull) -> (forall m, wf (cb m)) -> forall p bo,
  error_free p = true -> tallest p <= 4998 -> payload_ok p = true ->
  (0 <= bo_indent bo)%Z -> blind (in_force bo) ->
  (forall c, In c (pl_config p) -> existsb (loses (in_force bo)) (cf_parsed c) = false) ->
  exists q, unmarshal_payload (marshal_payload na ne nc np other cb p) = Got q /\
    forall cwd dir outs s, build_files cwd q dir bo outs s = build_files cwd p dir bo outs s.
Proof. exact trip_files. Qed.
Print Assumptions C79_files.
(** Parse, json.Marshal, json.Unmarshal, BuildFiles, Parse: the same configuration. *)
Theorem C79_format : forall na ne nc np other cb, (forall m, wf (other m) /\ other m <> JNull) -> (forall m, wf (cb m)) ->
  forall bo o s missing cwd dir filename l fuel, bo_ext bo = None -> bo_builders bo = [] -> (0 <= bo_indent bo)%Z ->
  ascii_right (bo_print bo) -> SpecFiles.where_to cwd dir <> None -> (forall f, o_open o f = disk s missing f) ->
  o_combine o = false -> o_lexers o = [] -> loose_if o -> book o filename l -> ~ loops l ->
  (forall g, In g l -> pg_errors g = [] /\ formattable (bo_print bo) (pg_tree g) = true /\ has_prefix (pg_file g) "/" = true) ->
  (forall g, In g l -> valid_utf8 (pg_file g) = true /\ forallb texts_ok (pg_tree g) = true /\ forallb blocks_filled (pg_tree g) = true /\ Forall (fun d => height d <= 4998) (pg_tree g)) ->
  List.length l <= fuel ->
  exists p q s' p', parse_main fuel o filename = ROk p /\
    unmarshal_payload (marshal_payload na ne nc np other cb p) = Got q /\ build_files cwd q dir bo [] s = (s', BFok) /\
    parse_main fuel (with_open o (disk s' missing)) filename = ROk p' /\
    same_payload (heading (o_comments o) (bo_header bo)) p p'.
Proof. exact trip_format. Qed.
Print Assumptions C79_format.
(** The Lua builder is one that does not see what is lost. *)
Theorem C79_lua : forall i t h pr, blind (BOpts i t h (apply_builders [(lua_build, lua_names)]) pr).
Proof. exact lua_sees_nothing. Qed.
Print Assumptions C79_lua.
(** The configuration "events {}" does not survive (finding 13): nginx refuses the file built. *)
Theorem C79_empty_refuted : exists p bo s q s1 s2, error_free p = true /\ tallest p = 1 /\ payload_ok p = true /\ blind (in_force bo) /\
  unmarshal_payload (marshal_payload (fun _ => false) false false false (fun _ => JObj []) (fun _ => JNull) p) = Got q /\
  build_files None p "/" bo [] s = (s1, BFok) /\ build_files None q "/" bo [] s = (s2, BFok) /\
  files s1 "/a" = Some ("events {" ++ s_nl ++ "}" ++ s_nl) /\ files s2 "/a" = Some ("events;" ++ s_nl).
Proof.
  exists (Pay "ok" [] [Cfg "/a" "ok" [] [mkd "events" 1 [] (Some [])]]), (fmt_bo false), (Fs (fun _ => None) []). do 3 eexists.
  split; [reflexivity|]. split; [reflexivity|]. split; [reflexivity|]. split; [intros n f d []|]. split; [vm_compute; reflexivity|].
  split; [reflexivity|]. split; [reflexivity|]. split; vm_compute; reflexivity.
Qed.
Print Assumptions C79_empty_refuted.

(** The premises of [C79_text] and [C79_files]: includes of no file, an empty block of a comment. *)
Definition trip_tree : list directive :=
  [Dir "http" 1 [] "" None (Some [Dir "include" 2 ["*.conf"] "" (Some []) None None false; Dir "#" 3 [] "" None (Some []) (Some " x") false]) None false].
Example C79_case : existsb (loses (in_force (fmt_bo true))) trip_tree = false /\ map (SpecJson.kept (fun s => s)) trip_tree <> trip_tree /\
  build (in_force (fmt_bo false)) trip_tree = Some ("http {" ++ s_nl ++ "  include *.conf;" ++ s_nl ++ "  # x" ++ s_nl ++ "}") /\
  build (in_force (fmt_bo false)) (map (SpecJson.kept (fun s => s)) trip_tree) = build (in_force (fmt_bo false)) trip_tree.
Proof. split; [reflexivity|]. split; [discriminate|]. split; vm_compute; reflexivity. Qed.
Example C79_payload : let p := Pay "ok" [] [Cfg "/a" "ok" [] trip_tree; Cfg "/b" "ok" [] []] in
  error_free p = true /\ tallest p = 2 /\ payload_ok p = true /\ blind (in_force (fmt_bo true)) /\
  (forall c, In c (pl_config p) -> existsb (loses (in_force (fmt_bo true))) (cf_parsed c) = false).
Proof. cbv zeta. split; [reflexivity|]. split; [reflexivity|]. split; [reflexivity|]. split; [intros n f d []|]. intros c [<-|[<-|[]]]; reflexivity. Qed.
(** The further premises of [C79_format] (the others: [C64_case]). *)
Example C79_pages : forall g, In g fmt_pages -> valid_utf8 (pg_file g) = true /\ forallb texts_ok (pg_tree g) = true /\ forallb blocks_filled (pg_tree g) = true /\ Forall (fun d => height d <= 4998) (pg_tree g).
Proof.
  assert (X : forallb (fun g => forallb (fun d => Nat.leb (height d) 4998) (pg_tree g)) fmt_pages = true) by (vm_compute; reflexivity).
  intros g G. rewrite forallb_forall in X. specialize (X g G). rewrite forallb_forall in X. split; [|split; [|split]].
  - destruct G as [<-|[<-|[]]]; reflexivity.
  - destruct G as [<-|[<-|[]]]; vm_compute; reflexivity.
  - destruct G as [<-|[<-|[]]]; vm_compute; reflexivity.
  - apply Forall_forall. intros d D. apply Nat.leb_le. exact (X d D).
Qed.
