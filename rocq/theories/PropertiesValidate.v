(** Property theorems C20-C25 (validation, if-arguments, equality, tables). *)
From Verif Require Import Util SpecValidate ValidateProofs SpecIf IfProofs SpecTree TreeFacts
  Tables TableProofs Main PathTables.
Local Open Scope string_scope.

(** C20: a statement passes validation iff the specification accepts it. *)
Theorem C20_validation_accepts_exactly : forall o fname d term path,
  plain_path path ->
  (analyze o fname d term path = None <-> accepts o path d term).
Proof. exact analyze_accepts. Qed.
Print Assumptions C20_validation_accepts_exactly.

(** C20: in every path, odd names included, the verdict is the one for the path the
    tables take it for; there is always one. *)
Theorem C20_every_path : forall path, (exists p, meant path p) /\
  forall o fname d term p, meant path p -> (analyze o fname d term path = None <-> accepts o p d term).
Proof. intros path. split; [exact (meant_total path)|]. intros o f d term p. exact (analyze_every_path o f d term path p). Qed.
Print Assumptions C20_every_path.

(** C20: the verdict does not depend on the order of the sources. *)
Theorem C20_order_of_sources_irrelevant : forall o o' f f' d term path,
  Permutation (o_sources o) (o_sources o') ->
  o_default o' = o_default o -> o_strict o' = o_strict o ->
  o_skipctx o' = o_skipctx o -> o_skipargs o' = o_skipargs o ->
  (analyze o f d term path = None <-> analyze o' f' d term path = None).
Proof. exact analyze_sources_perm. Qed.
Print Assumptions C20_order_of_sources_irrelevant.

(** C20: ... nor on the order of the masks a source lists. *)
Theorem C20_order_of_masks_irrelevant : forall o o' f f' d term path,
  Forall2 (same_answer (d_name d)) (o_sources o) (o_sources o') ->
  same_answer (d_name d) (o_default o) (o_default o') ->
  o_strict o' = o_strict o -> o_skipctx o' = o_skipctx o -> o_skipargs o' = o_skipargs o ->
  (analyze o f d term path = None <-> analyze o' f' d term path = None).
Proof. exact analyze_masks_perm. Qed.
Print Assumptions C20_order_of_masks_irrelevant.

(** C20 without the hypothesis on the path is false: a block named "http>server"
    is taken for a server block inside http. *)
Theorem C20_odd_block_names_refuted : exists o fname d term path,
  analyze o fname d term path = None /\ ~ accepts o path d term \/
  analyze o fname d term path <> None /\ accepts o path d term.
Proof. exact odd_path_refuted. Qed.
Print Assumptions C20_odd_block_names_refuted.

Definition c20_opts : popts :=
  Opts [] None (fun _ => inr "") (fun _ => inl []) false false true false true false false
       [] default_match [].
Example C20_case_accepted :
  plain_path ["http"; "server"] /\
  analyze c20_opts "f" (Dir "listen" 1 ["80"] "" None None None false) ";" ["http"; "server"] = None /\
  analyze c20_opts "f" (Dir "listen" 1 [] "" None None None false) ";" ["http"; "server"] <> None /\
  analyze c20_opts "f" (Dir "listen" 1 ["80"] "" None None None false) ";" ["events"] <> None.
Proof.
  split; [repeat (constructor; [split; [discriminate|reflexivity]|]); constructor|].
  vm_compute. repeat split; discriminate.
Qed.

(** C21, entry rule: an entry of a map-like block is accepted iff it ends with ";" and
    its argument count fits the block's rule. *)
Theorem C21_map_entry_rule : forall fname d term b, map_block b ->
  (analyze_map_body fname d term b = None <->
   term = ";" /\ fits_arity (entry_arity b (d_name d)) (d_args d)).
Proof. exact analyze_map_body_iff. Qed.
Print Assumptions C21_map_entry_rule.
Example C21_case : map_block "geo" /\
  analyze_map_body "f" (Dir "ranges" 1 [] "" None None None false) ";" "geo" = None /\
  analyze_map_body "f" (Dir "x" 1 [] "" None None None false) ";" "geo" <> None.
Proof. split; [cbn; auto|]. vm_compute. split; [reflexivity|discriminate]. Qed.

(** C22: the result for an argument list, and the only argument lists without one. *)
Theorem C22_if_arguments : forall args r, prepare_if args = Some r <-> if_result args r.
Proof. exact prepare_if_result. Qed.
Print Assumptions C22_if_arguments.
Theorem C22_if_arguments_crash_shape : forall args, prepare_if args = None <-> blank_parens args.
Proof. exact prepare_if_panics. Qed.
Print Assumptions C22_if_arguments_crash_shape.
Example C22_case : prepare_if ["($a"; "="; "b"; ")"] = Some ["$a"; "="; "b"] /\
  if_result ["($a"; "="; "b"; ")"] ["$a"; "="; "b"].
Proof. split; [reflexivity|]. apply prepare_if_result. reflexivity. Qed.

(** C22: Parse does crash, with every check enabled, on  http{server{if "( )" {}}}. *)
Theorem C22_no_crash_refuted : exists o filename fuel, parse_main fuel o filename = RPanic.
Proof. exact if_crash_refuted. Qed.
Print Assumptions C22_no_crash_refuted.

(** C23: Equal is structural equality up to nil/empty slices, an equivalence. *)
Theorem C23_equal_is_same_tree : forall x y, dir_equal x y = true <-> same_tree x y.
Proof. exact dir_equal_spec. Qed.
Print Assumptions C23_equal_is_same_tree.
Theorem C23_equal_refl : forall x, dir_equal x x = true.
Proof. exact dir_equal_refl. Qed.
Print Assumptions C23_equal_refl.
Theorem C23_equal_sym : forall x y, dir_equal x y = dir_equal y x.
Proof. exact dir_equal_sym. Qed.
Print Assumptions C23_equal_sym.
Theorem C23_equal_trans : forall x y z,
  dir_equal x y = true -> dir_equal y z = true -> dir_equal x z = true.
Proof. exact dir_equal_trans. Qed.
Print Assumptions C23_equal_trans.
Example C23_case :
  dir_equal (Dir "events" 1 [] "" None (Some []) None false) (Dir "events" 1 [] "" (Some []) None None false) = true /\
  dir_equal (Dir "a" 1 ["x"] "" None None None false) (Dir "a" 1 ["y"] "" None None None false) = false.
Proof. split; reflexivity. Qed.

(** C24: the masks used for a name are those of all sources that know it, in order, or
    the default table's; a name is known iff some source knows it. *)
Theorem C24_sources_union : forall o name,
  (forall ms, knows o name ms -> find_masks o name = (ms, true)) /\
  (unknown o name -> find_masks o name = ([], false)).
Proof. exact find_masks_spec. Qed.
Print Assumptions C24_sources_union.
Theorem C24_union_last_wins : forall before m after k v,
  Forall (fun m => NoDup (map fst m)) (before ++ m :: after) ->
  assoc k m = Some v -> Forall (fun m => assoc k m = None) after ->
  assoc k (union_maps (before ++ m :: after)) = Some v.
Proof. exact union_maps_last. Qed.
Print Assumptions C24_union_last_wins.
Theorem C24_union_domain : forall ms k, Forall (fun m => NoDup (map fst m)) ms ->
  (assoc k (union_maps ms) = None <-> Forall (fun m => assoc k m = None) ms).
Proof. exact union_maps_none. Qed.
Print Assumptions C24_union_domain.
Theorem C24_default_table : default_directives =
  union_maps [nginxPlusLatestDirectives; njsDirectives; otelDirectives] /\
  Forall (fun m => NoDup (map fst m)) [nginxPlusLatestDirectives; njsDirectives; otelDirectives].
Proof. exact default_is_union. Qed.
Print Assumptions C24_default_table.
Example C24_case :
  assoc "a" (union_maps [[("a", [1%N])]; [("b", [2%N])]; [("a", [3%N])]; []]) = Some [3%N].
Proof. reflexivity. Qed.

(** C25: shipped tables. *)
Theorem C25_shipped_entries : forall t name ms, In t shipped -> assoc name t = Some ms ->
  ms <> [] /\
  (forall m, In m ms -> exists n, In n [0; 1; 2; 3; 4; 5; 6; 7; 10; 11; 12; 13]%N /\ bit n m) /\
  (forall m b, In m ms -> (17 <= b <= 32)%N -> bit b m ->
     exists path b' args term, path_bit path = Some b' /\ bit b' m /\
       form_fits m (Dir name 1 args "" None None None false) term) /\
  (In name ["status"; "header"; "trusted_certificate"] \/
   exists m b, In m ms /\ (17 <= b <= 32)%N /\ bit b m).
Proof. exact shipped_usable. Qed.
Print Assumptions C25_shipped_entries.
Theorem C25_shipped_accepted : forall t name ms o, In t shipped -> assoc name t = Some ms ->
  o_sources o = [lookup t] -> ~ In name ["status"; "header"; "trusted_certificate"] ->
  exists path args term, path_bit path <> None /\
    forall f, analyze o f (Dir name 1 args "" None None None false) term path = None.
Proof. exact shipped_analyzed. Qed.
Print Assumptions C25_shipped_accepted.
Example C25_case : exists ms, In ossLatestDirectives shipped /\
  assoc "listen" ossLatestDirectives = Some ms /\ List.length ms = 3.
Proof. eexists. split; [cbn; auto 10|]. split; vm_compute; reflexivity. Qed.
