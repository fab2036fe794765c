(** C79: what a configuration loses on the way through JSON to the files built from it. *)
From Verif Require Export SpecJson BuildIO.
Local Open Scope string_scope.

(** A directive with an empty block that Build writes: not that of a comment, not one an
    external builder writes. *)
Fixpoint loses (o : bopts) (d : directive) : bool :=
  if is_comment d then false
  else match assoc (enquote (b_print o) (d_name d)) (b_ext o) with
       | Some _ => false
       | None => match d_block d with None => false | Some [] => true | Some l => existsb (loses o) l end
       end.
(** External builders that do not tell an empty list from none. *)
Definition blind (o : bopts) : Prop := forall n f d, In (n, f) (b_ext o) -> f (kept (fun s => s) d) = f d.
(** The options BuildFiles writes every file with. *)
Definition in_force (bo : boptions) : bopts := plain_opts (build_opts (register_all bo)).
(** All texts of a payload are UTF-8. *)
Definition payload_ok (p : payload) : bool :=
  (valid_utf8 (pl_status p) &&
   forallb (fun c => valid_utf8 (cf_file c) && valid_utf8 (cf_status c) && forallb texts_ok (cf_parsed c)) (pl_config p))%bool.
