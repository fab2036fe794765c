(** What JSON keeps of a directive (C28, C46). *)
From Verif Require Export Json Build.
Local Open Scope string_scope.

(** Empty lists of included files and empty blocks are lost. *)
Definition non_empty {A} (o : option (list A)) : option (list A) := match o with Some [] => None | x => x end.
(** What is read back; [tx] is applied to all texts. *)
Fixpoint kept (tx : string -> string) (d : directive) : directive :=
  Dir (tx (d_name d)) (d_line d) (map tx (d_args d)) (tx (d_file d)) (non_empty (d_includes d))
    (non_empty (option_map (map (kept tx)) (d_block d))) (option_map tx (d_comment d)) (d_ismap d).
(** All texts are UTF-8. *)
Fixpoint texts_ok (d : directive) : bool :=
  (valid_utf8 (d_name d) && forallb valid_utf8 (d_args d) && valid_utf8 (d_file d) &&
   match d_comment d with Some c => valid_utf8 c | None => true end &&
   match d_block d with Some l => forallb texts_ok l | None => true end)%bool.
(** How deep blocks nest (a directive without a block has height 1). *)
Fixpoint height (d : directive) : nat :=
  match d_block d with Some l => S (fold_right Nat.max 0 (map height l)) | None => 1 end.
(** No block is empty. *)
Fixpoint blocks_filled (d : directive) : bool :=
  match d_block d with None => true | Some [] => false | Some l => forallb blocks_filled l end.
(** A payload without errors. *)
Definition error_free (p : payload) : bool :=
  (match pl_errors p with [] => true | _ => false end && forallb (fun c => match cf_errors c with [] => true | _ => false end) (pl_config p))%bool.
Definition kept_config (tx : string -> string) (c : config) : config :=
  Cfg (tx (cf_file c)) (tx (cf_status c)) (cf_errors c) (map (kept tx) (cf_parsed c)).
Definition kept_payload (tx : string -> string) (p : payload) : payload :=
  Pay (tx (pl_status p)) (pl_errors p) (map (kept_config tx) (pl_config p)).
Definition tallest (p : payload) : nat := fold_right Nat.max 0 (map height (flat_map cf_parsed (pl_config p))).
(** External builders that do not tell an empty list of included files from none. *)
Definition sees_no_includes (o : bopts) : Prop := forall n f d, In (n, f) (b_ext o) -> blocks_filled d = true -> f (kept (fun s => s) d) = f d.
(** No list is empty. *)
Fixpoint lists_filled (d : directive) : bool :=
  (match d_includes d with Some [] => false | _ => true end && match d_block d with None => true | Some [] => false | Some l => forallb lists_filled l end)%bool.
(** Numbers are written as JSON numbers. *)
Fixpoint wf (j : json) : Prop :=
  match j with
  | JNum raw => num_ok raw = true /\ forallb num_char (list_of_str raw) = true /\ exists c t, raw = String c t /\ (is_digit c || Ascii.eqb c "-")%bool = true
  | JArr l => (fix go l := match l with [] => True | x :: r => wf x /\ go r end) l
  | JObj l => (fix go l := match l with [] => True | x :: r => wf (snd x) /\ go r end) l
  | _ => True
  end.
