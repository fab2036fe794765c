(** C84: the numbers of the configs in a payload. *)
From Coq Require Export Permutation.
From Verif Require Export SpecCombine SpecOutcome.
Local Open Scope string_scope.

Section Number.
  (** [r i]: the new number of the config with number [i]. *)
  Variable r : Z -> Z.
  Fixpoint renumber (d : directive) : directive :=
    match d with
    | Dir name line args file includes block comment ismap =>
      Dir name line args file (if String.eqb name "include" then option_map (map r) includes else includes)
          (match block with None => None | Some b => Some (map renumber b) end) comment ismap
    end.
  (** The same file with new numbers in its include directives. *)
  Definition renumbered_config (c c' : config) : Prop :=
    cf_file c' = cf_file c /\ cf_parsed c' = map renumber (cf_parsed c).
  (** Each config of [old] has a place in [p], the first is the first. *)
  Record renumbered (old p : payload) : Prop := Renumbered {
    rn_status : pl_status p = pl_status old;
    rn_errors : pl_errors p = pl_errors old;
    rn_first : forall c cs, pl_config old = c :: cs -> exists c' cs', pl_config p = c' :: cs' /\ renumbered_config c c';
    rn_place : forall i c, (0 <= i)%Z -> nth_error (pl_config old) (Z.to_nat i) = Some c ->
      exists c', (0 <= r i)%Z /\ nth_error (pl_config p) (Z.to_nat (r i)) = Some c' /\ renumbered_config c c' }.
  (** The configs of [p] are those of [old], in another order. *)
  Definition reordered (old p : payload) : Prop :=
    renumbered old p /\
    Permutation (map (fun c => (cf_status c, cf_errors c)) (pl_config old)) (map (fun c => (cf_status c, cf_errors c)) (pl_config p)).
End Number.

(** The same tree in a file of the same name. *)
Definition same_tree (q q' : payload) : Prop :=
  pl_status q' = pl_status q /\ pl_errors q' = pl_errors q /\
  Forall2 (fun c c' => cf_file c' = cf_file c /\ cf_parsed c' = cf_parsed c) (pl_config q) (pl_config q').
(** The errors of the files come in another order. *)
Definition same_but_order (q q' : payload) : Prop :=
  pl_status q' = pl_status q /\ pl_errors q' = pl_errors q /\
  Forall2 (fun c c' => cf_file c' = cf_file c /\ cf_status c' = cf_status c /\ Permutation (cf_errors c) (cf_errors c') /\ cf_parsed c' = cf_parsed c)
    (pl_config q) (pl_config q').
