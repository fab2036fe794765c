(** The expansion of include directives (C16). *)
From Verif Require Export Types SpecInclude.
Local Open Scope string_scope.

(** An include directive that Parse resolved. *)
Definition resolved (d : directive) : Prop := d_name d = "include" /\ d_includes d <> None.
(** The directive with another block. *)
Definition reblock (d : directive) (b : option (list directive)) : directive :=
  Dir (d_name d) (d_line d) (d_args d) (d_file d) (d_includes d) b (d_comment d) (d_ismap d).

Inductive expand (cs : list config) : list directive -> list directive -> Prop :=
| x_nil : expand cs [] []
| x_leaf : forall d r r', ~ resolved d -> d_block d = None -> expand cs r r' -> expand cs (d :: r) (d :: r')
| x_block : forall d b b' r r', ~ resolved d -> d_block d = Some b -> expand cs b b' -> expand cs r r' ->
    expand cs (d :: r) (reblock d (Some b') :: r')
| x_include : forall d is ds r r', d_name d = "include" -> d_includes d = Some is ->
    expand_all cs is ds -> expand cs r r' -> expand cs (d :: r) (ds ++ r')
with expand_all (cs : list config) : list Z -> list directive -> Prop :=
| xa_nil : expand_all cs [] []
| xa_cons : forall i c ds is rest, (0 <= i)%Z -> nth_error cs (Z.to_nat i) = Some c ->
    expand cs (cf_parsed c) ds -> expand_all cs is rest -> expand_all cs (i :: is) (ds ++ rest).

Scheme expand_mind := Induction for expand Sort Prop
  with expand_all_mind := Induction for expand_all Sort Prop.
Combined Scheme expand_both from expand_mind, expand_all_mind.

(** What Combined makes of a payload with first config [c0]. *)
Record combination (old p : payload) (c0 : config) : Prop := {
  cb_one : exists ds, expand (pl_config old) (cf_parsed c0) ds /\
    pl_config p = [Cfg (cf_file c0)
                       (if existsb (fun c => String.eqb (cf_status c) "failed") (pl_config old) then "failed" else "ok")
                       (flat_map cf_errors (pl_config old)) ds] /\
    (forall d, within d ds -> ~ resolved d);
  cb_errors : pl_errors p = pl_errors old;
  cb_status : pl_status p = if String.eqb (pl_status old) "" then "ok" else pl_status old }.
