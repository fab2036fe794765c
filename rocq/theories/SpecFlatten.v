(** C65: one file in place of a configuration with includes. *)
From Verif Require Export SpecFormat SpecCombine.
Local Open Scope string_scope.

(** An include directive among [ds], or in a block below them, leads to file number
    [i]; [path] are the blocks around [ds], [q] those around the directive. *)
Inductive points : list string -> list directive -> Z -> list string -> Prop :=
| pt_here : forall path d ds is i, In d ds -> d_name d = "include" -> d_includes d = Some is -> In i is -> points path ds i path
| pt_below : forall path d b ds i q, In d ds -> d_block d = Some b -> points (below path (d_name d)) b i q -> points path ds i q.
(** The blocks a file of the configuration is included in. *)
Inductive stands (l : list page) : nat -> list string -> Prop :=
| sd_main : stands l 0 []
| sd_included : forall n path g i q, stands l n path -> nth_error l n = Some g -> points path (pg_tree g) i q -> (0 <= i)%Z -> stands l (Z.to_nat i) q.
(** No file is included in different blocks. *)
Definition one_home (l : list page) : Prop := forall n p q, stands l n p -> stands l n q -> p = q.

(** Every include directive leads to some file. *)
Fixpoint all_resolved (d : directive) : bool :=
  ((d_ismap d || negb (String.eqb (d_name d) "include") || match d_includes d with Some _ => true | None => false end) &&
   match d_block d with Some b => forallb all_resolved b | None => true end)%bool.
