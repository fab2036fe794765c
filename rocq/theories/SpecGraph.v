(** Cycles of a directed graph given by successor lists (C15). *)
From Verif Require Export Types Parse.
Local Open Scope string_scope.

Definition arrow (edges : list (string * list string)) (a b : string) : Prop :=
  exists l, assoc a edges = Some l /\ In b l.
(** A path with at least one edge. *)
Inductive path (edges : list (string * list string)) : string -> string -> Prop :=
| p_one : forall a b, arrow edges a b -> path edges a b
| p_step : forall a b c, arrow edges a b -> path edges b c -> path edges a c.
Definition cyclic (edges : list (string * list string)) : Prop := exists x, path edges x x.
Definition keys {A} (m : list (string * A)) : list string := map fst m.
Arguments keys : simpl never.
Definition occ (x : string) (l : list string) : nat := count_occ string_dec l x.
(** The in-degrees are those of the edges, with multiplicity. *)
Record graph_ok (edges : list (string * list string)) (indeg : list (string * Z)) : Prop := {
  g_nodup : NoDup (keys indeg);
  g_count : forall f, get_z f indeg = Z.of_nat (occ f (flat_map snd edges));
  g_ekeys : NoDup (keys edges);
  g_src : incl (keys edges) (keys indeg);
  g_dst : incl (flat_map snd edges) (keys indeg) }.
