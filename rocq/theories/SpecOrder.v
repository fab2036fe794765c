(** C85: the order of directive sources. *)
From Verif Require Export SpecLoose.
Local Open Scope string_scope.

Definition with_sources (o : popts) (sources : list match_func) : popts :=
  Opts (o_ignore o) (o_callback o) (o_open o) (o_glob o) (o_stop o) (o_combine o) (o_single o)
       (o_comments o) (o_strict o) (o_skipctx o) (o_skipargs o) sources (o_default o) (o_lexers o).
Definition same_set {A} (l m : list A) : Prop := forall x, In x l <-> In x m.
(** Options with the same switches, whose tables know the same names with the same forms,
    in any order and any number of times. *)
Record same_tables (o o' : popts) : Prop := SameTables {
  st_reading : same_reading o o';
  st_strict : o_strict o' = o_strict o;
  st_skipctx : o_skipctx o' = o_skipctx o;
  st_skipargs : o_skipargs o' = o_skipargs o;
  st_known : forall name ms, knows o name ms -> exists ms', knows o' name ms' /\ same_set ms ms';
  st_back : forall name ms, knows o' name ms -> exists ms', knows o name ms' /\ same_set ms ms' }.
