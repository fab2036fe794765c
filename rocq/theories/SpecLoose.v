(** C71: options that check less. *)
From Verif Require Export SpecValidate Main.
Local Open Scope string_scope.

(** [o] and [o'] read the same files and make the same directives of them. *)
Record same_reading (o o' : popts) : Prop := Same {
  sr_ignore : o_ignore o' = o_ignore o;
  sr_open : o_open o' = o_open o;
  sr_glob : o_glob o' = o_glob o;
  sr_combine : o_combine o' = o_combine o;
  sr_single : o_single o' = o_single o;
  sr_comments : o_comments o' = o_comments o;
  sr_lexers : o_lexers o' = o_lexers o }.

(** [o'] checks less than [o]: both read the same files and make the same directives of
    them, and every check [o'] makes is made by [o] too.  What is done with errors
    (StopParsingOnError, ErrorCallback) is free. *)
Record looser (o o' : popts) : Prop := Looser {
  lo_same : same_reading o o';
  lo_strict : o_strict o' = true -> o_strict o = true;
  lo_skipctx : o_skipctx o = true -> o_skipctx o' = true;
  lo_skipargs : o_skipargs o = true -> o_skipargs o' = true;
  (* a name the tables of [o] know is known to those of [o'], with the same forms or more *)
  lo_known : forall name ms, knows o name ms -> exists ms', knows o' name ms' /\ incl ms ms';
  (* a name no table of [o] knows is unknown to [o'] too, or an error for [o] *)
  lo_unknown : forall name, unknown o name -> o_strict o = false -> unknown o' name }.

(** [o] with other switches, another way to treat errors and more tables. *)
Definition relaxed (o : popts) (strict skipctx skipargs stop : bool)
           (callback : option (goerr -> string)) (more : list match_func) : popts :=
  Opts (o_ignore o) callback (o_open o) (o_glob o) stop (o_combine o) (o_single o)
       (o_comments o) strict skipctx skipargs (o_sources o ++ more) (o_default o) (o_lexers o).
