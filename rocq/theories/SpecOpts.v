(** Variations of the options, used in the statements of several properties. *)
From Verif Require Export Analyze.
Local Open Scope string_scope.

Definition with_stop (o : popts) (b : bool) : popts :=
  Opts (o_ignore o) (o_callback o) (o_open o) (o_glob o) b (o_combine o) (o_single o) (o_comments o)
       (o_strict o) (o_skipctx o) (o_skipargs o) (o_sources o) (o_default o) (o_lexers o).
Definition with_ignore (o : popts) (l : list string) : popts :=
  Opts l (o_callback o) (o_open o) (o_glob o) (o_stop o) (o_combine o) (o_single o) (o_comments o)
       (o_strict o) (o_skipctx o) (o_skipargs o) (o_sources o) (o_default o) (o_lexers o).
Definition with_open (o : popts) (op : string -> string + string) : popts :=
  Opts (o_ignore o) (o_callback o) op (o_glob o) (o_stop o) (o_combine o) (o_single o) (o_comments o)
       (o_strict o) (o_skipctx o) (o_skipargs o) (o_sources o) (o_default o) (o_lexers o).
(** Two file systems with the same missing files. *)
Definition same_errors (op op' : string -> string + string) : Prop :=
  forall f, match op f, op' f with inl _, inl _ => True | inr a, inr b => a = b | _, _ => False end.
Definition with_comments (o : popts) (b : bool) : popts :=
  Opts (o_ignore o) (o_callback o) (o_open o) (o_glob o) (o_stop o) (o_combine o) (o_single o) b
       (o_strict o) (o_skipctx o) (o_skipargs o) (o_sources o) (o_default o) (o_lexers o).
(** Comments and labels switched off. *)
Definition with_off (sc sf : bool) (o : popts) : popts :=
  Opts (o_ignore o) (o_callback o) (o_open o) (o_glob o) (o_stop o)
       (if sf then false else o_combine o) (o_single o) (if sc then false else o_comments o)
       (o_strict o) (o_skipctx o) (o_skipargs o) (o_sources o) (o_default o) (o_lexers o).
