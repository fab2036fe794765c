(** C87: the names Parse asks about. *)
From Verif Require Export SpecOpts Main.
Local Open Scope string_scope.

(** [o] with another list of names to ignore and other sources. *)
Definition with_names (o : popts) (ignore : list string) (sources : list match_func) (default : match_func) : popts :=
  Opts ignore (o_callback o) (o_open o) (o_glob o) (o_stop o) (o_combine o) (o_single o) (o_comments o)
       (o_strict o) (o_skipctx o) (o_skipargs o) sources default (o_lexers o).
(** Both answer the same about [name]. *)
Definition same_about (o o' : popts) (name : string) : Prop :=
  (In name (o_ignore o) <-> In name (o_ignore o')) /\
  map (fun f => f name) (o_sources o) = map (fun f => f name) (o_sources o') /\
  o_default o name = o_default o' name.
(** The words of the files. *)
Definition a_word (o : popts) (name : string) : Prop :=
  exists f text t, o_open o f = inl text /\ In t (lex (o_lexers o) text) /\ t_val t = name.
