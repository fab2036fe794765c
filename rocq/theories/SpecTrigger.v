(** C88: the external lexers that are asked. *)
From Verif Require Export SpecOpts Main.
Local Open Scope string_scope.

(** Both have the same lexer, or none, for the name. *)
Definition same_lexer (ext ext' : ext_lexers) (name : string) : Prop := assoc name ext = assoc name ext'.
(** The token is one of the text, read with the one or with the other. *)
Definition read_with (ext ext' : ext_lexers) (s : string) (t : token) : Prop := In t (lex ext s) \/ In t (lex ext' s).
(** [o] with other external lexers. *)
Definition with_lexers (o : popts) (ext : ext_lexers) : popts :=
  Opts (o_ignore o) (o_callback o) (o_open o) (o_glob o) (o_stop o) (o_combine o) (o_single o) (o_comments o)
       (o_strict o) (o_skipctx o) (o_skipargs o) (o_sources o) (o_default o) ext.
