(** C72: what Parse can depend on in the file system. *)
From Verif Require Export SpecInclude.
Local Open Scope string_scope.

(** A pattern that a file include directives lead to asks for. *)
Definition asks (o : popts) (filename pattern : string) : Prop :=
  o_single o = false /\ magic pattern /\
  exists g content arg, reach o filename g /\ o_open o g = inl content /\ mentions o content arg /\
    pattern = path_of (dir_name filename) arg.

(** Two answers to a pattern: the same files in any order, or the same error. *)
Inductive alike : (list string) + string -> (list string) + string -> Prop :=
| al_files : forall l m, Permutation l m -> alike (inl l) (inl m)
| al_error : forall e, alike (inr e) (inr e).

(** The same options on another file system. *)
Definition elsewhere (o : popts) (open : string -> string + string) (glob : string -> (list string) + string) : popts :=
  Opts (o_ignore o) (o_callback o) open glob (o_stop o) (o_combine o) (o_single o) (o_comments o)
       (o_strict o) (o_skipctx o) (o_skipargs o) (o_sources o) (o_default o) (o_lexers o).

(** The file systems agree on the files include directives lead to, starting from
    [filename], and on the patterns asked for there. *)
Definition agree (o : popts) (filename : string) (open : string -> string + string)
           (glob : string -> (list string) + string) : Prop :=
  (forall f, reach o filename f -> open f = o_open o f) /\
  (forall p, asks o filename p -> alike (o_glob o p) (glob p)).
