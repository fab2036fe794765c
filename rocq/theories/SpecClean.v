(** Deleting comments and file labels from trees (C19, C35). *)
From Verif Require Export Types Main.
Local Open Scope string_scope.

(** [clean sc sf]: delete the comment directives if [sc], the file labels if [sf],
    at every depth. *)
Fixpoint clean (sc sf : bool) (d : directive) : list directive :=
  match d with
  | Dir n l a f i b c m =>
    if (sc && match c with Some _ => true | None => false end)%bool then []
    else [Dir n l a (if sf then EmptyString else f) i
              (match b with Some ds => Some (flat_map (clean sc sf) ds) | None => None end) c m]
  end.
Definition clean_config (sc sf : bool) (c : config) : config :=
  Cfg (cf_file c) (cf_status c) (cf_errors c) (flat_map (clean sc sf) (cf_parsed c)).
Definition clean_payload (sc sf : bool) (p : payload) : payload :=
  Pay (pl_status p) (pl_errors p) (map (clean_config sc sf) (pl_config p)).
Definition strip := clean_payload true false.
Definition unlabel := clean_payload false true.
Definition strip_result (r : result) : result := match r with ROk p => ROk (strip p) | _ => r end.
Definition same_head (d e : directive) : Prop :=
  d_name d = d_name e /\ d_line d = d_line e /\ d_args d = d_args e /\ d_file d = d_file e /\
  d_includes d = d_includes e /\ d_comment d = d_comment e /\ d_ismap d = d_ismap e.
