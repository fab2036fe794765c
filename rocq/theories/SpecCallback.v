(** C73: what ErrorCallback can change. *)
From Verif Require Export Main.
Local Open Scope string_scope.

Definition with_callback (o : popts) (cb : option (goerr -> string)) : popts :=
  Opts (o_ignore o) cb (o_open o) (o_glob o) (o_stop o) (o_combine o) (o_single o) (o_comments o)
       (o_strict o) (o_skipctx o) (o_skipargs o) (o_sources o) (o_default o) (o_lexers o).

(** Every error of the payload with what the callback says about it, or nothing. *)
Definition annotate_error (cb : option (goerr -> string)) (e : payload_error) : payload_error :=
  PyE (py_file e) (py_line e) (py_err e) (match cb with Some f => Some (f (py_err e)) | None => None end).
Definition annotate (cb : option (goerr -> string)) (p : payload) : payload :=
  Pay (pl_status p) (map (annotate_error cb) (pl_errors p)) (pl_config p).
Definition annotated (cb : option (goerr -> string)) (r : result) : result :=
  match r with ROk p => ROk (annotate cb p) | _ => r end.
