(** C80: a configuration whose files have other names. *)
From Verif Require Export SpecOpts Main SpecLib.
Local Open Scope string_scope.

Definition with_disk (o : popts) (op : string -> string + string) (gl : string -> list string + string) : popts :=
  Opts (o_ignore o) (o_callback o) op gl (o_stop o) (o_combine o) (o_single o) (o_comments o)
       (o_strict o) (o_skipctx o) (o_skipargs o) (o_sources o) (o_default o) (o_lexers o).
Section Names.
(** The new names of the files; what is said of the files with other names by the operating system. *)
Variables R M : string -> string -> Prop.
Definition one_to_one : Prop := (forall f g g', R f g -> R f g' -> g = g') /\ (forall f f' g, R f g -> R f' g -> f = f').
(** Messages: the same, or those of the operating system, or one that names the file. *)
Definition same_word (w w' : string) : Prop :=
  w = w' \/ M w w' \/ exists pre f g post, R f g /\ w = pre ++ f ++ post /\ w' = pre ++ g ++ post.
Inductive same_err : goerr -> goerr -> Prop :=
| se_parse : forall w w' f g l s b orig, same_word w w' -> R f g ->
    same_err (EParse (PE w (Some f) l s b orig)) (EParse (PE w' (Some g) l s b orig))
| se_other : forall m m', m = m' \/ M m m' -> same_err (EOther m) (EOther m').
(** Directives tell their file only in combined configurations. *)
Definition label (f g : string) : Prop := f = "" /\ g = "" \/ R f g.
Inductive same_dir : directive -> directive -> Prop :=
| sd_leaf : forall n l a f g i c m, label f g -> same_dir (Dir n l a f i None c m) (Dir n l a g i None c m)
| sd_block : forall n l a f g i b b' c m, label f g -> Forall2 same_dir b b' ->
    same_dir (Dir n l a f i (Some b) c m) (Dir n l a g i (Some b') c m).
Definition same_cerr (e e' : config_error) : Prop := ce_line e = ce_line e' /\ same_err (ce_err e) (ce_err e').
Definition same_perr (e e' : payload_error) : Prop :=
  R (py_file e) (py_file e') /\ py_line e = py_line e' /\ same_err (py_err e) (py_err e') /\ (py_cb e = None <-> py_cb e' = None).
Definition same_config (c c' : config) : Prop :=
  R (cf_file c) (cf_file c') /\ cf_status c = cf_status c' /\ Forall2 same_cerr (cf_errors c) (cf_errors c') /\
  Forall2 same_dir (cf_parsed c) (cf_parsed c').
Definition same_payload (p p' : payload) : Prop :=
  pl_status p = pl_status p' /\ Forall2 same_perr (pl_errors p) (pl_errors p') /\ Forall2 same_config (pl_config p) (pl_config p').
Inductive same_result : result -> result -> Prop :=
| sr_ok : forall p p', same_payload p p' -> same_result (ROk p) (ROk p')
| sr_err : forall e e', same_err e e' -> same_result (RErr e) (RErr e')
| sr_panic : same_result RPanic RPanic
| sr_fuel : same_result RFuel RFuel.

(** The files have the same texts; those that cannot be opened still cannot. *)
Inductive same_text : string + string -> string + string -> Prop :=
| sx_text : forall t, same_text (inl t) (inl t)
| sx_error : forall m m', M m m' -> same_text (inr m) (inr m').
Inductive same_list : list string + string -> list string + string -> Prop :=
| sl_files : forall l l', Forall2 R (sort_strings l) (sort_strings l') -> same_list (inl l) (inl l')
| sl_error : forall m m', M m m' -> same_list (inr m) (inr m').
(** What an include of the path [p] finds, an include of [p'] finds. *)
Definition same_target (o : popts) (gl : string -> list string + string) (p p' : string) : Prop :=
  contains_any p "*?[" = contains_any p' "*?[" /\
  if contains_any p "*?[" then same_list (o_glob o p) (gl p') else R p p'.
End Names.
(** The word [a] stands behind the word "include", before the statement ends. *)
Definition ends_stmt (t : token) : Prop := t_quoted t = false /\ In (t_val t) ["{"; ";"; "}"].
Definition included (ts : list token) (a : string) : Prop :=
  exists pre t mid b post, ts = (pre ++ t :: mid ++ b :: post)%list /\ t_val t = "include" /\
    Forall (fun x => ~ ends_stmt x) (mid ++ [b])%list /\ t_val b = a.
(** The path an include means. *)
Definition meant_path (dir a : string) : string := if has_prefix a "/" then a else join_path dir a.

(** ** A directory that is moved *)
(** A part of a path. *)
Definition part (e : string) : Prop := ~ inside "/" e /\ e <> "" /\ e <> "." /\ e <> "..".
(** A path that leads down. *)
Definition path_down (x : string) : Prop := exists es, es <> [] /\ Forall part es /\ x = join es "/".
(** An absolute path, not the root, without the characters of patterns. *)
Definition a_directory (D : string) : Prop := exists x, path_down x /\ D = "/" ++ x /\ contains_any D "*?[" = false.
Definition below (D x : string) : string := D ++ "/" ++ x.
Definition moved (D D' : string) (f g : string) : Prop := exists x, path_down x /\ f = below D x /\ g = below D' x.
Inductive moved_list (M : string -> string -> Prop) (D D' : string) : list string + string -> list string + string -> Prop :=
| ml_files : forall l, Forall path_down l -> moved_list M D D' (inl (map (below D) l)) (inl (map (below D') l))
| ml_error : forall m m', M m m' -> moved_list M D D' (inr m) (inr m').
