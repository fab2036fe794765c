(** Specification of include resolution and of the files Parse may read
    (C14, C15, C17, C29, C34, C42). *)
From Verif Require Export Types Analyze GoPath.
From Coq Require Export Permutation Sorted.
Local Open Scope string_scope.

(** [d] occurs in the forest [ds], at any depth. *)
Inductive within (d : directive) : list directive -> Prop :=
| in_here : forall ds, In d ds -> within d ds
| in_block : forall e b ds, In e ds -> d_block e = Some b -> within d b -> within d ds.

(** The path an include argument denotes, relative to the main file's directory. *)
Definition path_of (dir arg : string) : string := if is_abs arg then arg else join_path dir arg.
Definition magic (p : string) : Prop :=
  exists a c b, p = a ++ String c b /\ In c ["*"; "?"; "["]%char.
Definition bytes_le (a b : string) : Prop := String.compare a b <> Gt.

(** The files an include argument stands for. *)
Inductive targets (o : popts) (dir arg : string) : list string -> Prop :=
| tg_glob : forall l fs, magic (path_of dir arg) -> o_glob o (path_of dir arg) = inl l ->
    Permutation l fs -> StronglySorted bytes_le fs -> targets o dir arg fs
| tg_file : forall c, ~ magic (path_of dir arg) -> o_open o (path_of dir arg) = inl c ->
    targets o dir arg [path_of dir arg]
| tg_missing : forall m, ~ magic (path_of dir arg) -> o_open o (path_of dir arg) = inr m ->
    targets o dir arg [].

(** Index [i] of a payload is the config of file [f]. *)
Definition selects (p : payload) (i : Z) (f : string) : Prop :=
  (0 <= i)%Z /\ exists c, nth_error (pl_config p) (Z.to_nat i) = Some c /\ cf_file c = f.

(** A file an error put an end to. *)
Definition cut_short (c : config) : Prop := cf_status c = "failed" /\ cf_parsed c = [].

Record includes_ok (o : popts) (filename : string) (p : payload) : Prop := {
  inc_first : exists rest, map cf_file (pl_config p) = filename :: rest;
  inc_distinct : NoDup (map cf_file (pl_config p));
  inc_followed : forall c d, In c (pl_config p) -> within d (cf_parsed c) ->
    d_name d = "include" -> d_ismap d = false -> o_single o = false ->
    exists arg more fs, d_args d = arg :: more /\ targets o (dir_name filename) arg fs /\
      Forall2 (selects p) (opt_list (d_includes d)) fs /\ (d_includes d = None <-> fs = []);
  inc_others : forall c d, In c (pl_config p) -> within d (cf_parsed c) ->
    d_name d <> "include" \/ d_ismap d = true \/ o_single o = true -> d_includes d = None }.

(** The first argument of the statement whose name was just read: the next token
    that is no comment, unless that is a terminator. *)
Inductive first_arg : list token -> string -> Prop :=
| fa_here : forall t r, ~ (t_quoted t = false /\ In (t_val t) ["{"; "}"; ";"]) ->
    ~ (t_quoted t = false /\ has_prefix (t_val t) "#" = true) -> first_arg (t :: r) (t_val t)
| fa_comment : forall t r a, t_quoted t = false -> has_prefix (t_val t) "#" = true ->
    first_arg r a -> first_arg (t :: r) a.
Definition mentions (o : popts) (content arg : string) : Prop :=
  exists pre t r, lex (o_lexers o) content = (pre ++ t :: r)%list /\ t_val t = "include" /\
    t_err t = None /\ first_arg r arg.

(** One include step from file [g] to file [f], and the files reachable. *)
Inductive inc_step (o : popts) (dir : string) (g f : string) : Prop :=
| is_file : forall content arg, o_open o g = inl content -> mentions o content arg ->
    ~ magic (path_of dir arg) -> f = path_of dir arg -> inc_step o dir g f
| is_glob : forall content arg l, o_open o g = inl content -> mentions o content arg ->
    magic (path_of dir arg) -> o_glob o (path_of dir arg) = inl l -> In f l -> inc_step o dir g f.
Inductive reach (o : popts) (filename : string) : string -> Prop :=
| reach_root : reach o filename filename
| reach_step : forall g f, o_single o = false -> reach o filename g ->
    inc_step o (dir_name filename) g f -> reach o filename f.
