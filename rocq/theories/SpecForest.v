(** Well-formed token streams as forests of statements (C18, C21, C32, C09). *)
From Verif Require Export Types SpecOpts.
Local Open Scope string_scope.

(** A comment, or a statement: name, argument tokens (comments among them), the line
    of its terminator, and its block with the line of the closing brace. *)
Inductive stmt :=
| SCom (t : token)
| SStm (head : token) (args : list token) (tline : Z) (body : option (list stmt * Z)).

Fixpoint stmt_toks (s : stmt) : list token :=
  match s with
  | SCom t => [t]
  | SStm h args l None => h :: args ++ [Tok ";" l false None]
  | SStm h args l (Some (b, c)) =>
      h :: args ++ Tok "{" l false None :: flat_map stmt_toks b ++ [Tok "}" c false None]
  end.
Definition flat (F : list stmt) : list token := flat_map stmt_toks F.

(** Tokens without error; [word]: not one of the unquoted terminators. *)
Definition plain (t : token) : Prop := t_quoted t = true \/ ~ In (t_val t) ["{"; "}"; ";"].
Definition hash (t : token) : Prop := t_quoted t = false /\ exists r, t_val t = "#" ++ r.
Inductive wf_stmt : stmt -> Prop :=
| wf_com : forall t, t_err t = None -> hash t -> wf_stmt (SCom t)
| wf_simple : forall h args l, t_err h = None -> plain h -> ~ hash h ->
    Forall (fun a => t_err a = None /\ plain a) args -> wf_stmt (SStm h args l None)
| wf_block : forall h args l b c, t_err h = None -> plain h -> ~ hash h ->
    Forall (fun a => t_err a = None /\ plain a) args -> Forall wf_stmt b ->
    wf_stmt (SStm h args l (Some (b, c))).

(** The names whose blocks hold map entries rather than directives. *)
Definition map_like : list string :=
  ["charset_map"; "geo"; "map"; "match"; "types"; "split_clients"; "geoip2"; "otel_exporter"].

(** Delete the statements named in [I] with their blocks. *)
Fixpoint prune (I : list string) (s : stmt) : list stmt :=
  match s with
  | SCom t => [s]
  | SStm h args l b =>
    if existsb (String.eqb (t_val h)) I then []
    else [SStm h args l (match b with Some (ss, c) => Some (flat_map (prune I) ss, c) | None => None end)]
  end.
(** No entry of a map-like block carries a name of [I]. *)
Definition named (I : list string) (s : stmt) : Prop :=
  match s with SCom _ => False | SStm h _ _ _ => In (t_val h) I end.
Inductive maps_clear (I : list string) : stmt -> Prop :=
| mc_com : forall t, maps_clear I (SCom t)
| mc_simple : forall h args l, maps_clear I (SStm h args l None)
| mc_block : forall h args l b c, (In (t_val h) map_like -> Forall (fun s => ~ named I s) b) ->
    Forall (maps_clear I) b -> maps_clear I (SStm h args l (Some (b, c))).
(** The contents of [op] are those of [o] without the statements named in the option. *)
Definition pruned_files (o : popts) (op : string -> string + string) : Prop :=
  forall f, match o_open o f, op f with
  | inl c, inl c' => exists F, lex (o_lexers o) c = flat F /\ Forall wf_stmt F /\ Forall (maps_clear (o_ignore o)) F /\
                     lex (o_lexers o) c' = flat (flat_map (prune (o_ignore o)) F)
  | inr a, inr b => a = b
  | _, _ => False
  end.
