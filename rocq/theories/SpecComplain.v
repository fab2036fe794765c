(** C53: what the error for a rejected statement says. *)
From Verif Require Export SpecReject.
Local Open Scope string_scope.

Definition in_quotes (s : string) : string := dq ++ s ++ dq.
(** What a mask has against a statement.  Expression first, then the end of the statement,
    then the arguments. *)
Inductive against (mask : N) (d : directive) (term : string) : string -> Prop :=
| ag_expr : bit 9 mask -> ~ paren_expr (d_args d) ->
    against mask d term ("directive " ++ in_quotes (d_name d) ++ "'s is not enclosed in parentheses")
| ag_open : (bit 9 mask -> paren_expr (d_args d)) -> bit 8 mask -> term <> "{" ->
    against mask d term ("directive " ++ in_quotes (d_name d) ++ " has no opening " ++ in_quotes "{")
| ag_end : (bit 9 mask -> paren_expr (d_args d)) -> ~ bit 8 mask -> term <> ";" ->
    against mask d term ("directive " ++ in_quotes (d_name d) ++ " is not terminated by " ++ in_quotes ";")
| ag_flag : forall a, (bit 9 mask -> paren_expr (d_args d)) -> (bit 8 mask -> term = "{") -> (~ bit 8 mask -> term = ";") ->
    ~ args_fit mask (d_args d) -> bit 10 mask -> d_args d = [a] ->
    against mask d term ("invalid value " ++ in_quotes a ++ " in " ++ in_quotes (d_name d) ++
      " directive, it must be " ++ in_quotes "on" ++ " or " ++ in_quotes "off")
| ag_count : (bit 9 mask -> paren_expr (d_args d)) -> (bit 8 mask -> term = "{") -> (~ bit 8 mask -> term = ";") ->
    ~ args_fit mask (d_args d) -> ~ (bit 10 mask /\ List.length (d_args d) = 1) ->
    against mask d term ("invalid number of arguments in " ++ in_quotes (d_name d) ++ " directive").

(** What is said against a statement: that the name is unknown, that it has no place here,
    or what the last of the masks for this place has against it. *)
Inductive objects (o : popts) (path : list string) (d : directive) (term : string) : string -> Prop :=
| ob_unknown : unknown o (d_name d) -> o_strict o = true -> objects o path d term ("unknown directive " ++ in_quotes (d_name d))
| ob_place : forall ms b, knows o (d_name d) ms -> path_bit path = Some b -> o_skipctx o = false ->
    Forall (fun m => ~ bit b m) ms -> objects o path d term (in_quotes (d_name d) ++ " directive is not allowed here")
| ob_form : forall ms b before m after what, knows o (d_name d) ms -> path_bit path = Some b -> o_skipargs o = false ->
    ms = (before ++ m :: after)%list -> o_skipctx o = true \/ bit b m ->
    Forall (fun x => ~ (o_skipctx o = true \/ bit b x)) after ->
    Forall (fun x => o_skipctx o = true \/ bit b x -> ~ form_fits x d term) before ->
    against m d term what -> objects o path d term what
(** A name for which a table lists no masks at all. *)
| ob_nothing : forall b, knows o (d_name d) [] -> path_bit path = Some b -> o_skipctx o = true -> o_skipargs o = false ->
    objects o path d term "".

(** What is said against an entry of a map-like block. *)
Inductive objects_entry (b : string) (d : directive) (term : string) : string -> Prop :=
| oe_end : term <> ";" -> objects_entry b d term ("unexpected " ++ in_quotes term)
| oe_count : term = ";" -> ~ fits_arity (entry_arity b (d_name d)) (d_args d) -> objects_entry b d term "invalid number of parameters".

(** The innermost block. *)
Definition innermost (path : list string) : string := match path with [] => "main" | _ => last path "" end.
(** The error: with file, line, statement and block. *)
Definition objection (f : string) (path : list string) (d : directive) (what : string) : goerr :=
  EParse (PE what (Some f) (Some (d_line d)) (d_name d ++ " " ++ join (d_args d) " ") (innermost path) None).

(** The line of an error, and the errors of a config: each with its own line. *)
Definition line_of (e : goerr) : option Z := match e with EParse p => pe_line p | EOther _ => None end.
Definition listed (es : list goerr) : list config_error := map (fun e => CE (line_of e) e) es.
