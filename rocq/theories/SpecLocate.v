(** Where the errors of a parsed file are (C52). *)
From Verif Require Export SpecComplain.
From Verif Require Export SpecWords Parse.
Local Open Scope string_scope.

(** The text of an error (errors.go:26-35). *)
Definition location (f : string) (line : Z) : string := " in " ++ f ++ ":" ++ itoa line.

(** A word a statement can start with. *)
Definition opener (t : token) : Prop :=
  t_err t = None /\ (t_quoted t = true \/ (t_val t <> "}" /\ prefix "#" (t_val t) = false)).
Definition ends (t : token) : Prop := t_quoted t = false /\ In (t_val t) ["{"; ";"; "}"].
(** The arguments among the tokens between the name and the end. *)
Definition arguments (ts : list token) : list string := map t_val (filter (fun t => negb (mark t)) ts).
(** A complaint about the statement that starts with [t] and goes on with [ts]. *)
Definition about (f : string) (t : token) (ts : list token) (e : goerr) : Prop :=
  exists what block, e = EParse (PE what (Some f) (Some (t_line t)) (t_val t ++ " " ++ join (arguments ts) " ") block None).

(** Complaints about different statements, in the order of the text. *)
Inductive noted (f : string) : list goerr -> list token -> Prop :=
| nt_none : forall ts, noted f [] ts
| nt_skip : forall es t ts, noted f es ts -> noted f es (t :: ts)
| nt_stmt : forall e es t ts stop rest, opener t -> Forall (fun u => ~ ends u) ts -> ends stop -> about f t ts e ->
    noted f es rest -> noted f (e :: es) (t :: ts ++ stop :: rest).

(** The error with which the reading of a file ends: at the head of the tokens. *)
Inductive last_error (o : popts) (f : string) : goerr -> list token -> Prop :=
| le_stmt : forall e t ts stop rest, opener t -> Forall (fun u => ~ ends u) ts -> ends stop -> about f t ts e ->
    last_error o f e (t :: ts ++ stop :: rest)
| le_glob : forall p msg t ts stop rest, opener t -> t_val t = "include" -> Forall (fun u => ~ ends u) ts -> ends stop -> o_glob o p = inr msg ->
    last_error o f (EOther msg) (t :: ts ++ stop :: rest)
| le_premature : forall t ts block, opener t -> Forall (fun u => ~ ends u) ts ->
    last_error o f (EParse (PE "premature end of file" (Some f) (Some (t_line t)) "" block (Some "premature end of file"))) (t :: ts)
| le_lexer : forall p t ts block, t_err t = Some (EParse p) ->
    last_error o f (EParse (PE (pe_what p) (Some f) (pe_line p) (pe_stmt p) block (pe_orig p))) (t :: ts)
| le_foreign : forall m t ts block, t_err t = Some (EOther m) ->
    last_error o f (EParse (PE m (Some f) (Some (t_line t)) "" block (Some m))) (t :: ts).
Definition placed (o : popts) (f : string) (es : list goerr) (ts : list token) : Prop :=
  noted f es ts \/ exists es0 e a b, es = (es0 ++ [e])%list /\ ts = (a ++ b)%list /\ noted f es0 a /\ last_error o f e b.

(** The errors of a payload, file by file. *)
Definition by_file (fs : list (string * list goerr)) : list (string * goerr) := flat_map (fun x => map (pair (fst x)) (snd x)) fs.

(** Lines of errors. *)
Definition error_lines (es : list goerr) : list Z := flat_map (fun e => match line_of e with Some l => [l] | None => [] end) es.

(** What Parse itself can fail with, apart from the cycle error: a file that cannot be opened,
    or, with StopParsingOnError, the error at which the reading of some file ended. *)
Definition fatal (o : popts) (e : goerr) : Prop :=
  (exists f msg, o_open o f = inr msg /\ e = EOther msg) \/
  (o_stop o = true /\ exists f content a b, o_open o f = inl content /\ lex (o_lexers o) content = (a ++ b)%list /\ last_error o f e b).
