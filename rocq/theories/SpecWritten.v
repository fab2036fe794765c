(** C74: the JSON that is written: the documented fields, and no character that needs care
    in an HTML page, a script or a line of a log. *)
From Verif Require Export SpecJson SpecJsonText.
Local Open Scope string_scope.

(** ** The values of the fields *)
Definition text_is (s : string) (j : json) : Prop := exists x, repaired s x /\ j = JStr x.
Definition int_is (z : Z) (j : json) : Prop := j = JNum (itoa z).
Definition line_is (z : option Z) (j : json) : Prop := match z with Some z => int_is z j | None => j = JNull end.
Inductive array {A} (R : A -> json -> Prop) (l : list A) : json -> Prop :=
| ar : forall js, Forall2 R l js -> array R l (JArr js).
(** A slice; nil and empty slices are not told apart here, nil is written null. *)
Inductive slice_is {A} (R : A -> json -> Prop) : list A -> json -> Prop :=
| sl_null : slice_is R [] JNull
| sl_some : forall l j, array R l j -> slice_is R l j.
(** A field that is left out when there is nothing in it. *)
Inductive omitted {A} (k : string) (R : A -> json -> Prop) : option A -> list (string * json) -> Prop :=
| om_out : omitted k R None []
| om_in : forall a j, R a j -> omitted k R (Some a) [(k, j)].
Definition some_text (s : string) : option string := if String.eqb s "" then None else Some s.
Definition some_list {A} (l : option (list A)) : option (list A) := match l with Some (_ :: _) => l | _ => None end.

(** ** Directives, configs and payloads: the fields and their order *)
Inductive dir_as : directive -> json -> Prop :=
| da : forall d name line args file incs blk com mp,
    text_is (d_name d) name -> int_is (d_line d) line -> slice_is text_is (d_args d) args ->
    omitted "file" text_is (some_text (d_file d)) file ->
    omitted "includes" (array int_is) (some_list (d_includes d)) incs ->
    omitted "block" (array dir_as) (some_list (d_block d)) blk ->
    omitted "comment" text_is (d_comment d) com ->
    omitted "mapBlockParameter" (fun _ j => j = JBool true) (if d_ismap d then Some tt else None) mp ->
    dir_as d (JObj ([("directive", name); ("line", line); ("args", args)] ++ file ++ incs ++ blk ++ com ++ mp)%list).

(** [other m] and [cb c] are what encoding/json makes of errors that are no ParseError and of
    values a callback returned. *)
Definition stands (j' j : json) : Prop := exists n, value n (print_json j') j.
Section Payload.
Variables other cb : string -> json.
Definition error_as (e : goerr) (j : json) : Prop :=
  match e with EParse p => text_is (perr_string p) j | EOther m => stands (other m) j end.
Inductive cerr_as : config_error -> json -> Prop :=
| ca : forall e line err, line_is (ce_line e) line -> error_as (ce_err e) err ->
    cerr_as e (JObj [("line", line); ("error", err)]).
Inductive perr_as : payload_error -> json -> Prop :=
| pa : forall e file line err back, text_is (py_file e) file -> line_is (py_line e) line -> error_as (py_err e) err ->
    omitted "callback" (fun c => stands (cb c)) (py_cb e) back ->
    perr_as e (JObj ([("file", file); ("line", line); ("error", err)] ++ back)%list).
Inductive config_as : config -> json -> Prop :=
| cf : forall c file status errors parsed, text_is (cf_file c) file -> text_is (cf_status c) status ->
    slice_is cerr_as (cf_errors c) errors -> slice_is dir_as (cf_parsed c) parsed ->
    config_as c (JObj [("file", file); ("status", status); ("errors", errors); ("parsed", parsed)]).
Inductive payload_as : payload -> json -> Prop :=
| pl : forall p status errors configs, text_is (pl_status p) status -> slice_is perr_as (pl_errors p) errors ->
    slice_is config_as (pl_config p) configs ->
    payload_as p (JObj [("status", status); ("errors", errors); ("config", configs)]).
End Payload.

(** ** Characters: no control character, none of & < > and no line or paragraph separator *)
Definition harmless (n : N) : Prop := (32 <= n)%N /\ ~ In n [0x26; 0x3C; 0x3E; 0x2028; 0x2029]%N.
Inductive safe : string -> Prop :=
| sf_end : safe ""
| sf_char : forall n t s, utf8 n t -> harmless n -> safe s -> safe (t ++ s).
