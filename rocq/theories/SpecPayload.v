(** Specification of the status and error fields of a payload (C12, C13). *)
From Verif Require Export Types.
Local Open Scope string_scope.

(** The status says whether there are errors. *)
Definition status_fits {A} (status : string) (errors : list A) : Prop :=
  status = match errors with [] => "ok" | _ => "failed" end.

(** The payload's errors are the configs' errors in order, labelled with the file. *)
Definition labelled (c : config) : list (string * option Z * goerr) :=
  map (fun e => (cf_file c, ce_line e, ce_err e)) (cf_errors c).
Definition payload_labels (p : payload) : list (string * option Z * goerr) :=
  map (fun e => (py_file e, py_line e, py_err e)) (pl_errors p).

Record consistent (p : payload) : Prop := {
  con_status : status_fits (pl_status p) (pl_errors p);
  con_configs : Forall (fun c => status_fits (cf_status c) (cf_errors c)) (pl_config p);
  con_errors : payload_labels p = flat_map labelled (pl_config p) }.

(** The same for a combined payload: one config that carries all errors. *)
Record consistent_combined (p : payload) : Prop := {
  cc_status : status_fits (pl_status p) (pl_errors p);
  cc_config : exists c, pl_config p = [c] /\ status_fits (cf_status c) (cf_errors c) /\
    map (fun e => (ce_line e, ce_err e)) (cf_errors c) =
    map (fun e => (py_line e, py_err e)) (pl_errors p) }.
(** The line of an error is the line the error itself reports, and a callback is
    attached to every error. *)
Definition err_fields (cb : option (goerr -> string)) (p : payload) : Prop :=
  Forall (fun e => py_line e = match py_err e with EParse pe => pe_line pe | EOther _ => None end /\
                   py_cb e = match cb with Some f => Some (f (py_err e)) | None => None end)
         (pl_errors p).
