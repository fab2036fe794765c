(** C83: what combining leaves as it is. *)
From Verif Require Export SpecCombine SpecOutcome.
Local Open Scope string_scope.

(** A payload as Combined would leave it: no configs, or one whose tree holds no resolved
    include at any depth, with the statuses Combined gives. *)
Definition flat_payload (p : payload) : Prop :=
  pl_config p = [] \/
  exists c, pl_config p = [c] /\ pl_status p <> "" /\ (cf_status c = "ok" \/ cf_status c = "failed") /\
    forall d, within d (cf_parsed c) -> ~ resolved d.
