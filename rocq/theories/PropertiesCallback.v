(** C73: ErrorCallback only annotates. *)
From Verif Require Import SpecCallback CallbackProofs.
Local Open Scope string_scope.

(** Parse with any callback returns what it returns with any other, or with none, except that
    every error of the payload carries what the callback says about it. *)
Theorem C73_annotates : forall fuel o cb filename,
  parse_main fuel (with_callback o cb) filename = annotated cb (parse_main fuel o filename).
Proof. intros fuel o cb filename. exact (an_main o cb fuel filename). Qed.
Print Assumptions C73_annotates.

Definition c73_opts (cb : option (goerr -> string)) : popts :=
  Opts [] cb (fun f => if String.eqb f "a" then inl "x {y; include b;} map $a $b { c; }" else inr "missing")
       (fun _ => inl []) false true false false true false false [] (fun n => if String.eqb n "y" then None else Some [N.shiftl 511 24]%N) [].
Example C73_case : exists p q, parse_main 9 (c73_opts None) "a" = ROk p /\
  parse_main 9 (with_callback (c73_opts None) (Some err_string)) "a" = ROk q /\
  q = annotate (Some err_string) p /\ List.length (pl_errors p) = 3 /\ p <> q.
Proof.
  eexists _, _. split; [vm_compute; reflexivity|]. split; [vm_compute; reflexivity|].
  split; [reflexivity|]. split; [reflexivity|discriminate].
Qed.
