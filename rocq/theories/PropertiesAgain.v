(** C83: combining twice is combining once. *)
From Verif Require Import AgainProofs.
Import SpecOutcome.
Local Open Scope string_scope.

(** What Combined returned, Combined returns again unchanged. *)
Theorem C83_again : forall k old p, combined k old = CbOk p -> settles p (CbOk p).
Proof. exact combined_again. Qed.
Print Assumptions C83_again.
(** So does Parse with CombineConfigs. *)
Theorem C83_parse : forall k o f p, o_combine o = true -> parse_main k o f = ROk p -> settles p (CbOk p).
Proof. exact parsed_again. Qed.
Print Assumptions C83_parse.
(** Exactly the flat payloads are left as they are. *)
Theorem C83_fixed : forall p, settles p (CbOk p) <-> flat_payload p.
Proof. exact flat_fixed. Qed.
Print Assumptions C83_fixed.
(** An expanded tree stays as it is in any payload. *)
Theorem C83_expanded : forall cs ds out, expand cs ds out -> forall cs', expand cs' out out.
Proof. exact expand_again. Qed.
Print Assumptions C83_expanded.

(** Two files, a failed one included twice; an unresolved include is kept. *)
Definition two_files : payload :=
  Pay "failed" [] [Cfg "a" "ok" [] [Dir "http" 1 [] "" None (Some [Dir "include" 2 ["b"] "" (Some [1%Z; 1%Z]) None None false]) None false];
                   Cfg "b" "failed" [] [Dir "include" 1 ["c"] "" None None None false; Dir "gzip" 2 ["on"] "" None None None false]].
Example C83_case : exists p, combined 4 two_files = CbOk p /\ p <> two_files /\ settles p (CbOk p) /\
  map (fun c => (cf_status c, map (fun d => map d_name (opt_list (d_block d))) (cf_parsed c))) (pl_config p) =
    [("failed", [["include"; "gzip"; "include"; "gzip"]])].
Proof.
  eexists. split; [vm_compute; reflexivity|]. split; [discriminate|]. split; [|reflexivity].
  eapply (C83_again 4 two_files). vm_compute. reflexivity.
Qed.
(** Combined changes a payload of one config with another status. *)
Example C83_changed : ~ settles (Pay "ok" [] [Cfg "a" "" [] []]) (CbOk (Pay "ok" [] [Cfg "a" "" [] []])).
Proof. rewrite C83_fixed. intros [E|(c & E & _ & S & _)]; [discriminate|]. injection E as <-. destruct S; discriminate. Qed.
