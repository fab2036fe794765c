(** C74: the JSON that is written. *)
From Verif Require Import SpecWritten WrittenProofs.
Local Open Scope string_scope.

(** The text written for a directive stands for the object with its fields. *)
Theorem C74_directive : forall na d, exists n j, value n (marshal na d) j /\ dir_as d j.
Proof. exact dir_text. Qed.
Print Assumptions C74_directive.
(** The same for payloads. *)
Theorem C74_payload : forall na ne nc np other cb, (forall m, wf (other m)) -> (forall c, wf (cb c)) -> forall p,
  exists n j, value n (marshal_payload na ne nc np other cb p) j /\ payload_as other cb p j.
Proof. exact payload_text. Qed.
Print Assumptions C74_payload.
(** Nothing in these texts can end a script, a tag or a line. *)
Theorem C74_safe : forall na d, safe (marshal na d).
Proof. intros na d. apply print_safe, to_json_wf. Qed.
Print Assumptions C74_safe.
Theorem C74_safe_payload : forall na ne nc np other cb, (forall m, wf (other m)) -> (forall c, wf (cb c)) -> forall p,
  safe (marshal_payload na ne nc np other cb p).
Proof. intros na ne nc np other cb O C p. exact (print_safe _ (payload_wf na ne nc np other cb O C p)). Qed.
Print Assumptions C74_safe_payload.

(** Nested, with what has to be escaped: quotes, a newline, a tag, a line separator, a byte
    that is no character. *)
Definition c74_dir : directive :=
  Dir "a""b" 7 ["</script>"; "x" ++ s_nl ++ "&"; of_bytes [0xE2; 0x80; 0xA8; 0xFF]%N] "f" (Some [1%Z])
      (Some [Dir "#" (-2) [] "" None None (Some "é") true]) None false.
Example C74_case : marshal (fun _ => false) c74_dir =
  "{""directive"":""a\""b"",""line"":7,""args"":[""\u003c/script\u003e"",""x\n\u0026"",""\u2028\ufffd""],""file"":""f"",""includes"":[1],""block"":[{""directive"":""#"",""line"":-2,""args"":[],""comment"":""é"",""mapBlockParameter"":true}]}".
Proof. vm_compute. reflexivity. Qed.
Example C74_case_payload : (forall m, wf ((fun _ : string => JObj []) m)) /\
  marshal_payload (fun _ => false) false false false (fun _ => JObj []) (fun _ => JNull)
    (Pay "failed" [PyE "f" (Some 3%Z) (EOther "m") None] [Cfg "f" "failed" [CE None (EOther "m")] [c74_dir]]) =
  "{""status"":""failed"",""errors"":[{""file"":""f"",""line"":3,""error"":{}}],""config"":[{""file"":""f"",""status"":""failed"",""errors"":[{""line"":null,""error"":{}}],""parsed"":[" ++ marshal (fun _ => false) c74_dir ++ "]}]}".
Proof. split; [intros; exact I|vm_compute; reflexivity]. Qed.
