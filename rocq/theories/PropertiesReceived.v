(** C77: JSON texts from elsewhere. *)
From Verif Require Import SpecReceived ReceivedProofs.
Local Open Scope string_scope.

(** A text is read as a directive exactly if it stands for one, and as that one. *)
Theorem C77_directive : forall s j d, json_text s j -> plain_keys j -> (unmarshal s = Got d <-> means j d).
Proof. exact received. Qed.
Print Assumptions C77_directive.
Theorem C77_payload : forall s j p, json_text s j -> plain_keys j -> (unmarshal_payload s = Got p <-> payload_means j p).
Proof. exact received_payload. Qed.
Print Assumptions C77_payload.
(** Neither the order of the members nor members with other names matter. *)
Theorem C77_same : forall s s' l l' d, json_text s (JObj l) -> json_text s' (JObj l') ->
  plain_keys (JObj l) -> plain_keys (JObj l') -> (forall k v, In k tags -> (In (k, v) l <-> In (k, v) l')) ->
  unmarshal s = Got d -> unmarshal s' = Got d.
Proof. exact received_same. Qed.
Print Assumptions C77_same.

Definition c77_text : string :=
  let q := s_dq in
  " {" ++ q ++ "block" ++ q ++ ": [{" ++ q ++ "args" ++ q ++ ":[" ++ q ++ "80" ++ q ++ "], " ++ q ++ "directive" ++ q ++ ":" ++ q ++ "listen" ++ q ++
  "}], " ++ q ++ "x" ++ q ++ ":{}, " ++ q ++ "line" ++ q ++ ":-0," ++ q ++ "comment" ++ q ++ ":null," ++ q ++ "directive" ++ q ++ ":" ++ q ++ "server" ++ q ++ "}".
Definition c77_json : json :=
  JObj [("block", JArr [JObj [("args", JArr [JStr "80"]); ("directive", JStr "listen")]]); ("x", JObj []); ("line", JNum "-0");
        ("comment", JNull); ("directive", JStr "server")].
Definition c77_dir : directive := Dir "server" 0 [] "" None (Some [Dir "listen" 0 ["80"] "" None None None false]) None false.
Example C77_case : json_text c77_text c77_json /\ plain_keys c77_json /\ means c77_json c77_dir /\ unmarshal c77_text = Got c77_dir.
Proof.
  assert (T : json_text c77_text c77_json) by (apply parse_iff; vm_compute; reflexivity).
  assert (P : plain_keys c77_json).
  { assert (K : forall l : list (string * json), forallb (fun kv => forallb (fun t => implb (String.eqb (folded (fst kv)) (folded t)) (String.eqb (fst kv) t)) tags) l = true ->
      forall k v t, In (k, v) l -> In t tags -> folded k = folded t -> k = t).
    { intros l H k v t I J E. rewrite forallb_forall in H. specialize (H _ I). cbn [fst] in H. rewrite forallb_forall in H. specialize (H _ J).
      rewrite E, String.eqb_refl in H. now apply String.eqb_eq in H. }
    cbn [c77_json plain_keys]. repeat split; try (apply K; vm_compute; reflexivity);
      repeat (constructor; [vm_compute; intuition discriminate|]); constructor. }
  assert (U : unmarshal c77_text = Got c77_dir) by (vm_compute; reflexivity).
  split; [exact T|]. split; [exact P|]. split; [|exact U]. now apply (received c77_text).
Qed.
(** Texts with a wrong type are refused. *)
Example C77_wrong : unmarshal ("{" ++ s_dq ++ "line" ++ s_dq ++ ":" ++ s_dq ++ "1" ++ s_dq ++ "}") = Fail.
Proof. vm_compute. reflexivity. Qed.
