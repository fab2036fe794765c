(** C62: the JSON texts that are read. *)
From Verif Require Import JsonTextProofs.
Local Open Scope string_scope.

(** A text is accepted exactly if it is a JSON text that nests at most 10000 deep, and stands for this value. *)
Theorem C62_json : forall s j, parse_json s = Some j <-> json_text s j.
Proof. exact parse_iff. Qed.
Print Assumptions C62_json.
(** So no text stands for two values. *)
Theorem C62_one : forall s j k, json_text s j -> json_text s k -> j = k.
Proof. exact text_one. Qed.
Print Assumptions C62_one.
(** Anything else is an error for directives and payloads. *)
Theorem C62_rejected : forall s, ~ (exists j, json_text s j) -> unmarshal s = Fail /\ unmarshal_payload s = Fail.
Proof. exact text_rejected. Qed.
Print Assumptions C62_rejected.
(** Parts of a text: strings and numbers. *)
Theorem C62_string : forall s x r, pstr s = Some (x, r) <-> exists q, String "034" s = q ++ r /\ quoted q x.
Proof. exact pstr_iff. Qed.
Print Assumptions C62_string.
Theorem C62_number : forall s, num_ok s = true <-> numeral s.
Proof. exact num_iff. Qed.
Print Assumptions C62_number.

(** Every form of value, blanks, escapes: a pair of surrogates, a lone one, a byte that is no character. *)
Definition some_json : string :=
  " { ""a"" : [ null,true ,false, -10.5e+3, {} ] ," ++ s_nl ++ " ""A\n\ud83d\ude00\ud83d"":""" ++ str1 "255" ++ "\/"" } ".
Example C62_case : json_text some_json
  (JObj [("a", JArr [JNull; JBool true; JBool false; JNum "-10.5e+3"; JObj []]); ("A" ++ s_nl ++ "😀" ++ error_rune_text, JStr (error_rune_text ++ "/"))]).
Proof. apply C62_json. vm_compute. reflexivity. Qed.
Example C62_not : Forall (fun s => ~ exists j, json_text s j) [""; "[1,]"; "01"; "1."; "+1"; "{""a""}"; "nul"; "1 2"; """a" ++ s_nl ++ """"; """\x"""; """\u12g4"""; "'a'"].
Proof. repeat (apply Forall_cons; [intros (j & H); apply C62_json in H; vm_compute in H; discriminate|]). apply Forall_nil. Qed.
(** The depth counts. *)
Example C62_deep : (exists j, value 2 "[[]]" j) /\ ~ exists j, value 1 "[[]]" j.
Proof.
  split.
  - exists (JArr [JArr []]). apply (va_arr 1 "[]" _ (el_one 1 "" "[]" "" _ ltac:(apply blank_nil) ltac:(apply blank_nil) (va_none 0 "" ltac:(apply blank_nil)))).
  - intros (j & V). pose proof (proj1 read_complete _ _ _ V 100 "" "" ltac:(cbn; lia) ltac:(apply blank_nil) (fun _ _ => or_introl eq_refl)) as P. vm_compute in P. discriminate.
Qed.
