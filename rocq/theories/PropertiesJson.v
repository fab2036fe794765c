(** JSON (C28, C46). *)
From Verif Require Import JsonDirs SpecBuild.
Local Open Scope string_scope.

(** ** C28 *)
(** What Unmarshal makes of the text Marshal writes, for every directive: the directive
    without its empty lists, with U+FFFD for bytes that are not UTF-8; an error if blocks
    nest more than 5000 deep.  [na] says which empty Args are nil. *)
Theorem C28_roundtrip : forall na d, unmarshal (marshal na d) = if Nat.leb (height d) 5000 then Got (kept to_valid d) else Fail.
Proof. exact roundtrip. Qed.
Print Assumptions C28_roundtrip.
Theorem C28_equal_partial : forall na d, texts_ok d = true -> height d <= 5000 ->
  exists d', unmarshal (marshal na d) = Got d' /\ dir_equal d d' = true /\ dir_equal d' d = true.
Proof. exact json_equal. Qed.
Print Assumptions C28_equal_partial.
Theorem C28_exact : forall na d, texts_ok d = true -> height d <= 5000 -> lists_filled d = true -> unmarshal (marshal na d) = Got d.
Proof. exact json_exact. Qed.
Print Assumptions C28_exact.
Theorem C28_build_partial : forall na o d, texts_ok d = true -> height d <= 5000 -> blocks_filled d = true -> sees_no_includes o ->
  exists d', unmarshal (marshal na d) = Got d' /\ build o [d'] = build o [d].
Proof. exact json_build. Qed.
Print Assumptions C28_build_partial.
(** An empty block is lost and changes the built text (finding 13). *)
Theorem C28_empty_refuted : exists d d', texts_ok d = true /\ unmarshal (marshal (fun _ => false) d) = Got d' /\
  build (BOpts 4 false false [] (fun _ => true)) [d] = Some ("events {" ++ s_nl ++ "}") /\ build (BOpts 4 false false [] (fun _ => true)) [d'] = Some "events;".
Proof. exists (mkd "events" 1 [] (Some [])), (mkd "events" 1 [] None). vm_compute. repeat split. Qed.
Print Assumptions C28_empty_refuted.
(** Bytes that are not UTF-8 are replaced (finding 24). *)
Theorem C28_bytes_refuted : exists d d', unmarshal (marshal (fun _ => false) d) = Got d' /\ dir_equal d d' = false.
Proof. exists (mkd (str1 "255") 1 [] None), (mkd error_rune_text 1 [] None). vm_compute. repeat split. Qed.
Print Assumptions C28_bytes_refuted.
(** Deep trees are not read back (finding 24). *)
Theorem C28_deep_refuted : exists d, texts_ok d = true /\ lists_filled d = true /\ forall na, unmarshal (marshal na d) = Fail.
Proof.
  exists (Nat.iter 5000 (fun d => mkd "a" 1 [] (Some [d])) (mkd "b" 1 [] None)). split; [vm_compute; reflexivity|]. split; [vm_compute; reflexivity|]. intros na. rewrite roundtrip.
  assert (H : Nat.leb (height (Nat.iter 5000 (fun d => mkd "a" 1 [] (Some [d])) (mkd "b" 1 [] None))) 5000 = false) by (vm_compute; reflexivity). now rewrite H.
Qed.
Print Assumptions C28_deep_refuted.
Definition tree : directive :=
  Dir "http" 1 [] "nginx.conf" None (Some [Dir "include" 2 ["*.conf"] "" (Some [1; 2]%Z) None None false; Dir "log_format" 3 ["é" ++ s_dq ++ "<\&>"; s_nl; ""] "" None None None false;
    Dir "#" 3 [] "" None None (Some " x") false; Dir "map" 4 ["a"; "b"] "" None (Some [Dir "k" 5 ["v"] "" None None None true]) None false]) None false.
Example C28_case : texts_ok tree = true /\ height tree = 3 /\ lists_filled tree = true /\ blocks_filled tree = true /\ unmarshal (marshal (fun _ => false) tree) = Got tree.
Proof. vm_compute. repeat split; reflexivity. Qed.
Example C28_text : marshal (fun _ => false) (Dir "if" (-3) ["a b"; "<x>&"; "é" ++ str1 "255" ++ s_dq ++ "\"; ""] "f" (Some []) (Some [mkc 0 s_nl]) None true) =
  "{""directive"":""if"",""line"":-3,""args"":[""a b"",""\u003cx\u003e\u0026"",""é\ufffd\""\\"",""""],""file"":""f"",""block"":[{""directive"":""#"",""line"":0,""args"":[],""comment"":""\n""}],""mapBlockParameter"":true}".
Proof. vm_compute. reflexivity. Qed.
Example C28_read : unmarshal " { ""line"" : 10 , ""x"":[1,{""y"":-0.5e+3}], ""args"": [""\ud83d\ude00 \ud83d \u00e9""] } " =
  Got (Dir "" 10 ["😀 " ++ error_rune_text ++ " é"] "" None None None false).
Proof. vm_compute. reflexivity. Qed.

(** ** C46 *)
(** A payload comes back (without empty lists) if it reports no error and blocks nest at
    most 4998 deep.  Otherwise Unmarshal fails: errors are written as strings or objects,
    which cannot be stored in a field of type error. *)
Theorem C46_payload : forall na ne nc np other cb, (forall m, wf (other m) /\ other m <> JNull) -> (forall m, wf (cb m)) -> forall p,
  unmarshal_payload (marshal_payload na ne nc np other cb p) =
    if (error_free p && Nat.leb (tallest p) 4998)%bool then Got (kept_payload to_valid p) else Fail.
Proof. exact payload_roundtrip. Qed.
Print Assumptions C46_payload.
(** So a payload with an error cannot be given to a program that builds from JSON (finding 25). *)
Theorem C46_errors_refuted : exists p, tallest p = 1 /\ forall na, unmarshal_payload (marshal_payload na false false false (fun _ => JObj []) (fun _ => JNull) p) = Fail.
Proof.
  exists (Pay "failed" [] [Cfg "nginx.conf" "failed" [CE (Some 1%Z) (EParse (PE "x" None None "" "" None))] [mkd "a" 1 [] None]]). split; [reflexivity|]. intros na. rewrite payload_roundtrip; [reflexivity| |]; intros m; cbn; auto. split; auto. discriminate.
Qed.
Print Assumptions C46_errors_refuted.
Definition pay : payload := Pay "ok" [] [Cfg "nginx.conf" "ok" [] [tree]; Cfg "b" "ok" [] []].
Example C46_case : error_free pay = true /\ tallest pay = 3 /\ kept_payload to_valid pay = pay /\
  unmarshal_payload (marshal_payload (fun _ => false) false false true (fun _ => JObj []) (fun _ => JNull) pay) = Got pay.
Proof. vm_compute. repeat split; reflexivity. Qed.
