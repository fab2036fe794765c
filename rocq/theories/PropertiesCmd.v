(** C63: the command of the generator. *)
From Verif Require Import CmdProofs.
Local Open Scope string_scope.

(** The flags at the beginning of the command line are taken; of the values of a flag the last one counts, filters and overrides are collected. *)
Theorem C63_flags : forall args f, parse_flags args no_settings = inl f -> exists fs, accepted args fs /\ settings_of fs f.
Proof. exact flags_exact. Qed.
Print Assumptions C63_flags.
Theorem C63_accepts : forall args fs, accepted args fs -> exists f, parse_flags args no_settings = inl f /\ settings_of fs f.
Proof. exact flags_accept. Qed.
Print Assumptions C63_accepts.
(** The first flag that cannot be taken is reported. *)
Theorem C63_flag_errors : forall args e, parse_flags args no_settings = inr e <-> exists fs rest, given args fs rest /\ overrides_ok fs /\ fails rest e.
Proof. exact flags_errors. Qed.
Print Assumptions C63_flag_errors.
(** The configuration file. *)
Theorem C63_config : forall t c, conf_of_text t = Some c -> configures t c.
Proof. exact conf_sound. Qed.
Print Assumptions C63_config.
Theorem C63_config_accepts : forall t c, configures t c -> exists c', conf_of_text t = Some c' /\ same_conf c c'.
Proof. exact conf_complete. Qed.
Print Assumptions C63_config_accepts.
(** What is printed, or why nothing is. *)
Theorem C63_program : forall read below ord args o, program read below ord args = o <-> outcome read below ord args o.
Proof. exact program_iff. Qed.
Print Assumptions C63_program.

Definition some_conf : string :=
  "{ ""Filter"": [""gone""], ""directiveMapName"": ""dirs"", ""matchFuncName"": ""f"", ""MATCHFUNCNAME"": null, ""override"": {""foo"": [[""a"",""b""],[null]]}, ""filter"": [""foo""], ""other"": 1 } }".
Example C63_config_case : configures some_conf (GConf (Some ["gone"; "foo"]) (Some [("foo", [["a"; "b"]; [""]])]) "dirs" "f" "").
Proof. apply C63_config. vm_compute. reflexivity. Qed.
Example C63_config_not : Forall (fun t => conf_of_text t = None) [""; "nul"; "{""filter"": ""a""}"; "{""override"": []}"; "{""matchfuncname"": 1}"; "[]"; "{""filter"":[1]}"].
Proof. repeat (apply Forall_cons; [vm_compute; reflexivity|]). apply Forall_nil. Qed.
Definition some_args : list string := ["-src-path"; "x"; "--filter=a"; "-filter"; "-b"; "-override=foo:a|b,c"; "--config-path"; "c.json"; "-override"; "foo:d"; "--src-path=dir"; "--"; "-x"].
Example C63_flags_case : exists f, parse_flags some_args no_settings = inl f /\ f = Set_ "dir" "c.json" "" "" "" (Some ["a"; "-b"]) (Some [("foo", [["d"]])]).
Proof. eexists. split; [vm_compute; reflexivity|reflexivity]. Qed.
Example C63_flags_not : Forall (fun x => parse_flags (fst x) no_settings = inr (snd x))
  [(["-filter=a"; "--help"], StopHelp); (["---x"], StopSyntax "---x"); (["-=a"], StopSyntax "-=a"); (["-Filter"; "a"], StopUnknown "Filter"); (["-filter"], StopNoValue "filter"); (["-override"; "foo"], StopValue "foo")].
Proof. repeat (apply Forall_cons; [vm_compute; reflexivity|]). apply Forall_nil. Qed.
(** The whole program: the flags name the source, the configuration the rest. *)
Definition some_source : string :=
  "static ngx_command_t t[] = {" ++ s_nl ++ "  { ngx_string(""foo"")," ++ s_nl ++ "    NGX_CONF_FLAG," ++ s_nl ++ "    NULL }," ++ s_nl ++ "  { ngx_string(""bar"")," ++ s_nl ++ "    NGX_CONF_TAKE1," ++ s_nl ++ "    NULL }," ++ s_nl ++ "  ngx_null_command" ++ s_nl ++ "};" ++ s_nl.
Definition some_files (p : string) : option string := if String.eqb p "c.json" then Some some_conf else None.
Definition some_tree (p : string) : list entry := if String.eqb p "dir" then [EFile "dir/a.c" (Some some_source)] else [].
Example C63_case : outcome some_files some_tree (fun _ l => l) ["-src-path=dir"; "-config-path=c.json"; "-directive-map-name=m"; "-filter=x"] (inl (render "m" "f" "" [("foo", [["a"; "b"]; [""]]); ("bar", [["ngxConfTake1"]])])).
Proof. apply C63_program. vm_compute. reflexivity. Qed.
Example C63_not : Forall (fun x => outcome some_files some_tree (fun _ l => l) (fst x) (inr (snd x)))
  [(["-config-path=none"], StopConfig); (["-config-path=c.json"], StopNoSource); (["-src-path=dir"], StopNoMap); (["-src-path=dir"; "-directive-map-name=m"], StopNoFunc); (["-src-path=dir"; "-x=y"], StopUnknown "x")].
Proof. repeat (apply Forall_cons; [apply C63_program; vm_compute; reflexivity|]). apply Forall_nil. Qed.
Example C63_config_null : configures "null," (GConf None None "" "" "").
Proof. apply C63_config. vm_compute. reflexivity. Qed.
