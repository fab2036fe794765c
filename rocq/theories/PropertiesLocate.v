(** Where errors are (C52). *)
From Verif Require Import LocateProofs Tables.
Local Open Scope string_scope.

(** C52: the errors of a config complain about distinct statements of its file, in the order
    of the text; each names the file, the line of the statement's first word and its words.
    Only the last one can be of another kind: the one that ended the reading. *)
Theorem C52_configs : forall fuel o filename p, o_combine o = false -> parse_main fuel o filename = ROk p -> forall c, In c (pl_config p) ->
  exists content es, o_open o (cf_file c) = inl content /\ cf_errors c = listed es /\ placed o (cf_file c) es (lex (o_lexers o) content).
Proof. exact parse_located. Qed.
Print Assumptions C52_configs.
(** C52: the same for the payload, also with CombineConfigs: its errors come file by file. *)
Theorem C52_payload : forall fuel o filename p, parse_main fuel o filename = ROk p ->
  exists fs, map (fun e => (py_file e, py_err e)) (pl_errors p) = by_file fs /\ NoDup (map fst fs) /\
    Forall (fun x => exists content, o_open o (fst x) = inl content /\ placed o (fst x) (snd x) (lex (o_lexers o) content)) fs.
Proof. exact payload_located. Qed.
Print Assumptions C52_payload.
(** C52: so their lines ascend and lie within the file. *)
Theorem C52_lines : forall fuel o filename p, o_combine o = false -> o_lexers o = [] -> parse_main fuel o filename = ROk p ->
  forall c, In c (pl_config p) -> exists content, o_open o (cf_file c) = inl content /\
    rising 1 (1 + newlines content) (error_lines (map ce_err (cf_errors c))).
Proof. exact parse_error_lines. Qed.
Print Assumptions C52_lines.
(** C52: the errors Parse itself returns. *)
Theorem C52_returned : forall fuel o filename e, parse_main fuel o filename = RErr e -> e = EOther "configs contain include cycle" \/ fatal o e.
Proof. exact parse_fatal. Qed.
Print Assumptions C52_returned.
(** C52: the text of a located error ends with file and line. *)
Theorem C52_text : forall what f l stmt block orig, err_string (EParse (PE what (Some f) (Some l) stmt block orig)) = what ++ location f l.
Proof. exact located_text. Qed.
Print Assumptions C52_text.

Definition locate_text : string :=
  "http { nope # c" ++ s_nl ++ "'a b' c;" ++ s_nl ++ "server {" ++ s_nl ++ "events; } }" ++ s_nl ++ "user" ++ s_nl ++ "x; last" ++ s_nl ++ "word".
Definition locate_opts (stop : bool) : popts :=
  Opts [] None (fun f => if String.eqb f "a" then inl locate_text else inr "missing") (fun _ => inl [])
    stop false false true true false false [Tables.lookup ossLatestDirectives] (fun _ => None) [].
(** Two rejected statements and an unfinished one. *)
Example C52_case : exists p, parse_main 5 (locate_opts false) "a" = ROk p /\
  map (fun e => err_string (py_err e)) (pl_errors p) =
    ["unknown directive ""nope"" in a:1"; """events"" directive is not allowed here in a:4"; "premature end of file in a:6"] /\
  map (fun e => match py_err e with EParse x => pe_stmt x | _ => "" end) (pl_errors p) = ["nope a b c"; "events "; ""].
Proof. eexists. split; [vm_compute; reflexivity|]. split; vm_compute; reflexivity. Qed.
Example C52_stop_case : exists e, parse_main 5 (locate_opts true) "a" = RErr e /\ err_string e = "unknown directive ""nope"" in a:1".
Proof. eexists. split; vm_compute; reflexivity. Qed.
(** The statement tells the line of a statement's first word from that of its end. *)
Definition nope_toks (a b : Z) : list token := [Tok "nope" a false None; Tok "x" b false None; Tok ";" b false None].
Example C52_wrong : ~ noted "a" [EParse (PE "unknown" (Some "a") (Some 2%Z) "nope x" "" None)] (nope_toks 1 2) /\
  noted "a" [EParse (PE "unknown" (Some "a") (Some 1%Z) "nope x" "" None)] (nope_toks 1 2).
Proof.
  split.
  - intros H. unfold nope_toks in H.
    assert (X : forall e0 us, noted "a" [EParse (PE "unknown" (Some "a") (Some 2%Z) "nope x" "" None)] us -> e0 = "nope x" ->
      Forall (fun t => t_line t = 2%Z -> prefix "nope" (t_val t) = false) us -> False).
    { clear. intros e0 us N E. subst. remember [_] as es eqn:E. induction N as [us|es t us H IH|e es t us stop rest O F S A H IH]; try discriminate; intros FA.
      - inversion FA; auto.
      - inversion E; subst. destruct A as (w & b & A). inversion A as [[W LN ST BL]]. inversion FA as [|? ? P]; subst. specialize (P (eq_sym LN)).
        destruct (t_val t) as [|c1 [|c2 [|c3 [|c4 v]]]]; cbn in *; try discriminate. inversion ST; subst; destruct v; discriminate. }
    eapply X; [exact H|reflexivity|]. repeat constructor; cbn; auto; discriminate.
  - apply (nt_stmt "a" _ [] (Tok "nope" 1 false None) [Tok "x" 2 false None] (Tok ";" 2 false None) []).
    + split; [reflexivity|]. right. split; [discriminate|reflexivity].
    + repeat constructor. intros [_ [H|[H|[H|[]]]]]; discriminate.
    + split; [reflexivity|]. cbn; auto.
    + exists "unknown", "". reflexivity.
    + constructor.
Qed.
