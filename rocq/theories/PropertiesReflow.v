(** C78: where lines end and how words are quoted does not matter. *)
From Verif Require Import SpecReflow ReflowProofs.
Local Open Scope string_scope.

(** Texts that divide into items of the same values have the same tokens, line numbers and needless quotes aside. *)
Theorem C78_tokens : forall s s', reflowed s s' -> Forall2 same_token (lex [] s) (lex [] s').
Proof. exact reflowed_tokens. Qed.
Print Assumptions C78_tokens.
(** With files of the same tokens, line numbers and needless quotes aside, Parse returns the same, line
    numbers aside, with any options and any external lexers. *)
Theorem C78_parse : forall fuel o op filename, (forall f, same_file (o_lexers o) (o_open o f) (op f)) ->
  same_result (parse_main fuel o filename) (parse_main fuel (with_open o op) filename).
Proof. exact reflow_main. Qed.
Print Assumptions C78_parse.
(** So white space between the items of any of the files can be changed at will, and quotes put around
    them or removed. *)
Theorem C78_texts : forall fuel o op filename, o_lexers o = [] ->
  (forall f, match o_open o f, op f with inl s, inl s' => reflowed s s' | inr m, inr m' => m = m' | _, _ => False end) ->
  same_result (parse_main fuel o filename) (parse_main fuel (with_open o op) filename).
Proof. exact reflow_texts. Qed.
Print Assumptions C78_texts.

(** Two files on one line each, and the same on several with some quotes; one of the statements is not known. *)
Definition one_line (f : string) : string + string :=
  if String.eqb f "a" then inl "x {y 1;include b;}" else if String.eqb f "b" then inl "z {" else inr "missing".
Definition many_lines (f : string) : string + string :=
  if String.eqb f "a" then inl ("x" ++ s_nl ++ "{" ++ s_nl ++ " 'y'" ++ s_nl ++ "1 ;" ++ s_nl ++ "include   ""b"" ;" ++ s_nl ++ "}" ++ s_nl)
  else if String.eqb f "b" then inl (s_nl ++ "z{" ++ s_cr ++ s_nl) else inr "missing".
Definition c78_opts : popts :=
  Opts [] None one_line (fun _ => inl []) false false false false true true true []
       (fun n => if String.eqb n "y" then None else Some [N.shiftl 511 24]%N) [].
Ltac c78_item := constructor; [split; [reflexivity|first [left; reflexivity|right; intros [S1|[r S1]]; [cbn in S1; intuition discriminate|discriminate S1]]]|].
Lemma c78_files : forall f, match one_line f, many_lines f with inl s, inl s' => reflowed s s' | inr m, inr m' => m = m' | _, _ => False end.
Proof.
  intros f. unfold one_line, many_lines. destruct (String.eqb f "a"); [|destruct (String.eqb f "b"); [|reflexivity]].
  - eexists [([], Word [Raw "x"]); ([" "], Sep "{"); ([], Word [Raw "y"]); ([" "], Word [Raw "1"]); ([], Sep ";");
      ([], Word (map Raw ["i"; "n"; "c"; "l"; "u"; "d"; "e"])); ([" "], Word [Raw "b"]); ([], Sep ";"); ([], Sep "}")], (Blank []),
      [([], Word [Raw "x"]); ([s_nl], Sep "{"); ([s_nl; " "], Quoted "'" [Raw "y"]); ([s_nl], Word [Raw "1"]); ([" "], Sep ";");
      ([s_nl], Word (map Raw ["i"; "n"; "c"; "l"; "u"; "d"; "e"])); ([" "; " "; " "], Quoted s_dq [Raw "b"]); ([" "], Sep ";"); ([s_nl], Sep "}")], (Blank [s_nl]).
    split; [|split; [|split; [cbn [map snd]; repeat c78_item; constructor|apply sn_blank]]]; (eexists _, ""; split; [apply repaired_valid; vm_compute; reflexivity|]; split; [now left|]; split; vm_compute; reflexivity).
  - eexists [([], Word [Raw "z"]); ([" "], Sep "{")], (Blank []), [([s_nl], Word [Raw "z"]); ([], Sep "{")], (Blank [s_nl]).
    split; [|split; [|split; [cbn [map snd]; repeat c78_item; constructor|apply sn_blank]]]; (eexists _, ""; split; [apply repaired_valid; vm_compute; reflexivity|]; split; [now left|]; split; vm_compute; reflexivity).
Qed.
Example C78_case : (forall f, match o_open c78_opts f, many_lines f with inl s, inl s' => reflowed s s' | inr m, inr m' => m = m' | _, _ => False end) /\
  exists p q, parse_main 9 c78_opts "a" = ROk p /\ parse_main 9 (with_open c78_opts many_lines) "a" = ROk q /\
    map py_line (pl_errors p) = [Some 1; Some 1]%Z /\ map py_line (pl_errors q) = [Some 3; Some 3]%Z /\
    map (fun c => map placeless (cf_parsed c)) (pl_config p) = map (fun c => map placeless (cf_parsed c)) (pl_config q) /\ p <> q.
Proof.
  split; [exact c78_files|]. eexists _, _. split; [vm_compute; reflexivity|]. split; [vm_compute; reflexivity|].
  split; [reflexivity|]. split; [reflexivity|]. split; [reflexivity|discriminate].
Qed.
(** The one message that has a line in it: that of an include directive without argument. *)
Example C78_message : exists e e', parse_main 9 (Opts [] None (fun _ => inl "include;") (fun _ => inl []) true false false false false false true [] (fun _ => None) []) "a" = RErr e /\
  parse_main 9 (Opts [] None (fun _ => inl (s_nl ++ "include;")) (fun _ => inl []) true false false false false false true [] (fun _ => None) []) "a" = RErr e' /\
  err_string e = "invalid number of arguments in ""include"" directive in a:1 in a:1" /\
  err_string e' = "invalid number of arguments in ""include"" directive in a:2 in a:2".
Proof. eexists _, _. split; [vm_compute; reflexivity|]. split; [vm_compute; reflexivity|]. split; reflexivity. Qed.
(** Quotes do matter around a brace, a semicolon and the mark of a comment. *)
Theorem C78_special_refuted : forall v, In v ["{"; "}"; ";"; "#x"] ->
  ~ Forall2 same_token (lex [] ("a " ++ s_dq ++ v ++ s_dq ++ " b;")) (lex [] ("a " ++ v ++ s_nl ++ " b;")).
Proof.
  intros v I H. repeat (destruct I as [<-|I]; [vm_compute in H; inversion H as [|t t' l l' T F]; subst; inversion F as [|t2 t2' l2 l2' T2 F2]; subst; inversion T2;
    try match goal with Q : true = false \/ ~ special _ |- _ => destruct Q as [Q|Q]; [discriminate Q|]; apply Q; first [left; cbn; now auto|right; eexists; reflexivity] end|]). destruct I.
Qed.
Print Assumptions C78_special_refuted.
