(** C87: Parse asks only about names that occur. *)
From Verif Require Import AskedProofs Tables.
Local Open Scope string_scope.

(** Lists of names to ignore and tables that answer the same about the words of the files lead
    to the same result, whatever it is. *)
Theorem C87_asked : forall o ignore sources default, (forall name, a_word o name -> same_about o (with_names o ignore sources default) name) ->
  forall fuel filename, parse_main fuel (with_names o ignore sources default) filename = parse_main fuel o filename.
Proof. exact main_about. Qed.
Print Assumptions C87_asked.
(** The order of the names to ignore does not matter, nor does repeating one. *)
Theorem C87_ignore_set : forall fuel o names filename, (forall n, In n (o_ignore o) <-> In n names) ->
  parse_main fuel (with_ignore o names) filename = parse_main fuel o filename.
Proof. exact ignore_set. Qed.
Print Assumptions C87_ignore_set.
(** Names that are not in the files do not matter. *)
Theorem C87_ignore_absent : forall fuel o names filename, (forall n, In n names -> ~ a_word o n) ->
  parse_main fuel (with_ignore o (names ++ o_ignore o)) filename = parse_main fuel o filename.
Proof. exact ignore_absent. Qed.
Print Assumptions C87_ignore_absent.

(** Two tables that differ in a name that does not occur, and a name to ignore that does not. *)
Definition c87_table (name : string) : option (list N) :=
  if String.eqb name "http" then Some [ngxMainConf .| ngxConfBlock .| ngxConfNoArgs]
  else if String.eqb name "gzip" then Some [ngxHTTPMainConf .| ngxConfFlag] else None.
Definition c87_larger (name : string) : option (list N) :=
  if String.eqb name "server" then Some [ngxHTTPMainConf .| ngxConfBlock .| ngxConfNoArgs] else c87_table name.
Definition c87_opts : popts :=
  Opts [] None (fun f => if String.eqb f "a" then inl "http { gzip on; bogus; }" else inr "no such file") (fun _ => inl [])
       false false false false true false false [c87_table] (fun _ => None) [].
Definition c87_other : popts := with_names c87_opts ["server"] [c87_larger] (fun _ => None).
Lemma c87_words : forall name, a_word c87_opts name -> In name ["http"; "{"; "gzip"; "on"; ";"; "bogus"; "}"].
Proof.
  intros name (f & text & t & OP & I & <-). cbn [o_open c87_opts] in OP. destruct (String.eqb f "a"); [|discriminate]. injection OP as <-.
  assert (L : map t_val (lex (o_lexers c87_opts) "http { gzip on; bogus; }") = ["http"; "{"; "gzip"; "on"; ";"; "bogus"; ";"; "}"]) by (vm_compute; reflexivity).
  apply (in_map t_val) in I. rewrite L in I. clear L. revert I. generalize (t_val t). intros n I. cbn [In] in *. tauto.
Qed.
Example C87_case : (forall name, a_word c87_opts name -> same_about c87_opts c87_other name) /\
  exists p, parse_main 5 c87_other "a" = ROk p /\
    List.length (pl_errors p) = 1%nat /\ flat_map (fun c => map d_name (cf_parsed c)) (pl_config p) = ["http"].
Proof.
  split.
  - intros name W. apply c87_words in W. cbn in W.
    repeat (destruct W as [<-|W]; [split; [cbn; intuition discriminate|split; reflexivity]|]). destruct W.
  - eexists. split; [vm_compute; reflexivity|]. split; reflexivity.
Qed.
