(** Properties of Build (C08). *)
From Verif Require Import EnquoteProofs.
Local Open Scope string_scope.

(** C08: exactly the arguments of a decidable class are read back. *)
Theorem C08_class : forall pr s, ascii_right pr ->
  (reads_back (enquote pr s) s <-> (if String.eqb (enquote pr s) s then bare_word s else quotable pr s) = true).
Proof. exact enquote_class. Qed.
Print Assumptions C08_class.
(** In particular printable text without backslashes that does not start a comment. *)
Theorem C08_plain : forall pr s, ascii_right pr -> valid_utf8 s = true -> forallb pr (runes s) = true ->
  str_exists (Ascii.eqb "\"%char) s = false -> has_prefix s "#" = false -> reads_back (enquote pr s) s.
Proof. exact plain_reads. Qed.
Print Assumptions C08_plain.
Definition ascii_print (n : N) : bool := in_rng 32 126 n.
Example C08_cases : ascii_right ascii_print /\
  let s := "a 'b' " ++ s_dq ++ "${c}; \d" in
  enquote ascii_print s <> s /\ quotable ascii_print s = true /\ reads_back (enquote ascii_print s) s /\
  enquote ascii_print "a\;b$x#" = "a\;b$x#" /\ bare_word "a\;b$x#" = true /\ reads_back "a\;b$x#" "a\;b$x#".
Proof.
  split; [intros n _; reflexivity|]. intros s. split; [vm_compute; discriminate|]. split; [vm_compute; reflexivity|]. split; [exists true; vm_compute; reflexivity|].
  split; [vm_compute; reflexivity|]. split; [vm_compute; reflexivity|]. exists false. vm_compute. reflexivity.
Qed.
(** Outside the class: a leading '#', an odd run of backslashes at the end of a quoted
    text or before a single quote, an even run before a separator, control characters. *)
Theorem C08_outside_refuted : forall pr, ascii_right pr ->
  Forall (fun s => ~ reads_back (enquote pr s) s) ["#a"; "a b\"; "\'" ++ s_dq; "\\;x"; "a" ++ s_nl; str1 "255"].
Proof.
  intros pr A. assert (X : forall s, (if needs_quote s then forallb (in_rng 32 126) (runes s) && even_runs (has_dq s) false s && valid_utf8 s else bare_word s)%bool = false ->
    forallb (in_rng 0 127) (runes s) || negb (valid_utf8 s) = true -> ~ reads_back (enquote pr s) s).
  { intros s H AS R. apply (enquote_exact pr s A) in R. destruct (needs_quote s); [|congruence]. unfold quotable in R. rewrite !andb_true_iff in R. destruct R as [[V P] E].
    rewrite V, E in *. rewrite !andb_true_r in H. cbn [negb] in AS. rewrite orb_false_r in AS. assert (Y : forallb (in_rng 32 126) (runes s) = true); [|congruence].
    apply forallb_forall. intros n I. rewrite forallb_forall in P, AS. rewrite <- A; auto. specialize (AS n I). unfold in_rng in AS. apply andb_true_iff in AS as [_ L]. apply N.leb_le in L. lia. }
  repeat (apply Forall_cons; [apply X; vm_compute; reflexivity|]). constructor.
Qed.
Print Assumptions C08_outside_refuted.
