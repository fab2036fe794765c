(** C55: what Parse does with every configuration, well-formed or not. *)
From Verif Require Import SpecTotal TotalProofs ForestTools Tables TableProofs PropertiesForest PropertiesRead.
From Coq Require Import Lia.
Local Open Scope string_scope.

(** What Parse returns follows from the rules. *)
Theorem C55_follows : forall o filename fuel, parse_main fuel o filename <> RFuel ->
  exists K, returns o filename K (parse_main fuel o filename).
Proof. exact main_returns. Qed.
Print Assumptions C55_follows.
(** And what follows from the rules, with include paths of at most three names, is what Parse returns. *)
Theorem C55_exact : forall o filename K r, returns o filename K r -> short K ->
  exists n, forall fuel, n <= fuel -> parse_main fuel o filename = r.
Proof. exact returns_main. Qed.
Print Assumptions C55_exact.
Theorem C55_one : forall o filename K K' r r', returns o filename K r -> returns o filename K' r' -> short K -> short K' -> r = r'.
Proof. exact returns_one. Qed.
Print Assumptions C55_one.
(** The rules say something about every stream of tokens. *)
Theorem C55_total : forall o dir f path K toks, exists x, gives o dir f path K toks x.
Proof. exact gives_always. Qed.
Print Assumptions C55_total.

(** A statement ended by a closing brace, and a rejected block at the end of which the file is over. *)
Definition odd_text : string := "http { server { listen 80 } }
server { } user a;".
Definition odd_page : page :=
  Page "a" [dir3 "" "http" 1 [] None (Some [dir3 "" "server" 1 [] None (Some [])])]
    [err3 "directive ""listen"" is not terminated by "";""" "a" 1 "listen 80" "server";
     err3 """server"" directive is not allowed here" "a" 2 "server " "main"] [].
Definition tk (v : string) (l : Z) : token := Tok v l false None.
Lemma sentence_by : forall h args z term rest, t_err h = None -> hd_error (list_ascii_of_string (t_val h)) <> Some "#"%char ->
  t_val h <> "}" -> Forall plain args -> ends_with z term -> sentence (h :: args ++ z :: rest)%list h args term rest.
Proof.
  intros h args z term rest E H C P W. exists z. split; [reflexivity|]. split; [|auto]. split; [exact E|]. split.
  - intros (_ & c & X). apply H. now rewrite X.
  - now intros (_ & X & _).
Qed.
Ltac st h args z := eapply (sentence_by h args z);
  [reflexivity|discriminate|discriminate|repeat (apply Forall_cons; [right; cbn; intuition discriminate|]); apply Forall_nil|repeat split; cbn; auto].
Lemma objects_what : forall o path d term e w, plain_path path -> d_block d = None -> analyze o "" d term path = Some e -> w = pe_what e -> objects o path d term w.
Proof. intros. subst. now apply objects_by. Qed.
Lemma gives_eq : forall o dir f path K toks x y, gives o dir f path K toks x -> x = y -> gives o dir f path K toks y.
Proof. intros. now subst. Qed.
Example C55_case : let o := two_opts true odd_text "" in
  returns o "a" [("a", [])] (ROk (payload_of o [odd_page])) /\ short [("a", [])] /\
  parse_main 5 o "a" = ROk (payload_of o [odd_page]).
Proof.
  cbv zeta. set (o := two_opts true odd_text ""). split; [|split; [constructor; [cbn; lia|constructor]|vm_compute; reflexivity]].
  apply (rt_payload o "a" _ [odd_page]); [|intros (g & L)|reflexivity].
  2: { assert (N : forall x y, clos_trans string (SpecRead.leads [odd_page]) x y -> False); [|exact (N _ _ L)].
    induction 1 as [x y (h & I & _ & J)|]; auto. destruct I as [<-|[]]. destruct J. }
  unfold library. eapply (vo_whole o _ 0 [("a", [])] "a" [] [] odd_text _ _ _ _ [tk "user" 2; tk "a" 2; tk ";" 2]); [reflexivity|reflexivity|now split| |apply (vo_done o _ [("a", [])])].
  match goal with |- gives ?o ?d ?f ?p ?K ?F (Ends ?ds ?es ?ls ?K' ?r) => evalF F end.
  eapply gives_eq.
  { eapply gv_block.
    { st (tk "http" 1) (@nil token) (tk "{" 1). }
    { apply (tr_plain o _ _ _ _ _ _ _ []); [nomap|intros []|reflexivity|acc|nofollow|notif]. }
    { quiet. }
    { eapply gives_eq. eapply gv_block.
      { st (tk "server" 1) (@nil token) (tk "{" 1). }
      { apply (tr_plain o _ _ _ _ _ _ _ ["http"]); [nomap|intros []|reflexivity|acc|nofollow|notif]. }
      { quiet. }
      { eapply gv_closed.
        { st (tk "listen" 1) [tk "80" 1] (tk "}" 1). }
        { apply (tr_closed o _ _ _ _ _ _ _ ["http"; "server"] "directive ""listen"" is not terminated by "";""");
          [nomap|intros []|reflexivity|eapply objects_what; [apply plainb_plain; reflexivity|reflexivity|vm_compute; reflexivity|reflexivity]
          | |reflexivity|reflexivity].
          exists "directive ""listen""". reflexivity. } }
      { apply gv_close; [reflexivity|repeat split; cbn; auto]. }
      reflexivity. }
    { eapply (gv_dropped o _ _ _ _ _ (tk "server" 2) [] "{" _ false).
      { st (tk "server" 2) (@nil token) (tk "{" 2). }
      { apply (tr_rejected o _ _ _ _ _ _ _ [] """server"" directive is not allowed here"); [nomap|intros []|reflexivity
        |eapply objects_what; [apply plainb_plain; reflexivity|reflexivity|vm_compute; reflexivity|reflexivity]| |reflexivity].
        rewrite unfinished_suffix; vm_compute; congruence. }
      { reflexivity. }
      { apply gv_close; [reflexivity|repeat split; cbn; auto]. } } }
  reflexivity.
Qed.
