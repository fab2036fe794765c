(** C51: what Parse returns for a configuration, statement by statement. *)
From Verif Require Import SpecRead ReadProofs ForestTools Tables TableProofs PropertiesForest.
Local Open Scope string_scope.

(** Without CombineConfigs the payload is the one that shows the pages. *)
Theorem C51_pages : forall o filename l fuel, book o filename l -> uninterrupted o l -> List.length l <= fuel ->
  o_combine o = false -> ~ loops l ->
  parse_main fuel o filename = ROk (payload_of o l).
Proof. exact book_pages. Qed.
Print Assumptions C51_pages.
(** Parse fails on a configuration with pages exactly if they include each other in a circle. *)
Theorem C51_loop : forall o filename l fuel, book o filename l -> uninterrupted o l -> List.length l <= fuel ->
  (parse_main fuel o filename = RErr cycle_error <-> loops l).
Proof. exact book_loop. Qed.
Print Assumptions C51_loop.
(** With CombineConfigs the payload is the combination of the pages. *)
Theorem C51_combined : forall o filename l, book o filename l -> uninterrupted o l -> o_combine o = true -> ~ loops l ->
  exists n, forall fuel, n <= fuel -> exists p g0, hd_error l = Some g0 /\
    parse_main fuel o filename = ROk p /\ combination (payload_of o l) p (config_of g0).
Proof. exact book_combined. Qed.
Print Assumptions C51_combined.

Definition book_a : string := "http { # c
  map $x $y { default 1; bad 1 2 3; }
  include b # d
    ;
  listen 80;
  server { if ( $a = b ) { return 404; } }
}
include c;".
Definition book_b : string := "charset utf-8;
server { listen 80;
  include b c".
Definition dir3 (lab n : string) (l : Z) (args : list string) (i : option (list Z)) (b : option (list directive)) : directive :=
  Dir n l args lab i b None false.
Definition err3 (what f : string) (l : Z) (stmt block : string) : goerr := EParse (PE what (Some f) (Some l) stmt block None).
Definition errors_a : list goerr :=
  [err3 "invalid number of parameters" "a" 2 "bad 1 2 3" "map";
   err3 """listen"" directive is not allowed here" "a" 5 "listen 80" "http";
   err3 "missing" "a" 8 "include c" "main"].
Definition error_b : goerr := EParse (PE "premature end of file" (Some "b") (Some 3%Z) "" "server" (Some "premature end of file")).
Definition pages_ab (lab : string) : list page :=
  [Page "a"
     [dir3 lab "http" 1 [] None (Some
        [note lab 1 " c";
         dir3 lab "map" 2 ["$x"; "$y"] None (Some [Dir "default" 2 ["1"] lab None None None true]);
         dir3 lab "include" 3 ["b"] (Some [1%Z]) None;
         note lab 3 " d";
         dir3 lab "server" 6 [] None (Some
           [dir3 lab "if" 6 ["$a"; "="; "b"] None (Some [dir3 lab "return" 6 ["404"] None None])])]);
      dir3 lab "include" 8 ["c"] None None]
     errors_a ["b"];
   Page "b" [] [error_b] []].
Ltac evalF F := let a := eval vm_compute in F in change F with a.
Ltac no_magic := intros (x & c & y & X & I); vm_compute in X;
  repeat (destruct x as [|? x]; [injection X as <- _; cbn in I; intuition discriminate|injection X as _ X]); 
  destruct x; discriminate.
(** What is said against a statement, computed. *)
Lemma objects_by : forall o path d term e, plain_path path -> d_block d = None -> analyze o "" d term path = Some e -> objects o path d term (pe_what e).
Proof.
  intros o path d term e PP NB A. destruct (proj1 (analyze_says o "" d term path e PP NB) A) as (w & W & E). inversion E. exact W.
Qed.
Ltac objs := eapply objects_by; [apply plainb_plain; reflexivity|reflexivity|vm_compute; reflexivity].
Ltac quiet_what := rewrite unfinished_suffix; vm_compute; split; congruence.
Ltac odd := intros [r X]; vm_compute in X; destruct r as [|? [|? [|? [|? [|? [|? [|? ?]]]]]]]; discriminate.
Lemma no_remarks : forall args, Forall (fun t => ~ hash t) args -> remarks args [].
Proof. induction 1; constructor; auto. Qed.
Ltac nohash := let H := fresh in intros H; vm_compute in H; destruct H as [_ [? H]]; discriminate.
Ltac quiet := eexists []; split; [apply no_remarks; repeat constructor; nohash|reflexivity].
Ltac notif := split; [discriminate|reflexivity].
Ltac inmap := split; [discriminate|vm_compute; tauto].
Lemma reads_eq : forall o dir f path K F ds es ls K1 ds' es' ls' K1', reads o dir f path K F ds es ls K1 ->
  ds = ds' -> es = es' -> ls = ls' -> K1 = K1' -> reads o dir f path K F ds' es' ls' K1'.
Proof. intros. now subst. Qed.
Ltac nofollow := intros [? _]; discriminate.
Example C51_case : let o := two_opts true book_a book_b in
  book o "a" (pages_ab "") /\ uninterrupted o (pages_ab "") /\ ~ loops (pages_ab "").
Proof.
  cbv zeta. set (o := two_opts true book_a book_b). split; [|split; [now left|]].
  - unfold book. change (dir_name "a") with ".". unfold pages_ab.
    eapply (pg_whole o "." 0 [("a", [])] "a" [] book_a (forest_of (lex [] book_a)) _ errors_a _ [("a", []); ("b", ["http"])]).
    1: reflexivity. 1: reflexivity. 1: vm_compute; reflexivity. 1: apply all_wf; vm_compute; reflexivity.
    1: constructor. 1: cbn; auto with arith.
    + match goal with |- reads _ _ _ _ _ ?F _ _ _ _ => evalF F end.
      eapply reads_eq.
      { eapply rd_block; [nomap|intros []|acc|nofollow|notif|quiet|apply plainb_plain; reflexivity| |].
        - apply (rd_comment o "." "a" _ _ _ " c"); [reflexivity|].
          eapply rd_block; [nomap|intros []|acc|nofollow|notif|quiet|apply plainb_plain; reflexivity| |].
          { apply rd_entry; [inmap|cbn; auto|]. eapply rd_bad_entry; [inmap|apply oe_count; [reflexivity|intros E; vm_compute in E; discriminate]|apply rd_nil]. }
          eapply (rd_include _ _ _ _ _ _ _ _ "b" [] ["b"] [1%Z] [note "" 3 " d"]); [nomap|intros []|acc|now split|reflexivity| |right; discriminate| | |].
          { change ["b"] with [path_of "." "b"]. eapply tg_file; [no_magic|reflexivity]. }
          { apply (nu_new ["http"] [("a", [])] "b"); [cbn; intuition discriminate|apply nu_nil]. }
          { exists [" d"]; split; [|reflexivity]. apply rm_word; [nohash|]. eapply rm_comment; [reflexivity|reflexivity|constructor]. }
          eapply rd_rejected; [nomap|intros []|objs|quiet_what|].
          eapply rd_block; [nomap|intros []|acc|nofollow|notif|quiet|apply plainb_plain; reflexivity| |apply rd_nil].
          eapply rd_block; [nomap|intros []|acc|nofollow| |quiet|apply plainb_plain; reflexivity| |apply rd_nil].
          { split; [|intros N; exfalso; apply N; reflexivity]. intros _. apply (if_many "" ["$a"; "="; "b"] "" "" "").
            - exists "". split; [reflexivity|]. split; [split; [reflexivity|constructor]|]. intros (r & l & X & _). discriminate.
            - exists "". split; [reflexivity|]. split; [split; [reflexivity|constructor]|]. intros (r & l & X & _). destruct l; discriminate. }
          eapply rd_simple; [nomap|intros []|acc|nofollow|notif|quiet|apply rd_nil].
        - eapply (rd_missing _ _ _ _ _ _ _ _ "c" []); [nomap|intros []|acc|now split|reflexivity|no_magic|reflexivity|quiet|apply rd_nil]. }
      all: reflexivity.
    + eapply (pg_broken o "." 1 [("a", []); ("b", ["http"])] "b" ["http"] book_b [] _ []); [reflexivity|reflexivity|apply plainb_plain; reflexivity|cbn; auto with arith| |apply (pg_done o "." [("a", []); ("b", ["http"])])].
      match goal with |- breaks _ _ _ _ _ ?F _ _ _ _ => evalF F end.
      eapply (br_after _ _ _ _ _ [SStm (Tok "charset" 1 false None) [Tok "utf-8" 1 false None] 1 None]
        [dir3 "" "charset" 1 ["utf-8"] None None] [] [] _
        [Tok "server" 2 false None; Tok "{" 2 false None; Tok "listen" 2 false None; Tok "80" 2 false None; Tok ";" 2 false None;
         Tok "include" 3 false None; Tok "b" 3 false None; Tok "c" 3 false None;
         Tok "" 3 false (Some (EParse (PE ("unexpected end of file, expecting " ++ dq ++ "}" ++ dq) (Some "lexer") (Some 3%Z) "" "" None)))] [] error_b []).
      * apply all_wf; vm_compute; reflexivity.
      * eapply reads_eq; [eapply rd_simple; [nomap|intros []|acc|nofollow|notif|quiet|apply rd_nil]|reflexivity..].
      * eapply (br_inside _ _ _ _ _ (Tok "server" 2 false None) []); [reflexivity|right; cbn; intuition discriminate|nohash|constructor|nomap|intros []|acc|nofollow|notif|apply plainb_plain; reflexivity|].
        eapply (br_after _ _ _ _ _ [SStm (Tok "listen" 2 false None) [Tok "80" 2 false None] 2 None]
          [dir3 "" "listen" 2 ["80"] None None] [] [] _
          [Tok "include" 3 false None; Tok "b" 3 false None; Tok "c" 3 false None;
         Tok "" 3 false (Some (EParse (PE ("unexpected end of file, expecting " ++ dq ++ "}" ++ dq) (Some "lexer") (Some 3%Z) "" "" None)))] [] error_b []).
        { apply all_wf; vm_compute; reflexivity. }
        { eapply reads_eq; [eapply rd_simple; [nomap|intros []|acc|nofollow|notif|quiet|apply rd_nil]|reflexivity..]. }
        change error_b with (end_of_file "b" (below ["http"] "server") 3).
        apply (br_unfinished _ _ _ _ _ (Tok "include" 3 false None)); [reflexivity|right; cbn; intuition discriminate|nohash|].
        repeat (apply Forall_cons; [right; cbn; intuition discriminate|]). apply Forall_nil.
  - intros [x C]. assert (E : x = "a" /\ x = "b"); [|destruct E; congruence].
    assert (L : forall x y, clos_trans string (leads (pages_ab "")) x y -> x = "a" /\ y = "b").
    { induction 1 as [x' y' (g & I & <- & J)|x' y' z' _ [A B] _ [A' B']]; [|congruence].
      destruct I as [<-|[<-|[]]]; [destruct J as [<-|[]]; now split|destruct J]. }
    exact (L _ _ C).
Qed.
(** Two files that include each other. *)
Definition pages_loop : list page :=
  [Page "a" [dir3 "" "include" 1 ["b"] (Some [1%Z]) None] [] ["b"];
   Page "b" [dir3 "" "include" 1 ["a"] (Some [0%Z]) None] [] ["a"]].
Example C51_loop_case : let o := two_opts true "include b;" "include a;" in
  book o "a" pages_loop /\ uninterrupted o pages_loop /\ loops pages_loop.
Proof.
  cbv zeta. set (o := two_opts true "include b;" "include a;"). split; [|split; [now left|]].
  - unfold book. change (dir_name "a") with ".". unfold pages_loop.
    eapply (pg_whole o "." 0 [("a", [])] "a" [] "include b;" (forest_of (lex [] "include b;")) _ [] _ [("a", []); ("b", [])]).
    1: reflexivity. 1: reflexivity. 1: vm_compute; reflexivity. 1: apply all_wf; vm_compute; reflexivity.
    1: constructor. 1: cbn; auto with arith.
    + match goal with |- reads _ _ _ _ _ ?F _ _ _ _ => evalF F end.
      eapply reads_eq; [eapply (rd_include _ _ _ _ _ _ _ _ "b" [] ["b"] [1%Z]); [nomap|intros []|acc|now split|reflexivity| |right; discriminate| |quiet|apply rd_nil]|reflexivity..].
      * change ["b"] with [path_of "." "b"]. eapply tg_file; [no_magic|reflexivity].
      * apply (nu_new [] [("a", [])] "b"); [cbn; intuition discriminate|apply nu_nil].
    + eapply (pg_whole o "." 1 _ "b" [] "include a;" (forest_of (lex [] "include a;")) _ [] _ [("a", []); ("b", [])]).
      1: reflexivity. 1: reflexivity. 1: vm_compute; reflexivity. 1: apply all_wf; vm_compute; reflexivity.
      1: constructor. 1: cbn; auto with arith.
      * match goal with |- reads _ _ _ _ _ ?F _ _ _ _ => evalF F end.
        eapply reads_eq; [eapply (rd_include _ _ _ _ _ _ _ _ "a" [] ["a"] [0%Z]); [nomap|intros []|acc|now split|reflexivity| |right; discriminate| |quiet|apply rd_nil]|reflexivity..].
        -- change ["a"] with [path_of "." "a"]. eapply tg_file; [no_magic|reflexivity].
        -- apply (nu_old [] [("a", []); ("b", [])] 0 "a" []); [reflexivity|apply nu_nil].
      * apply (pg_done o "." [("a", []); ("b", [])]).
  - exists "a". apply (t_trans _ _ "a" "b"); apply t_step; eexists.
    + split; [left; reflexivity|]. split; [reflexivity|now left].
    + split; [right; left; reflexivity|]. split; [reflexivity|now left].
Qed.
Definition comb_opts (a b : string) : popts :=
  Opts [] None (two_files a b) (fun _ => inl []) false true false true true false false [] default_match [].
Definition pages_comb : list page :=
  [Page "a" [dir3 "a" "events" 1 [] None (Some []); dir3 "a" "include" 1 ["b"] (Some [1%Z]) None] [] ["b"];
   Page "b" [dir3 "b" "user" 1 ["x"] None None] [] []].
Example C51_combined_case : let o := comb_opts "events { } include b;" "user x;" in
  book o "a" pages_comb /\ uninterrupted o pages_comb /\ o_combine o = true /\ ~ loops pages_comb.
Proof.
  cbv zeta. set (o := comb_opts "events { } include b;" "user x;"). split; [|split; [now left|split; [reflexivity|]]].
  - unfold book. change (dir_name "a") with ".". unfold pages_comb.
    eapply (pg_whole o "." 0 [("a", [])] "a" [] "events { } include b;" (forest_of (lex [] "events { } include b;")) _ [] _ [("a", []); ("b", [])]).
    1: reflexivity. 1: reflexivity. 1: vm_compute; reflexivity. 1: apply all_wf; vm_compute; reflexivity.
    1: constructor. 1: cbn; auto with arith.
    + match goal with |- reads _ _ _ _ _ ?F _ _ _ _ => evalF F end.
      eapply reads_eq; [eapply rd_block; [nomap|intros []|acc|nofollow|notif|quiet|apply plainb_plain; reflexivity|apply rd_nil|];
        eapply (rd_include _ _ _ _ _ _ _ _ "b" [] ["b"] [1%Z]); [nomap|intros []|acc|now split|reflexivity| |right; discriminate| |quiet|apply rd_nil]|reflexivity..].
      * change ["b"] with [path_of "." "b"]. eapply tg_file; [no_magic|reflexivity].
      * apply (nu_new [] [("a", [])] "b"); [cbn; intuition discriminate|apply nu_nil].
    + eapply (pg_whole o "." 1 _ "b" [] "user x;" (forest_of (lex [] "user x;")) _ [] _ [("a", []); ("b", [])]).
      1: reflexivity. 1: reflexivity. 1: vm_compute; reflexivity. 1: apply all_wf; vm_compute; reflexivity.
      1: constructor. 1: cbn; auto with arith.
      * match goal with |- reads _ _ _ _ _ ?F _ _ _ _ => evalF F end.
        eapply reads_eq; [eapply rd_simple; [nomap|intros []|acc|nofollow|notif|quiet|apply rd_nil]|reflexivity..].
      * apply (pg_done o "." [("a", []); ("b", [])]).
  - intros [x C]. assert (E : x = "a" /\ x = "b"); [|destruct E; congruence].
    assert (L : forall x y, clos_trans string (leads pages_comb) x y -> x = "a" /\ y = "b").
    { induction 1 as [x' y' (g & I & <- & J)|x' y' z' _ [A B] _ [A' B']]; [|congruence].
      destruct I as [<-|[<-|[]]]; [destruct J as [<-|[]]; now split|destruct J]. }
    exact (L _ _ C).
Qed.
