(** Property theorems about goroutines and channels (lex.go, lua.go, util.go). *)
From Verif Require Import Lua SpecLua Tables TableProofs Main ChanParse SpecOwn TidyProofs.
Import ListNotations.
Local Open Scope list_scope.

(** C05.  [l] is what tokenize does to its channel, [cap] the capacity of the
    channel, [C] any receiver: after any schedule it has been given a prefix of
    the tokens, in order, or all of them followed by reports of the end, and its
    state is the one it would have in a sequential run. *)
Theorem C05_prefix : forall l (C : consumer token) cap s0 n g s h,
  run C n (start cap (lexer_code l), s0, []) (g, s, h) ->
  exists k, h = given (flat_map send_tokens l) k /\ s = fed C s0 (flat_map send_tokens l) k.
Proof.
  intros l C cap s0 n g s h H. destruct (prefix_ _ _ _ _ _ _ _ _ H) as (k & A & B & _).
  rewrite lexer_delivers in *. exists k; auto.
Qed.
Print Assumptions C05_prefix.

(** As long as the receiver is not done something can happen. *)
Theorem C05_no_deadlock : forall l (C : consumer token) cap s0 n g s h,
  run C n (start cap (lexer_code l), s0, []) (g, s, h) -> c_done C s = false ->
  exists z, sstep C (g, s, h) z.
Proof. intros l C cap. exact (no_deadlock C cap (lexer_code l)). Qed.
Print Assumptions C05_no_deadlock.

(** Only finitely much can happen between receives, so every schedule gets the
    receiver done if enough values make it done. *)
Theorem C05_bounded : forall l (C : consumer token) cap s0 n g s h,
  run C n (start cap (lexer_code l), s0, []) (g, s, h) -> n <= work (lexer_code l) + length h.
Proof. intros l C cap. exact (terminates C cap (lexer_code l)). Qed.
Print Assumptions C05_bounded.
Theorem C05_finishes : forall l (C : consumer token) cap s0 k n y,
  c_done C (fed C s0 (flat_map send_tokens l) k) = true ->
  run C n (start cap (lexer_code l), s0, []) y ->
  exists m g s h, run C m y (g, s, h) /\ c_done C s = true.
Proof.
  intros l C cap s0 k n y H. rewrite <- lexer_delivers in H.
  exact (finishes C cap (lexer_code l) s0 k n y H).
Qed.
Print Assumptions C05_finishes.

(** A receiver that drains the channel has exactly the tokens and one report of
    the end. *)
Theorem C05_drained : forall l cap n g s h,
  run drainer n (start cap (lexer_code l), ([], false), []) (g, s, h) -> snd s = true ->
  fst s = flat_map send_tokens l /\ h = map Some (flat_map send_tokens l) ++ [None] /\ ended g = true.
Proof.
  intros l cap n g s h H D. rewrite <- lexer_delivers. exact (drained cap (lexer_code l) n g s h H D).
Qed.
Print Assumptions C05_drained.

(** Neither the schedule nor the capacities matter to a receiver: two lexers
    that send the same tokens, over whatever channels, leave it in the same
    state. *)
Theorem C05_determined : forall l1 l2 (C : consumer token) cap1 cap2 s0 n1 n2 g1 g2 s1 s2 h1 h2,
  flat_map send_tokens l1 = flat_map send_tokens l2 ->
  run C n1 (start cap1 (lexer_code l1), s0, []) (g1, s1, h1) -> c_done C s1 = true ->
  run C n2 (start cap2 (lexer_code l2), s0, []) (g2, s2, h2) -> c_done C s2 = true ->
  s1 = s2 /\ h1 = h2.
Proof.
  intros l1 l2 C cap1 cap2 s0 n1 n2 g1 g2 s1 s2 h1 h2 E.
  rewrite <- !lexer_delivers in E. exact (determined_same C cap1 cap2 _ _ s0 n1 n2 g1 g2 s1 s2 h1 h2 E).
Qed.
Print Assumptions C05_determined.

(** The tokens of a text with a Lua block: two of the lexer's own, three handed
    on from an unbuffered channel, one more of its own. *)
Definition lua_text : string := "content_by_lua_block { x } y;".
Definition ex_sends : list send :=
  match lex lua_lexers lua_text with
  | a :: b :: c :: d => [Own a; Ext 0 [Own b; Own c]] ++ map Own d
  | _ => []
  end.
Example C05_case : flat_map send_tokens ex_sends = lex lua_lexers lua_text /\
  length (lex lua_lexers lua_text) = 5 /\
  forall cap, exists m g s h,
    run drainer m (start cap (lexer_code ex_sends), ([], false), []) (g, s, h) /\ snd s = true.
Proof.
  split; [vm_compute; reflexivity|]. split; [vm_compute; reflexivity|]. intro cap.
  apply (C05_finishes ex_sends drainer cap ([], false) 6 0); [vm_compute; reflexivity|constructor].
Qed.

(** C41, what holds.  When the receiver has seen the end of the channel, the
    lexing goroutine and all goroutines of external lexers have returned. *)
Theorem C41_drained_partial : forall l (C : consumer token) cap s0 n g s h,
  run C n (start cap (lexer_code l), s0, []) (g, s, h) -> In None h -> live g = 0.
Proof. intros l C cap s0 n g s h. exact (none_left C cap _ s0 n g s h (lexer_patient l)). Qed.
Print Assumptions C41_drained_partial.

(** The parser leaves the channel as soon as its result is known: the tokens it
    has not read do not matter. *)
Theorem C41_unread : forall o dir ctx toks st,
  let res := parse o dir (S (length toks)) ctx toks st in
  unread res = [] \/
  exists pre, toks = pre ++ unread res /\
    forall r, parse o dir (S (length (pre ++ r))) ctx (pre ++ r) st = with_rest res r.
Proof. exact parse_reads. Qed.
Print Assumptions C41_unread.

(** The exact criterion.  The parser has returned [res] after reading what it
    reads; when nothing more happens, the goroutines have returned if and only
    if the tokens left unread fit into the channel's buffer. *)
Theorem C41_criterion_partial : forall o dir ctx st content l cap n g s h g',
  flat_map send_tokens l = lex (o_lexers o) content ->
  let toks := lex (o_lexers o) content in
  let res := parse o dir (S (length toks)) ctx toks st in
  let reader := leaver (length toks - length (unread res)) in
  run reader n (start cap (lexer_code l), 0, []) (g, s, h) -> c_done reader s = true ->
  steps g g' -> at_rest g' ->
  (live g' = 0 <-> length (unread res) <= cap).
Proof. exact parse_criterion. Qed.
Print Assumptions C41_criterion_partial.

(** And it does come to rest. *)
Theorem C41_rests : forall g : gor token, exists g', steps g g' /\ at_rest g'.
Proof. exact rests. Qed.
Print Assumptions C41_rests.

Fixpoint times (n : nat) (s : string) : string :=
  match n with O => EmptyString | S n => append s (times n s) end.
Definition leak_opts (stop : bool) (text : string) : popts :=
  Opts [] None (fun _ => inl text) (fun _ => inl []) stop false false false false false false [] default_match [].

(** C41 is false: with StopParsingOnError, Parse returns after two of 2200
    tokens and the lexing goroutine is never able to return, in any schedule. *)
Theorem C41_refuted : exists o filename e toks,
  parse_main 5 o filename = RErr e /\
  toks = lex [] (times 1100 "listen;") /\ o_open o filename = inl (times 1100 "listen;"%string) /\
  length (unread (parse o (dir_name filename) (S (length toks)) (Slice 0 0) toks
     (set_cur (set_queue (init_state filename) []) (Cfg filename "ok" [] [])))) = 2198 /\
  (exists n g s h, run (leaver 2) n (start default_cap (lexer_code (map Own toks)), 0, []) (g, s, h)
     /\ c_done (leaver 2) s = true) /\
  forall n g s h g', run (leaver 2) n (start default_cap (lexer_code (map Own toks)), 0, []) (g, s, h) ->
    c_done (leaver 2) s = true -> steps g g' -> live g' <> 0.
Proof.
  exists (leak_opts true (times 1100 "listen;")), "a"%string. eexists. eexists.
  split; [vm_compute; reflexivity|]. split; [reflexivity|]. split; [reflexivity|].
  split; [vm_compute; reflexivity|].
  assert (L : length (lex [] (times 1100 "listen;")) = 2200) by (vm_compute; reflexivity).
  set (toks := lex [] (times 1100 "listen;")) in *. clearbody toks.
  split.
  - destruct (C05_finishes (map Own toks) (leaver 2) default_cap 0 2 0 (start default_cap (lexer_code (map Own toks)), 0, []))
      as (m & g & s & h & R & D); [|constructor|exists m, g, s, h; auto].
    destruct toks as [|t1 [|t2 toks]]; [discriminate L|discriminate L|reflexivity].
  - intros n g s h g' R D ST. eapply stays; [exact R|exact ST|].
    rewrite (leaver_len _ _ _ _ _ _ _ R D), lexer_delivers, own_tokens, L. apply Nat.ltb_lt. vm_compute. reflexivity.
Qed.
Print Assumptions C41_refuted.

(** Also without StopParsingOnError: the block of a rejected directive is not
    skipped, its closing brace ends the file, and the rest stays unread. *)
Theorem C41_brace_refuted : exists o filename p toks,
  o_stop o = false /\ parse_main 5 o filename = ROk p /\
  map (fun c => length (cf_parsed c)) (pl_config p) = [0] /\
  toks = lex [] ("server { }" ++ times 1100 "user x;") /\
  o_open o filename = inl ("server { }" ++ times 1100 "user x;")%string /\
  length (unread (parse o (dir_name filename) (S (length toks)) (Slice 0 0) toks
     (set_cur (set_queue (init_state filename) []) (Cfg filename "ok" [] [])))) = 3300 /\
  default_cap < 3300.
Proof.
  exists (leak_opts false ("server { }" ++ times 1100 "user x;")), "a"%string. eexists. eexists.
  split; [reflexivity|]. split; [vm_compute; reflexivity|]. split; [vm_compute; reflexivity|].
  split; [reflexivity|]. split; [reflexivity|].
  split; [vm_compute; reflexivity|apply Nat.ltb_lt; vm_compute; reflexivity].
Qed.
Print Assumptions C41_brace_refuted.

(** C47: Payload.Combined under every schedule of its goroutines. *)
Theorem C47_result : forall fuel old f block n g s h,
  run combiner n (start 0 (includes_code fuel old f block), Reading [], []) (g, s, h) ->
  c_done combiner s = true ->
  match perform fuel old f block with
  | COk ds => s = Returned (COk ds) /\ live g = 0
  | CErr e => s = Returned (CErr e)
  | _ => True
  end.
Proof. intros fuel old f block n. exact (combined_schedules fuel old f block n 0). Qed.
Print Assumptions C47_result.
Theorem C47_no_deadlock : forall fuel old f block n g s h,
  run combiner n (start 0 (includes_code fuel old f block), Reading [], []) (g, s, h) ->
  c_done combiner s = false -> exists z, sstep combiner (g, s, h) z.
Proof. intros fuel old f block. exact (no_deadlock combiner 0 (includes_code fuel old f block) (Reading [])). Qed.
Print Assumptions C47_no_deadlock.
Theorem C47_bounded : forall fuel old f block n g s h,
  run combiner n (start 0 (includes_code fuel old f block), Reading [], []) (g, s, h) ->
  n <= work (includes_code fuel old f block) + S (length (delivers (includes_code fuel old f block))).
Proof. intros fuel old f block n. exact (combined_bounded fuel old f block n 0). Qed.
Print Assumptions C47_bounded.

Definition ex_dir (name : string) (is : option (list Z)) (b : option (list directive)) : directive :=
  Dir name 1 [] EmptyString is b None false.
Definition ex_cfgs (i : Z) : list config :=
  [Cfg "a" "ok" [] [ex_dir "include" (Some [1%Z]) None; ex_dir "http" None (Some [ex_dir "x" None None])];
   Cfg "b" "ok" [] [ex_dir "y" None None; ex_dir "include" (Some [i]) None];
   Cfg "c" "ok" [] [ex_dir "z" None None]].
Example C47_case : exists ds n g s h, perform 5 (ex_cfgs 2) "a" (cf_parsed (hd (Cfg "" "" [] []) (ex_cfgs 2))) = COk ds /\
  length ds = 3 /\
  run combiner n (start 0 (includes_code 5 (ex_cfgs 2) "a" (cf_parsed (hd (Cfg "" "" [] []) (ex_cfgs 2)))), Reading [], []) (g, s, h) /\
  c_done combiner s = true.
Proof.
  eexists. set (p := includes_code 5 (ex_cfgs 2) "a" _).
  destruct (finishes combiner 0 p (Reading []) 4 0 (start 0 p, Reading [], [])) as (m & g & s & h & R & D);
    [vm_compute; reflexivity|constructor|].
  exists m, g, s, h. split; [vm_compute; reflexivity|]. split; [reflexivity|]. split; [exact R|exact D].
Qed.

(** A payload with an index out of range in an included file: Combined returns
    the error, and the goroutine of the including file is blocked for ever on
    its next directive. *)
Theorem C47_error_refuted : exists old f block e n g s h,
  perform 5 old f block = CErr e /\
  run combiner n (start 0 (includes_code 5 old f block), Reading [], []) (g, s, h) /\
  s = Returned (CErr e) /\ forall g', steps g g' -> live g' <> 0.
Proof.
  exists (ex_cfgs 7), "a"%string, (cf_parsed (hd (Cfg "" "" [] []) (ex_cfgs 7))). eexists.
  set (p := includes_code 5 (ex_cfgs 7) "a" _).
  destruct (finishes combiner 0 p (Reading []) 2 0 (start 0 p, Reading [], [])) as (m & g & s & h & R & D);
    [vm_compute; reflexivity|constructor|].
  assert (P : perform 5 (ex_cfgs 7) "a" (cf_parsed (hd (Cfg "" "" [] []) (ex_cfgs 7))) =
              CErr (index_error "b" (ex_dir "include" (Some [7%Z]) None) 7)) by (vm_compute; reflexivity).
  exists m, g, s, h. split; [exact P|]. split; [exact R|].
  split.
  - pose proof (combined_schedules _ _ _ _ _ _ _ _ _ R D) as X. rewrite P in X. exact X.
  - intros g' ST. eapply stays; [exact R|exact ST|].
    destruct (prefix_ _ _ _ _ _ _ _ _ R) as (k & A & B & E).
    rewrite A, given_len. assert (LD : length (delivers p) = 3) by (vm_compute; reflexivity).
    destruct (Nat.le_gt_cases k 2) as [L|L]; [rewrite LD; apply Nat.lt_succ_r; rewrite Nat.add_0_r; exact L|].
    exfalso. specialize (E 2 L). assert (X : c_done combiner (fed combiner (Reading []) (delivers p) 2) = true)
      by (vm_compute; reflexivity). rewrite X in E. discriminate E.
Qed.
Print Assumptions C47_error_refuted.
(** When the error arises in the tree of the first file itself, at any depth, every
    goroutine ends. *)
Theorem C47_own_error : forall fuel old f block n g s h g', own_error old f block -> perform fuel old f block <> CFuel ->
  run combiner n (start 0 (includes_code fuel old f block), Reading [], []) (g, s, h) -> c_done combiner s = true ->
  steps g g' -> at_rest g' -> live g' = 0.
Proof. intros fuel old f block n. exact (own_error_clean fuel old f block n 0). Qed.
Print Assumptions C47_own_error.
Definition ex_own : list directive :=
  [ex_dir "include" (Some [0%Z]) None; ex_dir "http" None (Some [ex_dir "x" None None; ex_dir "include" (Some [0; 7]%Z) None; ex_dir "y" None None]);
   ex_dir "z" None None].
Example C47_own_case : own_error [Cfg "b" "ok" [] []] "a" ex_own /\ perform 5 [Cfg "b" "ok" [] []] "a" ex_own <> CFuel.
Proof.
  split; [|vm_compute; discriminate].
  eapply own_later with (ds := []).
  { eapply (oc_include _ _ _ None [0%Z] [] [] (Dirs [])); [constructor|reflexivity|reflexivity| |constructor].
    apply (os_cons _ _ _ _ _ _ (Cfg "b" "ok" [] []) [] (Dirs [])); [discriminate|reflexivity|constructor|constructor]. }
  eapply own_block; [reflexivity|]. eapply own_later.
  { eapply (oc_keep _ _ _ None [] (Dirs [])); [constructor|intros [E _]; discriminate E|constructor]. }
  apply (own_here _ _ _ None [0%Z] 7%Z [] []); [constructor|reflexivity|reflexivity| |discriminate].
  apply (os_cons _ _ _ _ _ _ (Cfg "b" "ok" [] []) [] (Dirs [])); [discriminate|reflexivity|constructor|constructor].
Qed.
