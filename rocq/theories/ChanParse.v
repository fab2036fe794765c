(** How much of its token channel the parser reads. *)
From Verif Require Import ParseFacts Main.
From Verif Require Export ChanCombine SpecRun.
From Coq Require Import Lia.
Import ListNotations.
Local Open Scope list_scope.

Lemma read_args_split : forall c toks a cs t rest,
    read_args c toks = Some (a, cs, t, rest) ->
    exists pre, toks = pre ++ rest
                /\ forall r', read_args c (pre ++ r') = Some (a, cs, t, r').
Proof.
  intros c toks; induction toks as [|x toks IH]; cbn [read_args]; intros a cs t rest H;
    [discriminate|].
  destruct (is_term x) eqn:E.
  - injection H as <- <- <- <-. exists [x]; split; [reflexivity|].
    intro r'; cbn [app read_args]; rewrite E; reflexivity.
  - destruct (read_args c toks) as [[[[a' cs'] t'] rest']|] eqn:RA; [|discriminate].
    destruct (IH _ _ _ _ eq_refl) as (pre & P1 & P2).
    destruct (negb (tok_comment x)) eqn:TC; [|destruct c]; injection H as <- <- <- <-;
      (exists (x :: pre); split; [cbn; f_equal; exact P1|]);
      intro r'; cbn [app read_args]; rewrite E, P2, TC; reflexivity.
Qed.

Lemma consume_split : forall toks d,
    exists pre, toks = pre ++ consume d toks
                /\ (consume d toks <> [] -> forall r', consume d (pre ++ r') = r').
Proof.
  induction toks as [|x toks IH]; intro d.
  - exists []; split; [reflexivity|]. intro N; exfalso; apply N; reflexivity.
  - cbn [consume].
    assert (L : exists pre, toks = pre ++ match d with 0 => toks | S d' => consume d' toks end
                 /\ (match d with 0 => toks | S d' => consume d' toks end <> [] ->
                     forall r', match d with 0 => pre ++ r' | S d' => consume d' (pre ++ r') end = r')).
    { destruct d; [exists []; split; reflexivity|apply IH]. }
    destruct (t_err x) as [e|] eqn:TE; [|destruct (tok_is x "}") eqn:TC; [|destruct (tok_is x "{") eqn:TO]].
    + destruct L as (pre & L1 & L2); exists (x :: pre); split; [cbn; f_equal; exact L1|].
      intros N r'; cbn [app consume]; rewrite TE; apply L2; exact N.
    + destruct L as (pre & L1 & L2); exists (x :: pre); split; [cbn; f_equal; exact L1|].
      intros N r'; cbn [app consume]; rewrite TE, TC; apply L2; exact N.
    + destruct (IH (S d)) as (pre & L1 & L2); exists (x :: pre); split; [cbn; f_equal; exact L1|].
      intros N r'; cbn [app consume]; rewrite TE, TC, TO; apply L2; exact N.
    + destruct (IH d) as (pre & L1 & L2); exists (x :: pre); split; [cbn; f_equal; exact L1|].
      intros N r'; cbn [app consume]; rewrite TE, TC, TO; apply L2; exact N.
Qed.

(** The tokens a result leaves on the channel, and the result without them. *)

Lemma unread_padd : forall ds r, unread (padd ds r) = unread r.
Proof. intros ds [] ; reflexivity. Qed.
Lemma with_padd : forall ds r x, with_rest (padd ds r) x = padd ds (with_rest r x).
Proof. intros ds [] x; reflexivity. Qed.
Lemma failed_with : forall r x, failed r -> failed (with_rest r x).
Proof. intros [] x; cbn; auto. Qed.

Definition reads o dir ctx toks st (res : pres) : Prop :=
  (unread res = [] \/
   exists pre, toks = pre ++ unread res
               /\ forall r', Run o dir ctx (pre ++ r') st (with_rest res r')).

Lemma app_nonnil : forall {A} (l m : list A), m <> [] -> l ++ m <> [].
Proof. intros A [|x l] m H E; [apply H; exact E|discriminate E]. Qed.

Lemma run_reads : forall o dir ctx toks st res,
    Run o dir ctx toks st res -> reads o dir ctx toks st res.
Proof.
  intros o dir ctx toks st res H; unfold reads.
  induction H as [ctx st|ctx st t r e TE|ctx st t r TE TC|ctx st t r res TE TC TM H IH|ctx st t r ST RA|ctx st t r args cs term rest ST RA D|ctx st t r args cs term rest e st' ST RA D|ctx st t r args cs term rest st' ST RA D|ctx st t r args cs term rest eat st' res ST RA D H IH|ctx st t r args cs term rest d res ST RA D H IH|ctx st t r args cs term rest d st' res ST RA D TB H IH|ctx st t r args cs term rest d st' h inner blk rest' st'' res ST RA D TB EB H1 IH1 H2 IH2|ctx st t r args cs term rest d st' h inner res ST RA D TB EB H IH FL].
  - left; reflexivity.
  - right; exists [t]; split; [reflexivity|]. intro r'; now constructor.
  - right; exists [t]; split; [reflexivity|]. intro r'; now constructor.
  - rewrite unread_padd. destruct IH as [IH|(pre & P1 & P2)]; [left; exact IH|].
    right; exists (t :: pre); split; [cbn; f_equal; exact P1|].
    intro r'; rewrite with_padd; cbn [app]; constructor; auto.
  - left; reflexivity.
  - left; reflexivity.
  - destruct (read_args_split _ _ _ _ _ _ RA) as (pre & P1 & P2).
    right; exists (t :: pre); split; [cbn; f_equal; exact P1|].
    intro r'; cbn [app with_rest]; eapply R_err; eauto.
  - destruct (read_args_split _ _ _ _ _ _ RA) as (pre & P1 & P2).
    right; exists (t :: pre); split; [cbn; f_equal; exact P1|].
    intro r'; cbn [app with_rest]; eapply R_break; eauto.
  - destruct (read_args_split _ _ _ _ _ _ RA) as (pre & P1 & P2).
    destruct IH as [IH|(pre2 & Q1 & Q2)]; [left; exact IH|].
    destruct (unread res) as [|u us] eqn:U; [left; reflexivity|right].
    destruct eat.
    + destruct (consume_split rest 0) as (pre3 & S1 & S2).
      assert (NE : consume 0 rest <> []) by (rewrite Q1; apply app_nonnil; discriminate).
      exists (t :: pre ++ pre3 ++ pre2); split.
      * cbn [app]; f_equal. rewrite P1, S1, Q1, <- !app_assoc; reflexivity.
      * intro r'; cbn [app]; rewrite <- !app_assoc.
        eapply R_skip; eauto. cbn. rewrite (S2 NE); apply Q2.
    + exists (t :: pre ++ pre2); split.
      * cbn [app]; f_equal. rewrite P1, Q1, <- !app_assoc; reflexivity.
      * intro r'; cbn [app]; rewrite <- !app_assoc.
        eapply R_skip; eauto; apply Q2.
  - destruct (read_args_split _ _ _ _ _ _ RA) as (pre & P1 & P2).
    rewrite unread_padd. destruct IH as [IH|(pre2 & Q1 & Q2)]; [left; exact IH|right].
    exists (t :: pre ++ pre2); split.
    + cbn [app]; f_equal. rewrite P1, Q1, <- !app_assoc; f_equal; f_equal; exact Q1.
    + intro r'; cbn [app]; rewrite <- !app_assoc, with_padd. eapply R_map; eauto.
  - destruct (read_args_split _ _ _ _ _ _ RA) as (pre & P1 & P2).
    rewrite unread_padd. destruct IH as [IH|(pre2 & Q1 & Q2)]; [left; exact IH|right].
    exists (t :: pre ++ pre2); split.
    + cbn [app]; f_equal. rewrite P1, Q1, <- !app_assoc; f_equal; f_equal; exact Q1.
    + intro r'; cbn [app]; rewrite <- !app_assoc, with_padd. eapply R_simple; eauto.
  - destruct (read_args_split _ _ _ _ _ _ RA) as (pre & P1 & P2).
    rewrite unread_padd. destruct IH2 as [IH2|(pre2 & Q1 & Q2)]; [left; exact IH2|].
    destruct (unread res) as [|u us] eqn:U; [left; reflexivity|right].
    cbn [unread with_rest] in IH1.
    destruct IH1 as [IH1|(pre3 & S1 & S2)].
    { exfalso; rewrite IH1 in Q1. destruct pre2; discriminate Q1. }
    exists (t :: pre ++ pre3 ++ pre2); split.
    + cbn [app]; f_equal. rewrite P1, S1, Q1, <- !app_assoc; reflexivity.
    + intro r'; cbn [app]; rewrite <- !app_assoc, with_padd. eapply R_block; eauto.
  - destruct (read_args_split _ _ _ _ _ _ RA) as (pre & P1 & P2).
    destruct IH as [IH|(pre2 & Q1 & Q2)]; [left; exact IH|right].
    exists (t :: pre ++ pre2); split.
    + cbn [app]; f_equal. rewrite P1, Q1, <- !app_assoc; f_equal; f_equal; exact Q1.
    + intro r'; cbn [app]; rewrite <- !app_assoc. eapply R_blockfail; eauto.
      apply failed_with; exact FL.
Qed.

Theorem parse_reads : forall o dir ctx toks st,
    let res := parse o dir (S (length toks)) ctx toks st in
    unread res = [] \/
    exists pre, toks = pre ++ unread res
                /\ forall r', parse o dir (S (length (pre ++ r'))) ctx (pre ++ r') st = with_rest res r'.
Proof.
  intros o dir ctx toks st res.
  destruct (run_reads _ _ _ _ _ _ (parse_run o dir ctx toks st)) as [E|(pre & E & R)];
    [left; exact E|right; exists pre; split; [exact E|]].
  intro r'; eapply run_det; [apply parse_run|apply R].
Qed.

Lemma unread_le : forall o dir ctx toks st,
    length (unread (parse o dir (S (length toks)) ctx toks st)) <= length toks.
Proof.
  intros o dir ctx toks st.
  destruct (parse_reads o dir ctx toks st) as [E|(pre & E & _)].
  - rewrite E; cbn; lia.
  - apply (f_equal (@length token)) in E; rewrite app_length in E. lia.
Qed.

(** A receiver that leaves after [k] values out of [delivers p]. *)
Lemma leaver_len : forall (k : nat) cap (p : proc token) n g s h,
    run (leaver k) n (start cap p, 0, []) (g, s, h) -> c_done (leaver k) s = true ->
    length h = k.
Proof.
  intros k cap p n g s h R D.
  destruct (prefix_ _ _ _ _ _ _ _ _ R) as (m & A & B & E).
  assert (X : forall j, fed (leaver k) 0 (delivers p) j = j).
  { induction j as [|j IH]; [reflexivity|rewrite fed_snoc, IH; reflexivity]. }
  rewrite A, given_len. rewrite X in B; subst s. cbn [leaver c_done] in D, E.
  apply Nat.leb_le in D.
  destruct (Nat.le_gt_cases m k) as [L|L]; [lia|].
  specialize (E _ L); rewrite X, Nat.leb_refl in E; discriminate E.
Qed.

Theorem criterion : forall sends_ cap k n g s h g',
    k <= length (flat_map send_tokens sends_) ->
    run (leaver k) n (start cap (lexer_code sends_), 0, []) (g, s, h) ->
    c_done (leaver k) s = true -> steps g g' -> at_rest g' ->
    (live g' = 0 <-> length (flat_map send_tokens sends_) - k <= cap).
Proof.
  intros ss cap k n g s h g' K R D ST AR.
  pose proof (leaver_len _ _ _ _ _ _ _ R D) as LH.
  split; intro H.
  - destruct (Nat.le_gt_cases (length (flat_map send_tokens ss) - k) cap) as [L|L]; [exact L|].
    exfalso; eapply stays; [exact R|exact ST| |exact H]. rewrite lexer_delivers; lia.
  - eapply returns; [apply lexer_patient|exact R|exact ST|exact AR|].
    rewrite lexer_delivers; lia.
Qed.

Lemma own_tokens : forall l, flat_map send_tokens (map Own l) = l.
Proof. induction l as [|x l IH]; [reflexivity|cbn; f_equal; exact IH]. Qed.

Theorem parse_criterion : forall o dir ctx st content l cap n g s h g',
  flat_map send_tokens l = lex (o_lexers o) content ->
  let toks := lex (o_lexers o) content in
  let res := parse o dir (S (length toks)) ctx toks st in
  let reader := leaver (length toks - length (unread res)) in
  run reader n (start cap (lexer_code l), 0, []) (g, s, h) -> c_done reader s = true ->
  steps g g' -> at_rest g' ->
  (live g' = 0 <-> length (unread res) <= cap).
Proof.
  intros o dir ctx st content l cap n g s h g' E toks res reader R D ST AR.
  pose proof (unread_le o dir ctx toks st) as U. fold res in U.
  assert (LT : length toks = length (flat_map send_tokens l)) by (rewrite E; reflexivity).
  pose proof (criterion l cap (length toks - length (unread res)) n g s h g') as X.
  assert (Y : length (flat_map send_tokens l) - (length toks - length (unread res)) = length (unread res)) by lia.
  rewrite Y in X. apply X; auto. lia.
Qed.
