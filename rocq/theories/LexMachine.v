(** The lexer as a machine with one mode per kind of token (a refinement of [urun]). *)
From Verif Require Export LexFacts.
Local Open Scope string_scope.

Inductive mode := MSkip | MWord (w : string) | MNote (w : string) | MVar (w : string) | MStr (q w : string).
Record cst := C { c_mode : mode; c_line : Z; c_start : Z; c_dup : bool; c_depth : Z }.
Definition cinit : cst := C MSkip 1 1 false 0.
Inductive cres := Go (c : cst) (ts : list token) | Halt (ts : list token).

Definition is_quote (u : string) : bool := (String.eqb u s_dq || String.eqb u s_sq)%bool.
Definition bad_tok (line start : Z) (what : string) : token :=
  Tok "" start false (Some (EParse (PE what (Some "lexer") (Some line) "" "" None))).
Definition unexpected (u : string) : string := "unexpected " ++ s_dq ++ u ++ s_dq.
Definition expecting : string := "unexpected end of file, expecting " ++ s_dq ++ "}" ++ s_dq.

Definition csep (pre : list token) (line start : Z) (dup : bool) (depth : Z) (u : string) : cres :=
  if (dup && negb (String.eqb u "}"))%bool then Halt (pre ++ [bad_tok line start (unexpected u)])
  else
    let depth' := if String.eqb u "{" then (depth + 1)%Z else if String.eqb u "}" then (depth - 1)%Z else depth in
    if (String.eqb u "}" && Z.ltb depth' 0)%bool then Halt (pre ++ [bad_tok line start (unexpected "}")])
    else Go (C MSkip line start true depth') (pre ++ [Tok u start false None]).

Definition cstep (c : cst) (u : string) : cres :=
  let line := if is_eol u then (c_line c + 1)%Z else c_line c in
  let start := c_start c in
  let dup := c_dup c in
  let depth := c_depth c in
  match c_mode c with
  | MSkip =>
    if is_space u then Go (C MSkip line start dup depth) []
    else if String.eqb u "#" then Go (C (MNote u) line line dup depth) []
    else if is_quote u then Go (C (MStr u "") line line false depth) []
    else if is_special u then csep [] line line dup depth u
    else Go (C (MWord u) line line false depth) []
  | MWord w =>
    if is_space u then Go (C MSkip line start dup depth) [Tok w start false None]
    else if (has_suffix w "$" && String.eqb u "{")%bool then Go (C (MVar (w ++ u)) line start false depth) []
    else if is_special u then csep [Tok w start false None] line start dup depth u
    else Go (C (MWord (w ++ u)) line start false depth) []
  | MNote w =>
    if is_eol u then Go (C MSkip line start dup depth) [Tok w start false None]
    else Go (C (MNote (w ++ u)) line start dup depth) []
  | MVar w =>
    Go (C (if (has_suffix u "}" || is_space u)%bool then MWord (w ++ u) else MVar (w ++ u)) line start dup depth) []
  | MStr q w =>
    if String.eqb u q then Go (C MSkip line start dup depth) [Tok w start true None]
    else Go (C (MStr q (w ++ (if String.eqb u ("\" ++ q) then q else u))) line start dup depth) []
  end.
Definition cpending (c : cst) : list token :=
  match c_mode c with
  | MSkip => []
  | MWord w | MNote w | MVar w => [Tok w (c_start c) false None]
  | MStr _ w => if String.eqb w "" then [] else [Tok w (c_start c) true None]
  end.
Definition cfinish (c : cst) : list token :=
  (cpending c ++ (if Z.ltb 0 (c_depth c) then [bad_tok (c_line c) (c_start c) expecting] else []))%list.
Fixpoint crun (c : cst) (us : list string) : list token :=
  match us with
  | [] => cfinish c
  | u :: us => match cstep c u with Halt ts => ts | Go c' ts => (ts ++ crun c' us)%list end
  end.

Definition rel (s : lst) (c : cst) : Prop :=
  l_line s = c_line c /\ l_start s = c_start c /\ l_dup s = c_dup c /\ l_depth s = c_depth c /\ l_new s = false /\
  match c_mode c with
  | MSkip => l_st s = SkipSpace /\ l_tok s = ""
  | MWord w => l_st s = InWord /\ l_tok s = w /\ w <> ""
  | MNote w => l_st s = InComment /\ l_tok s = w /\ w <> ""
  | MVar w => l_st s = InVar /\ l_tok s = w /\ w <> ""
  | MStr q w => l_st s = InQuote /\ l_tok s = w /\ l_quote s = q
  end.
Definition res_rel (r : lres) (x : cres) : Prop :=
  match x with
  | Halt ts => r_ctl r = Stop /\ r_toks r = ts
  | Go c ts => r_ctl r = Next /\ r_toks r = ts /\ rel (r_st r) c
  end.
Lemma special_rel : forall s line start dup depth w u,
  l_line s = line -> l_start s = start -> l_dup s = dup -> l_depth s = depth -> l_tok s = w -> l_new s = false ->
  res_rel (lex_special s u)
    (csep (if str_nonempty w then [Tok w start false None] else []) line start dup depth u).
Proof.
  intros [tok line' start' st new dup' esc depth' quote ntd] line start dup depth w u; cbn.
  intros -> -> -> -> -> ->. unfold lex_special, csep. cbn [l_tok].
  assert (D : l_dup (if str_nonempty w then emit_st (Lst w line start st false dup esc depth quote ntd) else Lst w line start st false dup esc depth quote ntd) = dup)
    by (destruct (str_nonempty w); reflexivity).
  rewrite D. destruct (dup && negb (u =? "}"))%bool.
  - destruct (str_nonempty w) eqn:NW; cbn; auto. apply nonempty_false in NW. now subst.
  - destruct (u =? "{") eqn:U1.
    + apply String.eqb_eq in U1. subst u. destruct (str_nonempty w) eqn:NW; cbn; auto; repeat split; auto. apply nonempty_false in NW. now subst.
    + destruct (u =? "}") eqn:U2.
      * apply String.eqb_eq in U2. subst u. cbn [andb].
        destruct (str_nonempty w) eqn:NW; cbn; destruct (depth - 1 <? 0)%Z; cbn; repeat split; auto;
        apply nonempty_false in NW; now subst.
      * cbn [andb]. destruct (str_nonempty w) eqn:NW; cbn; repeat split; auto. apply nonempty_false in NW. now subst.
Qed.
Lemma app_ne : forall a b : string, a <> "" -> a ++ b <> "".
Proof. intros [|] b H; cbn; congruence. Qed.
Lemma app_ne_r : forall a b : string, b <> "" -> a ++ b <> "".
Proof. intros [|] b H; cbn; congruence. Qed.
Lemma suffix_last : forall w u c, u <> "" -> has_suffix (w ++ u) (str1 c) = has_suffix u (str1 c).
Proof. intros. now apply suffix1_app. Qed.
Lemma start_rel : forall line dup esc depth quote ntd u, u <> "" -> is_space u = false ->
  res_rel (lex_switch (Lst "" line line InWord true dup esc depth quote ntd) u)
    (if u =? "#" then Go (C (MNote u) line line dup depth) []
     else if is_quote u then Go (C (MStr u "") line line false depth) []
     else if is_special u then csep [] line line dup depth u
     else Go (C (MWord u) line line false depth) []).
Proof.
  intros line dup esc depth quote ntd u NU SP. unfold lex_switch. cbn [l_st l_new andb].
  destruct (u =? "#") eqn:H1; [cbn; repeat split; auto|].
  rewrite SP. cbn [set_new l_tok str_nonempty String.eqb negb andb].
  fold (is_quote u). destruct (is_quote u) eqn:H2; [cbn; repeat split; auto|].
  destruct (is_special u) eqn:H3; [|cbn; repeat split; auto].
  match goal with |- context [lex_special ?x u] => exact (special_rel x line line dup depth "" u eq_refl eq_refl eq_refl eq_refl eq_refl eq_refl) end.
Qed.
Lemma step_rel : forall s c u, rel s c -> u <> "" -> res_rel (ustep s u) (cstep c u).
Proof.
  intros s c u R NU. unfold ustep, cstep. set (line := if is_eol u then (c_line c + 1)%Z else c_line c).
  assert (R' : l_line (lex_read s u) = line /\ l_start (lex_read s u) = c_start c /\ l_dup (lex_read s u) = c_dup c /\
    l_depth (lex_read s u) = c_depth c /\ l_new (lex_read s u) = false /\ l_st (lex_read s u) = l_st s /\
    l_tok (lex_read s u) = l_tok s /\ l_quote (lex_read s u) = l_quote s).
  { destruct R as (A & B & D & E & F & _). unfold lex_read, line. rewrite <- A. destruct (is_eol u); cbn; auto 10. }
  destruct R as (_ & _ & _ & _ & _ & M). destruct R' as (RL & RS & RD & RK & RN & RT & RW & RQ).
  set (s1 := lex_read s u) in *. clearbody s1. clearbody line.
  destruct s1 as [tok line' start' st new dup' esc depth' quote ntd].
  cbn [l_line l_start l_dup l_depth l_new l_st l_tok l_quote] in *. subst line' start' dup' depth' new.
  unfold usw. destruct (c_mode c) as [|w|w|w|q w]; destruct M as [ST M]; rewrite ST in RT.
  - subst st. rewrite M in RW. subst tok.
    assert (E : lex_switch (Lst "" line (c_start c) SkipSpace false (c_dup c) esc (c_depth c) quote ntd) u =
      if is_space u then LRes (Lst "" line (c_start c) SkipSpace false (c_dup c) esc (c_depth c) quote ntd) [] Next
      else LRes (Lst "" line line InWord true (c_dup c) esc (c_depth c) quote ntd) [] (ReEval u)) by reflexivity.
    rewrite E. destruct (is_space u) eqn:SP; [cbn; repeat split; auto|]. cbn [r_ctl r_st r_toks app].
    pose proof (start_rel line (c_dup c) esc (c_depth c) quote ntd u NU SP) as SR. revert SR.
    match goal with |- res_rel ?a ?b -> _ => generalize a; generalize b end. intros [c' ts|ts] r; cbn; auto.
  - destruct M as [M NW]. subst st. rewrite M in RW. subst tok. pose proof (proj2 (nonempty_iff w) NW) as NB.
    match goal with |- context [lex_switch ?x u] => assert (CT : match r_ctl (lex_switch x u) with ReEval _ => False | _ => True end) end.
    { match goal with |- context [lex_switch ?x u] => pose proof (switch_ctl x u) as SC; destruct (r_ctl (lex_switch x u)); auto end.
      destruct SC as (_ & SC & _). discriminate. }
    match goal with |- res_rel ?x _ => match x with match _ with _ => _ end => idtac end end.
    assert (GO : res_rel (lex_switch (Lst w line (c_start c) InWord false (c_dup c) esc (c_depth c) quote ntd) u)
      (if is_space u then Go (C MSkip line (c_start c) (c_dup c) (c_depth c)) [Tok w (c_start c) false None]
       else if (has_suffix w "$" && (u =? "{"))%bool then Go (C (MVar (w ++ u)) line (c_start c) false (c_depth c)) []
       else if is_special u then csep [Tok w (c_start c) false None] line (c_start c) (c_dup c) (c_depth c) u
       else Go (C (MWord (w ++ u)) line (c_start c) false (c_depth c)) [])).
    { unfold lex_switch. cbn [set_new l_st l_new l_tok l_line l_start l_dup l_depth l_esc l_quote l_ntd andb].
      destruct (is_space u) eqn:SP; [cbn; repeat split; auto|].
      rewrite NB. cbn [andb].
      destruct (has_suffix w "$" && (u =? "{"))%bool; [cbn; repeat split; auto; now apply app_ne|].
      destruct (u =? s_dq) eqn:Q1; [apply String.eqb_eq in Q1; subst u; cbn; repeat split; auto; now apply app_ne|].
      destruct (u =? s_sq) eqn:Q2; [apply String.eqb_eq in Q2; subst u; cbn; repeat split; auto; now apply app_ne|]. cbn [orb].
      destruct (is_special u) eqn:H3; [|cbn; repeat split; auto; now apply app_ne].
      match goal with |- context [lex_special ?x u] => pose proof (special_rel x line (c_start c) (c_dup c) (c_depth c) w u eq_refl eq_refl eq_refl eq_refl eq_refl eq_refl) as SR end.
      now rewrite NB in SR. }
    destruct (r_ctl (lex_switch (Lst w line (c_start c) InWord false (c_dup c) esc (c_depth c) quote ntd) u)); [exact GO|contradiction|exact GO].
  - destruct M as [M NW]. subst st. rewrite M in RW. subst tok. unfold lex_switch at 1 2 3 4 5. cbn [l_st].
    destruct (is_eol u); cbn; repeat split; auto. now apply app_ne.
  - destruct M as [M NW]. subst st. rewrite M in RW. subst tok. unfold lex_switch. cbn [l_st write set_tok l_tok].
    change "}" with (str1 "}"%char). rewrite suffix_last by auto.
    destruct (has_suffix u (str1 "}"%char)); cbn; [repeat split; auto; now apply app_ne|].
    destruct (is_space u); cbn; repeat split; auto; now apply app_ne.
  - destruct M as [M Q]. subst st. rewrite M in RW. subst tok. rewrite Q in RQ. subst quote.
    unfold lex_switch. cbn [l_st l_quote]. destruct (u =? q); cbn; repeat split; auto.
Qed.
Lemma finish_rel : forall s c, rel s c -> lex_finish s = cfinish c.
Proof.
  intros [tok line start st new dup esc depth quote ntd] [m line' start' dup' depth'] (A & B & D & E & _ & M).
  cbn [l_line l_start l_dup l_depth l_st l_tok l_quote c_line c_start c_dup c_depth c_mode] in *. subst.
  unfold lex_finish, cfinish, cpending. cbn [l_tok c_mode c_start c_line c_depth].
  destruct m as [|w|w|w|q w].
  - destruct M as [-> ->]. cbn. reflexivity.
  - destruct M as (-> & -> & NW). apply nonempty_iff in NW. rewrite NW. reflexivity.
  - destruct M as (-> & -> & NW). apply nonempty_iff in NW. rewrite NW. reflexivity.
  - destruct M as (-> & -> & NW). apply nonempty_iff in NW. rewrite NW. reflexivity.
  - destruct M as (-> & -> & ->). unfold str_nonempty. destruct (String.eqb_spec w "") as [->|N]; reflexivity.
Qed.
Lemma urun_crun : forall us s c, rel s c -> Forall (fun u => u <> "") us -> urun s us = crun c us.
Proof.
  induction us as [|u us IH]; intros s c R F; cbn [urun crun]; [now apply finish_rel|].
  inversion F; subst. pose proof (step_rel s c u R H1) as SR. destruct (cstep c u) as [c' ts|ts]; cbn [res_rel] in SR.
  - destruct SR as (-> & -> & R'). f_equal. now apply IH.
  - destruct SR as (-> & ->). reflexivity.
Qed.
Lemma units_nonempty : forall rs esc, Forall rune_like rs -> Forall (fun u => u <> "") (units esc rs).
Proof.
  induction rs as [|r rs IH]; intros esc F; cbn [units]; [constructor|]. inversion F as [|? ? [N _] F']; subst.
  destruct (r =? s_cr); auto. destruct (_ && _)%bool; auto. constructor; auto. destruct esc; auto. discriminate.
Qed.
Lemma lex_runes_crun : forall rs, Forall rune_like rs -> lex_runes [] rs = crun cinit (units false rs).
Proof.
  intros rs F. rewrite lex_units by auto. apply urun_crun; [|now apply units_nonempty]. repeat split.
Qed.
Lemma lex_crun : forall s, lex [] s = crun cinit (units false (scan_runes s)).
Proof. intros s. apply lex_runes_crun, scan_rune_like. Qed.
