(** C68: texts in which Lua blocks stand between lexical items. *)
From Verif Require Export SpecLuaRound LuaProofs RoundTop.
Local Open Scope string_scope.

(** ** Texts *)
Inductive xitem := XI (gx : item_) | XL (g : gap) (d : directive).
Fixpoint xtext (L : list xitem) : string :=
  match L with
  | [] => ""
  | XI (g, x) :: L => concat_str g ++ lexeme_src x ++ xtext L
  | XL g d :: L => concat_str g ++ lua_build d ++ xtext L
  end.
Definition lua_toks (line : Z) (d : directive) : list token :=
  let l2 := (line + newlines (lua_build d))%Z in
  Tok (d_name d) line false None ::
  ((if String.eqb (d_name d) set_by_lua_block
    then match d_args d with v :: code :: _ => [Tok v line false None; Tok code l2 true None] | _ => [] end
    else match d_args d with code :: _ => [Tok code l2 true None] | _ => [] end) ++ [Tok ";" l2 false None])%list.
Fixpoint xtokens (line : Z) (L : list xitem) : list token :=
  match L with
  | [] => []
  | XI (g, x) :: L =>
    let line := (line + newlines (concat_str g))%Z in
    Tok (lexeme_val x) line (lexeme_quoted x) None :: xtokens (line + newlines (lexeme_src x)) L
  | XL g d :: L =>
    let line := (line + newlines (concat_str g))%Z in
    (lua_toks line d ++ xtokens (line + newlines (lua_build d)) L)%list
  end.
Fixpoint xafter (line : Z) (L : list xitem) : Z :=
  match L with
  | [] => line
  | XI (g, x) :: L => xafter (line + newlines (concat_str g) + newlines (lexeme_src x)) L
  | XL g d :: L => xafter (line + newlines (concat_str g) + newlines (lua_build d)) L
  end.
Fixpoint xlast (prev : option lexeme) (L : list xitem) : option lexeme :=
  match L with [] => prev | XI (_, x) :: L => xlast (Some x) L | XL _ _ :: L => xlast (Some (Sep ";")) L end.
Definition resting (prev : option lexeme) : bool := match prev with Some (Word _) | Some (Quoted _ _) => false | _ => true end.
Definition luab (d : directive) : bool := (lua_dir d && lua_args d)%bool.
Fixpoint xchain (prev : option lexeme) (L : list xitem) : bool :=
  match L with
  | [] => true
  | XI (g, x) :: L => (gap_ok g && lexeme_ok x && fits prev g (Some x) && clear (lexeme_val x) && xchain (Some x) L)%bool
  | XL g d :: L => (gap_ok g && resting prev && fits prev g (Some (Word [Raw "x"])) && luab d && xchain (Some (Sep ";")) L)%bool
  end.
Lemma xchain_app : forall a prev b, xchain prev (a ++ b) = (xchain prev a && xchain (xlast prev a) b)%bool.
Proof. induction a as [|[[g x]|g d] a IH]; intros prev b; auto; cbn [app xchain xlast]; rewrite IH; now rewrite !andb_assoc. Qed.
Lemma xlast_app : forall a prev b, xlast prev (a ++ b) = xlast (xlast prev a) b.
Proof. induction a as [|[[g x]|g d] a IH]; intros prev b; auto; cbn [app xlast]; apply IH. Qed.
Lemma xafter_app : forall a line b, xafter line (a ++ b) = xafter (xafter line a) b.
Proof. induction a as [|[[g x]|g d] a IH]; intros line b; auto; cbn [app xafter]; apply IH. Qed.
Lemma xtokens_app : forall a line b, xtokens line (a ++ b) = (xtokens line a ++ xtokens (xafter line a) b)%list.
Proof. induction a as [|[[g x]|g d] a IH]; intros line b; auto; cbn [app xtokens xafter]; rewrite IH; [reflexivity|now rewrite app_assoc]. Qed.
Lemma xtext_app : forall a b, xtext (a ++ b) = xtext a ++ xtext b.
Proof. induction a as [|[[g x]|g d] a IH]; intros b; auto; cbn [app xtext]; rewrite IH; now rewrite !app_assoc_s. Qed.
Lemma xtext_items : forall L, xtext (map XI L) = rtext L.
Proof. induction L as [|[g x] L IH]; auto. cbn [map xtext]. now rewrite IH. Qed.
Lemma xtokens_items : forall L line, xtokens line (map XI L) = tokens_of line L.
Proof. induction L as [|[g x] L IH]; intros line; auto. cbn [map xtokens tokens_of]. now rewrite IH. Qed.
Lemma xafter_items : forall L line, xafter line (map XI L) = after line L.
Proof. induction L as [|[g x] L IH]; intros line; auto. cbn [map xafter after]. now rewrite IH. Qed.
Lemma xlast_items : forall L prev, xlast prev (map XI L) = lastl prev L.
Proof. induction L as [|[g x] L IH]; intros prev; auto. cbn [map xlast lastl]. now rewrite IH. Qed.
Definition clears (L : list item_) : bool := forallb (fun gx : item_ => clear (lexeme_val (snd gx))) L.
Lemma xchain_items : forall L prev, xchain prev (map XI L) = (chain prev L && clears L)%bool.
Proof.
  induction L as [|[g x] L IH]; intros prev; auto. unfold clears in *. cbn [map xchain chain forallb snd]. rewrite IH. rewrite <- !andb_assoc. do 3 f_equal.
  rewrite !andb_assoc. f_equal. apply andb_comm.
Qed.

(** ** Items without Lua blocks *)
Lemma safe_part : forall a b, safe (a ++ b) -> safe a.
Proof.
  intros a b (E & N & S). split; [apply Forall_app in E; apply E|]. split.
  - intros x y ->. apply (N x (y ++ b)%list). now rewrite app_assoc.
  - intros x t y -> ST AF. apply (S x t (y ++ b)%list); auto. now rewrite <- app_assoc.
Qed.
Lemma layout_open : forall L last prev c line done pend, holds c prev line done pend -> laid prev L last = true -> safe (done ++ tokens_of line L) ->
  exists e, only_errs e /\ crun c (U (render L last)) = (pend ++ tokens_of line L ++ e)%list.
Proof.
  induction L as [|[g x] L IH]; intros last prev c line done pend H LD PR; cbn [laid render tokens_of] in *.
  - apply andb_true_iff in LD as [G F]. rewrite app_nil_r in *. rewrite <- (app_nil_r_s (concat_str last)), U_gap by auto. change (U "") with (@nil string).
    assert (FE : forall w, only_errs (if Z.ltb 0 (net done) then [bad_tok (fst w) (snd w) expecting] else [])) by (intros w; destruct (Z.ltb 0 (net done)); repeat constructor; discriminate).
    destruct (gap_run c prev line done pend last None [] H G F) as [[start E]|[E _]].
    + rewrite E. cbn [crun]. unfold cfinish, cpending. cbn [c_mode c_depth c_line c_start app]. eexists. split; [|reflexivity]. apply (FE (_, _)).
    + rewrite E. cbn [app crun]. unfold cfinish. inversion H; subst; cbn [c_mode c_depth c_line cpending c_start]; eexists; (split; [|reflexivity]); apply (FE (_, _)).
  - rewrite !andb_true_iff in LD. destruct LD as [[[G LX] F] LD]. rewrite U_gap, U_lexeme by auto.
    rewrite newlines_gap in * by auto. set (l1 := (line + nls (core g))%Z) in *.
    assert (PR' : safe ((done ++ [tok_of x l1]) ++ tokens_of (l1 + newlines (lexeme_src x)) L)) by (now rewrite <- app_assoc).
    assert (SF : safe (done ++ [tok_of x l1])) by (eapply safe_part; exact PR').
    destruct (gap_run c prev line done pend g (Some x) (lexeme_units x ++ U (render L last)) H G F) as [[start E]|[E SM]].
    + rewrite E. destruct (item_run x l1 start done (U (render L last)) LX SF) as (c' & em & pend' & R & H' & EP).
      fold l1. rewrite R. destruct (IH last (Some x) c' _ _ _ H' LD PR') as (e & FE & X). exists e. split; auto. rewrite X. rewrite (app_assoc em), EP. reflexivity.
    + rewrite E in *. cbn [app]. inversion H; subst; cbn [simple] in SM; try congruence; cbn [fits] in F; rewrite E in F.
      * destruct x as [|?|c|]; try discriminate. apply andb_true_iff in F as [OL ND]. cbn [lexeme_ok] in LX. apply mem_In in LX.
        cbn [lexeme_units app tok_of lexeme_val lexeme_quoted lexeme_src] in *.
        assert (L1 : l1 = (start + nls (map src ps))%Z) by (unfold l1; rewrite ?E; change (nls []) with 0%Z; lia).
        rewrite <- L1. rewrite (tight_run ps c l1 start done) by auto.
        assert (N0 : newlines c = 0%Z) by (cbn in LX; intuition (subst; reflexivity)).
        destruct (IH last (Some (Sep c)) (C MSkip l1 l1 true (net (done ++ [Tok c l1 false None]))) l1 (done ++ [Tok c l1 false None])%list []) as (e & FE & X); auto.
        -- constructor; auto. rewrite after_sep_app. cbn [after_sep]. cbn in LX; intuition (subst; reflexivity).
        -- rewrite N0, Z.add_0_r in PR'. exact PR'.
        -- exists e. split; auto. rewrite N0, Z.add_0_r. rewrite X. reflexivity.
      * discriminate.
Qed.

(** ** A place for a directive, from any state between tokens *)
Lemma seg_state : forall P s done ts, known done s -> no_errors ts -> last_ok (done ++ ts) = true ->
  (exists e1, only_errs e1 /\ lex_run [] 0 s (scan_runes P) = (ts ++ e1)%list) ->
  (exists l e2, only_errs e2 /\ lex_run [] 0 s (scan_runes (P ++ "x")) = (ts ++ Tok "x" l false None :: e2)%list) ->
  exists start dup quote, pgo s (scan_runes P) = Some (ts, Lst "" (l_line s + newlines P) start SkipSpace false dup false (net (done ++ ts)) quote true).
Proof.
  intros P s done ts K NE AS (e1 & E1 & L1) (line & e2 & E2 & L2).
  rewrite scan_ascii_app in L2 by reflexivity. change (scan_runes "x") with ["x"] in L2.
  pose proof (pgo_run (scan_runes P) s []) as G1. pose proof (pgo_run (scan_runes P) s ["x"]) as G2. rewrite app_nil_r in G1.
  destruct (pgo s (scan_runes P)) as [[ts2 s']|] eqn:PG.
  2: { exfalso. rewrite G2, L1 in L2. apply app_inv_head in L2. subst e1. inversion E1 as [|? ? X]. now apply X. }
  rewrite L1 in G1. rewrite L2 in G2. cbn [lex_run] in G1.
  destruct (known_pgo _ _ _ _ _ (LexFacts.scan_texts P) K PG) as (c & R & I3 & NT).
  pose proof (pgo_line _ _ _ _ (LexFacts.scan_texts P) PG) as LN. rewrite count_scan in LN.
  assert (FN : lex_finish s' = cfinish c) by (rewrite <- (finish_rel _ _ R); symmetry; apply finish_esc).
  destruct I3 as ((NE2' & _) & ND & I3). apply Forall_app in NE2' as [_ NE2]. rewrite FN in G1.
  apply (f_equal (filter fineb)) in G1. rewrite !filter_app, (fine_all ts NE), (fine_none e1 E1), (fine_all ts2 NE2), fine_finish, app_nil_r in G1.
  set (u := if l_esc s' then "\x" else "x").
  assert (U1 : l_esc s' = false /\ u = "x" \/ l_esc s' = true /\ u = "\x") by (unfold u; destruct (l_esc s'); auto).
  rewrite (run_one s' c u R U1) in G2. apply (f_equal (filter fineb)) in G2. rewrite !filter_app, (fine_all ts NE), (fine_all ts2 NE2) in G2.
  cbn [filter] in G2. unfold fineb at 1 in G2. cbn [t_err] in G2. rewrite (fine_none e2 E2) in G2. rewrite G1, <- app_assoc in G2. apply app_inv_head in G2.
  clear U1. destruct c as [m cl cs cd ck]. destruct R as (RL & RS & RD & RK & RN & M). destruct s' as [tok sl ss st new dup esc depth quote ntd]. cbn [set_esc l_line l_start l_dup l_depth l_new l_st l_tok l_quote l_ntd l_esc c_mode c_line c_start c_dup c_depth] in *. subst.
  assert (UX : is_space u = false /\ String.eqb u "#" = false /\ is_quote u = false /\ is_special u = false /\ String.eqb u "{" = false /\ is_eol u = false /\ String.eqb u s_dq = false /\ String.eqb u s_sq = false) by (unfold u; destruct esc; repeat split).
  destruct UX as (U1 & U2 & U3 & U4 & U5 & U6 & U7 & U8).
  destruct m as [|w|w|w|q w]; unfold cpending in G2; cbn [c_mode c_start] in G2; cbn [crun] in G2; unfold cstep in G2; cbn [c_mode c_line c_start c_dup c_depth] in G2.
  - destruct M as [-> ->]. rewrite U1, U2, U3, U4 in G2. cbn [app] in G2. rewrite fine_finish in G2. unfold cpending in G2. cbn [c_mode c_start] in G2.
    assert (ES : esc = false). { unfold u in G2. destruct esc; auto. inversion G2. }
    subst esc. rewrite app_nil_r in *. do 3 eexists. rewrite NT by auto. rewrite (Z.add_comm (newlines P)). reflexivity.
  - exfalso. rewrite U1, U5, andb_false_r, U4 in G2. cbn [app] in G2. rewrite fine_finish in G2. unfold cpending in G2. cbn [c_mode] in G2. inversion G2.
  - exfalso. rewrite U6 in G2. cbn [app] in G2. rewrite fine_finish in G2. unfold cpending in G2. cbn [c_mode] in G2. inversion G2.
  - exfalso. cbn [app] in G2. rewrite fine_finish in G2. unfold cpending in G2. cbn [c_mode] in G2. destruct (_ || _)%bool; inversion G2.
  - exfalso. destruct (String.eqb_spec u q) as [UQ|UQ].
    + cbn [app] in G2. change (filter fineb (?t :: ?x)) with (if fineb t then t :: filter fineb x else filter fineb x) in G2.
      cbn [filter fineb t_err] in G2. rewrite fine_finish in G2. unfold cpending in G2. cbn [c_mode] in G2. destruct (w =? ""); inversion G2.
    + cbn [app] in G2. rewrite fine_finish in G2. unfold cpending in G2. cbn [c_mode c_start] in G2. destruct (w =? ""); destruct (_ =? ""); inversion G2.
Qed.

(** ** One Lua block *)
Definition rest_at (line start depth : Z) (dup : bool) (quote : string) : lst := Lst "" line start SkipSpace false dup false depth quote true.
Lemma lua_run : forall d line start depth dup quote rest, luab d = true ->
  lex_run lua_lexers 0 (rest_at line start depth dup quote) (scan_runes (lua_build d ++ rest)) =
  (lua_toks line d ++ lex_run lua_lexers 0 (rest_at (line + newlines (lua_build d)) line depth false "") (scan_runes rest))%list.
Proof.
  intros d line start depth dup quote rest H. unfold luab in H. apply andb_true_iff in H as [LD LA]. unfold lua_dir in LD. apply existsb_exists in LD as (n & IN & E). apply String.eqb_eq in E. subst n.
  destruct (lua_assoc _ IN) as (A & SN & NE). destruct (simple_inv _ SN) as [_ F]. unfold rest_at, lua_args in *.
  unfold lua_toks, lua_build in *. destruct (String.eqb_spec (d_name d) set_by_lua_block) as [E|NS].
  - destruct (d_args d) as [|v [|code [|? ?]]]; try discriminate. rewrite !andb_true_iff in LA. destruct LA as [[[V _] _] B]. rewrite E in *.
    destruct (code_runes code rest B) as (FB & BB & CB & EB & SB). destruct (var_runes v (" " ++ "{" ++ code ++ "}" ++ rest) V) as (FV & WV & NV & CV & SV).
    assert (NV0 : newlines v = 0%Z).
    { rewrite <- count_scan. clear - FV WV. induction (scan_runes v) as [|r l IH]; auto. inversion FV; subst. cbn [forallb] in WV. apply andb_true_iff in WV as [W1 W2]. unfold count_eol in *. cbn [fold_right].
      rewrite IH by auto. destruct (is_eol r) eqn:EO; auto. apply eol_rune in EO; auto. subst r. discriminate W1. }
    assert (NL : newlines (set_by_lua_block ++ " " ++ v ++ " {" ++ code ++ "}") = newlines code).
    { rewrite !newlines_app. rewrite NV0. change (newlines set_by_lua_block) with 0%Z. change (newlines " ") with 0%Z. change (newlines " {") with 0%Z. change (newlines "}") with 0%Z. lia. }
    rewrite NL. assert (TX : (set_by_lua_block ++ " " ++ v ++ " {" ++ code ++ "}") ++ rest = set_by_lua_block ++ concat_str [s_sp] ++ v ++ concat_str [s_sp] ++ "{" ++ code ++ "}" ++ rest).
    { change " {" with (" " ++ "{"). rewrite !app_assoc_s. reflexivity. }
    rewrite TX, scan_name, scan_gap by auto. change (concat_str [s_sp]) with " ". rewrite SV. change " " with (concat_str [s_sp]) at 1. rewrite scan_gap, SB by reflexivity.
    rewrite (set_run [s_sp] (scan_runes v) [s_sp] (scan_runes code) (scan_runes rest)) by (auto; discriminate).
    rewrite CB, CV, EB. change (newlines (concat_str [s_sp])) with 0%Z. change (first_newline [s_sp]) with 0%Z. rewrite !Z.add_0_r. reflexivity.
  - destruct (d_args d) as [|code [|? ?]]; try discriminate.
    destruct (code_runes code rest LA) as (FB & BB & CB & EB & SB).
    assert (NN : newlines (d_name d) = 0%Z).
    { assert (X : forallb (fun n => Z.eqb (newlines n) 0) lua_names = true) by (vm_compute; reflexivity). rewrite forallb_forall in X. now apply Z.eqb_eq, X. }
    assert (NL : newlines (d_name d ++ " {" ++ code ++ "}") = newlines code).
    { rewrite !newlines_app, NN. change (newlines " {") with 0%Z. change (newlines "}") with 0%Z. lia. }
    rewrite NL. assert (TX : (d_name d ++ " {" ++ code ++ "}") ++ rest = d_name d ++ concat_str [s_sp] ++ "{" ++ code ++ "}" ++ rest).
    { change " {" with (" " ++ "{"). rewrite !app_assoc_s. reflexivity. }
    rewrite TX, scan_name, scan_gap, SB by auto. rewrite (block_run (d_name d) [s_sp] (scan_runes code) (scan_runes rest)) by auto.
    rewrite CB, EB. change (newlines (concat_str [s_sp])) with 0%Z. rewrite !Z.add_0_r. reflexivity.
Qed.

(** ** The tokens of a Lua block *)
Definition lua_front (line : Z) (d : directive) : list token := removelast (lua_toks line d).
Lemma lua_front_spec : forall line d, luab d = true -> exists pre code,
  lua_front line d = (pre ++ [Tok code (line + newlines (lua_build d)) true None])%list /\ lua_toks line d = (lua_front line d ++ [Tok ";" (line + newlines (lua_build d)) false None])%list.
Proof.
  intros line d H. unfold luab in H. apply andb_true_iff in H as [_ H]. unfold lua_args in H. unfold lua_front, lua_toks. set (l2 := (line + newlines (lua_build d))%Z). destruct (d_name d =? set_by_lua_block).
  - destruct (d_args d) as [|v [|code [|? ?]]]; try discriminate. exists [Tok (d_name d) line false None; Tok v line false None], code. split; reflexivity.
  - destruct (d_args d) as [|code [|? ?]]; try discriminate. exists [Tok (d_name d) line false None], code. split; reflexivity.
Qed.
Lemma after_mono : forall z, after_sep false z = true -> after_sep true z = true.
Proof. induction z as [|t z IH]; intros H; [discriminate|]. cbn [after_sep] in *. destruct (noteb t); auto. Qed.
Lemma drop_semi : forall a R l, proper (a ++ Tok ";" l false None :: R) -> after_sep false a = false -> proper (a ++ R).
Proof.
  intros a R l (N & S & Z0) A. split; [|split].
  - intros x y E. apply app_eq_app in E as (z & [[-> E]|[-> E]]).
    + apply (N x (z ++ Tok ";" l false None :: R)%list). now rewrite app_assoc.
    + specialize (N (a ++ Tok ";" l false None :: z)%list y). rewrite E, <- app_assoc in N. specialize (N eq_refl). rewrite net_app in *. cbn [net] in N. cbn in N. lia.
  - intros x t y E ST AF. apply app_eq_app in E as (z & [[-> E]|[-> E]]).
    + destruct z as [|t' z]; cbn [app] in E.
      * rewrite app_nil_r in A. congruence.
      * injection E as <- ->. apply (S x t (z ++ Tok ";" l false None :: R)%list); auto. now rewrite <- app_assoc.
    + apply (S (a ++ Tok ";" l false None :: z)%list t y); auto.
      * rewrite E, <- app_assoc. reflexivity.
      * rewrite after_sep_app in *. rewrite A in AF. cbn [after_sep]. cbn. now apply after_mono.
  - rewrite net_app in *. cbn [net] in Z0. cbn in Z0. lia.
Qed.
Lemma proper_safe : forall a b, proper (a ++ b) -> no_errors a -> safe a.
Proof.
  intros a b (N & S & _) E. split; auto. split.
  - intros x y ->. apply (N x (y ++ b)%list). now rewrite app_assoc.
  - intros x t y -> ST AF. apply (S x t (y ++ b)%list); auto. now rewrite <- app_assoc.
Qed.
Lemma lua_no_errors : forall line d, no_errors (lua_toks line d).
Proof.
  intros line d. unfold lua_toks. constructor; auto. apply Forall_app. split; [|repeat constructor].
  destruct (_ =? _); destruct (d_args d) as [|v [|code l]]; repeat constructor.
Qed.
Lemma x_no_errors : forall L line, no_errors (xtokens line L).
Proof. induction L as [|[[g x]|g d] L IH]; intros line; cbn [xtokens]; [constructor|constructor; auto; apply IH|]. apply Forall_app. split; [apply lua_no_errors|apply IH]. Qed.

(** ** The whole text *)
Lemma after_newlines : forall L line, after line L = (line + newlines (rtext L))%Z.
Proof.
  induction L as [|[g x] L IH]; intros line; [change (rtext []) with ""; change (newlines "") with 0%Z; cbn; lia|]. cbn [after]. rewrite IH, rtext_cons, !newlines_app. lia.
Qed.
Lemma clears_untouched : forall L line, clears L = true -> untouched lua_lexers (tokens_of line L).
Proof.
  intros L. induction L as [|[g x] L IH]; intros line H t n I A N; [destruct I|]. unfold clears in *. cbn [forallb snd] in H. apply andb_true_iff in H as [H1 H2]. cbn [tokens_of] in I. destruct I as [<-|I].
  - cbn [t_val]. unfold clear in H1. rewrite forallb_forall in H1. unfold has_prefix. apply negb_true_iff, H1. rewrite <- lua_keys. now apply assoc_in_keys.
  - eapply IH; eauto.
Qed.
Lemma split_items : forall L, exists L1, L = map XI L1 \/ exists g d L2, L = (map XI L1 ++ XL g d :: L2)%list.
Proof.
  induction L as [|[gx|g d] L (L1 & IH)]; [exists []; now left| |exists []; right; exists g, d, L; reflexivity].
  exists (gx :: L1). destruct IH as [->|(g & d & L2 & ->)]; [now left|right]. exists g, d, L2. reflexivity.
Qed.
Lemma rest_known : forall done line start quote, safe done -> known done (rest_at line start (net done) (after_sep false done) quote).
Proof.
  intros done line start quote S. exists (C MSkip line start (after_sep false done) (net done)). split; [repeat split|]. split; [|reflexivity]. split; [exact S|]. split; reflexivity.
Qed.
Lemma rest_crun : forall done line start quote s, lex_run [] 0 (rest_at line start (net done) (after_sep false done) quote) (scan_runes s) = crun (C MSkip line start (after_sep false done) (net done)) (U s).
Proof. intros done line start quote s. apply ArgProofs.run_crun; [apply scan_rune_like|repeat split]. Qed.
Lemma name_head : forall d, luab d = true -> exists c s, lua_build d = String c s /\ (bval c < 128)%N.
Proof.
  intros d H. unfold luab in H. apply andb_true_iff in H as [LD _]. unfold lua_dir in LD. apply existsb_exists in LD as (n & IN & E). apply String.eqb_eq in E. subst n.
  destruct (lua_assoc _ IN) as (_ & SN & NE). destruct (simple_inv _ SN) as [_ F]. unfold lua_build. destruct (d_name d) as [|c n]; [congruence|]. cbn [list_of_str forallb] in F. apply andb_true_iff in F as [F _].
  apply name_units in F as [F _]. destruct (String.eqb _ _); destruct (d_args d) as [|v [|code l]]; cbn [String.append]; eauto.
Qed.
Lemma last_resting : forall L line prev done, L <> [] -> chain prev L = true -> resting (lastl prev L) = true -> last_ok (done ++ tokens_of line L) = true.
Proof.
  intros L. induction L as [|[g x] L IH]; intros line prev done NE CH RS; [congruence|]. cbn [chain lastl tokens_of] in *. rewrite !andb_true_iff in CH. destruct CH as [[[_ LX] _] CH]. destruct L as [|i L].
  - cbn [tokens_of]. cbn [lastl] in RS. rewrite last_ok_snoc. destruct x as [ps|q ps|c|ps]; try discriminate.
    + cbn [lexeme_ok] in LX. apply mem_In in LX. cbn in LX. cbn [lexeme_val lexeme_quoted]. destruct LX as [<-|[<-|[<-|[]]]]; reflexivity.
    + cbn [lexeme_val lexeme_quoted]. unfold noteb, sepb. cbn. reflexivity.
  - match goal with |- context [?a :: tokens_of ?l ?r] => change (a :: tokens_of l r) with ([a] ++ tokens_of l r)%list end. rewrite app_assoc. eapply IH; eauto. discriminate.
Qed.
Lemma xlex : forall n L, List.length L <= n -> forall prev line start quote done last, safe done -> simple prev = true -> xchain prev L = true ->
  gap_ok last = true -> fits (xlast prev L) last None = true -> proper (done ++ xtokens line L) ->
  lex_run lua_lexers 0 (rest_at line start (net done) (after_sep false done) quote) (scan_runes (xtext L ++ concat_str last)) = xtokens line L.
Proof.
  induction n as [|n IH]; intros L LE prev line start quote done last SD SP CH GL FL PR; destruct (split_items L) as (L1 & [->|(g & d & L2 & ->)]).
  3: {
    rewrite xchain_items in CH. apply andb_true_iff in CH as [CH CL]. rewrite xlast_items in FL. rewrite xtokens_items in *. rewrite xtext_items, <- render_last.
    assert (T : lex_run [] 0 (rest_at line start (net done) (after_sep false done) quote) (scan_runes (render L1 last)) = tokens_of line L1).
    { rewrite rest_crun. apply (layout_run L1 last prev _ line done []); auto; [constructor; auto|rewrite laid_chain, CH; cbn [laid]; now rewrite GL, FL|apply SD]. }
    rewrite run_untouched; [exact T|]. rewrite T. now apply clears_untouched. }
  - destruct L1; [|cbn in LE; lia]. cbn [map xtext xtokens String.append] in *. cbn [xlast] in FL.
    assert (T : lex_run [] 0 (rest_at line start (net done) (after_sep false done) quote) (scan_runes (concat_str last)) = []).
    { rewrite rest_crun. change (concat_str last) with (render [] last). apply (layout_run [] last prev _ line done []); auto; [constructor; auto|cbn [laid]; now rewrite GL, FL|apply SD]. }
    rewrite run_untouched; [exact T|]. rewrite T. intros t m [].
  - rewrite app_length in LE. cbn in LE. lia.
  - rewrite app_length in LE. cbn [List.length] in LE. rewrite xchain_app, xchain_items, xlast_items in CH. cbn [xchain] in CH. rewrite !andb_true_iff in CH. destruct CH as [[CH CL] [[[[G RS] F] LB] CH2]].
    rewrite xlast_app in FL. cbn [xlast] in FL. rewrite xtokens_app, xtokens_items, xafter_items in *. cbn [xtokens] in *. rewrite xtext_app, xtext_items. cbn [xtext].
    set (l1 := (after line L1 + newlines (concat_str g))%Z) in *. destruct (lua_front_spec l1 d LB) as (pre & code & FR & TK).
    set (l2 := (l1 + newlines (lua_build d))%Z) in *. set (ts := tokens_of line L1) in *.
    (* from the place in front of the block *)
    assert (GO : forall start' dup' quote', lex_run lua_lexers 0 (rest_at l1 start' (net (done ++ ts)) dup' quote') (scan_runes (lua_build d ++ xtext L2 ++ concat_str last)) = (lua_toks l1 d ++ xtokens l2 L2)%list).
    { intros start' dup' quote'. rewrite lua_run by auto. f_equal. fold l2.
      assert (PD : proper (((done ++ ts) ++ lua_front l1 d) ++ Tok ";" l2 false None :: xtokens l2 L2)).
      { rewrite TK in PR. rewrite <- !app_assoc in *. cbn [app] in PR. exact PR. }
      assert (AD : after_sep false ((done ++ ts) ++ lua_front l1 d) = false) by (rewrite FR, app_assoc; apply after_plain; reflexivity).
      assert (ND : net ((done ++ ts) ++ lua_front l1 d) = net (done ++ ts)).
      { rewrite net_app. assert (Z0 : net (lua_front l1 d) = 0%Z); [|lia]. clear - LB. unfold luab in LB. apply andb_true_iff in LB as [LD LA]. unfold lua_dir in LD. apply existsb_exists in LD as (m & IN & E). apply String.eqb_eq in E. subst m.
        assert (X : forallb (fun m => Z.eqb (net [Tok m 0 false None]) 0) lua_names = true) by (vm_compute; reflexivity). rewrite forallb_forall in X. specialize (X _ IN). apply Z.eqb_eq in X. cbn [net] in X. unfold opensb, closesb in X. cbn [t_quoted t_val] in X.
        unfold lua_front, lua_toks, lua_args in *. destruct (d_name d =? set_by_lua_block).
        - destruct (d_args d) as [|v [|c2 [|? ?]]]; try discriminate. cbn [removelast app]. cbn [net]. unfold opensb, closesb. cbn [t_quoted t_val negb andb]. rewrite !andb_true_iff in LA. destruct LA as [[[_ V] _] _].
          cbn [negb andb] in X. rewrite Z.add_0_r in X.
          assert (OV : (v =? "{") = false /\ (v =? "}") = false) by (apply negb_true_iff in V; unfold mem, separators in V; cbn [existsb] in V; rewrite !orb_false_iff in V; tauto).
          destruct OV as [-> ->]. destruct (d_name d =? "{"); [lia|]. destruct (d_name d =? "}"); lia.
        - destruct (d_args d) as [|c2 [|? ?]]; try discriminate. cbn [removelast app]. cbn [net]. unfold opensb, closesb. cbn [t_quoted t_val negb andb]. cbn [negb andb] in X. destruct (d_name d =? "{"); [lia|]. destruct (d_name d =? "}"); lia. }
      specialize (IH L2 ltac:(lia) (Some (Sep ";")) l2 l1 "" ((done ++ ts) ++ lua_front l1 d)%list last). rewrite AD, ND in IH. apply IH; auto.
      - eapply proper_safe; [exact PD|]. apply Forall_app. split; [apply Forall_app; split; [apply SD|apply tokens_no_errors]|]. pose proof (lua_no_errors l1 d) as NE. rewrite TK in NE. apply Forall_app in NE. apply NE.
      - now apply (drop_semi _ _ l2). }
    destruct L1 as [|i L1'].
    + unfold ts. cbn [rtext render concat_str tokens_of app String.append] in *. rewrite !app_assoc_s, scan_gap by auto. unfold rest_at. rewrite LuaProofs.skip_gap by auto. specialize (GO start (after_sep false done) quote). unfold ts in GO. rewrite app_nil_r in GO. exact GO.
    + remember (i :: L1') as L1 eqn:EL. assert (NL1 : L1 <> []) by (rewrite EL; discriminate). clear EL i L1'.
      set (s := rest_at line start (net done) (after_sep false done) quote).
      assert (SF : safe (done ++ ts)) by (eapply proper_safe; [rewrite app_assoc in PR; exact PR|apply Forall_app; split; [apply SD|apply tokens_no_errors]]).
      assert (LO : last_ok (done ++ ts) = true) by (eapply last_resting; eauto).
      assert (FN : fits (lastl prev L1) g None = true).
      { clear - F RS. destruct (lastl prev L1) as [[ps|q ps|c|ps]|]; try discriminate; auto. cbn [fits] in *. now destruct (core g). }
      assert (HS : holds (C MSkip line start (after_sep false done) (net done)) prev line done []) by (constructor; auto).
      destruct (seg_state (rtext L1 ++ concat_str g) s done ts (rest_known _ _ _ _ SD) (tokens_no_errors L1 line) LO) as (start' & dup' & quote' & PG).
      * rewrite <- render_last. unfold s. rewrite rest_crun. apply (layout_open L1 g prev _ line done []); auto. rewrite laid_chain, CH. cbn [laid]. now rewrite G, FN.
      * assert (TX : (rtext L1 ++ concat_str g) ++ "x" = render (L1 ++ [(g, Word [Raw "x"])]) []).
        { rewrite render_last, rtext_app, rtext_cons. change (rtext []) with "". change (lexeme_src (Word [Raw "x"])) with "x". cbn [concat_str]. rewrite !app_nil_r_s, app_assoc_s. reflexivity. }
        rewrite TX. unfold s. rewrite rest_crun.
        destruct (layout_open (L1 ++ [(g, Word [Raw "x"])]) [] prev (C MSkip line start (after_sep false done) (net done)) line done [] HS) as (e & FE & E).
        -- rewrite laid_chain, chain_app, lastl_app, CH. cbn [chain lastl laid]. rewrite G, F. reflexivity.
        -- rewrite tokens_app. fold ts. cbn [tokens_of]. rewrite app_assoc. apply safe_snoc; auto; [|discriminate]. rewrite net_app. cbn [net]. cbn. destruct SF as (_ & NS & _). specialize (NS (done ++ ts)%list []). rewrite app_nil_r in NS. specialize (NS eq_refl). lia.
        -- exists l1, e. split; auto. rewrite E, tokens_app. fold ts. cbn [tokens_of app]. fold l1. rewrite <- app_assoc. reflexivity.
      * destruct (name_head d LB) as (c & r & BD & AS).
        assert (SC : scan_runes ((rtext L1 ++ concat_str g ++ lua_build d ++ xtext L2) ++ concat_str last) = (scan_runes (rtext L1 ++ concat_str g) ++ scan_runes (lua_build d ++ xtext L2 ++ concat_str last))%list).
        { assert (E : (rtext L1 ++ concat_str g ++ lua_build d ++ xtext L2) ++ concat_str last = (rtext L1 ++ concat_str g) ++ String c (r ++ xtext L2 ++ concat_str last)).
          { rewrite BD. rewrite !app_assoc_s. reflexivity. }
          rewrite E, scan_ascii_app by auto. rewrite BD. reflexivity. }
        rewrite SC, (pgo_ext lua_lexers _ s ts _ _ PG eq_refl (clears_untouched L1 line CL)). f_equal.
        assert (LL : (l_line s + newlines (rtext L1 ++ concat_str g))%Z = l1) by (unfold l1, s; cbn [l_line rest_at]; rewrite after_newlines, newlines_app; lia).
        rewrite LL. apply GO.
Qed.
