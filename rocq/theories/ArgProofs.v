(** Registered names among the arguments of a directive. *)
From Verif Require Export ExtProofs.
From Coq Require Import Lia.
Local Open Scope string_scope.

(** ** nextTokenIsDirective *)
Definition cntd (c : cst) (u : string) (ntd : bool) : bool :=
  let n := (is_eol u || ntd)%bool in
  match c_mode c with
  | MSkip => if is_space u then n else if String.eqb u "#" then false else if is_quote u then n else if is_special u then true else n
  | MWord w => if is_space u then false else if (has_suffix w "$" && String.eqb u "{")%bool then false else if is_special u then true else n
  | _ => n
  end.
Lemma special_ntd : forall s u, r_ctl (lex_special s u) <> Stop -> l_ntd (r_st (lex_special s u)) = true.
Proof.
  intros s u. unfold lex_special. cbv zeta. destruct (l_dup _ && _)%bool; [cbn; congruence|]. destruct ((u =? "}") && _)%bool; [cbn; congruence|]. reflexivity.
Qed.
Lemma ntd_step : forall s c u c' ts, rel s c -> u <> "" -> cstep c u = Go c' ts -> l_ntd (r_st (ustep s u)) = cntd c u (l_ntd s).
Proof.
  intros s c u c' ts R NU G. pose proof (step_rel s c u R NU) as SR. rewrite G in SR. destruct SR as (CT & _ & _). revert CT. clear G.
  destruct R as (_ & _ & _ & _ & F & M). unfold ustep, cntd.
  assert (N : l_ntd (lex_read s u) = (is_eol u || l_ntd s)%bool) by (unfold lex_read; destruct (is_eol u); reflexivity).
  assert (ST : l_st (lex_read s u) = l_st s) by (unfold lex_read; destruct (is_eol u); reflexivity).
  assert (TK : l_tok (lex_read s u) = l_tok s) by (unfold lex_read; destruct (is_eol u); reflexivity).
  assert (NW : l_new (lex_read s u) = false) by (unfold lex_read; destruct (is_eol u); auto).
  assert (QU : l_quote (lex_read s u) = l_quote s) by (unfold lex_read; destruct (is_eol u); reflexivity).
  rewrite <- N. clear N. set (s1 := lex_read s u) in *. clearbody s1. destruct s1 as [tok line start st new dup esc depth quote ntd].
  cbn [l_ntd l_st l_tok l_new l_quote] in *. subst new. unfold usw.
  destruct (c_mode c) as [|w|w|w|q w].
  - destruct M as [S T]. rewrite S in ST. rewrite T in TK. subst st tok. 
    assert (E : lex_switch (Lst "" line start SkipSpace false dup esc depth quote ntd) u =
      if is_space u then LRes (Lst "" line start SkipSpace false dup esc depth quote ntd) [] Next
      else LRes (Lst "" line line InWord true dup esc depth quote ntd) [] (ReEval u)) by reflexivity.
    rewrite E. clear E.
    destruct (is_space u) eqn:SP; [reflexivity|]. cbn [r_ctl r_st r_toks]. unfold lex_switch. cbn [set_start set_new set_st l_st l_new l_tok l_line l_start l_dup l_esc l_depth l_quote l_ntd andb].
    destruct (u =? "#"); [reflexivity|]. rewrite SP. cbn [str_nonempty String.eqb negb andb]. fold (is_quote u). destruct (is_quote u); [reflexivity|].
    destruct (is_special u); [|reflexivity]. cbn [r_ctl r_st]. intros CT. apply special_ntd. congruence.
  - destruct M as (S & T & NE). rewrite S in ST. rewrite T in TK. subst st tok. unfold lex_switch. cbn [set_new l_st l_new l_tok l_line l_start l_dup l_esc l_depth l_quote l_ntd andb].
    destruct (is_space u) eqn:SP; [reflexivity|]. rewrite (proj2 (nonempty_iff w) NE). cbn [andb].
    destruct (has_suffix w "$" && (u =? "{"))%bool; [reflexivity|].
    fold (is_quote u). destruct (is_quote u) eqn:Q.
    + assert (NS : is_special u = false).
      { unfold is_quote in Q. apply orb_true_iff in Q as [Q|Q]; apply String.eqb_eq in Q; subst u; reflexivity. }
      rewrite NS. reflexivity.
    + destruct (is_special u); [|reflexivity].
      match goal with |- context [lex_special ?x u] => pose proof (special_ntd x u) as SN; destruct (r_ctl (lex_special x u)) eqn:E end.
      * intros _. apply SN. discriminate.
      * intros CT. exfalso. revert E. unfold lex_special. cbv zeta. repeat match goal with |- context [if ?b then LRes _ _ _ else _] => destruct b end; discriminate.
      * rewrite E. discriminate.
  - destruct M as (S & T & NE). rewrite S in ST. subst st. unfold lex_switch. cbn [l_st]. destruct (is_eol u); reflexivity.
  - destruct M as (S & T & NE). rewrite S in ST. subst st. unfold lex_switch. cbn [l_st]. destruct (_ && _)%bool; reflexivity.
  - destruct M as (S & T & NE). rewrite S in ST. subst st. unfold lex_switch. cbn [l_st]. destruct (_ =? _); reflexivity.
Qed.

(** ** Lines *)
Definition tok_of (m : mode) : string := match m with MSkip => "" | MWord w | MNote w | MVar w | MStr _ w => w end.
Definition inv_line (c : cst) : Prop :=
  match c_mode c with MSkip => True | m => (c_start c <= c_line c)%Z /\ (no_newline (tok_of m) -> c_line c = c_start c) end.
Definition inv_behind (c : cst) (ntd : bool) (b : option Z) : Prop :=
  forall l, b = Some l -> (l <= c_line c)%Z /\ (c_line c = l -> ntd = false).
Definition next_behind (b : option Z) (t : token) : option Z :=
  if t_quoted t then b else if (sepb t || noteb t)%bool then None else Some (t_line t).
Lemma calm_app : forall ext a b behind, calm ext behind (a ++ b) -> calm ext (fold_left next_behind a behind) b.
Proof. induction a as [|t a IH]; intros b behind H; [exact H|]. cbn [app calm] in H. destruct H as [_ H]. cbn [fold_left]. apply IH, H. Qed.
Lemma eol_in : forall u, is_eol u = true -> ~ no_newline u.
Proof.
  intros u E N. apply no_newline_iff in N. apply N. unfold is_eol in E. apply (proj1 (suffix1_iff u "010"%char)) in E as [r ->].
  apply in_str_app. right. left. reflexivity.
Qed.
Lemma no_newline_app : forall a b, no_newline (a ++ b) -> no_newline a /\ no_newline b.
Proof. intros a b H. rewrite no_newline_iff in H. rewrite !no_newline_iff. rewrite in_str_app in H. tauto. Qed.
Lemma no_newline_prefix : forall a b, prefix a b = true -> no_newline b -> no_newline a.
Proof. intros a b P N. apply prefix_iff in P as [x ->]. now apply no_newline_app in N as [? _]. Qed.
Lemma special_sep : forall u l, is_special u = true -> sepb (Tok u l false None) = true.
Proof. intros u l S. apply special_cases in S as [-> | [-> | ->]]; reflexivity. Qed.
Lemma csep_go : forall pre line start dup depth u c' ts, csep pre line start dup depth u = Go c' ts ->
  c_mode c' = MSkip /\ c_line c' = line /\ ts = (pre ++ [Tok u start false None])%list.
Proof. intros pre line start dup depth u c' ts. unfold csep. destruct (dup && _)%bool; [discriminate|]. destruct (_ && _)%bool; [discriminate|]. intros H. inversion H. auto. Qed.
Lemma escq : forall u q, (if u =? "\" ++ q then q else u) = u \/ (u = "\" ++ q /\ (if u =? "\" ++ q then q else u) = q).
Proof. intros u q. destruct (u =? "\" ++ q) eqn:E; auto. apply String.eqb_eq in E. auto. Qed.
Lemma eol_unq : forall u q, is_eol u = true -> ~ no_newline (if u =? "\" ++ q then q else u).
Proof.
  intros u q E. destruct (escq u q) as [->|[U ->]]; [now apply eol_in|]. subst u. destruct (string_dec q "") as [->|N]; [discriminate|].
  rewrite is_eol_app in E by auto. now apply eol_in.
Qed.

Lemma inv_line_step : forall c u c' ts, inv_line c -> cstep c u = Go c' ts -> inv_line c'.
Proof.
  intros c u c' ts I G. unfold cstep in G. unfold inv_line in *.
  assert (LE : (c_line c <= if is_eol u then c_line c + 1 else c_line c)%Z) by (destruct (is_eol u); lia).
  destruct (c_mode c) as [|w|w|w|q w] eqn:M; cbn [tok_of] in I.
  - destruct (is_space u); [inversion G; subst; exact Logic.I|]. destruct (u =? "#"); [inversion G; subst; cbn; split; [lia|auto]|].
    destruct (is_quote u); [inversion G; subst; cbn; split; [lia|auto]|]. destruct (is_special u).
    + apply csep_go in G as (-> & _). exact Logic.I.
    + inversion G; subst; cbn; split; [lia|auto].
  - destruct (is_space u); [inversion G; subst; exact Logic.I|].
    assert (K : (c_start c <= if is_eol u then c_line c + 1 else c_line c)%Z /\ (no_newline (w ++ u) -> (if is_eol u then c_line c + 1 else c_line c)%Z = c_start c)).
    { split; [lia|]. intros N. apply no_newline_app in N as [N1 N2]. destruct (is_eol u) eqn:E; [now apply eol_in in E|]. now apply I. }
    destruct (_ && _)%bool; [inversion G; subst; exact K|]. destruct (is_special u); [apply csep_go in G as (-> & _); exact Logic.I|]. inversion G; subst. exact K.
  - destruct (is_eol u) eqn:E; [inversion G; subst; exact Logic.I|]. inversion G; subst; cbn. split; [lia|]. intros N. apply no_newline_app in N as [N1 N2]. now apply I.
  - inversion G; subst; cbn [c_mode c_start c_line].
    assert (K : (c_start c <= if is_eol u then c_line c + 1 else c_line c)%Z /\ (no_newline (w ++ u) -> (if is_eol u then c_line c + 1 else c_line c)%Z = c_start c)).
    { split; [lia|]. intros N. apply no_newline_app in N as [N1 N2]. destruct (is_eol u) eqn:E; [now apply eol_in in E|]. now apply I. }
    destruct (_ || _)%bool; exact K.
  - destruct (u =? q); [inversion G; subst; exact Logic.I|]. inversion G; subst; cbn [c_mode c_start c_line tok_of]. split; [lia|].
    intros N. apply no_newline_app in N as [N1 N2]. destruct (is_eol u) eqn:E; [|now apply I]. now apply eol_unq with (q := q) in E.
Qed.
Lemma inv_behind_same : forall c c' u ntd b, inv_behind c ntd b -> c_line c' = (if is_eol u then c_line c + 1 else c_line c)%Z ->
  inv_behind c' (is_eol u || ntd) b.
Proof.
  intros c c' u ntd b I L l B. destruct (I l B) as [LE N]. rewrite L. destruct (is_eol u); [split; lia|]. auto.
Qed.
Lemma inv_behind_off : forall c c' u ntd b, inv_behind c ntd b -> c_line c' = (if is_eol u then c_line c + 1 else c_line c)%Z ->
  inv_behind c' false b.
Proof. intros c c' u ntd b I L l B. destruct (I l B) as [LE N]. rewrite L. destruct (is_eol u); split; auto; lia. Qed.
Lemma inv_behind_step : forall c u c' ts ntd b, inv_line c -> inv_behind c ntd b -> cstep c u = Go c' ts ->
  inv_behind c' (cntd c u ntd) (fold_left next_behind ts b).
Proof.
  intros c u c' ts ntd b IL I G. unfold cstep in G. unfold cntd, inv_line in *.
  destruct (c_mode c) as [|w|w|w|q w] eqn:M.
  - destruct (is_space u); [inversion G; subst; cbn [fold_left]; eapply inv_behind_same; eauto; reflexivity|].
    destruct (u =? "#"); [inversion G; subst; cbn [fold_left]; eapply inv_behind_off with (u := u); eauto; reflexivity|].
    destruct (is_quote u); [inversion G; subst; cbn [fold_left]; eapply inv_behind_same; eauto; reflexivity|].
    destruct (is_special u) eqn:S; [|inversion G; subst; cbn [fold_left]; eapply inv_behind_same; eauto; reflexivity].
    apply csep_go in G as (_ & _ & ->). cbn [app fold_left]. unfold next_behind. rewrite special_sep by auto. cbn. intros l X. discriminate.
  - destruct IL as [IL _]. destruct (is_space u).
    + inversion G; subst. cbn [fold_left]. unfold next_behind. cbn [t_quoted t_line]. destruct (_ || _)%bool; [intros l X; discriminate|].
      intros l X. inversion X; subst. cbn [c_line]. split; auto. destruct (is_eol u); lia.
    + destruct (_ && _)%bool; [inversion G; subst; cbn [fold_left]; eapply inv_behind_off with (u := u); eauto; reflexivity|].
      destruct (is_special u) eqn:S; [|inversion G; subst; cbn [fold_left]; eapply inv_behind_same; eauto; reflexivity].
      apply csep_go in G as (_ & _ & ->). cbn [app fold_left]. unfold next_behind at 1. rewrite special_sep by auto. cbn. intros l X. discriminate.
  - destruct IL as [IL _]. destruct (is_eol u) eqn:E.
    + inversion G; subst. cbn [fold_left orb]. unfold next_behind. cbn [t_quoted t_line]. destruct (_ || _)%bool; [intros l X; discriminate|].
      intros l X. inversion X; subst. cbn [c_line]. lia.
    + inversion G; subst. cbn [fold_left]. rewrite <- E. eapply inv_behind_same; eauto. rewrite E. reflexivity.
  - inversion G; subst. cbn [fold_left]. eapply inv_behind_same; eauto.
  - destruct (u =? q); inversion G; subst; cbn [fold_left]; unfold next_behind; cbn [t_quoted]; eapply inv_behind_same; eauto; reflexivity.
Qed.

(** The first token after a blank place stands on this line or below. *)
Lemma first_line_tok : forall us c, c_mode c <> MSkip ->
  match crun c us with t :: _ => t_err t = None -> t_line t = c_start c | [] => True end.
Proof.
  induction us as [|u us IH]; intros c N; cbn [crun].
  - unfold cfinish, cpending. destruct (c_mode c) as [|w|w|w|q w]; [congruence|cbn; auto|cbn; auto|cbn; auto|].
    destruct (w =? ""); cbn [app]; destruct (0 <? c_depth c)%Z; cbn; auto.
  - unfold cstep. destruct (c_mode c) as [|w|w|w|q w]; [congruence| | | |].
    + destruct (is_space u); [cbn; auto|]. destruct (_ && _)%bool; [apply (IH (C (MVar (w ++ u)) _ _ _ _)); discriminate|].
      destruct (is_special u); [|apply (IH (C (MWord (w ++ u)) _ _ _ _)); discriminate].
      unfold csep. destruct (_ && _)%bool; [cbn; auto|]. destruct (_ && _)%bool; cbn; auto.
    + destruct (is_eol u); [cbn; auto|]. apply (IH (C (MNote (w ++ u)) _ _ _ _)); discriminate.
    + match goal with |- context [crun ?c' us] => apply (IH c') end. cbn. destruct (_ || _)%bool; discriminate.
    + destruct (u =? q); [cbn; auto|]. match goal with |- context [crun ?c' us] => apply (IH c') end. discriminate.
Qed.
Lemma first_line : forall us c, c_mode c = MSkip ->
  match crun c us with t :: _ => t_err t = None -> (c_line c <= t_line t)%Z | [] => True end.
Proof.
  induction us as [|u us IH]; intros c N; cbn [crun].
  - unfold cfinish, cpending. rewrite N. cbn [app]. destruct (_ <? _)%Z; cbn; [discriminate|auto].
  - unfold cstep. rewrite N. set (line := if is_eol u then (c_line c + 1)%Z else c_line c).
    assert (LE : (c_line c <= line)%Z) by (unfold line; destruct (is_eol u); lia). clearbody line.
    assert (K : forall m d, m <> MSkip -> match crun (C m line line d (c_depth c)) us with t :: _ => t_err t = None -> (c_line c <= t_line t)%Z | [] => True end).
    { intros m d H. pose proof (first_line_tok us (C m line line d (c_depth c)) H) as F. destruct (crun _ _) as [|t ts]; auto. intros E. rewrite (F E). exact LE. }
    destruct (is_space u).
    + pose proof (IH (C MSkip line (c_start c) (c_dup c) (c_depth c)) eq_refl) as H. cbn [app]. destruct (crun _ _) as [|t ts]; auto. intros E. specialize (H E). cbn in H. lia.
    + destruct (u =? "#"); [apply K; discriminate|]. destruct (is_quote u); [apply K; discriminate|].
      destruct (is_special u); [|apply K; discriminate].
      unfold csep. destruct (_ && _)%bool; [cbn; discriminate|]. destruct (_ && _)%bool; cbn; [discriminate|auto].
Qed.

(** ** Runs *)
Lemma body_calm : forall ext s la rest, l_tok s = "" \/ assoc (l_tok s) ext = None \/ l_ntd s = false ->
  lex_body ext s la rest = lex_body [] s la [].
Proof.
  intros ext s la rest H. unfold lex_body. destruct (_ || _)%bool; auto. destruct (_ && negb (l_esc s))%bool; auto.
  assert (X : (if (str_nonempty (l_tok (set_esc s false)) && l_ntd (set_esc s false))%bool then assoc (l_tok (set_esc s false)) ext else None) = None).
  { cbn [l_tok set_esc l_ntd]. destruct H as [-> | [-> | ->]]; [reflexivity|now destruct (_ && _)%bool|now rewrite andb_false_r]. }
  rewrite X. cbn [assoc]. now destruct (_ && _)%bool.
Qed.
Lemma switch_reeval_ntd : forall s la la', r_ctl (lex_switch s la) = ReEval la' -> l_ntd (r_st (lex_switch s la)) = l_ntd s.
Proof.
  intros s la la' H. unfold lex_switch in *. destruct (l_st s).
  - destruct (is_space la); [discriminate|]. auto.
  - exfalso. revert H. unfold lex_special. repeat match goal with |- context [if ?b then _ else _] => destruct b end; cbn; discriminate.
  - exfalso. revert H. destruct (is_eol la); discriminate.
  - exfalso. revert H. cbv zeta. destruct (_ && _)%bool; discriminate.
  - exfalso. revert H. destruct (la =? l_quote s); discriminate.
Qed.
Lemma body_reeval_ntd : forall s la la', r_ctl (fst (lex_body [] s la [])) = ReEval la' -> l_ntd (r_st (fst (lex_body [] s la []))) = l_ntd s.
Proof.
  intros s la la' H. unfold lex_body in *. destruct (_ || _)%bool; [discriminate|]. destruct (_ && negb (l_esc s))%bool; [discriminate|]. cbn [assoc] in *.
  destruct (_ && _)%bool; cbn [fst] in *; apply switch_reeval_ntd in H; rewrite H; reflexivity.
Qed.
Lemma run_calm : forall ext s la rest, l_tok s = "" \/ assoc (l_tok s) ext = None \/ l_ntd (lex_read s la) = false -> lex_run ext 0 s (la :: rest) =
  match r_ctl (step0 s la) with Stop => r_toks (step0 s la) | _ => r_toks (step0 s la) ++ lex_run ext 0 (r_st (step0 s la)) rest end%list.
Proof.
  intros ext s la rest H. cbn [lex_run].
  assert (E : lex_step ext s la rest = (step0 s la, 0)).
  { unfold step0, lex_step. rewrite (body_calm ext) by (rewrite read_tok; auto).
    pose proof (body_n (lex_read s la) la []) as Z. destruct (lex_body [] (lex_read s la) la []) as [r n] eqn:E. cbn [snd] in Z. subst n.
    destruct (r_ctl r) as [|la'|] eqn:RC; auto.
    assert (T : l_tok (r_st r) = l_tok s).
    { pose proof (body_reeval (lex_read s la) la la') as B. rewrite E in B. cbn [fst] in B. rewrite (B RC). apply read_tok. }
    assert (N : l_ntd (r_st r) = l_ntd (lex_read s la)).
    { pose proof (body_reeval_ntd (lex_read s la) la la') as B. rewrite E in B. cbn [fst] in B. exact (B RC). }
    rewrite (body_calm ext) by (rewrite T, N; auto). pose proof (body_n (r_st r) la' []) as Z. destruct (lex_body [] (r_st r) la' []) as [r' n']. cbn [snd] in Z. now subst n'. }
  rewrite E. destruct (r_ctl (step0 s la)); reflexivity.
Qed.
Lemma rel_esc : forall s c b, rel s c -> rel (set_esc s b) c.
Proof. intros s c b R. exact R. Qed.
Lemma run_crun : forall rs s c, Forall rune_like rs -> rel s c -> lex_run [] 0 s rs = crun c (units (l_esc s) rs).
Proof. intros rs s c F R. rewrite run_units by auto. apply urun_crun; [now apply rel_esc|now apply units_nonempty]. Qed.
Lemma tok_mode : forall s c, rel s c -> l_tok s = tok_of (c_mode c).
Proof. intros s c (_ & _ & _ & _ & _ & M). destruct (c_mode c); cbn [tok_of]; tauto. Qed.

(** One rune: nothing but the escape, or one unit. *)
Lemma step0_unit_or : forall s la, rune_like la ->
  (is_eol la = false /\ exists b, step0 s la = LRes (set_esc s b) [] Next) \/
  step0 s la = ustep (set_esc s false) (if l_esc s then "\" ++ la else la).
Proof.
  intros s la [NE NR]. unfold step0. destruct (string_dec la s_cr) as [->|NC].
  { left. split; [reflexivity|]. exists (l_esc s). unfold lex_step, lex_read. rewrite eol_cr. destruct s; reflexivity. }
  destruct (l_esc s) eqn:E.
  - right. rewrite step_esc by auto. reflexivity.
  - destruct (string_dec la "\") as [->|NB].
    + left. split; [reflexivity|]. exists true. unfold lex_step, lex_read. rewrite eol_bs. unfold lex_body. rewrite E. reflexivity.
    + right. rewrite step_unit by (auto; split; auto). now rewrite (esc_id s E).
Qed.

(** A newline unit ends the token or becomes part of it. *)
Lemma newline_unit : forall c u c' ts, c_mode c <> MSkip -> is_eol u = true -> cstep c u = Go c' ts ->
  (exists t, ts = [t] /\ c_mode c' = MSkip /\ c_line c' = (c_line c + 1)%Z) \/
  (ts = [] /\ c_mode c' <> MSkip /\ ~ no_newline (tok_of (c_mode c')) /\ tok_of (c_mode c') <> "").
Proof.
  intros c u c' ts N E G. unfold cstep in G. rewrite E in G.
  assert (NU : u <> "") by (intros ->; discriminate).
  assert (A : forall w, ~ no_newline (w ++ u)) by (intros w H; apply no_newline_app in H as [_ H]; now apply eol_in in E).
  destruct (c_mode c) as [|w|w|w|q w]; [congruence| | | |].
  - destruct (is_space u); [inversion G; subst; left; eexists; repeat split|]. right.
    assert (S : is_special u = false).
    { destruct (is_special u) eqn:S; auto. apply special_cases in S as [-> | [-> | ->]]; discriminate. }
    rewrite S in G. destruct (_ && _)%bool; inversion G; subst; cbn; repeat split; auto; try discriminate; now apply app_ne_r.
  - inversion G; subst. left; eexists; repeat split.
  - right. inversion G; subst. cbn [c_mode]. destruct (_ || _)%bool; cbn; repeat split; auto; try discriminate; now apply app_ne_r.
  - destruct (u =? q); inversion G; subst; [left; eexists; repeat split|]. right. cbn.
    pose proof (eol_unq u q E) as Q. repeat split; auto; try discriminate.
    + intros H. apply no_newline_app in H as [_ H]. auto.
    + apply app_ne_r. intros H. apply Q. change (no_newline (if u =? String "\" q then q else u)). rewrite H. reflexivity.
Qed.
Lemma first_token : forall us c, tok_of (c_mode c) <> "" -> exists t ts, crun c us = t :: ts /\ t_line t = c_start c /\ t_err t = None /\ prefix (tok_of (c_mode c)) (t_val t) = true.
Proof.
  induction us as [|u us IH]; intros c N; cbn [crun].
  - unfold cfinish, cpending. destruct (c_mode c) as [|w|w|w|q w]; [now cbn in N| | | |]; cbn [tok_of] in *; try (eexists _, _; cbn; repeat split; apply prefix_refl).
    rewrite (proj2 (String.eqb_neq _ _) N). eexists _, _; cbn; repeat split; apply prefix_refl.
  - assert (K : forall c' w v, c_start c' = c_start c -> w = tok_of (c_mode c) -> tok_of (c_mode c') = w ++ v -> exists t ts, crun c' us = t :: ts /\ t_line t = c_start c /\ t_err t = None /\ prefix w (t_val t) = true).
    { intros c' w v S W T. destruct (IH c') as (t & ts & A & B & D & E). { rewrite T. apply app_ne. now rewrite W. }
      exists t, ts. repeat split; auto; [congruence|]. rewrite T in E. eapply prefix_trans; [apply prefix_app|exact E]. }
    unfold cstep. destruct (c_mode c) as [|w|w|w|q w] eqn:M; [now cbn in N| | | |]; cbn [tok_of] in *.
    + destruct (is_space u); [eexists _, _; cbn; repeat split; apply prefix_refl|]. destruct (_ && _)%bool; [eapply K; reflexivity|].
      destruct (is_special u); [|eapply K; reflexivity]. unfold csep. destruct (_ && _)%bool; [eexists _, _; cbn; repeat split; apply prefix_refl|].
      destruct (_ && _)%bool; eexists _, _; cbn; repeat split; apply prefix_refl.
    + destruct (is_eol u); [eexists _, _; cbn; repeat split; apply prefix_refl|]. eapply K; reflexivity.
    + cbn [app]. eapply (K _ w u); cbn; auto. destruct (_ || _)%bool; reflexivity.
    + destruct (u =? q); [eexists _, _; cbn; repeat split; apply prefix_refl|]. eapply K; reflexivity.
Qed.

Lemma calm_quiet : forall ext la rs s c b, Forall rune_like (la :: rs) -> rel s c -> inv_line c -> inv_behind c (l_ntd s) b ->
  calm ext b (lex_run [] 0 s (la :: rs)) -> l_tok s = "" \/ assoc (l_tok s) ext = None \/ l_ntd (lex_read s la) = false.
Proof.
  intros ext la rs s c b F R IL IB CA. inversion F as [|? ? RL F']; subst.
  destruct (string_dec (l_tok s) "") as [|N]; auto. right. destruct (assoc (l_tok s) ext) eqn:A; auto. right.
  rewrite (run_crun (la :: rs) s c F R) in CA. rewrite (tok_mode s c R) in *.
  destruct (first_token (units (l_esc s) (la :: rs)) c N) as (t & ts & E & TL & TE & P). rewrite E in CA. cbn [calm] in CA.
  destruct CA as [[U|(B & NN & NX)] _].
  { exfalso. specialize (U (tok_of (c_mode c))). rewrite A in U. unfold has_prefix in U. rewrite P in U. now specialize (U ltac:(discriminate) N). }
  rewrite TL in B. assert (CL : c_line c = c_start c).
  { unfold inv_line in IL. destruct (c_mode c) eqn:M; [now cbn in N| | | |]; apply IL; eapply no_newline_prefix; eauto. }
  destruct (IB _ B) as [_ OFF]. specialize (OFF CL). unfold lex_read. destruct (is_eol la) eqn:EL; [|exact OFF]. exfalso.
  (* the newline ends the token: the next one is below *)
  assert (U : exists u, is_eol u = true /\ u <> "" /\ units (l_esc s) (la :: rs) = u :: units false rs).
  { cbn [units]. destruct (String.eqb_spec la s_cr) as [->|]; [discriminate|]. destruct (String.eqb_spec la "\") as [->|]; [discriminate|]. cbn [andb].
    eexists. split; [|split; [|reflexivity]].
    - destruct (l_esc s); auto. rewrite is_eol_app; auto. apply RL.
    - destruct (l_esc s); [discriminate|apply RL]. }
  destruct U as (u & EU & NU & UU). rewrite UU in E. cbn [crun] in E.
  assert (NM : c_mode c <> MSkip) by (intros M; rewrite M in N; now apply N).
  destruct (cstep c u) as [c' ts'|ts'] eqn:ST.
  - destruct (newline_unit c u c' ts' NM EU ST) as [(t' & -> & M' & L')|(-> & M' & NL & NE)].
    + cbn [app] in E. inversion E; subst. pose proof (first_line (units false rs) c' M') as FL.
      destruct (crun c' (units false rs)) as [|v vs]; auto. destruct NX as [VE VL]. specialize (FL VE). lia.
    + cbn [app] in E. destruct (first_token (units false rs) c' NE) as (t2 & ts2 & E2 & _ & _ & P2). rewrite E2 in E. inversion E; subst.
      apply NL. eapply no_newline_prefix; eauto.
  - unfold cstep in ST. destruct (c_mode c) as [|w|w|w|q w]; [congruence| | | |].
    + destruct (is_space u); [discriminate|]. destruct (_ && _)%bool; [discriminate|]. destruct (is_special u) eqn:S; [|discriminate].
      apply special_cases in S as [-> | [-> | ->]]; discriminate.
    + destruct (is_eol u); discriminate.
    + discriminate.
    + destruct (u =? q); discriminate.
Qed.
Lemma calm_next : forall ext la rs s c b, Forall rune_like (la :: rs) -> rel s c -> inv_line c -> inv_behind c (l_ntd s) b ->
  calm ext b (lex_run [] 0 s (la :: rs)) -> r_ctl (step0 s la) <> Stop ->
  exists c' b', rel (r_st (step0 s la)) c' /\ inv_line c' /\ inv_behind c' (l_ntd (r_st (step0 s la))) b' /\
    calm ext b' (lex_run [] 0 (r_st (step0 s la)) rs).
Proof.
  intros ext la rs s c b F R IL IB CA NS. inversion F as [|? ? RL F']; subst. rewrite run_cons in CA.
  destruct (step0_unit_or s la RL) as [(_ & b' & E)|E].
  - rewrite E in *. cbn [r_ctl r_toks r_st app] in *. exists c, b. auto.
  - set (u := if l_esc s then "\" ++ la else la) in *.
    assert (NU : u <> "") by (unfold u; destruct (l_esc s); [discriminate|apply RL]).
    pose proof (step_rel (set_esc s false) c u (rel_esc _ _ _ R) NU) as SR.
    pose proof (ntd_step (set_esc s false) c u) as NT. rewrite <- E in *.
    destruct (cstep c u) as [c' ts|ts] eqn:ST; cbn [res_rel] in SR; [|destruct SR; congruence].
    destruct SR as (C1 & C2 & C3). rewrite C1, C2 in *. exists c', (fold_left next_behind ts b).
    split; [exact C3|]. split; [eapply inv_line_step; eauto|]. split; [|apply calm_app; exact CA].
    rewrite (NT c' ts (rel_esc _ _ _ R) NU eq_refl). cbn [l_ntd set_esc]. eapply inv_behind_step; eauto.
Qed.
Lemma calm_run : forall ext rs s c b, Forall rune_like rs -> rel s c -> inv_line c -> inv_behind c (l_ntd s) b ->
  calm ext b (lex_run [] 0 s rs) -> lex_run ext 0 s rs = lex_run [] 0 s rs.
Proof.
  induction rs as [|la rs IH]; intros s c b F R IL IB CA; auto.
  rewrite (run_calm ext) by (eapply calm_quiet; eauto). rewrite run_cons. pose proof (calm_next ext la rs s c b F R IL IB CA) as NX.
  inversion F; subst. destruct (r_ctl (step0 s la)); auto; destruct NX as (c' & b' & X1 & X2 & X3 & X4); try discriminate; f_equal; eapply IH; eauto.
Qed.
Lemma calm_pgo : forall ext a s c b ts s' r, Forall rune_like a -> rel s c -> inv_line c -> inv_behind c (l_ntd s) b ->
  calm ext b (lex_run [] 0 s a) -> pgo s a = Some (ts, s') -> lex_run ext 0 s (a ++ r) = (ts ++ lex_run ext 0 s' r)%list.
Proof.
  induction a as [|la a IH]; intros s c b ts s' r F R IL IB CA H; [inversion H; reflexivity|].
  cbn [app pgo] in *. rewrite (run_calm ext) by (eapply calm_quiet; eauto). pose proof (calm_next ext la a s c b F R IL IB CA) as NX.
  inversion F; subst.
  assert (H' : exists x, pgo (r_st (step0 s la)) a = Some (x, s') /\ ts = (r_toks (step0 s la) ++ x)%list /\ r_ctl (step0 s la) <> Stop).
  { destruct (r_ctl (step0 s la)); [| |discriminate]; (destruct (pgo (r_st (step0 s la)) a) as [[x y]|]; [|discriminate]; inversion H; subst; exists x; repeat split; auto; discriminate). }
  destruct H' as (x & H' & -> & NS). destruct (NX NS) as (c' & b' & X1 & X2 & X3 & X4). rewrite <- app_assoc.
  rewrite (IH _ _ _ x s' r H3 X1 X2 X3 X4 H'). destruct (r_ctl (step0 s la)); auto. congruence.
Qed.
Lemma calm_errs : forall ext ts b errs, calm ext b ts -> Forall (fun t => t_val t = "") errs -> calm ext b (ts ++ errs).
Proof.
  induction ts as [|t ts IH]; intros b errs CA F; cbn [app].
  - clear CA. revert b. induction F as [|e errs E F IHF]; intros b; cbn [calm]; auto. split; [|apply IHF]. left. intros n _ N. rewrite E. now destruct n.
  - cbn [calm] in *. destruct CA as [[A|(A & B & D)] CA]; (split; [|now apply IH]); [now left|]. right. split; auto. split; auto. destruct ts as [|u ts]; [contradiction|]. exact D.
Qed.
Theorem lex_calm : forall ext s, calm ext None (lex [] s) -> lex ext s = lex [] s.
Proof.
  intros ext s H. apply (calm_run ext (scan_runes s) lex_init cinit None).
  - apply scan_rune_like.
  - repeat split.
  - exact Logic.I.
  - intros l X. discriminate.
  - exact H.
Qed.
Lemma untouched_calm : forall ext ts b, untouched ext ts -> calm ext b ts.
Proof. induction ts as [|t ts IH]; intros b U; cbn [calm]; auto. split; [left; intros n; apply U; now left|]. apply IH. intros t' n I. apply U. now right. Qed.
(** Behind a text whose tokens are calm. *)
Lemma pgo_calm : forall ext P ts s' r, pgo lex_init (scan_runes P) = Some (ts, s') -> l_tok s' = "" -> calm ext None ts ->
  lex_run ext 0 lex_init (scan_runes P ++ r) = (ts ++ lex_run ext 0 s' r)%list.
Proof.
  intros ext P ts s' r PG Z CA. eapply (calm_pgo ext (scan_runes P) lex_init cinit None); eauto.
  - apply scan_rune_like.
  - repeat split.
  - exact Logic.I.
  - intros l X. discriminate.
  - pose proof (pgo_run (scan_runes P) lex_init []) as E. rewrite PG, List.app_nil_r in E. rewrite E. apply calm_errs; auto.
    cbn [lex_run]. unfold lex_finish. rewrite Z. cbn [str_nonempty String.eqb negb app]. destruct (_ <? _)%Z; repeat constructor. exact Z.
Qed.

Fixpoint calmb (names : list string) (b : option Z) (ts : list token) : bool :=
  match ts with
  | [] => true
  | t :: r =>
    (forallb (fun n => String.eqb n "" || negb (has_prefix (t_val t) n)) names ||
     (match b with Some l => Z.eqb l (t_line t) | None => false end && negb (str_exists (Ascii.eqb "010"%char) (t_val t)) &&
      match r with u :: _ => match t_err u with None => Z.eqb (t_line u) (t_line t) | Some _ => false end | [] => false end)) &&
    calmb names (next_behind b t) r
  end%bool.
Lemma assoc_in_keys : forall A (m : list (string * A)) n, assoc n m <> None -> In n (map fst m).
Proof.
  induction m as [|[k v] m IH]; intros n H; cbn [assoc] in H; [congruence|]. cbn [map fst In]. destruct (n =? k) eqn:E; auto. left. apply String.eqb_eq in E. auto.
Qed.
Lemma calmb_calm : forall ext ts b, calmb (map fst ext) b ts = true -> calm ext b ts.
Proof.
  induction ts as [|t ts IH]; intros b H; cbn [calmb calm] in *; auto. apply andb_true_iff in H as [H1 H2]. split; [|now apply IH].
  apply orb_true_iff in H1 as [H1|H1].
  - left. intros n A N. apply assoc_in_keys in A. rewrite forallb_forall in H1. specialize (H1 n A). apply orb_true_iff in H1 as [H1|H1].
    + now apply String.eqb_eq in H1.
    + now apply negb_true_iff in H1.
  - right. apply andb_true_iff in H1 as [H1 H3]. apply andb_true_iff in H1 as [H1 H4]. apply negb_true_iff in H4.
    split; [|split; [exact H4|]].
    + destruct b as [l|]; [|discriminate]. apply Z.eqb_eq in H1. now subst.
    + destruct ts as [|u ts]; [discriminate|]. destruct (t_err u); [discriminate|]. apply Z.eqb_eq in H3. auto.
Qed.
