(** Hand-over to external lexers. *)
From Verif Require Export LayoutProofs SpecExt.
Local Open Scope string_scope.

(** ** Steps without hand-over *)
Definition step0 (s : lst) (la : string) : lres := fst (lex_step [] s la []).
Lemma body_plain : forall ext s la rest, l_tok s = "" \/ assoc (l_tok s) ext = None ->
  lex_body ext s la rest = lex_body [] s la [].
Proof.
  intros ext s la rest H. unfold lex_body. destruct (_ || _)%bool; auto. destruct (_ && negb (l_esc s))%bool; auto.
  assert (X : (if (str_nonempty (l_tok (set_esc s false)) && l_ntd (set_esc s false))%bool then assoc (l_tok (set_esc s false)) ext else None) = None).
  { cbn [l_tok set_esc]. destruct H as [-> | ->]; cbn; auto. now destruct (_ && _)%bool. }
  rewrite X. cbn [assoc]. now destruct (_ && _)%bool.
Qed.
Lemma body_n : forall s la rest, snd (lex_body [] s la rest) = 0.
Proof.
  intros s la rest. unfold lex_body. destruct (_ || _)%bool; auto. destruct (_ && negb (l_esc s))%bool; auto. cbn [assoc]. now destruct (_ && _)%bool.
Qed.
Lemma switch_reeval : forall s la la', r_ctl (lex_switch s la) = ReEval la' -> l_tok (r_st (lex_switch s la)) = l_tok s /\ r_toks (lex_switch s la) = [].
Proof.
  intros s la la' H. unfold lex_switch in *. destruct (l_st s).
  - destruct (is_space la); [discriminate|]. auto.
  - exfalso. revert H. unfold lex_special. repeat match goal with |- context [if ?b then _ else _] => destruct b end; cbn; discriminate.
  - exfalso. revert H. destruct (is_eol la); discriminate.
  - exfalso. revert H. cbv zeta. destruct (_ && _)%bool; discriminate.
  - exfalso. revert H. destruct (la =? l_quote s); discriminate.
Qed.
Lemma body_reeval : forall s la la', r_ctl (fst (lex_body [] s la [])) = ReEval la' -> l_tok (r_st (fst (lex_body [] s la []))) = l_tok s.
Proof.
  intros s la la' H. unfold lex_body in *. destruct (_ || _)%bool; [discriminate|]. destruct (_ && negb (l_esc s))%bool; [discriminate|]. cbn [assoc] in *.
  destruct (_ && _)%bool; cbn [fst] in *; eapply switch_reeval in H as [-> _]; reflexivity.
Qed.
Lemma read_tok : forall s la, l_tok (lex_read s la) = l_tok s.
Proof. intros s la. unfold lex_read. now destruct (is_eol la). Qed.
Lemma step_plain : forall ext s la rest, l_tok s = "" \/ assoc (l_tok s) ext = None ->
  lex_step ext s la rest = (step0 s la, 0).
Proof.
  intros ext s la rest H. unfold step0, lex_step. rewrite (body_plain ext) by (rewrite read_tok; auto).
  pose proof (body_n (lex_read s la) la []) as Z. destruct (lex_body [] (lex_read s la) la []) as [r n] eqn:E. cbn [snd] in Z. subst n.
  destruct (r_ctl r) as [|la'|] eqn:RC; auto.
  assert (T : l_tok (r_st r) = l_tok s).
  { pose proof (body_reeval (lex_read s la) la la') as B. rewrite E in B. cbn [fst] in B. rewrite (B RC). apply read_tok. }
  rewrite (body_plain ext) by (rewrite T; auto). pose proof (body_n (r_st r) la' []) as Z. destruct (lex_body [] (r_st r) la' []) as [r' n']. cbn [snd] in Z. now subst n'.
Qed.
Lemma run_cons : forall s la rest, lex_run [] 0 s (la :: rest) =
  match r_ctl (step0 s la) with Stop => r_toks (step0 s la) | _ => r_toks (step0 s la) ++ lex_run [] 0 (r_st (step0 s la)) rest end%list.
Proof. intros s la rest. cbn [lex_run]. rewrite step_plain by auto. destruct (r_ctl (step0 s la)); reflexivity. Qed.
Lemma run_plain : forall ext s la rest, l_tok s = "" \/ assoc (l_tok s) ext = None -> lex_run ext 0 s (la :: rest) =
  match r_ctl (step0 s la) with Stop => r_toks (step0 s la) | _ => r_toks (step0 s la) ++ lex_run ext 0 (r_st (step0 s la)) rest end%list.
Proof. intros ext s la rest H. cbn [lex_run]. rewrite step_plain by auto. destruct (r_ctl (step0 s la)); reflexivity. Qed.
Lemma run_skip : forall ext n s rs, lex_run ext n s rs = lex_run ext 0 s (skipn n rs).
Proof. induction n as [|n IH]; intros s [|r rs]; auto. cbn [lex_run skipn]. apply IH. Qed.

(** ** The unfinished token starts the next one *)
Definition starts (w : string) (r : lres) : Prop :=
  (r_toks r = [] /\ r_ctl r <> Stop /\ prefix w (l_tok (r_st r)) = true) \/ exists t ts, r_toks r = t :: ts /\ t_val t = w.
Lemma prefix_refl : forall w, prefix w w = true.
Proof. intros w. apply prefix_iff. exists "". symmetry. apply app_nil_r_s. Qed.
Lemma prefix_app : forall w v, prefix w (w ++ v) = true.
Proof. intros w v. apply prefix_iff. now exists v. Qed.
Lemma prefix_trans : forall a b c, prefix a b = true -> prefix b c = true -> prefix a c = true.
Proof. intros a b c H1 H2. apply prefix_iff in H1 as [x ->]. apply prefix_iff in H2 as [y ->]. apply prefix_iff. exists (x ++ y). now rewrite app_assoc_s. Qed.
Lemma switch_starts : forall s la, l_tok s <> "" -> starts (l_tok s) (lex_switch s la).
Proof.
  intros s la N. assert (NE : str_nonempty (l_tok s) = true) by (unfold str_nonempty; now rewrite (proj2 (String.eqb_neq _ _) N)).
  unfold lex_switch. destruct s as [tok line start st new dup esc depth quote ntd]. cbn [l_tok l_st] in *. destruct st.
  - destruct (is_space la); left; cbn; (split; [auto|split; [discriminate|apply prefix_refl]]).
  - cbn [l_new]. destruct (new && _)%bool; [left; cbn; split; [auto|split; [discriminate|apply prefix_app]]|].
    destruct (is_space la); [right; eexists _, _; split; reflexivity|]. cbn [l_tok set_new]. rewrite NE.
    destruct (_ && _ && _)%bool; [left; cbn; split; [auto|split; [discriminate|apply prefix_app]]|].
    destruct (_ || _)%bool; [left; cbn; split; [auto|split; [discriminate|apply prefix_app]]|].
    destruct (is_special la); [|left; cbn; split; [auto|split; [discriminate|apply prefix_app]]].
    right. unfold lex_special. cbn [l_tok set_new]. rewrite NE. repeat match goal with |- context [if ?b then LRes _ _ _ else _] => destruct b end; eexists _, _; split; reflexivity.
  - destruct (is_eol la); [right; eexists _, _; split; reflexivity|]. left; cbn; split; [auto|split; [discriminate|apply prefix_app]].
  - destruct (_ && _)%bool; left; cbn; (split; [auto|split; [discriminate|apply prefix_app]]).
  - destruct (la =? _); [right; eexists _, _; split; reflexivity|]. left; cbn; split; [auto|split; [discriminate|apply prefix_app]].
Qed.
Lemma body_starts : forall s la, l_tok s <> "" -> starts (l_tok s) (fst (lex_body [] s la [])).
Proof.
  intros s la N. unfold lex_body. destruct (_ || _)%bool; [left; cbn; split; [auto|split; [discriminate|apply prefix_refl]]|].
  destruct (_ && negb (l_esc s))%bool; [left; cbn; split; [auto|split; [discriminate|apply prefix_refl]]|]. cbn [assoc].
  destruct (_ && _)%bool; cbn [fst]; apply (switch_starts (set_esc s false)); auto.
Qed.
Lemma step_starts : forall s la, l_tok s <> "" -> starts (l_tok s) (step0 s la).
Proof.
  intros s la N. unfold step0, lex_step. pose proof (body_starts (lex_read s la) la) as B. rewrite read_tok in B. specialize (B N).
  pose proof (body_reeval (lex_read s la) la) as RE. rewrite read_tok in RE.
  destruct (lex_body [] (lex_read s la) la []) as [r n]. cbn [fst] in *. destruct (r_ctl r) as [|la'|] eqn:RC; auto.
  specialize (RE la' eq_refl). pose proof (body_starts (r_st r) la') as B'. rewrite RE in B'. specialize (B' N).
  destruct (lex_body [] (r_st r) la' []) as [r' n']. cbn [fst] in *. unfold starts. cbn [r_toks r_ctl r_st].
  destruct B as [(T & _)|(t & ts & T & V)]; rewrite T; [exact B'|]. right. exists t. eexists. split; [reflexivity|auto].
Qed.
Lemma run_starts : forall rs s, l_tok s <> "" -> exists t ts, lex_run [] 0 s rs = t :: ts /\ prefix (l_tok s) (t_val t) = true.
Proof.
  induction rs as [|la rs IH]; intros s N.
  - cbn [lex_run]. unfold lex_finish, str_nonempty. rewrite (proj2 (String.eqb_neq _ _) N). eexists _, _. split; [reflexivity|apply prefix_refl].
  - rewrite run_cons. destruct (step_starts s la N) as [(T & C & P)|(t & ts & T & V)].
    + rewrite T. assert (N' : l_tok (r_st (step0 s la)) <> "").
      { intros Z. rewrite Z in P. apply prefix_iff in P as [x X]. destruct (l_tok s); [congruence|discriminate]. }
      destruct (IH _ N') as (t & ts & E & P'). exists t, ts. destruct (r_ctl (step0 s la)); [| |congruence]; (split; [exact E|eapply prefix_trans; eauto]).
    + rewrite T. destruct (r_ctl (step0 s la)); eexists t, _; (split; [reflexivity|rewrite V; apply prefix_refl]).
Qed.
Lemma run_untouched : forall ext rs s, untouched ext (lex_run [] 0 s rs) -> lex_run ext 0 s rs = lex_run [] 0 s rs.
Proof.
  induction rs as [|la rs IH]; intros s U; auto.
  assert (Q : l_tok s = "" \/ assoc (l_tok s) ext = None).
  { destruct (string_dec (l_tok s) "") as [|N]; auto. right. destruct (assoc (l_tok s) ext) eqn:A; auto. exfalso.
    destruct (run_starts (la :: rs) s N) as (t & ts & E & P). rewrite E in U. specialize (U t (l_tok s) (or_introl eq_refl)). rewrite A in U. unfold has_prefix in U. rewrite P in U. now specialize (U ltac:(discriminate) N). }
  rewrite run_cons in *. rewrite (run_plain ext) by auto. destruct (r_ctl (step0 s la)); auto; f_equal; apply IH; intros t n I; apply U, in_or_app; auto.
Qed.
Theorem lex_untouched : forall ext s, untouched ext (lex [] s) -> lex ext s = lex [] s.
Proof. intros ext s U. now apply run_untouched. Qed.

(** ** Going through a prefix *)
Fixpoint pgo (s : lst) (rs : list string) : option (list token * lst) :=
  match rs with
  | [] => Some ([], s)
  | la :: rs =>
    match r_ctl (step0 s la) with
    | Stop => None
    | _ => match pgo (r_st (step0 s la)) rs with Some (ts, s') => Some ((r_toks (step0 s la) ++ ts)%list, s') | None => None end
    end
  end.
Lemma pgo_run : forall a s b, match pgo s a with
  | Some (ts, s') => lex_run [] 0 s (a ++ b) = (ts ++ lex_run [] 0 s' b)%list
  | None => lex_run [] 0 s (a ++ b) = lex_run [] 0 s a
  end.
Proof.
  induction a as [|la a IH]; intros s b; [reflexivity|]. specialize (IH (r_st (step0 s la)) b). change ((la :: a) ++ b)%list with (la :: (a ++ b))%list.
  rewrite (run_cons s la (a ++ b)), (run_cons s la a). cbn [pgo].
  destruct (r_ctl (step0 s la)); auto; destruct (pgo (r_st (step0 s la)) a) as [[ts s']|]; rewrite IH; auto; now rewrite app_assoc.
Qed.
Lemma pgo_starts : forall a s ts s', pgo s a = Some (ts, s') -> l_tok s <> "" ->
  (ts = [] /\ prefix (l_tok s) (l_tok s') = true) \/ exists t, In t ts /\ prefix (l_tok s) (t_val t) = true.
Proof.
  induction a as [|la a IH]; intros s ts s' H N; cbn [pgo] in H.
  - inversion H; subst. left. split; auto. apply prefix_refl.
  - destruct (step_starts s la N) as [(T & C & P)|(t & r & T & V)].
    + assert (N' : l_tok (r_st (step0 s la)) <> "").
      { intros Z. rewrite Z in P. apply prefix_iff in P as [x X]. destruct (l_tok s); [congruence|discriminate]. }
      rewrite T in H. cbn [app] in H.
      assert (H' : exists q, pgo (r_st (step0 s la)) a = Some q /\ Some q = Some (ts, s')).
      { destruct (r_ctl (step0 s la)); [| |congruence]; (destruct (pgo (r_st (step0 s la)) a) as [[x y]|]; [|discriminate]; eexists; split; [reflexivity|exact H]). }
      destruct H' as (q & H' & E). rewrite E in H'. destruct (IH _ _ _ H' N') as [[A B]|(t & I & B)].
      * left. split; auto. eapply prefix_trans; eauto.
      * right. exists t. split; auto. eapply prefix_trans; eauto.
    + right. exists t. split; [|rewrite V; apply prefix_refl].
      destruct (r_ctl (step0 s la)); [| |discriminate]; (destruct (pgo (r_st (step0 s la)) a) as [[x y]|]; [|discriminate]; inversion H; rewrite T; now left).
Qed.
Lemma pgo_ext : forall ext a s ts s' b, pgo s a = Some (ts, s') -> l_tok s' = "" -> untouched ext ts ->
  lex_run ext 0 s (a ++ b) = (ts ++ lex_run ext 0 s' b)%list.
Proof.
  induction a as [|la a IH]; intros s ts s' b H Z U; [inversion H; reflexivity|].
  assert (Q : l_tok s = "" \/ assoc (l_tok s) ext = None).
  { destruct (string_dec (l_tok s) "") as [|N]; auto. right. destruct (assoc (l_tok s) ext) eqn:A; auto. exfalso.
    destruct (pgo_starts _ _ _ _ H N) as [[_ P]|(t & I & P)].
    - rewrite Z in P. apply prefix_iff in P as [x X]. destruct (l_tok s); [congruence|discriminate].
    - specialize (U t (l_tok s) I). rewrite A in U. unfold has_prefix in U. rewrite P in U. now specialize (U ltac:(discriminate) N). }
  cbn [app pgo] in *. rewrite (run_plain ext) by auto.
  assert (H' : exists x, pgo (r_st (step0 s la)) a = Some (x, s') /\ ts = (r_toks (step0 s la) ++ x)%list /\ r_ctl (step0 s la) <> Stop).
  { destruct (r_ctl (step0 s la)); [| |discriminate]; (destruct (pgo (r_st (step0 s la)) a) as [[x y]|]; [|discriminate]; inversion H; subst; exists x; repeat split; auto; discriminate). }
  destruct H' as (x & H' & -> & C). rewrite <- app_assoc. rewrite (IH _ _ _ b H' Z) by (intros t n I; apply U, in_or_app; auto).
  destruct (r_ctl (step0 s la)); auto. congruence.
Qed.

(** ** States between tokens *)
Lemma step0_cases : forall s la, rune_text la ->
  (la = s_cr /\ step0 s la = LRes s [] Next) \/
  (la = "\" /\ l_esc s = false /\ step0 s la = LRes (set_esc s true) [] Next) \/
  exists u, unit_ok u /\ u = (if l_esc s then "\" else "") ++ la /\ step0 s la = ustep (set_esc s false) u.
Proof.
  intros s la T. unfold step0. destruct (String.eqb_spec la s_cr) as [->|NC].
  { left. split; reflexivity. }
  right. assert (RL : la <> "\" ++ s_cr). { intros ->. destruct T as [_ [n D]]. cbn in D. inversion D. }
  assert (NE : la <> "") by apply T. destruct (l_esc s) eqn:E.
  - right. exists ("\" ++ la). split; [right; exists la; auto|]. split; auto. rewrite step_esc by auto. reflexivity.
  - destruct (String.eqb_spec la "\") as [->|NB].
    + left. split; auto. split; auto. unfold lex_step, lex_read. rewrite eol_bs. unfold lex_body. rewrite E. reflexivity.
    + right. exists la. split; [left; auto|]. split; auto. rewrite step_unit by (auto; split; auto). now rewrite esc_id.
Qed.
Definition last_ok (done : list token) : bool := match rev done with [] => true | t :: _ => (sepb t || noteb t)%bool end.
Lemma last_ok_snoc : forall d t, last_ok (d ++ [t]) = (sepb t || noteb t)%bool.
Proof. intros d t. unfold last_ok. rewrite rev_app_distr. reflexivity. Qed.
Lemma after_last : forall ts, after_sep true ts = true -> last_ok ts = true.
Proof.
  intros ts H. destruct (snoc_cases _ ts) as [->|(d & t & ->)]; auto. rewrite last_ok_snoc. rewrite after_sep_app in H. cbn [after_sep] in H.
  destruct (noteb t); [apply orb_true_r|]. now rewrite H.
Qed.
Lemma ustep_ntd : forall s c u c' ts, rel s c -> u <> "" -> cstep c u = Go c' ts -> c_mode c' = MSkip ->
  (ts = [] /\ c_mode c = MSkip /\ (l_ntd s = true -> l_ntd (r_st (ustep s u)) = true)) \/
  l_ntd (r_st (ustep s u)) = true \/
  (exists w, ts = [Tok w (c_start c) false None] /\ c_mode c = MWord w) \/
  (exists w, ts = [Tok w (c_start c) true None]).
Proof.
  intros s c u c' ts R NU CS ML. destruct c as [m line start dup depth]. destruct R as (RL & RS & RD & RK & RN & M). cbn [c_mode c_line c_start c_dup c_depth] in *.
  unfold cstep in CS. cbn [c_mode c_line c_start c_dup c_depth] in *.
  destruct s as [tok line' start' st new dup' esc depth' quote ntd]. cbn [l_line l_start l_dup l_depth l_new l_st l_tok l_quote l_ntd] in *. subst.
  assert (CN : forall pre l st d ca ta, csep pre l st d depth u = Go ca ta -> is_special u = true ->
     forall x, l_ntd (r_st (lex_special x u)) = true \/ r_ctl (lex_special x u) = Stop).
  { intros pre l st0 d ca ta X SP x. unfold lex_special. repeat match goal with |- context [if ?b then LRes _ _ _ else _] => destruct b end; auto. }
  destruct m as [|w|w|w|q w].
  - destruct M as [-> ->]. destruct (is_space u) eqn:SP.
    + inversion CS; subst. left. split; auto. split; auto. intros NT. unfold ustep, usw. cbn [l_ntd] in NT. subst ntd.
      assert (X : exists l, lex_read (Lst "" line start SkipSpace false dup esc depth quote true) u = Lst "" l start SkipSpace false dup esc depth quote true) by (unfold lex_read; destruct (is_eol u); eexists; reflexivity).
      destruct X as [l ->]. unfold lex_switch. cbn [l_st]. rewrite SP. reflexivity.
    + destruct (u =? "#") eqn:NH; [inversion CS; subst; discriminate|]. destruct (is_quote u) eqn:QU; [inversion CS; subst; discriminate|].
      destruct (is_special u) eqn:S; [|inversion CS; subst; discriminate]. right. left.
      pose proof (step_rel (Lst "" line start SkipSpace false dup esc depth quote ntd) (C MSkip line start dup depth) u) as SR.
      specialize (SR ltac:(repeat split) NU). unfold cstep in SR. cbn [c_mode c_line c_start c_dup c_depth] in SR. rewrite SP, NH, QU, S, CS in SR. destruct SR as (SC & _ & _).
      revert SC. unfold ustep, usw.
      assert (X : exists l n, lex_read (Lst "" line start SkipSpace false dup esc depth quote ntd) u = Lst "" l start SkipSpace false dup esc depth quote n) by (unfold lex_read; destruct (is_eol u); eexists _, _; reflexivity).
      destruct X as (l & n & ->).
      assert (E : lex_switch (Lst "" l start SkipSpace false dup esc depth quote n) u = LRes (Lst "" l l InWord true dup esc depth quote n) [] (ReEval u)) by (unfold lex_switch; cbn [l_st]; rewrite SP; reflexivity).
      rewrite E. cbn [r_ctl r_st].
      assert (Y : lex_switch (Lst "" l l InWord true dup esc depth quote n) u = lex_special (Lst "" l l InWord false dup esc depth quote n) u).
      { unfold lex_switch. cbn [l_st l_new andb]. rewrite NH, SP. cbn [set_new l_tok str_nonempty String.eqb negb andb]. unfold is_quote in QU. rewrite QU, S. reflexivity. }
      rewrite Y. cbn [r_ctl r_st]. intros SC. destruct (CN _ _ _ _ _ _ CS eq_refl (Lst "" l l InWord false dup esc depth quote n)) as [Z|Z]; [exact Z|]. congruence.
  - destruct M as (-> & -> & NW). destruct (is_space u) eqn:SP; [inversion CS; subst; right; right; left; eauto|].
    destruct (has_suffix w "$" && (u =? "{"))%bool eqn:VB; [inversion CS; subst; discriminate|]. destruct (is_special u) eqn:S; [|inversion CS; subst; discriminate]. right. left.
    pose proof (step_rel (Lst w line start InWord false dup esc depth quote ntd) (C (MWord w) line start dup depth) u) as SR.
    specialize (SR ltac:(repeat split; auto) NU). unfold cstep in SR. cbn [c_mode c_line c_start c_dup c_depth] in SR. rewrite SP, VB, S, CS in SR. destruct SR as (SC & _ & _).
    revert SC. unfold ustep, usw.
    assert (X : exists l n, lex_read (Lst w line start InWord false dup esc depth quote ntd) u = Lst w l start InWord false dup esc depth quote n) by (unfold lex_read; destruct (is_eol u); eexists _, _; reflexivity).
    destruct X as (l & n & ->).
    assert (Y : lex_switch (Lst w l start InWord false dup esc depth quote n) u = lex_special (Lst w l start InWord false dup esc depth quote n) u).
    { unfold lex_switch. cbn [l_st l_new andb set_new l_tok l_line l_start l_dup l_esc l_depth l_quote l_ntd]. rewrite SP, (proj2 (nonempty_iff w) NW). cbn [andb]. rewrite VB.
      assert (Q : (u =? s_dq) || (u =? s_sq) = false) by (apply special_cases in S as [->|[->| ->]]; reflexivity). now rewrite Q, S. }
    rewrite Y. destruct (CN _ _ _ _ _ _ CS eq_refl (Lst w l start InWord false dup esc depth quote n)) as [Z|Z]; [|rewrite Z; cbn; congruence]. intros SC. destruct (r_ctl (lex_special _ u)) eqn:RC; [exact Z| |exact Z].
    exfalso. revert RC. unfold lex_special. repeat match goal with |- context [if ?b then LRes _ _ _ else _] => destruct b end; discriminate.
  - destruct M as (-> & -> & NW). destruct (is_eol u) eqn:EO; [|inversion CS; subst; discriminate]. right. left. unfold ustep, usw, lex_read. rewrite EO. unfold lex_switch. cbn [l_st set_ntd set_line]. rewrite EO. reflexivity.
  - destruct (_ || _)%bool; inversion CS; subst; discriminate.
  - destruct (u =? q); [inversion CS; subst; right; right; right; eauto|inversion CS; subst; discriminate].
Qed.
Definition known (done : list token) (s : lst) : Prop := exists c, rel (set_esc s false) c /\ inv3 c done /\
  (c_mode c = MSkip -> last_ok done = true -> l_ntd s = true).
Lemma known_step : forall done s la, known done s -> rune_text la -> r_ctl (step0 s la) <> Stop ->
  known (done ++ r_toks (step0 s la)) (r_st (step0 s la)).
Proof.
  intros done s la (c & R & I3 & NT) T NS. destruct (step0_cases s la T) as [(_ & E)|[(_ & _ & E)|(u & UO & _ & E)]].
  - rewrite E. cbn [r_toks r_st]. rewrite app_nil_r. exists c. auto.
  - rewrite E. cbn [r_toks r_st]. rewrite app_nil_r. exists c. split; [destruct s; exact R|]. split; auto; destruct s; auto.
  - rewrite E in *. assert (NU : u <> "") by now apply unit_nonempty. pose proof (step_rel _ _ u R NU) as SR.
    pose proof (inv3_step [] c done u UO I3) as ST. destruct (cstep c u) as [c' ts|ts] eqn:CS; [|destruct SR; congruence].
    destruct SR as (_ & TS & R'). exists c'. rewrite TS. split; [|split; auto].
    + rewrite esc_id; auto. apply ustep_esc. reflexivity.
    + intros ML LO. destruct (ustep_ntd _ c u c' ts R NU CS ML) as [(-> & MC & H)|[H|[(w & -> & MC)|(w & ->)]]]; auto.
      * apply H. cbn. rewrite app_nil_r in LO. destruct s; apply NT; auto.
      * rewrite last_ok_snoc in LO. destruct I3 as (_ & _ & X). rewrite MC in X. destruct X as [_ WL]. destruct (word_notsep w (c_start c) false None WL) as (A & B & _). rewrite A, B in LO. discriminate.
      * rewrite last_ok_snoc in LO. discriminate.
Qed.
Lemma known_pgo : forall rs done s ts s', Forall rune_text rs -> known done s -> pgo s rs = Some (ts, s') -> known (done ++ ts) s'.
Proof.
  induction rs as [|la rs IH]; intros done s ts s' F K H; cbn [pgo] in H.
  - inversion H; subst. now rewrite app_nil_r.
  - inversion F as [|? ? F1 F2]; subst.
    assert (H' : exists x, pgo (r_st (step0 s la)) rs = Some (x, s') /\ ts = (r_toks (step0 s la) ++ x)%list /\ r_ctl (step0 s la) <> Stop).
    { destruct (r_ctl (step0 s la)); [| |discriminate]; (destruct (pgo (r_st (step0 s la)) rs) as [[x y]|]; [|discriminate]; inversion H; subst; exists x; repeat split; auto; discriminate). }
    destruct H' as (x & H' & -> & C). rewrite app_assoc. eapply IH; eauto. now apply known_step.
Qed.
Lemma known_init : known [] lex_init.
Proof. exists cinit. split; [repeat split|]. split; [split; [apply safe_nil|split; reflexivity]|reflexivity]. Qed.

(** ** A directive place *)
Lemma dec_ascii_app : forall a c b, a <> "" -> (bval c < 128)%N -> decode_rune (a ++ String c b) = decode_rune a.
Proof.
  intros a c b NE L.
  assert (CT : is_cont (bval c) = false). { apply not_true_iff_false. intros X. unfold is_cont in X. apply in_rng_iff in X. lia. }
  assert (RG : forall lo hi, (128 <= lo)%N -> in_rng lo hi (bval c) = false). { intros lo hi H. apply not_true_iff_false. intros X. apply in_rng_iff in X. lia. }
  destruct a as [|c0 [|c1 [|c2 [|c3 a]]]]; [congruence| | | |reflexivity]; cbn [String.append]; unfold decode_rune;
    destruct b as [|b0 [|b1 b]]; dec_cases; try reflexivity; exfalso;
    repeat match goal with X : (_ && _)%bool = true |- _ => apply andb_true_iff in X as [? ?] end;
    match goal with
    | X : is_cont (bval c) = true |- _ => congruence
    | X : in_rng ?lo ?hi (bval c) = true |- _ => rewrite (RG lo hi) in X by lia; discriminate X
    end.
Qed.
Lemma scan_ascii_app : forall s c b, (bval c < 128)%N -> scan_runes (s ++ String c b) = (scan_runes s ++ scan_runes (String c b))%list.
Proof.
  intros s c b L. induction s as [|s r w ok N E W IH] using scan_ind; [reflexivity|]. unfold scan_runes in *.
  assert (E' : decode_rune (s ++ String c b) = (r, w, ok)) by (now rewrite dec_ascii_app).
  assert (N' : s ++ String c b <> "") by now apply app_ne.
  rewrite (scan_eq _ N' _ _ _ E'), (scan_eq _ N _ _ _ E). cbn [map app].
  assert (D : drop w (s ++ String c b) = drop w s ++ String c b) by (rewrite drop_app_le by lia; auto).
  assert (T : take w (s ++ String c b) = take w s) by (rewrite take_app_le by lia; auto).
  rewrite D, T, IH. reflexivity.
Qed.
Lemma special_line : forall s u, l_line (r_st (lex_special s u)) = l_line s.
Proof.
  intros [tok line start st new dup esc depth quote ntd] u. unfold lex_special. cbn [l_tok].
  repeat match goal with |- context [if ?b then LRes _ _ _ else _] => destruct b end; cbn [r_st];
    repeat match goal with |- context [if ?b then _ else _] => destruct b end; reflexivity.
Qed.
Lemma switch_line : forall s u, l_line (r_st (lex_switch s u)) = l_line s.
Proof.
  intros [tok line start st new dup esc depth quote ntd] u. unfold lex_switch. cbn [l_st].
  destruct st; cbv zeta; repeat match goal with |- context [if ?b then LRes _ _ _ else _] => destruct b end; try reflexivity.
  all: repeat match goal with |- context [if ?b then (if _ then LRes _ _ _ else _) else _] => destruct b end; repeat match goal with |- context [if ?b then LRes _ _ _ else _] => destruct b end; try reflexivity.
  all: destruct (is_special u); [rewrite special_line; reflexivity|reflexivity].
Qed.
Lemma ustep_line : forall s u, l_line (r_st (ustep s u)) = ((if is_eol u then 1 else 0) + l_line s)%Z.
Proof.
  intros s u. unfold ustep, usw. assert (R : l_line (lex_read s u) = ((if is_eol u then 1 else 0) + l_line s)%Z) by (unfold lex_read; destruct (is_eol u); cbn [l_line set_ntd set_line]; lia).
  destruct (r_ctl (lex_switch (lex_read s u) u)); cbn [r_st]; rewrite ?switch_line; auto.
Qed.
Lemma step_line : forall s la, rune_text la -> l_line (r_st (step0 s la)) = ((if is_eol la then 1 else 0) + l_line s)%Z.
Proof.
  intros s la T. destruct (step0_cases s la T) as [(-> & ->)|[(-> & _ & ->)|(u & _ & -> & ->)]]; try reflexivity.
  rewrite ustep_line. cbn [l_line set_esc]. destruct (l_esc s); [rewrite is_eol_app by apply T|]; reflexivity.
Qed.
Lemma pgo_line : forall rs s ts s', Forall rune_text rs -> pgo s rs = Some (ts, s') -> l_line s' = (count_eol rs + l_line s)%Z.
Proof.
  induction rs as [|la rs IH]; intros s ts s' F H; cbn [pgo] in H; [inversion H; subst; reflexivity|]. inversion F as [|? ? F1 F2]; subst.
  assert (H' : exists x, pgo (r_st (step0 s la)) rs = Some (x, s')).
  { destruct (r_ctl (step0 s la)); [| |discriminate]; (destruct (pgo (r_st (step0 s la)) rs) as [[x y]|]; [|discriminate]; inversion H; subst; eauto). }
  destruct H' as [x H']. rewrite (IH _ _ _ F2 H'), step_line by auto. unfold count_eol. cbn [fold_right]. destruct (is_eol la); lia.
Qed.
Definition fineb (t : token) : bool := match t_err t with None => true | Some _ => false end.
Lemma fine_all : forall ts, no_errors ts -> filter fineb ts = ts.
Proof. induction 1 as [|t ts E F IH]; auto. cbn [filter]. unfold fineb at 1. now rewrite E, IH. Qed.
Lemma fine_none : forall ts, only_errs ts -> filter fineb ts = [].
Proof. induction 1 as [|t ts E F IH]; auto. cbn [filter]. unfold fineb at 1. destruct (t_err t); [auto|congruence]. Qed.
Lemma fine_finish : forall c, filter fineb (cfinish c) = cpending c.
Proof.
  intros [m line start dup depth]. unfold cfinish. rewrite filter_app. cbn [c_depth c_line c_start].
  assert (X : filter fineb (if (0 <? depth)%Z then [bad_tok line start expecting] else []) = []) by (destruct (0 <? depth)%Z; reflexivity).
  rewrite X, app_nil_r. unfold cpending. cbn [c_mode c_start]. destruct m; auto. now destruct (w =? "").
Qed.
Lemma run_one : forall s c u, rel (set_esc s false) c -> (l_esc s = false /\ u = "x" \/ l_esc s = true /\ u = "\x") -> lex_run [] 0 s ["x"] = crun c [u].
Proof.
  intros s c u R H. rewrite run_cons. destruct (step0_cases s "x") as [(E & _)|[(E & _)|(v & UO & EV & E)]]; try discriminate.
  { split; [discriminate|]. exists 120%N. reflexivity. }
  assert (V : v = u) by (destruct H as [[-> ->]|[-> ->]] in EV; exact EV). clear EV. subst v. rewrite E.
  assert (NU : u <> "") by (destruct H as [[_ ->]|[_ ->]]; discriminate).
  pose proof (step_rel _ _ u R NU) as SR. cbn [crun]. destruct (cstep c u) as [c' ts|ts].
  - destruct SR as (RC & TS & R'). rewrite RC, TS. f_equal. cbn [lex_run]. now apply finish_rel.
  - destruct SR as (RC & TS). now rewrite RC, TS.
Qed.
Lemma finish_esc : forall s b, lex_finish (set_esc s b) = lex_finish s.
Proof. intros [tok line start st new dup esc depth quote ntd] b. unfold lex_finish. cbn [l_tok set_esc]. destruct (str_nonempty tok); reflexivity. Qed.
Lemma place_state : forall P ts, directive_place P ts -> exists start dup quote,
  pgo lex_init (scan_runes P) = Some (ts, Lst "" (1 + newlines P) start SkipSpace false dup false (net ts) quote true).
Proof.
  intros P ts (NE & AS & (e1 & E1 & L1) & (line & e2 & E2 & L2)). unfold lex, lex_runes in L1, L2.
  rewrite scan_ascii_app in L2 by reflexivity. change (scan_runes "x") with ["x"] in L2.
  pose proof (pgo_run (scan_runes P) lex_init []) as G1. pose proof (pgo_run (scan_runes P) lex_init ["x"]) as G2. rewrite app_nil_r in G1.
  destruct (pgo lex_init (scan_runes P)) as [[ts2 s']|] eqn:PG.
  2: { exfalso. rewrite G2, L1 in L2. apply app_inv_head in L2. subst e1. inversion E1 as [|? ? X]. now apply X. }
  rewrite L1 in G1. rewrite L2 in G2. cbn [lex_run] in G1.
  destruct (known_pgo _ _ _ _ _ (LexFacts.scan_texts P) known_init PG) as (c & R & I3 & NT). cbn [app] in I3, NT.
  pose proof (pgo_line _ _ _ _ (LexFacts.scan_texts P) PG) as LN. rewrite count_scan in LN. cbn [l_line lex_init] in LN.
  assert (FN : lex_finish s' = cfinish c) by (rewrite <- (finish_rel _ _ R); symmetry; apply finish_esc).
  destruct I3 as ((NE2 & _) & ND & I3). rewrite FN in G1.
  apply (f_equal (filter fineb)) in G1. rewrite !filter_app, (fine_all ts NE), (fine_none e1 E1), (fine_all ts2 NE2), fine_finish, app_nil_r in G1.
  set (u := if l_esc s' then "\x" else "x").
  assert (U1 : l_esc s' = false /\ u = "x" \/ l_esc s' = true /\ u = "\x") by (unfold u; destruct (l_esc s'); auto).
  rewrite (run_one s' c u R U1) in G2. apply (f_equal (filter fineb)) in G2. rewrite !filter_app, (fine_all ts NE), (fine_all ts2 NE2) in G2.
  cbn [filter] in G2. unfold fineb at 1 in G2. cbn [t_err] in G2. rewrite (fine_none e2 E2) in G2. rewrite G1, <- app_assoc in G2. apply app_inv_head in G2.
  clear U1. destruct c as [m cl cs cd ck]. destruct R as (RL & RS & RD & RK & RN & M). destruct s' as [tok sl ss st new dup esc depth quote ntd]. cbn [set_esc l_line l_start l_dup l_depth l_new l_st l_tok l_quote l_ntd l_esc c_mode c_line c_start c_dup c_depth] in *. subst.
  assert (UX : is_space u = false /\ String.eqb u "#" = false /\ is_quote u = false /\ is_special u = false /\ String.eqb u "{" = false /\ is_eol u = false /\ String.eqb u s_dq = false /\ String.eqb u s_sq = false) by (unfold u; destruct esc; repeat split).
  destruct UX as (U1 & U2 & U3 & U4 & U5 & U6 & U7 & U8).
  destruct m as [|w|w|w|q w]; unfold cpending in G2; cbn [c_mode c_start] in G2; cbn [crun] in G2; unfold cstep in G2; cbn [c_mode c_line c_start c_dup c_depth] in G2.
  - destruct M as [-> ->]. rewrite U1, U2, U3, U4 in G2. cbn [app] in G2. rewrite fine_finish in G2. unfold cpending in G2. cbn [c_mode c_start] in G2.
    assert (ES : esc = false). { unfold u in G2. destruct esc; auto. inversion G2. }
    subst esc. rewrite app_nil_r. rewrite app_nil_r in AS. do 3 eexists. rewrite NT by (auto; now apply after_last). rewrite (Z.add_comm (newlines P) 1). reflexivity.
  - exfalso. rewrite U1, U5, andb_false_r, U4 in G2. cbn [app] in G2. rewrite fine_finish in G2. unfold cpending in G2. cbn [c_mode] in G2. inversion G2.
  - exfalso. rewrite U6 in G2. cbn [app] in G2. rewrite fine_finish in G2. unfold cpending in G2. cbn [c_mode] in G2. inversion G2.
  - exfalso. cbn [app] in G2. rewrite fine_finish in G2. unfold cpending in G2. cbn [c_mode] in G2. destruct (_ || _)%bool; inversion G2.
  - exfalso. destruct (String.eqb_spec u q) as [UQ|UQ].
    + cbn [app] in G2. change (filter fineb (?t :: ?x)) with (if fineb t then t :: filter fineb x else filter fineb x) in G2.
      cbn [filter fineb t_err] in G2. rewrite fine_finish in G2. unfold cpending in G2. cbn [c_mode] in G2. destruct (w =? ""); inversion G2.
    + cbn [app] in G2. rewrite fine_finish in G2. unfold cpending in G2. cbn [c_mode c_start] in G2. destruct (w =? ""); destruct (_ =? ""); inversion G2.
Qed.
(** ** A registered name *)
Definition chars (n : string) : list string := map str1 (list_of_str n).
Definition in_name (tok : string) (line start depth : Z) (quote : string) : lst :=
  Lst tok line start InWord false false false depth quote true.
Lemma name_units : forall c, name_char c = true -> (bval c < 128)%N /\
  (forall s, lex_switch (set_st s InWord) (str1 c) = LRes (write (set_dup (set_new (set_st s InWord) false) false) (str1 c)) [] Next) /\
  is_space (str1 c) = false /\ is_eol (str1 c) = false /\ String.eqb (str1 c) s_cr = false /\ String.eqb (str1 c) ("\" ++ s_cr) = false /\ String.eqb (str1 c) "\" = false.
Proof.
  intros c. destruct c as [[] [] [] [] [] [] [] []]; intros H; try discriminate H; clear H;
    (split; [reflexivity|]; split; [intros [tok line start st new dup esc depth quote ntd]; unfold lex_switch; cbn [l_st set_st l_new set_new l_tok];
      rewrite andb_false_r; cbn; rewrite andb_false_r; reflexivity|repeat split]).
Qed.
Lemma scan_ascii_cons : forall c s, (bval c < 128)%N -> scan_runes (String c s) = str1 c :: scan_runes s.
Proof.
  intros c s L. change (String c s) with (str1 c ++ s).
  assert (R : rune_text (str1 c)) by (split; [discriminate|]; exists (bval c); unfold str1, decode_rune; now rewrite (proj2 (N.ltb_lt _ _) L)).
  rewrite scan_runes_app_valid by now apply rune_valid. now rewrite rune_scan_runes.
Qed.
Lemma scan_name : forall n b, forallb name_char (list_of_str n) = true -> scan_runes (n ++ b) = (chars n ++ scan_runes b)%list.
Proof.
  induction n as [|c n IH]; intros b F; auto. cbn [list_of_str forallb] in F. apply andb_true_iff in F as [F1 F2].
  cbn [String.append]. rewrite scan_ascii_cons by now apply name_units. unfold chars. cbn [list_of_str map app]. now rewrite IH.
Qed.
Lemma step0_unit : forall s la, rune_text la -> String.eqb la s_cr = false -> String.eqb la "\" = false -> l_esc s = false -> step0 s la = ustep s la.
Proof.
  intros s la T C B E. destruct (step0_cases s la T) as [(-> & _)|[(-> & _)|(u & _ & -> & ->)]]; [discriminate C|discriminate B|].
  rewrite E. destruct s as [tok line start st new dup esc depth quote ntd]. cbn in E. now subst esc.
Qed.
Lemma name_rest : forall ext n tok line start depth quote b, forallb name_char (list_of_str n) = true -> tok <> "" ->
  (forall a c, n = a ++ c -> c <> "" -> assoc (tok ++ a) ext = None) ->
  lex_run ext 0 (in_name tok line start depth quote) (chars n ++ b) = lex_run ext 0 (in_name (tok ++ n) line start depth quote) b.
Proof.
  induction n as [|c n IH]; intros tok line start depth quote b F N NS; [now rewrite app_nil_r_s|].
  cbn [list_of_str forallb] in F. apply andb_true_iff in F as [F1 F2]. destruct (name_units c F1) as (LT & SW & SP & EO & C1 & C2 & C3).
  unfold chars. cbn [list_of_str map app]. fold (chars n).
  assert (A : assoc tok ext = None) by (specialize (NS "" (String c n) eq_refl); rewrite app_nil_r_s in NS; apply NS; discriminate).
  assert (E : tok ++ String c n = (tok ++ str1 c) ++ n) by now rewrite app_assoc_s.
  rewrite run_plain by auto. rewrite step0_unit; auto.
  2: { split; [discriminate|]. exists (bval c). unfold str1, decode_rune. now rewrite (proj2 (N.ltb_lt _ _) LT). }
  unfold ustep, usw, lex_read. rewrite EO.
  change (in_name tok line start depth quote) with (set_st (in_name tok line start depth quote) InWord).
  rewrite SW. cbn [r_ctl r_toks r_st app]. rewrite E.
  change (write _ _) with (in_name (tok ++ str1 c) line start depth quote). apply IH; auto.
  - now destruct tok.
  - intros a d D D'. rewrite app_assoc_s. apply (NS (String c a) d); auto. now rewrite D.
Qed.
Lemma name_run : forall ext n line start dup depth quote b, simple_name n = true -> no_shorter ext n ->
  lex_run ext 0 (Lst "" line start SkipSpace false dup false depth quote true) (chars n ++ b) = lex_run ext 0 (in_name n line line depth quote) b.
Proof.
  intros ext n line start dup depth quote b H NS. unfold simple_name in H. apply andb_true_iff in H as [N F]. destruct n as [|c n]; [discriminate|]. clear N.
  cbn [list_of_str forallb] in F. apply andb_true_iff in F as [F1 F2]. destruct (name_units c F1) as (LT & SW & SP & EO & C1 & C2 & C3).
  unfold chars. cbn [list_of_str map app]. fold (chars n). rewrite run_plain by (left; reflexivity). rewrite step0_unit; auto.
  2: { split; [discriminate|]. exists (bval c). unfold str1, decode_rune. now rewrite (proj2 (N.ltb_lt _ _) LT). }
  unfold ustep, usw, lex_read. rewrite EO.
  match goal with |- context [lex_switch ?s (str1 c)] => assert (X : lex_switch s (str1 c) = LRes (set_start (set_new (set_st s InWord) true) line) [] (ReEval (str1 c))) by (unfold lex_switch; cbn [l_st]; rewrite SP; reflexivity) end.
  rewrite X. clear X. cbn [r_ctl r_st r_toks].
  match goal with |- context [lex_switch ?s (str1 c)] => change s with (set_st s InWord); rewrite SW end.
  cbn [r_ctl r_toks r_st app]. change (String c n) with (str1 c ++ n). rewrite <- name_rest; auto; [discriminate|].
  intros a d E D. apply (NS (str1 c ++ a) d); [now rewrite E|discriminate|exact D].
Qed.

(** ** The quote character matters inside quotes only *)
Definition same_but_quote (s s' : lst) : Prop := s' = s \/ (l_st s <> InQuote /\ exists q, s' = set_quote s q).
Definition same_res (r r' : lres) : Prop := r_toks r' = r_toks r /\ r_ctl r' = r_ctl r /\ same_but_quote (r_st r) (r_st r').
Lemma special_quote : forall s q la, l_st s = InWord -> same_res (lex_special s la) (lex_special (set_quote s q) la).
Proof.
  intros [tok line start st new dup esc depth quote ntd] q la E. cbn in E. subst st. unfold lex_special. cbn [l_tok set_quote].
  destruct (str_nonempty tok), dup, (la =? "}"), (la =? "{");
    cbn [l_dup emit_st set_st set_tok set_dup set_depth set_quote l_tok l_st l_depth l_line l_start l_new l_esc l_quote l_ntd andb negb];
    try (destruct (_ <? 0)%Z); (split; [reflexivity|split; [reflexivity|right; split; [discriminate|exists q; reflexivity]]]).
Qed.
Lemma switch_quote : forall s s' la, same_but_quote s s' -> same_res (lex_switch s la) (lex_switch s' la).
Proof.
  intros s s' la [->|[N [q ->]]]; [repeat split; now left|]. destruct s as [tok line start st new dup esc depth quote ntd]. cbn [l_st] in N.
  change (set_quote (Lst tok line start st new dup esc depth quote ntd) q) with (Lst tok line start st new dup esc depth q ntd).
  destruct st; try congruence; unfold lex_switch; cbn [l_st set_quote l_tok l_line l_start l_new l_dup l_esc l_depth l_ntd]; cbv zeta.
  2: { destruct (new && (la =? "#"))%bool. { split; [reflexivity|split; [reflexivity|right; split; [discriminate|exists q; reflexivity]]]. }
    destruct (is_space la). { split; [reflexivity|split; [reflexivity|right; split; [discriminate|exists q; reflexivity]]]. }
    cbn [set_new l_tok l_line l_start l_st l_new l_dup l_esc l_depth l_quote l_ntd]. destruct (str_nonempty tok && has_suffix tok "$" && (la =? "{"))%bool. { split; [reflexivity|split; [reflexivity|right; split; [discriminate|exists q; reflexivity]]]. }
    destruct ((la =? s_dq) || (la =? s_sq))%bool.
    { destruct (str_nonempty tok); (split; [reflexivity|split; [reflexivity|]]). { right; split; [discriminate|exists q; reflexivity]. } left. reflexivity. }
    destruct (is_special la). { apply (special_quote (Lst tok line start InWord false dup esc depth quote ntd)). reflexivity. }
    split; [reflexivity|split; [reflexivity|right; split; [discriminate|exists q; reflexivity]]]. }
  all: cbn [write set_tok l_tok l_line l_start l_st l_new l_dup l_esc l_depth l_quote l_ntd];
    repeat match goal with |- context [if ?b then LRes _ _ _ else _] => destruct b end;
    (split; [reflexivity|split; [reflexivity|right; split; [discriminate|exists q; reflexivity]]]).
Qed.
Lemma body_quote : forall ext s s' la rest, same_but_quote s s' ->
  same_res (fst (lex_body ext s la rest)) (fst (lex_body ext s' la rest)) /\ snd (lex_body ext s la rest) = snd (lex_body ext s' la rest).
Proof.
  intros ext s s' la rest H. unfold lex_body. destruct (_ || _)%bool. { split; [repeat split; auto|reflexivity]. }
  assert (E : l_esc s' = l_esc s) by (destruct H as [-> | [_ [q ->]]]; reflexivity). rewrite E. destruct (_ && negb (l_esc s))%bool.
  { split; [|reflexivity]. split; [reflexivity|split; [reflexivity|]]. destruct H as [-> | [N [q ->]]]; [now left|right]. split; auto. exists q. reflexivity. }
  assert (H' : same_but_quote (set_esc s false) (set_esc s' false)).
  { destruct H as [-> | [N [q ->]]]; [now left|right]. split; auto. exists q. reflexivity. }
  clear H E. set (la' := if l_esc s then "\" ++ la else la). clearbody la'. set (s1 := set_esc s false) in *. set (s1' := set_esc s' false) in *. clearbody s1 s1'. clear s s'.
  assert (E : l_tok s1' = l_tok s1 /\ l_ntd s1' = l_ntd s1 /\ l_start s1' = l_start s1 /\ l_line s1' = l_line s1 /\ l_st s1' = l_st s1).
  { destruct H' as [-> | [_ [q ->]]]; repeat split. }
  destruct E as (E1 & E2 & E3 & E4 & E5). rewrite E1, E2. destruct (if (str_nonempty (l_tok s1) && l_ntd s1)%bool then assoc (l_tok s1) ext else None) as [f|].
  2: { split; [|reflexivity]. now apply switch_quote. }
  cbv zeta. unfold emit_tok. rewrite E1, E3, E4, E5. destruct (f (l_tok s1) (l_line s1) rest) as [et n].
  set (m := set_line (emit_st s1) _). set (m' := set_line (emit_st s1') _).
  assert (M : same_but_quote m m'). { destruct H' as [-> | [N [q ->]]]; [now left|right]. split; [discriminate|]. exists q. reflexivity. }
  assert (Q : (lex_state_eqb (l_st s1) InQuote && String.eqb la' (l_quote m'))%bool = (lex_state_eqb (l_st s1) InQuote && String.eqb la' (l_quote m))%bool).
  { destruct H' as [-> | [N [q ->]]]; auto. destruct (l_st s1); try reflexivity. congruence. }
  rewrite Q. destruct (lex_state_eqb (l_st s1) InQuote && (la' =? l_quote m))%bool; cbn [fst snd]; (split; [|reflexivity]). { split; [reflexivity|split; [reflexivity|exact M]]. }
  destruct (switch_quote m m' la' M) as (A & B & C). split; [|split]; cbn [r_toks r_ctl r_st]; [now rewrite A|exact B|exact C].
Qed.
Lemma run_quote : forall ext rs k s s', same_but_quote s s' -> lex_run ext k s' rs = lex_run ext k s rs.
Proof.
  induction rs as [|la rs IH]; intros k s s' H.
  { destruct H as [->|[N [q ->]]]; auto. cbn [lex_run]. destruct s as [tok line start st new dup esc depth quote ntd]. unfold lex_finish. cbn [set_quote l_tok]. destruct (str_nonempty tok); reflexivity. }
  destruct k as [|k]; cbn [lex_run]; [|now apply IH]. unfold lex_step.
  assert (R : same_but_quote (lex_read s la) (lex_read s' la)). { unfold lex_read. destruct (is_eol la); auto. destruct H as [->|[N [q ->]]]; [now left|right]. split; auto. exists q. reflexivity. }
  destruct (body_quote ext _ _ la rs R) as [(A & B & C) D]. destruct (lex_body ext (lex_read s la) la rs) as [r n]. destruct (lex_body ext (lex_read s' la) la rs) as [r' n']. cbn [fst snd] in *. subst n'.
  destruct (r_ctl r) as [|la'|] eqn:RC; rewrite B.
  1, 3: cbv iota; rewrite B, RC, A; auto; f_equal; now apply IH.
  destruct (body_quote ext _ _ la' rs C) as [(A' & B' & C') D']. destruct (lex_body ext (r_st r) la' rs) as [r1 n1]. destruct (lex_body ext (r_st r') la' rs) as [r1' n1']. cbn [fst snd r_ctl r_toks r_st] in *. subst n1'.
  rewrite B', A, A'. destruct (r_ctl r1); auto; f_equal; now apply IH.
Qed.

(** ** Hand-over at the first white character behind the name *)
Lemma cr_run : forall ext s rs, lex_run ext 0 s (s_cr :: rs) = lex_run ext 0 s rs.
Proof. intros ext s rs. reflexivity. Qed.
Lemma trigger : forall ext n f line start depth quote w rs, assoc n ext = Some f -> n <> "" -> rune_text w -> white w = true -> is_cr w = false ->
  let line' := (line + newlines w)%Z in
  lex_run ext 0 (in_name n line start depth quote) (w :: rs) =
    (Tok n start false None :: fst (f n line' rs) ++
     lex_from ext (line' + count_eol (firstn (snd (f n line' rs)) rs)) start depth (skipn (snd (f n line' rs)) rs))%list.
Proof.
  intros ext n f line start depth quote w rs A N T W C line'. cbn [lex_run]. unfold lex_step.
  assert (R : lex_read (in_name n line start depth quote) w = in_name n line' start depth quote).
  { unfold lex_read, line'. rewrite <- count_scan, rune_scan_runes by auto. unfold count_eol. cbn [fold_right]. destruct (is_eol w); [reflexivity|]. now rewrite Z.add_0_r. }
  rewrite R. unfold lex_body. unfold is_cr in C. rewrite C.
  assert (C1 : String.eqb w ("\" ++ s_cr) = false). { apply String.eqb_neq. intros ->. destruct T as [_ [k D]]. cbn in D. inversion D. }
  assert (C2 : String.eqb w "\" = false). { apply String.eqb_neq. intros ->. discriminate W. }
  rewrite C1, C2. cbn [orb andb]. cbv zeta. change (l_esc (in_name n line' start depth quote)) with false. cbv iota.
  change (set_esc (in_name n line' start depth quote) false) with (in_name n line' start depth quote).
  change (l_tok (in_name n line' start depth quote)) with n. change (l_ntd (in_name n line' start depth quote)) with true.
  assert (NE : str_nonempty n = true) by (unfold str_nonempty; destruct n; [congruence|reflexivity]). rewrite NE, A. cbn [andb]. cbv iota.
  change (l_st (in_name n line' start depth quote)) with InWord. change (l_line (in_name n line' start depth quote)) with line'.
  destruct (f n line' rs) as [et k]. cbn [fst snd lex_state_eqb andb]. unfold lex_switch.
  change (l_st (set_line (emit_st _) _)) with SkipSpace. cbv iota. rewrite white_space by auto. rewrite W. cbn [r_ctl r_st r_toks]. unfold emit_tok. cbn [l_tok l_start].
  rewrite app_nil_r. cbn [app]. f_equal. f_equal. rewrite run_skip. unfold lex_from. apply run_quote. right. split; [discriminate|]. exists quote. reflexivity.
Qed.
Lemma trigger_gap : forall ext n f g line start depth quote rs, assoc n ext = Some f -> n <> "" -> gap_ok g = true -> core g <> [] ->
  exists w g', core g = w :: core g' /\ newlines (concat_str g) = (newlines w + newlines (concat_str g'))%Z /\ gap_ok g' = true /\
  let line' := (line + newlines w)%Z in
  let res := f n line' (g' ++ rs)%list in
  lex_run ext 0 (in_name n line start depth quote) (g ++ rs) =
    (Tok n start false None :: fst res ++ lex_from ext (line' + count_eol (firstn (snd res) (g' ++ rs))) start depth (skipn (snd res) (g' ++ rs)))%list.
Proof.
  intros ext n f g line start depth quote rs A N G C. induction g as [|w g IH]; [now destruct C|].
  unfold gap_ok in G. cbn [forallb] in G. apply andb_true_iff in G as [G1 G2]. apply andb_true_iff in G1 as [O W]. apply one_char_text in O.
  cbn [core filter] in *. destruct (is_cr w) eqn:CR; cbn [negb] in *.
  - destruct (IH G2 C) as (w' & g' & E1 & E2 & E3 & E4). exists w', g'. split; [exact E1|]. apply String.eqb_eq in CR. subst w.
    split; [|split; [exact E3|]]. { cbn [concat_str]. rewrite newlines_app, E2. reflexivity. }
    cbn [app]. rewrite cr_run. exact E4.
  - exists w, g. split; [reflexivity|]. split; [cbn [concat_str]; apply newlines_app|]. split; [exact G2|]. cbn [app]. now apply trigger.
Qed.
