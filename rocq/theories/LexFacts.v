(** The lexer without external lexers, as a machine over units: carriage returns are
    dropped and a backslash is joined to the next character. *)
From Verif Require Export Lex Util Utf8.
Local Open Scope string_scope.

(** ** Small facts *)
Lemma nonempty_iff : forall s, str_nonempty s = true <-> s <> "".
Proof. intros s. unfold str_nonempty. rewrite negb_true_iff. apply String.eqb_neq. Qed.
Lemma nonempty_false : forall s, str_nonempty s = false <-> s = "".
Proof. intros s. unfold str_nonempty. rewrite negb_false_iff. apply String.eqb_eq. Qed.
Lemma str1_app : forall a b x y, a ++ str1 x = b ++ str1 y -> a = b /\ x = y.
Proof.
  induction a as [|c a IH]; intros [|c' b] x y H; cbn in H.
  - inversion H; auto.
  - inversion H; subst. now destruct b.
  - inversion H; subst. now destruct a.
  - inversion H; subst. apply IH in H2 as [-> ->]. auto.
Qed.
Lemma suffix1_iff : forall s c, has_suffix s (str1 c) = true <-> exists r, s = r ++ str1 c.
Proof. intros. apply has_suffix_iff. Qed.
Lemma suffix1_app : forall a b c, b <> "" -> has_suffix (a ++ b) (str1 c) = has_suffix b (str1 c).
Proof.
  intros a b c N. apply eq_iff_eq_true. rewrite !suffix1_iff. split.
  - intros [r H]. destruct (has_suffix b (str1 c)) eqn:E; [now apply suffix1_iff in E|]. exfalso.
    assert (X : exists b' x, b = b' ++ str1 x).
    { clear - N. induction b as [|x b IH]; [congruence|]. destruct b as [|y b]; [exists "", x; reflexivity|].
      destruct (IH ltac:(discriminate)) as (b' & z & ->). exists (String x b'), z. reflexivity. }
    destruct X as (b' & x & ->). rewrite <- app_assoc_s in H. apply str1_app in H as [_ ->].
    rewrite has_suffix_app in E. discriminate.
  - intros [r ->]. exists (a ++ r). now rewrite app_assoc_s.
Qed.
Lemma is_eol_app : forall a b, b <> "" -> is_eol (a ++ b) = is_eol b.
Proof. intros. now apply suffix1_app. Qed.

(** ** Units *)
Fixpoint units (esc : bool) (rs : list string) : list string :=
  match rs with
  | [] => []
  | r :: rs =>
    if String.eqb r s_cr then units esc rs
    else if (String.eqb r "\" && negb esc)%bool then units true rs
    else (if esc then "\" ++ r else r) :: units false rs
  end.

Definition usw (s : lst) (u : string) : lres :=
  let r := lex_switch s u in
  match r_ctl r with
  | ReEval la => let r' := lex_switch (r_st r) la in LRes (r_st r') (r_toks r ++ r_toks r') (r_ctl r')
  | _ => r
  end.
Definition ustep (s : lst) (u : string) : lres := usw (lex_read s u) u.
Fixpoint urun (s : lst) (us : list string) : list token :=
  match us with
  | [] => lex_finish s
  | u :: us =>
    let r := ustep s u in
    match r_ctl r with Stop => r_toks r | _ => (r_toks r ++ urun (r_st r) us)%list end
  end.

Definition rune_like (r : string) : Prop := r <> "" /\ r <> "\" ++ s_cr.
Definition same (s s' : lst) : Prop :=
  set_esc s false = set_esc s' false.
Lemma esc_id : forall s, l_esc s = false -> set_esc s false = s.
Proof. intros [] E. simpl in E. now subst. Qed.
Lemma body_switch : forall s la, l_esc s = false -> la <> s_cr -> la <> "\" ++ s_cr -> la <> "\" ->
  forall rest, lex_body [] s la rest = (lex_switch s la, 0).
Proof.
  intros s la E A B C rest. unfold lex_body. rewrite E.
  apply String.eqb_neq in A, B, C. rewrite A, B, C. cbn [orb andb negb].
  rewrite (esc_id s E).
  destruct (str_nonempty (l_tok s) && l_ntd s)%bool; reflexivity.
Qed.
Lemma switch_esc : forall s la, l_esc (r_st (lex_switch s la)) = l_esc s.
Proof.
  intros [tok line start st new dup esc depth quote ntd] la. unfold lex_switch. cbn [l_st l_esc].
  destruct st; cbn; repeat match goal with |- context [if ?b then _ else _] => destruct b; cbn end; auto.
  all: unfold lex_special; cbn; repeat match goal with |- context [if ?b then _ else _] => destruct b; cbn end; auto.
Qed.
Lemma switch_ctl : forall s la, match r_ctl (lex_switch s la) with
  | ReEval la' => la' = la /\ l_st s = SkipSpace /\ is_space la = false /\ r_toks (lex_switch s la) = []
  | _ => True end.
Proof.
  intros [tok line start st new dup esc depth quote ntd] la. unfold lex_switch. cbn [l_st].
  destruct st; cbn; repeat match goal with |- context [if ?b then _ else _] => destruct b eqn:?; cbn end; auto.
  all: unfold lex_special; cbn; repeat match goal with |- context [if ?b then _ else _] => destruct b; cbn end; auto.
Qed.
Lemma step_unit : forall s r rest, rune_like r -> r <> s_cr -> r <> "\" -> l_esc s = false ->
  lex_step [] s r rest = (ustep s r, 0).
Proof.
  intros s r rest [NE NC] A B E. unfold lex_step.
  assert (E' : l_esc (lex_read s r) = false) by (unfold lex_read; destruct (is_eol r); auto).
  rewrite body_switch by auto. unfold ustep, usw.
  pose proof (switch_ctl (lex_read s r) r) as SC. pose proof (switch_esc (lex_read s r) r) as SE.
  destruct (r_ctl (lex_switch (lex_read s r) r)) as [|la'|]; try reflexivity.
  destruct SC as [-> _]. rewrite body_switch by (auto; congruence). reflexivity.
Qed.
Lemma eol_cr : is_eol s_cr = false.
Proof. reflexivity. Qed.
Lemma eol_bs : is_eol "\" = false.
Proof. reflexivity. Qed.
Lemma step_esc : forall s r rest, r <> "" -> r <> s_cr -> r <> "\" ++ s_cr -> l_esc s = true ->
  lex_step [] s r rest = (ustep (set_esc s false) ("\" ++ r), 0).
Proof.
  intros s r rest NE NC NC' E. unfold lex_step.
  assert (RD : lex_read (set_esc s false) ("\" ++ r) = set_esc (lex_read s r) false).
  { unfold lex_read. rewrite is_eol_app by auto. destruct (is_eol r); reflexivity. }
  assert (B1 : lex_body [] (lex_read s r) r rest = (lex_switch (set_esc (lex_read s r) false) ("\" ++ r), 0)).
  { unfold lex_body. assert (E1 : l_esc (lex_read s r) = true) by (unfold lex_read; destruct (is_eol r); auto).
    rewrite E1. apply String.eqb_neq in NC, NC'. rewrite NC, NC', andb_false_r. cbn [orb].
    destruct (str_nonempty _ && _)%bool; reflexivity. }
  rewrite B1. unfold ustep, usw. rewrite RD.
  pose proof (switch_ctl (set_esc (lex_read s r) false) ("\" ++ r)) as SC.
  pose proof (switch_esc (set_esc (lex_read s r) false) ("\" ++ r)) as SE. cbn [l_esc set_esc] in SE.
  destruct (r_ctl (lex_switch (set_esc (lex_read s r) false) ("\" ++ r))) as [|la'|]; try reflexivity.
  destruct SC as [-> _]. rewrite body_switch; auto.
  - intros H. cbn in H. inversion H.
  - intros H. apply (app_inv_l_s "\") in H. auto.
  - intros H. apply (app_inv_l_s "\" _ "") in H. auto.
Qed.
Lemma ustep_esc : forall s u, l_esc s = false -> l_esc (r_st (ustep s u)) = false.
Proof.
  intros s u E. unfold ustep, usw.
  assert (E' : l_esc (lex_read s u) = false) by (unfold lex_read; destruct (is_eol u); auto).
  pose proof (switch_esc (lex_read s u) u) as SE.
  destruct (r_ctl (lex_switch (lex_read s u) u)) as [|la|] eqn:C; try congruence.
  cbn [r_st]. rewrite switch_esc. congruence.
Qed.
Lemma run_units : forall rs s, Forall rune_like rs ->
  lex_run [] 0 s rs = urun (set_esc s false) (units (l_esc s) rs).
Proof.
  induction rs as [|r rs IH]; intros s F; cbn [lex_run units].
  - unfold urun, lex_finish. destruct s as [tok ? ? ? ? ? ? ? ? ?]; cbn; destruct (str_nonempty tok); reflexivity.
  - inversion F as [|? ? R F']; subst. destruct (String.eqb_spec r s_cr) as [->|NC].
    + unfold lex_step, lex_read. rewrite eol_cr. unfold lex_body. cbn [String.eqb orb]. rewrite String.eqb_refl. cbn [orb fst snd r_ctl r_toks r_st app].
      apply IH; auto.
    + destruct (String.eqb_spec r "\") as [->|NB]; cbn [andb].
      * destruct (l_esc s) eqn:E; cbn [negb andb].
        -- rewrite step_esc; auto; try discriminate. cbn [urun].
           destruct (r_ctl (ustep (set_esc s false) ("\" ++ "\"))) eqn:C; auto; f_equal; rewrite IH by auto;
             rewrite ustep_esc by reflexivity; f_equal; apply esc_id, ustep_esc; reflexivity.
        -- assert (X : lex_step [] s "\" rs = (LRes (set_esc s true) [] Next, 0)).
           { unfold lex_step, lex_read. rewrite eol_bs. unfold lex_body. rewrite E. reflexivity. }
           rewrite X. cbn [r_ctl r_toks r_st app]. rewrite IH by auto. destruct s. reflexivity.
      * destruct R as [NE NR]. destruct (l_esc s) eqn:E.
        -- rewrite step_esc by auto. cbn [urun].
           destruct (r_ctl (ustep (set_esc s false) ("\" ++ r))) eqn:C; auto; f_equal; rewrite IH by auto;
             rewrite ustep_esc by reflexivity; f_equal; apply esc_id, ustep_esc; reflexivity.
        -- rewrite step_unit by (auto; split; auto). cbn [urun].
           rewrite (esc_id s E).
           destruct (r_ctl (ustep s r)) eqn:C; auto; f_equal; rewrite IH by auto;
             rewrite ustep_esc by auto; f_equal; apply esc_id, ustep_esc; exact E.
Qed.
Lemma lex_units : forall rs, Forall rune_like rs -> lex_runes [] rs = urun lex_init (units false rs).
Proof. intros rs F. unfold lex_runes. now rewrite run_units. Qed.

(** ** Runes of a string *)
Definition rune_text (r : string) : Prop := r <> "" /\ exists n, decode_rune r = (n, slen r, true).
Lemma error_text : rune_text error_rune_text.
Proof. split; [discriminate|]. exists rune_error. reflexivity. Qed.
Lemma scan_texts : forall s, Forall rune_text (scan_runes s).
Proof.
  intros s. unfold scan_runes. apply Forall_map, Forall_forall. intros i I.
  pose proof (scan_items s i I) as (N & OK & BAD). unfold it_text. destruct (it_ok i); [|apply error_text].
  split; eauto.
Qed.
(** Texts of several bytes contain no ASCII byte. *)
Lemma rune_ascii : forall c r, rune_text (String c r) -> (bval c < 128)%N -> r = "".
Proof.
  intros c r [_ [n D]] B. unfold decode_rune in D. apply N.ltb_lt in B. rewrite B in D.
  inversion D. destruct r; [auto|discriminate].
Qed.
Lemma rune_like_text : forall r, rune_text r -> rune_like r.
Proof.
  intros r R. split; [apply R|]. intros ->. apply rune_ascii in R; [discriminate|reflexivity].
Qed.
Lemma scan_rune_like : forall s, Forall rune_like (scan_runes s).
Proof. intros s. eapply Forall_impl; [|apply scan_texts]. apply rune_like_text. Qed.
Lemma lex_urun : forall s, lex [] s = urun lex_init (units false (scan_runes s)).
Proof. intros s. apply lex_units, scan_rune_like. Qed.
