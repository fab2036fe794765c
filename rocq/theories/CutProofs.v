(** A statement cut off by the end of the file is reported (C50). *)
From Verif Require Export SpecCut LostProofs.
From Verif Require Import LexProofs.
Local Open Scope string_scope.

Lemma cut_after : forall toks c, cut_off toks -> after_sep c toks = false.
Proof.
  intros toks c (a & t & b & -> & S & N & F). rewrite after_app. cbn [after_sep]. rewrite N, S.
  now apply after_all_notes.
Qed.
(** A block is closed when the braces of the whole add up. *)
Lemma net_falls : forall toks k, (0 <= k)%Z -> (k + net toks < 0)%Z -> no_errors toks ->
  exists b c, toks = (b ++ c)%list /\ (k + net b = -1)%Z /\ no_errors b.
Proof.
  induction toks as [|t toks IH]; intros k K N NE; [cbn in N; lia|]. inversion NE as [|? ? E NE']; subst.
  assert (X : forall j, (k + net [t] = j)%Z -> (0 <= j)%Z -> exists b c, t :: toks = (b ++ c)%list /\ (k + net b = -1)%Z /\ no_errors b).
  { intros j J J0. destruct (IH j J0) as (b & c & -> & B & NB); auto.
    - change (t :: toks) with ([t] ++ toks)%list in N. rewrite net_app in N. lia.
    - exists (t :: b), c. split; [reflexivity|]. split; [|constructor; auto]. change (t :: b) with ([t] ++ b)%list. rewrite net_app. lia. }
  destruct (Z_lt_le_dec (k + net [t]) 0) as [L|L]; [|eapply X; [reflexivity|exact L]].
  exists [t], toks. split; [reflexivity|]. split; [|repeat constructor; auto].
  cbn [net] in *. destruct (opensb t), (closesb t); lia.
Qed.
Lemma good_shut : forall names toks, no_errors toks -> nested toks -> net toks = 0%Z -> ignored_shut names toks.
Proof.
  intros names toks NE NS N a h args t rest E I F O.
  assert (S : (a ++ h :: args ++ t :: rest = (a ++ h :: args) ++ [t] ++ rest)%list) by (rewrite <- app_assoc; reflexivity).
  rewrite S in E. pose proof (NS _ _ E) as P. rewrite E in N. rewrite !net_app in N. rewrite net_app in P.
  assert (T : net [t] = 1%Z) by (cbn [net]; now rewrite O).
  destruct (net_falls rest 0) as (b & c & EB & B & NB); [lia|lia| |].
  - rewrite E in NE. apply Forall_app in NE as [_ NE]. now apply Forall_app in NE as [_ NE].
  - exists b, c. repeat split; auto.
Qed.

Section Cut.
Variables (o : popts) (dir : string).
Definition ended (toks : list token) (r : pres) : Prop :=
  match r with
  | POk _ rest st' => bad st' \/ exists used, toks = (used ++ rest)%list /\ after_sep true used = true
  | _ => True
  end.
Lemma ended_padd : forall toks ds r, ended toks (padd ds r) <-> ended toks r.
Proof. intros toks ds []; cbn; tauto. Qed.
Lemma ended_more : forall a b r, after_sep true a = true -> ended b r -> ended (a ++ b) r.
Proof.
  intros a b [ds rest st'| | |] A E; cbn in *; auto. destruct E as [E|(u & -> & U)]; auto. right.
  exists (a ++ u)%list. rewrite app_assoc, after_app, A. auto.
Qed.
Lemma ended_bad : forall ctx toks st r all, Run o dir ctx toks st r -> bad st -> ended all r.
Proof. intros ctx toks st r all R B. eapply bad_run in R; eauto. destruct r; cbn; auto. Qed.
Lemma run_ended : forall ctx toks st r, Run o dir ctx toks st r -> read_ok o toks -> ended toks r.
Proof.
  intros ctx toks st r R. induction R; intros RO; try exact I.
  - right. exists []. auto.
  - right. exists [t]. split; auto. apply (sep_after [] t), term_sep. unfold is_term. rewrite H0. apply orb_true_r.
  - apply ended_padd. change (t :: r) with ([t] ++ r)%list. pose proof (note_same t H1) as C3.
    apply ended_more; [cbn [after_sep]; now rewrite C3|]. apply IHR. apply (read_suffix o [t]); auto. cbn [after_sep]. now rewrite C3.
  - left. eapply decide_break; eauto.
  - destruct (decide_skip _ _ _ _ _ _ _ _ H1) as [B|(IG & EE & ->)]; [eapply ended_bad; eauto|].
    destruct (head_used o t r args cs term rest RO H H0) as (mid & tt & ALL & RR & F & NE & AS & NT & OP & RO').
    destruct eat.
    + symmetry in EE. assert (SH : shut rest).
      { destruct RO as (_ & SHUT & _). eapply (SHUT [] t mid tt rest); auto; [now rewrite RR| |now rewrite OP]. eapply Forall_impl; [|exact F]. intros x. apply term_braces. }
      destruct SH as (b & c & E & N & NB). destruct (consume_sep rest 0 b c E N NB) as (b2 & x & E2 & S2).
      rewrite ALL, E2, app_assoc. apply ended_more.
      * rewrite after_app. apply sep_after; auto.
      * apply IHR. rewrite E2 in RO'. apply read_suffix in RO'; auto. apply sep_after; auto.
    + rewrite ALL. apply ended_more; auto.
  - apply ended_padd. destruct (head_used o t r args cs term rest RO H H0) as (mid & tt & ALL & RR & F & NE & AS & NT & OP & RO').
    rewrite ALL. apply ended_more; auto.
  - apply ended_padd. destruct (head_used o t r args cs term rest RO H H0) as (mid & tt & ALL & RR & F & NE & AS & NT & OP & RO').
    rewrite ALL. apply ended_more; auto.
  - apply ended_padd. destruct (head_used o t r args cs term rest RO H H0) as (mid & tt & ALL & RR & F & NE & AS & NT & OP & RO').
    destruct (IHR1 RO') as [B|(used & E & U)]; [eapply ended_bad; eauto|]. rewrite ALL, E, app_assoc. apply ended_more.
    + rewrite after_app, AS. auto.
    + apply IHR2. rewrite E in RO'. now apply read_suffix in RO'.
  - destruct res; try exact I. destruct H4.
Qed.
End Cut.

Lemma good_verdict : forall toks, verdict toks -> no_errors toks -> nested toks /\ spaced toks /\ net toks = 0%Z.
Proof.
  intros toks [_ NS SP NT|pre t -> _ _ _ B _ _] NE; auto. exfalso. apply Forall_app in NE as [_ NE]. inversion NE as [|? ? E _]; subst.
  destruct B as [c line _ _ X|line _ X|line _ X]; congruence.
Qed.
Definition cut_content (o : popts) (text : string) : Prop :=
  let toks := lex (o_lexers o) text in orderly toks /\ ignored_shut (o_ignore o) toks /\ no_errors toks /\ cut_off toks /\ ~ leads toks.
Lemma run_cut : forall o dir ctx text st ds rest st', cut_content o text ->
  Run o dir ctx (lex (o_lexers o) text) st (POk ds rest st') -> bad st'.
Proof.
  intros o dir ctx text st ds rest st' (V & SH & NE & CU & LD) R. set (toks := lex (o_lexers o) text) in *.
  destruct (orderly_last toks V) as (LO & NS & SP).
  assert (RO : read_ok o toks) by (split; [exact LO|split; [exact SH|apply spaced_named; auto]]).
  pose proof (run_used o dir _ _ _ _ R RO) as U. pose proof (run_ended o dir _ _ _ _ R RO) as D. cbn in U, D.
  destruct U as [B|(used & EU & _ & U)]; auto. destruct D as [B|(used' & ED & D)]; auto. exfalso.
  assert (used' = used) by (apply (app_inv_tail rest); congruence). subst used'. destruct rest as [|x rest].
  - rewrite app_nil_r in EU. subst used. rewrite (cut_after toks true CU) in D. discriminate.
  - destruct U as [U|[U _]]; [discriminate|]. assert (NX : x :: rest <> []) by discriminate. specialize (NS used (x :: rest) EU NX). lia.
Qed.
Definition tells_cut (o : popts) (c : config) : Prop := forall text, o_open o (cf_file c) = inl text -> cut_content o text -> cf_status c = "failed".
Lemma effect_kept : forall o ctx st st', effect o ctx st st' -> Forall (tells_cut o) (pl_config (p_pay st)) -> Forall (tells_cut o) (pl_config (p_pay st')).
Proof.
  intros o ctx st st' H F. destruct H as [|e _|p _|p e _ _|p c _ _|p fs _ _]; auto.
  - destruct (add_includes_frame ctx [p] (log_open st p)) as (_ & _ & P & _). now rewrite P.
  - destruct (add_includes_frame ctx (sort_strings fs) st) as (_ & _ & P & _). now rewrite P.
Qed.
Lemma files_cut : forall o dir fuel st st', Forall (tells_cut o) (pl_config (p_pay st)) -> run_files fuel o dir st = FDone st' -> Forall (tells_cut o) (pl_config (p_pay st')).
Proof.
  intros o dir. induction fuel as [|fuel IH]; intros st st' H E; cbn [run_files] in E.
  - destruct (p_queue st) as [|[path ctx] q]; inversion E; now subst.
  - destruct (p_queue st) as [|[path ctx] q]; [inversion E; now subst|]. unfold parse_file in E.
    destruct (o_open o path) as [content|msg] eqn:OP; [|discriminate]. set (toks := lex (o_lexers o) content) in *.
    set (st1 := set_cur (log_use (log_open (set_queue st q) path) path ctx) (Cfg path "ok" [] [])) in *.
    pose proof (parse_run o dir ctx toks st1) as R.
    pose proof (run_state_inv o dir (fun s => Forall (tells_cut o) (pl_config (p_pay s)))) as RI.
    destruct (parse o dir (S (List.length toks)) ctx toks st1) as [ds rest st2|e rest st2| |] eqn:PA; try discriminate.
    + pose proof (run_file _ _ _ _ _ _ R) as RF. cbn in RF. pose proof (fun L => run_cut o dir ctx content st1 ds rest st2 L R) as RL.
      apply RI in R; auto; [|intros c s s' EF A; eapply effect_kept; eauto]. eapply IH; [|exact E]. cbn. apply Forall_app. split; auto. constructor; auto.
      intros text OT L. cbn in *. rewrite RF in OT. apply RL. congruence.
    + destruct (o_stop o); [discriminate|]. apply RI in R; auto; [|intros c s s' EF A; eapply effect_kept; eauto]. eapply IH; [|exact E]. cbn. apply Forall_app. split; auto. constructor; auto.
      intros text OT L. reflexivity.
Qed.
Lemma parse_cut : forall fuel o filename st c text, collect fuel o filename = FDone st -> In c (pl_config (p_pay st)) ->
  o_open o (cf_file c) = inl text -> let toks := lex (o_lexers o) text in o_lexers o = [] \/ (orderly toks /\ ignored_shut (o_ignore o) toks) ->
  no_errors toks -> cut_off toks -> ~ leads toks ->
  cf_status c = "failed" /\ forall p, parse_main fuel o filename = ROk p ->
    pl_status p = "failed" /\ exists c', In c' (pl_config p) /\ cf_status c' = "failed" /\ (o_combine o = false -> c' = c).
Proof.
  intros fuel o filename st c text C I OP toks NL NE CU LD.
  assert (F : cf_status c = "failed").
  { assert (T : Forall (tells_cut o) (pl_config (p_pay st))) by (eapply files_cut; [|exact C]; constructor).
    rewrite Forall_forall in T. apply (T c I text OP). destruct NL as [NL|[OR SH]].
    - unfold cut_content. fold toks. assert (V : verdict toks) by (unfold toks; rewrite NL; apply lex_verdict). destruct (good_verdict toks V NE) as (NS & SP & NT).
      split; [now apply verdict_orderly|]. split; [now apply good_shut|]. auto.
    - exact (conj OR (conj SH (conj NE (conj CU LD)))). }
  split; auto. eapply failed_payload; eauto.
Qed.

Fixpoint cutb (toks : list token) : bool :=
  match toks with
  | [] => false
  | t :: r => ((negb (sepb t) && negb (noteb t) && forallb noteb r) || cutb r)%bool
  end.
Lemma cutb_cut : forall toks, cutb toks = true -> cut_off toks.
Proof.
  induction toks as [|t r IH]; intros H; [discriminate|]. cbn [cutb] in H. apply orb_true_iff in H as [H|H].
  - apply andb_true_iff in H as [H F]. apply andb_true_iff in H as [S N]. apply negb_true_iff in S, N. exists [], t, r.
    repeat split; auto. apply Forall_forall. now rewrite forallb_forall in F.
  - destruct (IH H) as (a & x & b & -> & K). exists (t :: a), x, b. auto.
Qed.
Lemma cleanb_ok : forall toks, forallb (fun t => match t_err t with None => true | Some _ => false end) toks = true -> no_errors toks.
Proof.
  intros toks H. apply Forall_forall. intros t I. rewrite forallb_forall in H. specialize (H t I). destruct (t_err t); [discriminate|auto].
Qed.
