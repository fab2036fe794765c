(** C61: the matchers of Gen.v are the regular expressions. *)
From Verif Require Export LibProofs GenSource SpecRegex.
Local Open Scope string_scope.

Lemma preferred_asym : forall p ws ws', preferred p ws ws' -> preferred p ws' ws -> False.
Proof. induction 1; intros K; inversion K; subst; auto; lia. Qed.
Lemma preferred_irrefl : forall p ws, ~ preferred p ws ws.
Proof. intros p ws H. exact (preferred_asym _ _ _ H H). Qed.
Lemma divides_text : forall p s ws r, divides p s ws r -> s = concat_str ws ++ r.
Proof. induction 1; cbn [concat_str]; auto. rewrite app_assoc_s. congruence. Qed.
Lemma matches_fun : forall p s ws r ws' r', matches p s ws r -> matches p s ws' r' -> ws = ws' /\ r = r'.
Proof.
  intros p s ws r ws' r' [D H] [D' H']. assert (E : ws = ws').
  { destruct (H _ _ D') as [|P]; auto. destruct (H' _ _ D) as [|P']; auto. exfalso. exact (preferred_asym _ _ _ P P'). }
  split; auto. subst. apply divides_text in D. apply divides_text in D'. rewrite D in D'. now apply app_inv_l_s in D'.
Qed.

(** *** A matcher that computes the preferred division. *)
Definition corr {A} (Q : string -> Prop) (m : string -> option (A * string)) (p : pattern) (f : list string -> A) : Prop :=
  forall s, Q s -> match m s with Some (a, r) => exists ws, matches p s ws r /\ f ws = a | None => ~ exists ws r, divides p s ws r end.
Lemma corr_some : forall A Q m p (f : list string -> A) s ws r, corr Q m p f -> Q s -> matches p s ws r -> m s = Some (f ws, r).
Proof.
  intros A Q m p f s ws r C q M. specialize (C s q). destruct (m s) as [[a r']|].
  - destruct C as (ws' & M' & <-). now destruct (matches_fun _ _ _ _ _ _ M M') as [-> ->].
  - exfalso. apply C. destruct M. eauto.
Qed.
Lemma corr_none : forall A Q m p (f : list string -> A) s, corr Q m p f -> Q s -> (~ exists ws r, divides p s ws r) -> m s = None.
Proof. intros A Q m p f s C q N. specialize (C s q). destruct (m s) as [[a r']|]; auto. exfalso. apply N. destruct C as (ws & [D _] & _). eauto. Qed.
Definition tails (Q : string -> Prop) : Prop := forall a b, Q (a ++ b) -> Q b.
Lemma nowhere_misses : forall A Q m p (f : list string -> A) a s, corr Q m p f -> tails Q -> Q (a ++ s) -> nowhere p a s -> misses m a s.
Proof.
  intros A Q m p f a s C T. induction a as [|c a IH]; intros q N; cbn [misses]; auto. split.
  - refine (corr_none _ _ _ _ _ _ C q _). apply (N "" (String c a)); auto. discriminate.
  - apply IH; [exact (T (String c "") (a ++ s) q)|]. intros x y E NE. apply (N (String c x) y); auto. now rewrite E.
Qed.
Lemma divides_nonempty : forall t p s ws r, t <> "" -> divides (Lit t :: p) s ws r -> exists m, s = m ++ r /\ m <> "".
Proof.
  intros t p s ws r NE D. pose proof (divides_text _ _ _ _ D) as E. exists (concat_str ws). split; auto. inversion D as [|? ? w ? ? ? F D']; subst. cbn in F. subst w. cbn [concat_str]. intros X. apply app_eq_nil_s in X. tauto.
Qed.
Lemma found_sound : forall A Q m t p (f : list string -> A), t <> "" -> corr Q m (Lit t :: p) f -> tails Q -> forall s l, found (Lit t :: p) s l -> Q s -> find_all m 0 s = map f l.
Proof.
  intros A Q m t p f NE C T s l F. induction F as [s N|a s ws r l N M F IH]; intros q.
  - rewrite <- (app_nil_r_s s) in q |- *. apply (find_all_miss _ m s ""). eapply nowhere_misses; eauto.
  - rewrite find_all_miss by (eapply nowhere_misses; eauto). pose proof (T _ _ q) as q'. pose proof (corr_some _ _ _ _ _ _ _ _ C q' M) as E.
    destruct (divides_nonempty _ _ _ _ _ NE (proj1 M)) as (x & -> & NX). rewrite (find_all_hit _ m x r (f ws)) by auto. cbn [map]. f_equal. apply IH. exact (T _ _ q').
Qed.
(** The first place that matches. *)
Lemma first_place : forall A Q m p (f : list string -> A), corr Q m p f -> tails Q -> forall s, Q s ->
  nowhere p s "" \/ exists a t ws r, s = a ++ t /\ t <> "" /\ nowhere p a t /\ matches p t ws r.
Proof.
  intros A Q m p f C T. induction s as [|c s IH]; intros q.
  - left. intros x y E NE. symmetry in E. apply app_eq_nil_s in E. tauto.
  - pose proof (C _ q) as H. destruct (m (String c s)) as [[a r]|].
    + right. destruct H as (ws & M & _). exists "", (String c s), ws, r. repeat split; auto; try discriminate; try apply M. intros x y E NE. symmetry in E. apply app_eq_nil_s in E. tauto.
    + destruct (IH (T (String c "") s q)) as [N|(a & t & ws & r & -> & NE & N & M)].
      * left. intros x y E NE. destruct x as [|d x]; cbn in E.
        -- subst y. now rewrite app_nil_r_s.
        -- inversion E; subst. now apply (N x y).
      * right. exists (String c a), t, ws, r. repeat split; auto; try apply M. intros x y E NE'. destruct x as [|d x]; cbn in E.
        -- subst y. exact H.
        -- inversion E; subst. now apply (N x y).
Qed.
Lemma found_total : forall A Q m t p (f : list string -> A), t <> "" -> corr Q m (Lit t :: p) f -> tails Q -> forall n s, slen s <= n -> Q s -> exists l, found (Lit t :: p) s l.
Proof.
  intros A Q m t p f NE C T. induction n as [|n IH]; intros s L q; (destruct (first_place _ _ _ _ _ C T s q) as [N|(a & u & ws & r & -> & NU & N & M)]; [exists []; now constructor|]);
    destruct (divides_nonempty _ _ _ _ _ NE (proj1 M)) as (x & -> & NX); rewrite !app_slen in L; (destruct x as [|c x]; [congruence|cbn in L]).
  - lia.
  - destruct (IH r) as [l F]; [lia|exact (T _ _ (T _ _ q))|]. exists (ws :: l). econstructor; eauto.
Qed.
Lemma found_exact : forall A Q m t p (f : list string -> A), t <> "" -> corr Q m (Lit t :: p) f -> tails Q -> forall s, Q s -> forall l,
  find_all m 0 s = l <-> exists wss, found (Lit t :: p) s wss /\ l = map f wss.
Proof.
  intros A Q m t p f NE C T s q l. split.
  - intros <-. destruct (found_total _ _ _ _ _ _ NE C T (slen s) s (Nat.le_refl _) q) as [wss F]. exists wss. split; auto. eapply found_sound; eauto.
  - intros (wss & F & ->). eapply found_sound; eauto.
Qed.

(** *** Classes *)
Definition byte_checks (c : ascii) : bool :=
  (Bool.eqb (re_word c) (existsb (fun i => match String.get i (capitals ++ smalls ++ digits ++ "_") with Some d => Ascii.eqb d c | None => false end) (seq 0 63)))%bool.
Lemma byte_checked : forall c, byte_checks c = true.
Proof. intros [[|] [|] [|] [|] [|] [|] [|] [|]]; vm_compute; reflexivity. Qed.
Lemma word_iff : forall c, re_word c = true <-> within Word c.
Proof.
  intros c. pose proof (byte_checked c) as H. unfold byte_checks in H. apply Bool.eqb_prop in H. rewrite H, existsb_exists. cbn [within]. rewrite inside_get. split.
  - intros (i & _ & K). destruct (String.get i _) eqn:G; [|discriminate]. apply Ascii.eqb_eq in K. subst. eauto.
  - intros [i G]. exists i. rewrite G, Ascii.eqb_refl. split; auto. apply in_seq. apply get_bound in G. split; [lia|exact G].
Qed.
Lemma space_iff : forall c, re_space c = true <-> within Space c.
Proof.
  intros c. unfold re_space. rewrite existsb_exists. cbn [within]. split.
  - intros (d & I & E). apply Ascii.eqb_eq in E. now subst.
  - intros I. exists c. split; auto. apply Ascii.eqb_refl.
Qed.
Lemma forallb_inside : forall p w, forallb p (list_of_str w) = true <-> forall c, inside c w -> p c = true.
Proof.
  intros p w. rewrite forallb_forall. split; intros H c I; apply H.
  - destruct I as (a & b & ->). apply in_app_str. right. now left.
  - revert I. induction w as [|d w IH]; intros I; [destruct I|]. destruct I as [->|I]; [now exists "", w|]. destruct (IH ltac:(intros e J; apply H; destruct J as (x & y & ->); now exists (String d x), y) I) as (x & y & ->). now exists (String d x), y.
Qed.
Definition decides (p : ascii -> bool) (k : class) : Prop := forall c, p c = true <-> within k c.
Lemma fits_class : forall p k g n l w, decides p k -> (fits (Rep g k n l) w <-> n <= slen w /\ forallb p (list_of_str w) = true).
Proof. intros p k g n l w D. cbn [fits]. rewrite forallb_inside. split; intros [A B]; split; auto; intros c I; apply D; auto. Qed.

(** *** Atoms in front of others *)
Lemma divides_cons : forall a p s ws r, divides (a :: p) s ws r -> exists w s' ws', s = w ++ s' /\ ws = w :: ws' /\ fits a w /\ divides p s' ws' r.
Proof. intros a p s ws r D. inversion D; subst. eauto 10. Qed.
Lemma divides_lit : forall t p s ws r, divides (Lit t :: p) s ws r <-> exists s' ws', s = t ++ s' /\ ws = t :: ws' /\ divides p s' ws' r.
Proof.
  intros t p s ws r. split.
  - intros D. inversion D as [|? ? w s' ws' ? F D']; subst. cbn in F. subst. eauto.
  - intros (s' & ws' & -> & -> & D). now constructor.
Qed.
Lemma matches_lit : forall t p s ws r, matches p s ws r -> matches (Lit t :: p) (t ++ s) (t :: ws) r.
Proof.
  intros t p s ws r [D H]. split; [constructor; cbn; auto|]. intros ws' r' D'. apply divides_lit in D' as (s' & ws2 & E & -> & D').
  apply app_inv_l_s in E. subst. destruct (H _ _ D') as [->|P]; auto. right. now constructor.
Qed.
Lemma corr_lit : forall A Q m t p (f : list string -> A), corr Q m p f -> tails Q -> corr Q (fun s => bind (lit t s) m) (Lit t :: p) (fun ws => f (tl ws)).
Proof.
  intros A Q m t p f C T s q. destruct (lit t s) as [r|] eqn:E; cbn [bind].
  - apply lit_some in E. subst. specialize (C r (T _ _ q)). destruct (m r) as [[a x]|].
    + destruct C as (ws & M & <-). exists (t :: ws). split; auto. now apply matches_lit.
    + intros (ws & x & D). apply C. apply divides_lit in D as (s' & ws' & X & _ & D). apply app_inv_l_s in X. subst. eauto.
  - intros (ws & r & D). apply lit_none_iff in E. apply E. apply divides_lit in D as (s' & ws' & X & _). eauto.
Qed.
(** A greedy class whose characters cannot begin what follows takes the whole run. *)
Definition starts_outside (k : class) (p : pattern) : Prop := forall c s ws r, within k c -> ~ divides p (String c s) ws r.
Lemma run_division : forall q k g n p w s ws r, decides q k -> starts_outside k p -> fits (Rep g k n false) w -> divides p s ws r -> run q (w ++ s) = (w, s).
Proof.
  intros q k g n p w s ws r D O F V. apply (fits_class q) in F as [_ F]; auto. apply run_app; auto. unfold ends_run. destruct s as [|c s]; auto.
  destruct (q c) eqn:E; auto. apply D in E. exfalso. exact (O _ _ _ _ E V).
Qed.
Lemma corr_run : forall A Q m q k g n p (f : list string -> A), decides q k -> starts_outside k p -> corr Q m p f -> tails Q ->
  corr Q (fun s => let '(w, r) := run q s in if Nat.leb n (slen w) then m r else None) (Rep g k n false :: p) (fun ws => f (tl ws)).
Proof.
  intros A Q m q k g n p f D O C T s qs. destruct (run_split q s) as (w & r & -> & E & W & _). rewrite E. destruct (Nat.leb_spec n (slen w)) as [L|L].
  - specialize (C r (T _ _ qs)). destruct (m r) as [[a x]|].
    + destruct C as (ws & [V H] & <-). exists (w :: ws). split; auto. split.
      * constructor; auto. apply (fits_class q); auto.
      * intros ws' r' V'. apply divides_cons in V' as (w' & s' & ws2 & X & -> & F & V2). pose proof (run_division q _ _ _ _ _ _ _ _ D O F V2) as E'. rewrite <- X, E in E'. inversion E'; subst.
        destruct (H _ _ V2) as [->|P]; auto. right. now constructor.
    + intros (ws & x & V). apply divides_cons in V as (w' & s' & ws2 & X & -> & F & V2). pose proof (run_division q _ _ _ _ _ _ _ _ D O F V2) as E'. rewrite <- X, E in E'. inversion E'; subst. apply C. eauto.
  - intros (ws & x & V). apply divides_cons in V as (w' & s' & ws2 & X & -> & F & V2). pose proof (run_division q _ _ _ _ _ _ _ _ D O F V2) as E'. rewrite <- X, E in E'. inversion E'; subst.
    apply (fits_class q) in F as [F _]; auto. lia.
Qed.
(** A lazy class that contains every character of the text takes as little as possible. *)
Fixpoint lz {A} (m : string -> option (A * string)) (s : string) : option ((string * A) * string) :=
  match m s with
  | Some (a, r) => Some (("", a), r)
  | None => match s with "" => None | String c t => match lz m t with Some ((w, a), r) => Some ((String c w, a), r) | None => None end end
  end.
Lemma lz_eq : forall A (m : string -> option (A * string)) s, lz m s =
  match m s with
  | Some (a, r) => Some (("", a), r)
  | None => match s with "" => None | String c t => match lz m t with Some ((w, a), r) => Some ((String c w, a), r) | None => None end end
  end.
Proof. intros A m [|c s]; reflexivity. Qed.
Lemma corr_lazy : forall A Q m g k p (f : list string -> A), corr Q m p f -> tails Q -> (forall s c, Q s -> inside c s -> within k c) ->
  corr Q (lz m) (Rep g k 0 true :: p) (fun ws => (hd "" ws, f (tl ws))).
Proof.
  intros A Q m g k p f C T W. assert (E0 : fits (Rep g k 0 true) "") by (cbn; split; [lia|intros c I; destruct (not_inside_nil _ I)]).
  assert (K : forall c t, Q (String c t) -> m (String c t) = None -> forall ws r, divides (Rep g k 0 true :: p) (String c t) ws r ->
            exists w ws', ws = String c w :: ws' /\ divides (Rep g k 0 true :: p) t (w :: ws') r).
  { intros c t q N ws r D. apply divides_cons in D as (w & s' & ws' & X & -> & F & D). destruct w as [|d w]; cbn in X.
    - subst s'. exfalso. pose proof (C _ q) as H. rewrite N in H. apply H. eauto.
    - inversion X; subst. exists w, ws'. split; auto. constructor; auto. cbn in *. destruct F as [_ F]. split; [lia|]. intros e (a & b & ->). apply F. now exists (String d a), b. }
  intros s. induction s as [|c t IH]; intros q; rewrite lz_eq; pose proof (C _ q) as H; destruct (m _) as [[a r]|] eqn:E.
  - destruct H as (ws & [D M] & <-). exists ("" :: ws). split; auto. split; [now apply (dv_step _ _ "")|]. intros ws' r' D'. apply divides_cons in D' as (w & s' & ws2 & X & -> & F & D').
    symmetry in X. apply app_eq_nil_s in X as [-> ->]. destruct (M _ _ D') as [->|P]; auto. right. now apply pf_later.
  - intros (ws & r & D). apply divides_cons in D as (w & s' & ws2 & X & -> & F & D'). symmetry in X. apply app_eq_nil_s in X as [-> ->]. apply H. eauto.
  - destruct H as (ws & [D M] & <-). exists ("" :: ws). split; auto. split; [now apply (dv_step _ _ "")|]. intros ws' r' D'. apply divides_cons in D' as (w & s' & ws2 & X & -> & F & D').
    destruct w as [|d w]; [|right; apply pf_lazy; cbn; lia]. cbn in X. subst s'. destruct (M _ _ D') as [->|P]; auto. right. now apply pf_later.
  - specialize (IH (T (String c "") t q)). destruct (lz m t) as [[[w a] r]|].
    + destruct IH as (ws & [D M] & X). apply divides_cons in D as D0. destruct D0 as (w' & s' & ws' & Y & -> & F & D0). cbn in X. inversion X; subst w a. exists (String c w' :: ws'). split; [|reflexivity]. split.
      * rewrite Y. apply (dv_step _ _ (String c w')); auto. cbn in *. destruct F as [_ F]. split; [lia|]. intros e I. apply (W _ _ q). rewrite Y. destruct I as (x & y & I). exists x, (y ++ s'). change (String c (w' ++ s')) with (String c w' ++ s'). rewrite I, app_assoc_s. reflexivity.
      * intros ws2 r2 D2. destruct (K c t q E _ _ D2) as (w2 & ws3 & -> & D3). destruct (M _ _ D3) as [Z|P].
        -- inversion Z; subst. auto.
        -- right. inversion P; subst; [apply pf_lazy; cbn; lia|now apply pf_later].
    + intros (ws & r & D). destruct (K c t q E _ _ D) as (w & ws' & -> & D'). apply IH. eauto.
Qed.
Lemma corr_ext : forall A Q m m' p (f f' : list string -> A), corr Q m p f -> (forall s, Q s -> m' s = m s) -> (forall ws, f' ws = f ws) -> corr Q m' p f'.
Proof. intros A Q m m' p f f' C E F s q. specialize (C s q). rewrite E by auto. destruct (m s) as [[a r]|]; auto. destruct C as (ws & M & X). exists ws. rewrite F. auto. Qed.
Lemma corr_end : forall Q, corr Q (fun s => Some (tt, s)) [] (fun _ => tt).
Proof. intros Q s q. exists []. split; auto. split; [constructor|]. intros ws r D. inversion D; auto. Qed.
Lemma corr_map : forall A B Q m p (f : list string -> A) (h : A -> B), corr Q m p f -> corr Q (fun s => option_map (fun '(a, r) => (h a, r)) (m s)) p (fun ws => h (f ws)).
Proof. intros A B Q m p f h C s q. specialize (C s q). destruct (m s) as [[a r]|]; cbn; auto. destruct C as (ws & M & <-). eauto. Qed.

(** *** The command *)
Definition no_nl (s : string) : Prop := ~ inside "010" s.
Lemma no_nl_tails : tails no_nl.
Proof. intros a b H (x & y & ->). apply H. exists (a ++ x), y. now rewrite app_assoc_s. Qed.
Lemma no_nl_dot : forall s c, no_nl s -> inside c s -> within Dot c.
Proof. intros s c H I E. subst. auto. Qed.
Lemma upto_suffix : forall t a b w r, upto t b = Some (w, r) -> exists w' c, upto t (a ++ b) = Some (w', c ++ r).
Proof.
  assert (U : forall t s, upto t s = match lit t s with Some r => Some ("", r) | None => match s with "" => None | String c r => match upto t r with Some (a, b) => Some (String c a, b) | None => None end end end) by (intros t [|c s]; reflexivity).
  assert (L : forall t s w r, upto t s = Some (w, r) -> s = w ++ t ++ r).
  { intros t s. induction s as [|c s IH]; intros w r; rewrite U; destruct (lit t _) as [x|] eqn:E; intros H; try discriminate; try (inversion H; subst; now apply lit_some in E).
    destruct (upto t s) as [[a b]|]; [|discriminate]. inversion H; subst. cbn. now rewrite (IH _ _ eq_refl) at 1. }
  intros t a b w r H. induction a as [|c a (w' & d & IH)]; [exists w, ""; auto|]. cbn [String.append]. rewrite U. destruct (lit t (String c (a ++ b))) as [x|] eqn:E.
  - exists "". apply lit_some in E. pose proof (L _ _ _ _ H) as Y. rewrite Y in E.
    assert (K : exists z, x = z ++ r).
    { assert (X : t ++ x = (String c (a ++ w) ++ t) ++ r) by (rewrite <- E; cbn; rewrite !app_assoc_s; reflexivity). destruct (app_split _ _ _ _ X) as [(e & Z & _)|(y & e & Z & ->)].
      - exfalso. apply (f_equal slen) in Z. rewrite !app_slen in Z. cbn in Z. lia.
      - eauto. }
    destruct K as [z ->]. eauto.
  - rewrite IH. eauto.
Qed.
Definition mono {A} (m : string -> option (A * string)) : Prop := forall a b, m b <> None -> m (a ++ b) <> None.
Lemma lz_mono : forall A (m : string -> option (A * string)), mono (lz m).
Proof.
  intros A m a b H. induction a as [|c a IH]; auto. cbn [String.append]. rewrite lz_eq. destruct (m _) as [[x r]|]; [discriminate|]. destruct (lz m (a ++ b)) as [[[w x] r]|]; [discriminate|congruence].
Qed.
Lemma upto_eq : forall t s, upto t s = match lit t s with Some r => Some ("", r) | None => match s with "" => None | String c r => match upto t r with Some (a, b) => Some (String c a, b) | None => None end end end.
Proof. intros t [|c s]; reflexivity. Qed.
Lemma upto_lz : forall A (m : string -> option (A * string)) t s, mono m ->
  lz (fun s => bind (lit t s) m) s = bind (upto t s) (fun '(w, r) => option_map (fun '(a, x) => ((w, a), x)) (m r)).
Proof.
  intros A m t s M. induction s as [|c s IH]; rewrite lz_eq, upto_eq; destruct (lit t _) as [r|] eqn:E; cbn [bind].
  - destruct (m r) as [[a x]|]; reflexivity.
  - reflexivity.
  - destruct (m r) as [[a x]|] eqn:F; [reflexivity|]. rewrite IH. destruct (upto t s) as [[w y]|] eqn:U; [|reflexivity]. cbn [bind].
    destruct (m y) as [[a x]|] eqn:G; [|reflexivity]. exfalso.
    destruct (upto_suffix t (String c "") s w y U) as (w' & d & V). cbn [String.append] in V. rewrite upto_eq, E in V. inversion V; subst. apply (M d y); auto. rewrite G. discriminate.
  - rewrite IH. destruct (upto t s) as [[w y]|]; [|reflexivity]. cbn [bind]. destruct (m y) as [[a x]|]; reflexivity.
Qed.
Lemma command_corr : corr no_nl match_entry command name_masks.
Proof.
  pose proof no_nl_tails as T. pose proof no_nl_dot as W. pose proof (corr_end no_nl) as C0.
  pose proof (corr_lit _ _ _ "," _ _ C0 T) as C1. pose proof (corr_lazy _ _ _ true Dot _ _ C1 T W) as C2.
  pose proof (corr_lit _ _ _ "," _ _ C2 T) as C3. pose proof (corr_lazy _ _ _ false Dot _ _ C3 T W) as C4.
  pose proof (corr_lit _ _ _ """)" _ _ C4 T) as C5. pose proof (corr_lazy _ _ _ true Dot _ _ C5 T W) as C6.
  pose proof (corr_lit _ _ _ "ngx_string(""" _ _ C6 T) as C7. pose proof (corr_map _ _ _ _ _ _ (fun '(n, (_, (k, _))) => (n, k)) C7) as C8.
  refine (corr_ext _ _ _ _ _ _ _ C8 _ _).
  - intros s _. unfold match_entry. change ("ngx_string(" ++ s_dq) with "ngx_string(""". change (s_dq ++ ")") with """)". destruct (lit _ s) as [r|]; [|reflexivity]. cbn [bind].
    rewrite upto_lz by apply lz_mono. destruct (upto _ r) as [[n x]|]; [|reflexivity]. cbn [bind]. rewrite upto_lz by apply lz_mono. destruct (upto "," x) as [[g y]|]; [|reflexivity]. cbn [bind].
    rewrite upto_lz by (intros a b H; discriminate). destruct (upto "," y) as [[k z]|]; reflexivity.
  - intros ws. unfold name_masks. destruct ws as [|w0 [|w1 [|w2 [|w3 [|w4 [|w5 ws]]]]]]; reflexivity.
Qed.

(** *** The table *)
Lemma space_dec : decides re_space Space. Proof. intros c. apply space_iff. Qed.
Lemma word_dec : decides re_word Word. Proof. intros c. apply word_iff. Qed.
Lemma outside_lit : forall k c t p, ~ within k c -> starts_outside k (Lit (String c t) :: p).
Proof. intros k c t p N d s ws r W D. apply divides_lit in D as (s' & ws' & X & _). cbn in X. inversion X; subst. auto. Qed.
Lemma outside_rep : forall k k' g n l p, (forall c, within k c -> ~ within k' c) -> starts_outside k (Rep g k' (S n) l :: p).
Proof.
  intros k k' g n l p H c s ws r W D. apply divides_cons in D as (w & s' & ws' & X & _ & F & _). cbn in F. destruct F as [L F]. destruct w as [|d w]; cbn in *; [lia|].
  inversion X; subst. apply (H d W). apply F. now exists "", w.
Qed.
Lemma space_not_word : forall c, within Space c -> ~ within Word c.
Proof. intros c S W. apply word_iff in W. apply space_iff in S. apply word_not_space in W. congruence. Qed.
Lemma not_word_bracket : ~ within Word "[". Proof. rewrite <- word_iff. discriminate. Qed.
Lemma not_space : forall c, re_space c = false -> ~ within Space c.
Proof. intros c E W. apply space_iff in W. congruence. Qed.
Lemma upto_end_lz : forall s, upto_end s = option_map (fun '((w, _), r) => (w, r)) (lz (fun s => option_map (fun r => (tt, r)) (table_end s)) s).
Proof.
  assert (U : forall s, upto_end s = match table_end s with Some r => Some ("", r) | None => match s with "" => None | String c r => match upto_end r with Some (a, b) => Some (String c a, b) | None => None end end end) by (intros [|c s]; reflexivity).
  induction s as [|c s IH]; rewrite U, lz_eq; (destruct (table_end _) as [r|]; [reflexivity|]); [reflexivity|]. cbn [option_map]. rewrite IH. destruct (lz _ s) as [[[w a] r]|]; reflexivity.
Qed.
Lemma table_corr : corr no_nl match_table command_table body_of.
Proof.
  pose proof no_nl_tails as T. pose proof no_nl_dot as W. pose proof (corr_end no_nl) as C0. pose proof space_dec as SD. pose proof word_dec as WD.
  pose proof (corr_lit _ _ _ ";" _ _ C0 T) as C1. pose proof (corr_run _ _ _ _ _ false 0 _ _ SD (outside_lit Space ";" "" [] (not_space ";" eq_refl)) C1 T) as C2.
  pose proof (corr_lit _ _ _ "}" _ _ C2 T) as C3. pose proof (corr_lazy _ _ _ true Dot _ _ C3 T W) as C4. pose proof (corr_lit _ _ _ "{" _ _ C4 T) as C5.
  pose proof (corr_run _ _ _ _ _ false 0 _ _ SD (outside_lit Space "{" "" _ (not_space "{" eq_refl)) C5 T) as C6. pose proof (corr_lit _ _ _ "=" _ _ C6 T) as C7.
  pose proof (corr_run _ _ _ _ _ false 0 _ _ SD (outside_lit Space "=" "" _ (not_space "=" eq_refl)) C7 T) as C8. pose proof (corr_lit _ _ _ "[]" _ _ C8 T) as C9.
  pose proof (corr_run _ _ _ _ _ true 1 _ _ WD (outside_lit Word "[" "]" _ not_word_bracket) C9 T) as C10.
  pose proof (corr_run _ _ _ _ _ false 1 _ _ SD (outside_rep Space Word true 0 false _ space_not_word) C10 T) as C11.
  pose proof (corr_lit _ _ _ "ngx_command_t" _ _ C11 T) as C12. pose proof (corr_map _ _ _ _ _ _ (fun '(w, _) => w) C12) as C13.
  refine (corr_ext _ _ _ _ _ _ _ C13 _ _).
  - intros s _. unfold match_table. destruct (lit _ s) as [s1|]; [|reflexivity]. cbn [bind]. destruct (run re_space s1) as [w1 s2]. destruct w1 as [|c1 w1]; [reflexivity|]. cbn [String.eqb slen Nat.leb].
    destruct (run re_word s2) as [w2 s3]. destruct w2 as [|c2 w2]; [reflexivity|]. cbn [String.eqb slen Nat.leb]. destruct (lit "[]" s3) as [s4|]; [|reflexivity]. cbn [bind].
    destruct (run re_space s4) as [w4 s5]. cbn [snd]. destruct (lit "=" s5) as [s6|]; [|reflexivity]. cbn [bind]. destruct (run re_space s6) as [w6 s7]. cbn [snd]. destruct (lit "{" s7) as [s8|]; [|reflexivity]. cbn [bind].
    rewrite upto_end_lz. assert (E : forall s, lz (fun s => option_map (fun r => (tt, r)) (table_end s)) s =
      lz (fun s0 => bind (lit "}" s0) (fun s9 => let '(w, r) := run re_space s9 in if Nat.leb 0 (slen w) then bind (lit ";" r) (fun s10 => Some (tt, s10)) else None)) s).
    { assert (X : forall s, option_map (fun r => (tt, r)) (table_end s) = bind (lit "}" s) (fun s9 => let '(w, r) := run re_space s9 in if Nat.leb 0 (slen w) then bind (lit ";" r) (fun s10 => Some (tt, s10)) else None)).
      { intros x. unfold table_end. destruct (lit "}" x) as [y|]; [|reflexivity]. cbn [bind]. destruct (run re_space y) as [w r]. cbn [snd Nat.leb]. destruct (lit ";" r); reflexivity. }
      induction s0 as [|c s0 IH]; rewrite lz_eq, (lz_eq _ (fun s0 => bind _ _)), X; [reflexivity|]. now rewrite IH. }
    rewrite E. destruct (lz _ s8) as [[[w u] r]|]; reflexivity.
  - intros ws. unfold body_of. do 9 (destruct ws as [|? ws]; [reflexivity|]). reflexivity.
Qed.

(** *** Comments *)
Definition erases {A} (E : string -> string) (m : string -> option (A * string)) : Prop :=
  E "" = "" /\ forall c s, E (String c s) = match m (String c s) with Some (_, r) => E r | None => String c (E s) end.
Definition every (s : string) : Prop := True.
Lemma every_tails : tails every. Proof. intros a b _. exact I. Qed.
Lemma erases_miss : forall A E (m : string -> option (A * string)), erases E m -> forall a s, misses m a s -> E (a ++ s) = a ++ E s.
Proof. intros A E m [_ H] a s. induction a as [|c a IH]; cbn [misses String.append]; auto. intros [N M]. rewrite H, N. now rewrite IH. Qed.
Lemma erased_sound : forall A E m t p (f : list string -> A), t <> "" -> corr every m (Lit t :: p) f -> erases E m -> forall s u, erased (Lit t :: p) s u -> E s = u.
Proof.
  intros A E m t p f NE C H s u R. induction R as [s N|a s ws r u N M R IH].
  - pose proof (erases_miss _ _ _ H s "" (nowhere_misses _ _ _ _ _ _ _ C every_tails I N)) as X. rewrite (proj1 H) in X. now rewrite !app_nil_r_s in X.
  - rewrite (erases_miss _ _ _ H) by exact (nowhere_misses _ _ _ _ _ _ _ C every_tails I N). f_equal. pose proof (corr_some _ _ _ _ _ _ _ _ C I M) as E1.
    destruct (divides_nonempty _ _ _ _ _ NE (proj1 M)) as (x & -> & NX). destruct x as [|c x]; [congruence|]. cbn [String.append] in *. rewrite (proj2 H), E1. exact IH.
Qed.
Lemma erased_total : forall A m t p (f : list string -> A), t <> "" -> corr every m (Lit t :: p) f -> forall n s, slen s <= n -> exists u, erased (Lit t :: p) s u.
Proof.
  intros A m t p f NE C. induction n as [|n IH]; intros s L; (destruct (first_place _ _ _ _ _ C every_tails s I) as [N|(a & u & ws & r & -> & NU & N & M)]; [exists s; now constructor|]);
    destruct (divides_nonempty _ _ _ _ _ NE (proj1 M)) as (x & -> & NX); rewrite !app_slen in L; (destruct x as [|c x]; [congruence|cbn in L]).
  - lia.
  - destruct (IH r) as [v F]; [lia|]. exists (a ++ v). econstructor; eauto.
Qed.
Lemma erased_exact : forall A E m t p (f : list string -> A), t <> "" -> corr every m (Lit t :: p) f -> erases E m -> forall s u, E s = u <-> erased (Lit t :: p) s u.
Proof.
  intros A E m t p f NE C H s u. split; [|now apply (erased_sound _ E m t p f)]. intros <-. destruct (erased_total _ _ _ _ _ NE C (slen s) s (Nat.le_refl _)) as [v R]. now rewrite (erased_sound _ _ _ _ _ _ NE C H _ _ R).
Qed.
(** A greedy class at the end. *)
Definition not_nl (c : ascii) : bool := negb (Ascii.eqb c "010").
Lemma not_nl_dec : decides not_nl Dot.
Proof. intros c. unfold not_nl. rewrite negb_true_iff, Ascii.eqb_neq. reflexivity. Qed.
Lemma corr_last : forall Q q k g, decides q k -> corr Q (fun s => Some (run q s)) [Rep g k 0 false] (hd "").
Proof.
  intros Q q k g D s _. destruct (run_split q s) as (w & r & -> & E & W & S). rewrite E. exists [w]. split; [|reflexivity]. split.
  - constructor; [|constructor]. apply (fits_class q); auto. split; [lia|auto].
  - intros ws r' V. apply divides_cons in V as (w' & s' & ws' & X & -> & F & V). inversion V; subst. apply (fits_class q) in F as [_ F]; auto.
    destruct (app_split _ _ _ _ X) as [(e & -> & ->)|(c & e & -> & ->)].
    + destruct e as [|c e]; [left; now rewrite app_nil_r_s|]. right. apply pf_greedy. rewrite app_slen. cbn. lia.
    + exfalso. cbn [ends_run String.append] in S. rewrite forallb_inside in F. rewrite (F c) in S; [discriminate|]. now exists w, e.
Qed.
Lemma line_corr : corr every (fun s => bind (lit "//" s) (fun s => Some (run not_nl s))) line_comment (fun ws => hd "" (tl ws)).
Proof. exact (corr_lit _ _ _ "//" _ _ (corr_last every _ _ false not_nl_dec) every_tails). Qed.
Lemma strip_line_inside : forall s, strip_line true s = strip_line false (snd (run not_nl s)).
Proof.
  induction s as [|c s IH]; [reflexivity|]. cbn [strip_line run]. unfold not_nl at 1. destruct (Ascii.eqb_spec c "010") as [->|N]; cbn [negb].
  - reflexivity.
  - rewrite IH. destruct (run not_nl s). reflexivity.
Qed.
Lemma line_erases : erases (strip_line false) (fun s => bind (lit "//" s) (fun s => Some (run not_nl s))).
Proof.
  split; [reflexivity|]. intros c s. cbn [strip_line]. unfold lit. destruct (prefix "//" (String c s)) eqn:P; [|reflexivity]. apply prefix_iff in P as [r P]. cbn in P. inversion P; subst. cbn [slen drop bind].
  change (drop 2 _) with (drop 0 r) || idtac. rewrite ?drop_0. destruct (run not_nl r) as [w x] eqn:E. change (strip_line true (String "/" r)) with (strip_line true r). rewrite strip_line_inside, E. reflexivity.
Qed.
Lemma block_corr : corr every (fun s => bind (lit "/*" s) (upto "*/")) block_comment (fun ws => hd "" (tl ws)).
Proof.
  pose proof every_tails as T. pose proof (corr_lit _ _ _ "*/" _ _ (corr_end every) T) as C1. pose proof (corr_lazy _ _ _ false Any _ _ C1 T (fun s c _ _ => I)) as C2.
  pose proof (corr_map _ _ _ _ _ _ fst (corr_lit _ _ _ "/*" _ _ C2 T)) as C3. refine (corr_ext _ _ _ _ _ _ _ C3 _ (fun ws => eq_refl)). intros s _. destruct (lit "/*" s) as [r|]; [|reflexivity]. cbn [bind].
  rewrite upto_lz by (intros a b H; discriminate). destruct (upto "*/" r) as [[w x]|]; reflexivity.
Qed.
Lemma upto_text : forall t s w r, upto t s = Some (w, r) -> s = w ++ t ++ r.
Proof.
  intros t s. induction s as [|c s IH]; intros w r; rewrite upto_eq; destruct (lit t _) as [x|] eqn:E; intros H; try discriminate; try (inversion H; subst; now apply lit_some in E).
  destruct (upto t s) as [[a b]|]; [|discriminate]. inversion H; subst. cbn. now rewrite (IH _ _ eq_refl) at 1.
Qed.
Lemma block_erases : erases (strip_block 0) (fun s => bind (lit "/*" s) (upto "*/")).
Proof.
  split; [reflexivity|]. intros c s. cbn [strip_block]. destruct (bind (lit "/*" (String c s)) (upto "*/")) as [[a r]|] eqn:E; [|reflexivity].
  destruct (lit "/*" (String c s)) as [x|] eqn:L; [|discriminate]. cbn [bind] in E. apply lit_some in L. cbn in L. inversion L; subst. apply upto_text in E. subst x. rewrite strip_block_skip. f_equal.
  change (drop (3 + slen a) (String "*" (a ++ "*/" ++ r))) with (drop (2 + slen a) (a ++ "*/" ++ r)). replace (2 + slen a) with (slen (a ++ "*/")) by (rewrite app_slen; cbn; lia). rewrite <- app_assoc_s. apply drop_app.
Qed.
Lemma replaced_nl : forall s t, replaced s_nl "" s t -> no_nl t.
Proof.
  induction 1 as [|s t R IH|c s t H R IH]; [apply not_inside_nil|exact IH|]. apply not_inside_cons. split; auto. intros <-. apply H. now exists s.
Qed.
Lemma replaced_keeps : forall old s t, replaced old "" s t -> forall c, inside c t -> inside c s.
Proof.
  induction 1 as [|s t R IH|c s t H R IH]; intros d I; auto.
  - destruct (IH d I) as (a & b & ->). exists (old ++ a), b. now rewrite app_assoc_s.
  - destruct I as ([|x a] & b & E); cbn in E; inversion E; subst; [now exists "", s|]. destruct (IH d) as (y & z & ->); [now exists a, b|]. now exists (String x y), z.
Qed.
Lemma body_no_nl : forall s ws r, no_nl s -> matches command_table s ws r -> no_nl (body_of ws).
Proof.
  intros s ws r N [D _]. apply divides_text in D. assert (K : forall l n c, inside c (nth n l "") -> inside c (concat_str l)).
  { induction l as [|x l IH]; intros [|n] c I; cbn in *; auto. - destruct I as (a & b & ->). exists a, (b ++ concat_str l). now rewrite app_assoc_s. - destruct (IH _ _ I) as (a & b & ->). exists (x ++ a), b. now rewrite app_assoc_s. }
  intros I. apply N. rewrite D. apply K in I as (a & b & ->). exists a, (b ++ r). now rewrite app_assoc_s.
Qed.
Lemma found_bodies : forall s l, no_nl s -> found command_table s l -> Forall (fun ws => no_nl (body_of ws)) l.
Proof.
  intros s l N F. induction F as [s H|a s ws r l H M F IH]; constructor.
  - apply (body_no_nl s ws r); auto. exact (no_nl_tails _ _ N).
  - apply IH. apply no_nl_tails in N. pose proof (divides_text _ _ _ _ (proj1 M)) as E. rewrite E in N. exact (no_nl_tails _ _ N).
Qed.
Lemma entries_exact : forall tables, Forall (fun ws => no_nl (body_of ws)) tables -> forall l,
  flat_map (find_all match_entry 0) (map body_of tables) = l <-> exists entries, Forall2 (fun t es => found command (body_of t) es) tables entries /\ l = map name_masks (concat entries).
Proof.
  assert (NE : "ngx_string(""" <> "") by discriminate. induction 1 as [|t tables N F IH]; intros l; cbn [map flat_map].
  - split; [intros <-; exists []; split; [constructor|reflexivity]|]. intros (entries & F & ->). now inversion F.
  - pose proof (found_exact _ _ _ _ _ _ NE command_corr no_nl_tails _ N) as X. split.
    + intros <-. destruct (proj1 (X _) eq_refl) as (es & E1 & E2). destruct (proj1 (IH _) eq_refl) as (ess & E3 & E4). exists (es :: ess). split; [now constructor|]. cbn [concat]. rewrite map_app. congruence.
    + intros (entries & G & ->). inversion G as [|? es ? ess G1 G2]; subst. cbn [concat]. rewrite map_app. f_equal; [apply X; eauto|apply IH; eauto].
Qed.
Lemma pairs_exact : forall content l, pairs content = l <-> extracted content l.
Proof.
  assert (NT : "ngx_command_t" <> "") by discriminate. assert (NC : s_cr ++ s_nl <> "") by discriminate. assert (NN : s_nl <> "") by discriminate. assert (N1 : "//" <> "") by discriminate. assert (N2 : "/*" <> "") by discriminate.
  intros content l. unfold pairs, flatten, extracted. split.
  - intros <-. set (a := strip_line false content). set (b := strip_block 0 a). set (c := replace_all b (s_cr ++ s_nl) ""). set (d := replace_all c s_nl "").
    assert (R : replaced s_nl "" c d) by (apply replace_exact; auto). pose proof (replaced_nl _ _ R) as N.
    destruct (proj1 (found_exact _ _ _ _ _ _ NT table_corr no_nl_tails d N _) eq_refl) as (tables & F & E). rewrite E.
    destruct (proj1 (entries_exact tables (found_bodies _ _ N F) _) eq_refl) as (entries & G & H). exists a, b, c, d, tables, entries.
    repeat split; auto; [now apply (erased_exact _ _ _ _ _ _ N1 line_corr line_erases)|now apply (erased_exact _ _ _ _ _ _ N2 block_corr block_erases)|now apply replace_exact].
  - intros (a & b & c & d & tables & entries & E1 & E2 & E3 & E4 & F & G & ->). apply (erased_exact _ _ _ _ _ _ N1 line_corr line_erases) in E1. apply (erased_exact _ _ _ _ _ _ N2 block_corr block_erases) in E2.
    pose proof (replaced_nl _ _ E4) as N. apply replace_exact in E3; auto. apply replace_exact in E4; auto. rewrite E1, E2, E3, E4.
    rewrite (proj2 (found_exact _ _ _ _ _ _ NT table_corr no_nl_tails d N (map body_of tables)) (ex_intro _ tables (conj F eq_refl))).
    apply (entries_exact tables (found_bodies _ _ N F)). eauto.
Qed.
Lemma not_inside_nl_lit : forall s, forallb not_nl (list_of_str s) = true -> ~ inside "010" s.
Proof. intros s H I. rewrite forallb_inside in H. now apply H in I. Qed.
