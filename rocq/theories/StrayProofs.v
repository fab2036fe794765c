(** C33: statements without terminator in front of "}". *)
From Verif Require Export SpecStray LostProofs CtxProofs PathProofs.
Local Open Scope string_scope.

Lemma path_short : forall p, path_bit p <> None -> List.length p <= 3.
Proof.
  intros p H. destruct (path_bit p) as [b|] eqn:E; [|congruence]. apply path_bit_listed in E.
  assert (X : forallb (fun q => Nat.leb (List.length q) 3) context_paths = true) by (vm_compute; reflexivity). rewrite forallb_forall in X. apply Nat.leb_le. auto.
Qed.
Lemma path_last : forall p, path_bit p <> None -> assoc (last p "") map_bodies = None.
Proof.
  intros p H. destruct (path_bit p) as [b|] eqn:E; [|congruence]. apply path_bit_listed in E.
  assert (X : forallb (fun q => match assoc (last q "") map_bodies with None => true | Some _ => false end) context_paths = true) by (vm_compute; reflexivity). rewrite forallb_forall in X. specialize (X _ E). cbn beta in X. destruct (assoc (last p "") map_bodies); congruence.
Qed.

(** One statement. *)
Lemma accepts_close : forall o path d, accepts o path d "}" ->
  (unknown o (d_name d) /\ o_strict o = false) \/ path_bit path = None \/ o_skipargs o = true.
Proof.
  intros o path d [U S|ms K P|ms K S1 S2|ms mask b K P I C F]; auto. destruct F as [F|(_ & F1 & F2 & _)]; auto. exfalso.
  assert (B : ~ bit 8 mask) by (intros B; specialize (F1 B); discriminate). specialize (F2 B). discriminate.
Qed.
Lemma accepts_block : forall o odd path d, checking o -> blocks_lead o odd -> path_bit path <> None -> accepts o path d "{" ->
  map_block (d_name d) \/ path_bit (below path (d_name d)) <> None \/ In (d_name d) odd.
Proof.
  intros o odd path d (S & SC & SA) BL PB [U S'|ms K P|ms K S1 S2|ms mask b K P I C F]; try congruence.
  destruct C as [C|C]; [congruence|]. destruct F as [F|(_ & F1 & F2 & _)]; [congruence|]. apply (BL path b (d_name d) ms mask); auto.
  destruct (N.testbit mask 8) eqn:B; auto. exfalso. assert (X : ~ bit 8 mask) by (unfold bit; congruence). specialize (F2 X). discriminate.
Qed.

Section Stray.
Variables (o : popts) (dir : string) (odd : list string).
Hypothesis CH : checking o.
Hypothesis BL : blocks_lead o odd.
Definition settled (path : list string) : Prop := path_bit path <> None \/ (path <> [] /\ map_block (last path "")).
Lemma decide_accepted : forall ctx d term st d' st', path_bit (read_slice (p_heap st) ctx) <> None -> decide o dir ctx d term st = DKeep d' st' ->
  accepts o (read_slice (p_heap st) ctx) d term.
Proof.
  intros ctx d term st d' st' PB H. unfold decide in H. pose proof (path_last _ PB) as PL. pose proof (path_plain _ PB) as PP.
  set (path := read_slice (p_heap st) ctx) in *.
  assert (IM : match path with [] => None | _ => match assoc (last path "") map_bodies with Some _ => Some (last path "") | None => None end end = None) by (rewrite PL; now destruct path).
  cbv zeta in H. rewrite IM in H. destruct (mem_str _ _); [discriminate|]. destruct (analyze o _ d term path) as [e|] eqn:A.
  - destruct (o_stop o); [discriminate|]. destruct (has_suffix _ _); [destruct (negb _)|]; discriminate.
  - now apply analyze_accepts in A.
Qed.
Lemma decide_in_map : forall ctx d term st, read_slice (p_heap st) ctx <> [] -> map_block (last (read_slice (p_heap st) ctx) "") ->
  match decide o dir ctx d term st with DMap _ => True | DSkip _ s | DErr _ s => p_asked s = p_asked st | _ => False end.
Proof.
  intros ctx d term st NE MB. unfold decide. cbv zeta. apply map_block_iff in MB. set (path := read_slice (p_heap st) ctx) in *.
  assert (IM : match path with [] => None | _ => match assoc (last path "") map_bodies with Some _ => Some (last path "") | None => None end end = Some (last path "")).
  { destruct path as [|x l]; [congruence|]. now destruct (assoc _ _). }
  rewrite IM. destruct (analyze_map_body _ _ _ _); [destruct (o_stop o)|]; auto.
Qed.
Lemma add_asked : forall ctx fs st, exists l, p_asked (fst (add_includes ctx st fs)) = (p_asked st ++ l)%list /\ Forall (fun e => snd e = read_slice (p_heap st) ctx) l.
Proof.
  intros ctx. induction fs as [|f fs IH]; intros st; cbn [add_includes].
  - exists []. cbn. now rewrite app_nil_r.
  - unfold add_include. destruct (assoc f (p_included st)).
    + set (st1 := Pst _ _ _ _ _ _ _ _ _ _). destruct (IH st1) as (l & E & F). destruct (add_includes ctx st1 fs) as [st2 is]. cbn [fst] in *. exists l. split; auto.
    + set (st1 := Pst _ _ _ _ _ _ _ _ _ _). destruct (IH st1) as (l & E & F). destruct (add_includes ctx st1 fs) as [st2 is]. cbn [fst] in *.
      exists ((f, read_slice (p_heap st) ctx) :: l). rewrite E. cbn [p_asked st1]. rewrite <- app_assoc. split; auto.
Qed.
Lemma effect_asked : forall ctx st st', effect o ctx st st' -> exists l, p_asked st' = (p_asked st ++ l)%list /\ Forall (fun e => snd e = read_slice (p_heap st) ctx) l.
Proof.
  intros ctx st st' E. destruct E as [|e|p|p e|p c|p fs]; try (exists []; cbn; rewrite app_nil_r; now auto).
  - apply (add_asked ctx [p] (log_open st p)).
  - apply add_asked.
Qed.
Definition asked_ok (st : pst) : Prop := Forall (fun e => path_bit (snd e) <> None) (p_asked st).
Lemma decide_asked : forall ctx d term st, settled (read_slice (p_heap st) ctx) -> asked_ok st -> asked_ok (decision_state st (decide o dir ctx d term st)).
Proof.
  intros ctx d term st [PB|[NE MB]] A.
  - destruct (effect_asked ctx _ _ (decide_effect o dir ctx d term st)) as (l & E & F). unfold asked_ok. rewrite E. apply Forall_app. split; auto.
    eapply Forall_impl; [|exact F]. intros e X. cbn in X. now rewrite X.
  - pose proof (decide_in_map ctx d term st NE MB) as X. destruct (decide o dir ctx d term st); cbn [decision_state]; try contradiction; auto; unfold asked_ok; now rewrite X.
Qed.

(** Tokens used, with no "}" behind a word. *)
Definition shut_well (toks : list token) : Prop := forall a t b, toks = (a ++ t :: b)%list -> closesb t = true -> after_sep true a = true.
Lemma shut_app : forall a b, shut_well a -> after_sep true a = true -> shut_well b -> shut_well (a ++ b).
Proof.
  intros a b A S B x t y E C. destruct (app_eq_app _ _ _ _ E) as (l & [[E1 E2]|[E1 E2]]).
  - destruct l as [|z l].
    + rewrite app_nil_r in E1. subst x. auto.
    + inversion E2; subst. apply (A x z l); auto.
  - subst x. rewrite after_app, S. apply (B l t y); auto.
Qed.
Lemma lacks_app : forall names a b, lacks names (a ++ b) -> lacks names a /\ lacks names b.
Proof. intros names a b H. now apply Forall_app in H. Qed.
Definition used_well (toks : list token) (r : pres) : Prop :=
  match r with
  | POk _ rest st' => bad st' \/ exists used, toks = (used ++ rest)%list /\ no_errors used /\ shut_well used /\ (rest = [] \/ ((net used < 0)%Z /\ after_sep true used = true))
  | _ => True
  end.
Lemma well_padd : forall toks ds r, used_well toks (padd ds r) <-> used_well toks r.
Proof. intros toks ds []; cbn; tauto. Qed.
Lemma well_bad : forall ctx toks st r all, Run o dir ctx toks st r -> bad st -> used_well all r.
Proof. intros ctx toks st r all R B. apply bad_run in R; auto. destruct r; cbn; auto. Qed.
Lemma well_more : forall a b r, no_errors a -> (net a <= 0)%Z -> after_sep true a = true -> shut_well a -> used_well b r -> used_well (a ++ b) r.
Proof.
  intros a b [ds rest st'| | |] NE N S W U; cbn in *; auto. destruct U as [U|(used & -> & NU & WU & D)]; auto. right. exists (a ++ used)%list. rewrite <- app_assoc. split; auto.
  split; [apply Forall_app; auto|]. split; [now apply shut_app|]. destruct D as [D|[D1 D2]]; auto. right. rewrite net_app, after_app, S. split; auto. lia.
Qed.
Lemma lacks_shut : forall toks, lacks (o_ignore o) toks -> ignored_shut (o_ignore o) toks.
Proof.
  intros toks L a h args t rest E I. exfalso. unfold lacks in L. rewrite E in L. apply Forall_app in L as [_ L]. inversion L; subst. contradiction.
Qed.
Lemma head_shut : forall t mid tt, tok_is t "}" = false -> Forall (fun t => is_term t = false) mid -> closesb tt = false -> shut_well (t :: mid ++ [tt]).
Proof.
  intros t mid tt T F C a x b E X. exfalso. assert (I : In x (t :: mid ++ [tt])) by (rewrite E; apply in_or_app; right; now left).
  destruct I as [->|I]; [unfold closesb in X; unfold tok_is in T; congruence|]. apply in_app_or in I as [I|[->|[]]]; [|congruence].
  rewrite Forall_forall in F. specialize (F _ I). apply term_braces in F as (_ & F & _). congruence.
Qed.
Lemma tt_closes : forall t mid tt term, net (t :: mid ++ [tt]) = (if String.eqb term "{" then 1 else if String.eqb term "}" then -1 else 0)%Z -> tok_is t "}" = false -> tok_is t "{" = false ->
  Forall (fun t => is_term t = false) mid -> term <> "}" -> closesb tt = false.
Proof.
  intros t mid tt term N T1 T2 F NE. cbn [net] in N. change (opensb t) with (tok_is t "{") in N. change (closesb t) with (tok_is t "}") in N. rewrite T1, T2, net_app, mid_net in N by auto. cbn [net] in N.
  destruct (closesb tt) eqn:C; auto. exfalso. assert (O : opensb tt = false) by (unfold opensb, closesb in *; apply andb_true_iff in C as [-> C]; apply String.eqb_eq in C; now rewrite C). rewrite O in N.
  destruct (String.eqb_spec term "{"); [lia|]. destruct (String.eqb_spec term "}"); [congruence|lia].
Qed.
Definition res_asked (r : pres) : Prop := match r with POk _ _ s | PErr _ _ s => asked_ok s | _ => True end.
Lemma res_padd : forall ds r, res_asked (padd ds r) <-> res_asked r.
Proof. intros ds []; cbn; tauto. Qed.
Definition tail_of (toks : list token) (r : pres) : Prop := match r with POk _ rest _ => exists u, toks = (u ++ rest)%list | _ => True end.
Lemma tail_padd : forall toks ds r, tail_of toks (padd ds r) <-> tail_of toks r.
Proof. intros toks ds []; cbn; tauto. Qed.
Lemma tail_more : forall a b r, tail_of b r -> tail_of (a ++ b) r.
Proof. intros a b [] H; cbn in *; auto. destruct H as [u ->]. exists (a ++ u)%list. now rewrite app_assoc. Qed.
Lemma consume_tail : forall toks d, exists u, toks = (u ++ consume d toks)%list.
Proof.
  induction toks as [|t toks IH]; intros d; [exists []; reflexivity|]. cbn [consume].
  assert (X : forall k, exists u, t :: toks = (u ++ consume k toks)%list) by (intros k; destruct (IH k) as [u E]; exists (t :: u); cbn [app]; now rewrite <- E).
  assert (Y : exists u, t :: toks = (u ++ match d with O => toks | S d => consume d toks end)%list) by (destruct d; [exists [t]; reflexivity|apply X]).
  destruct (t_err t); auto. destruct (tok_is t "}"); auto. destruct (tok_is t "{"); auto.
Qed.
Lemma run_tail : forall ctx toks st r, Run o dir ctx toks st r -> tail_of toks r.
Proof.
  intros ctx toks st r R. induction R; rewrite ?tail_padd; try exact I;
    try (match goal with H : read_args _ _ = Some _ |- _ => destruct (read_split _ _ _ _ _ _ H) as (mid & tt & -> & _) end;
         replace (t :: mid ++ tt :: rest)%list with ((t :: mid ++ [tt]) ++ rest)%list by (cbn [app]; now rewrite <- app_assoc)).
  - exists []. reflexivity.
  - exists [t]. reflexivity.
  - apply (tail_more [t]). auto.
  - eexists. reflexivity.
  - apply tail_more. destruct eat; auto. destruct (consume_tail rest 0) as [u E]. rewrite E. now apply tail_more.
  - apply tail_more. auto.
  - apply tail_more. auto.
  - apply tail_more. destruct IHR1 as [u E]. rewrite E. apply tail_more. auto.
  - destruct res; auto. destruct H4.
Qed.

Lemma settle_below : forall ctx t r args st ds, path_bit (read_slice (p_heap st) ctx) <> None -> decide o dir ctx (fresh o st t args) "{" st = ds -> lacks (odd ++ o_ignore o) (t :: r) ->
  match ds with DKeep d st' => settled (below (read_slice (p_heap st) ctx) (d_name d)) | _ => True end.
Proof.
  intros ctx t r args st ds PB D LK. destruct ds as [d st'| | | | |]; auto.
  pose proof (decide_accepted _ _ _ _ _ _ PB D) as AC. pose proof (decide_shape _ _ _ _ _ _ _ _ D) as (DN & _). cbn [fresh d_name] in DN.
  rewrite DN. destruct (accepts_block o odd _ _ CH BL PB AC) as [M|[M|M]]; cbn [fresh d_name] in M; [right|now left|].
  - assert (NL : t_val t <> "location") by (intros Q; rewrite Q in M; cbn in M; intuition discriminate).
    assert (B : below (read_slice (p_heap st) ctx) (t_val t) = (read_slice (p_heap st) ctx ++ [t_val t])%list).
    { rewrite below_enter. unfold enter_path. destruct (read_slice (p_heap st) ctx); auto. apply String.eqb_neq in NL. now rewrite NL, andb_false_r. }
    rewrite B. split; [now destruct (read_slice (p_heap st) ctx)|]. now rewrite last_last.
  - exfalso. inversion LK; subst. apply H1, in_or_app. now left.
Qed.

Lemma run_well : forall ctx toks st r, Run o dir ctx toks st r -> good (p_heap st) ctx -> settled (read_slice (p_heap st) ctx) -> asked_ok st ->
  lacks (odd ++ o_ignore o) toks -> res_asked r /\ (last_only toks -> headed true toks -> used_well toks r).
Proof.
  intros ctx toks st r R. induction R as [ctx st|ctx st t r e TE|ctx st t r TE TC|ctx st t r res TE TC TM H IH|ctx st t r ST RA|ctx st t r args cs term rest ST RA D|ctx st t r args cs term rest e st' ST RA D|ctx st t r args cs term rest st' ST RA D|ctx st t r args cs term rest eat st' res ST RA D H IH|ctx st t r args cs term rest d res ST RA D H IH|ctx st t r args cs term rest d st' res ST RA D TB H IH|ctx st t r args cs term rest d st' h inner blk rest' st'' res ST RA D TB EB H1 IH1 H2 IH2|ctx st t r args cs term rest d st' h inner res ST RA D TB EB H IH FL];
    intros OK SE AS LK; rewrite ?res_padd, ?well_padd; cbn [res_asked used_well]; auto.
  - split; auto. intros _ _. right. exists []. repeat split; auto; [constructor|]. intros a t b E. destruct a; discriminate.
  - split; auto. intros _ _. right. exists [t]. split; [reflexivity|]. split; [repeat constructor; auto|]. split.
    + intros a x b E _. destruct a as [|y a]; [reflexivity|]. destruct a; discriminate.
    + right. cbn [net after_sep]. assert (X : is_term t = true) by (unfold is_term; rewrite TC; apply orb_true_r). pose proof (sep_after [] t true (term_sep t X)) as SA. cbn [app after_sep] in SA. split; auto.
      change (closesb t) with (tok_is t "}"). change (opensb t) with (tok_is t "{"). rewrite TC. unfold tok_is in *. apply andb_true_iff in TC as [-> E]. apply String.eqb_eq in E. rewrite E. reflexivity.
  - inversion LK; subst. destruct (IH OK SE AS H3) as [I1 I2]. split; auto. intros LO NM. change (t :: r) with ([t] ++ r)%list.
    pose proof (comment_net t TM) as [C1 C2]. pose proof (note_same t TM) as C3.
    apply well_more; [repeat constructor; auto|cbn [net]; rewrite C1, C2; lia|cbn [after_sep]; now rewrite C3| |].
    + intros a x b E X. destruct a as [|y a]; [reflexivity|]. destruct a; discriminate.
    + apply I2; [exact (last_suffix [t] r LO)|]. apply (headed_suffix [t]); auto. cbn [after_sep]. now rewrite C3.
  - split; auto. pose proof (decide_asked ctx (fresh o st t args) term st SE AS) as X. now rewrite D in X.
  - split; [|intros _ _; left; eapply decide_break; eauto]. pose proof (decide_asked ctx (fresh o st t args) term st SE AS) as X. now rewrite D in X.
  - pose proof (decide_asked ctx (fresh o st t args) term st SE AS) as X. rewrite D in X. cbn [decision_state] in X.
    pose proof (decide_heap o dir ctx (fresh o st t args) term st) as DH. rewrite D in DH. cbn [decision_state] in DH.
    destruct (read_split _ _ _ _ _ _ RA) as (mid & tt & E & _).
    assert (LK' : lacks (odd ++ o_ignore o) rest).
    { rewrite E in LK. replace (t :: mid ++ tt :: rest)%list with ((t :: mid ++ [tt]) ++ rest)%list in LK by (cbn [app]; now rewrite <- app_assoc). now apply lacks_app in LK. }
    assert (LK2 : lacks (odd ++ o_ignore o) (if eat then consume 0 rest else rest)).
    { destruct eat; auto. destruct (consume_tail rest 0) as [u EU]. rewrite EU in LK'. now apply lacks_app in LK'. }
    rewrite DH in IH. destruct (IH OK SE X LK2) as [I1 I2]. split; auto. intros _ _.
    destruct (decide_skip _ _ _ _ _ _ _ _ D) as [B|(IG & _)]; [eapply well_bad; eauto|]. exfalso. inversion LK; subst. apply H2. apply in_or_app. now right.
  - destruct (read_split _ _ _ _ _ _ RA) as (mid & tt & E & _).
    assert (LK' : lacks (odd ++ o_ignore o) rest).
    { rewrite E in LK. replace (t :: mid ++ tt :: rest)%list with ((t :: mid ++ [tt]) ++ rest)%list in LK by (cbn [app]; now rewrite <- app_assoc). now apply lacks_app in LK. }
    destruct (IH OK SE AS LK') as [I1 I2]. split; auto. intros LO NM. pose proof (decide_map_term _ _ _ _ _ _ _ D) as ->.
    assert (RO : read_ok o (t :: r)) by (split; [exact LO|split; [|exact NM]]; apply lacks_shut; eapply Forall_impl; [|exact LK]; intros y Y J; apply Y, in_or_app; now right).
    destruct (head_used o t r args cs _ rest RO ST RA) as (mid' & tt' & ALL & RR & F & NE & ASP & NT & OP & RO').
    assert (TO : tok_is t "{" = false) by (destruct (tok_is t "{") eqn:O; auto; specialize (NM [] t r eq_refl O); discriminate).
    rewrite ALL. apply well_more; auto; [rewrite NT; cbn; lia| |apply I2; apply RO'].
    apply head_shut; auto; [apply ST|]. eapply tt_closes; eauto; [apply ST|discriminate].
  - pose proof (decide_asked ctx (fresh o st t args) term st SE AS) as X. rewrite D in X. cbn [decision_state] in X.
    pose proof (decide_heap o dir ctx (fresh o st t args) term st) as DH. rewrite D in DH. cbn [decision_state] in DH.
    destruct (read_split _ _ _ _ _ _ RA) as (mid & tt & E & _).
    assert (LK' : lacks (odd ++ o_ignore o) rest).
    { rewrite E in LK. replace (t :: mid ++ tt :: rest)%list with ((t :: mid ++ [tt]) ++ rest)%list in LK by (cbn [app]; now rewrite <- app_assoc). now apply lacks_app in LK. }
    rewrite DH in IH. destruct (IH OK SE X LK') as [I1 I2]. split; auto. intros LO NM.
    destruct SE as [PB|[NE MB]]; [|pose proof (decide_in_map ctx (fresh o st t args) term st NE MB) as Y; rewrite D in Y; destruct Y].
    pose proof (decide_accepted _ _ _ _ _ _ PB D) as AC.
    assert (NT : term <> "}").
    { intros ->. apply accepts_close in AC. destruct CH as (C1 & _ & C3). destruct AC as [[_ A]|[A|A]]; congruence. }
    assert (RO : read_ok o (t :: r)) by (split; [exact LO|split; [|exact NM]]; apply lacks_shut; eapply Forall_impl; [|exact LK]; intros y Y J; apply Y, in_or_app; now right).
    destruct (head_used o t r args cs _ rest RO ST RA) as (mid' & tt' & ALL & RR & F & NE & ASP & NT' & OP & RO').
    assert (TO : tok_is t "{" = false) by (destruct (tok_is t "{") eqn:O; auto; specialize (NM [] t r eq_refl O); discriminate).
    rewrite ALL. apply well_more; auto; [rewrite NT', TB; destruct (String.eqb_spec term "}"); [congruence|lia]| |apply I2; apply RO'].
    apply head_shut; auto; [apply ST|]. eapply tt_closes; eauto; apply ST.
  - pose proof (decide_asked ctx (fresh o st t args) term st SE AS) as X. rewrite D in X. cbn [decision_state] in X.
    pose proof (decide_heap o dir ctx (fresh o st t args) term st) as DH. rewrite D in DH. cbn [decision_state] in DH.
    destruct (read_split _ _ _ _ _ _ RA) as (mid & tt & E & _).
    assert (LK' : lacks (odd ++ o_ignore o) rest).
    { rewrite E in LK. replace (t :: mid ++ tt :: rest)%list with ((t :: mid ++ [tt]) ++ rest)%list in LK by (cbn [app]; now rewrite <- app_assoc). now apply lacks_app in LK. }
    destruct SE as [PB|[NE MB]]; [|pose proof (decide_in_map ctx (fresh o st t args) term st NE MB) as Y; rewrite D in Y; destruct Y].
    apply String.eqb_eq in TB. subst term.
    pose proof (settle_below _ _ _ _ _ _ PB D LK) as SB.
    pose proof OK as G0. rewrite <- DH in G0. destruct (enter_block_spec _ _ _ _ _ G0 EB) as (GI & RI & FE & CI).
    assert (SI : settled (read_slice (p_heap (set_heap st' h)) inner)) by (cbn [p_heap set_heap]; rewrite RI, DH, <- below_enter; exact SB).
    destruct (IH1 GI SI X LK') as [A1 A2]. cbn [res_asked] in A1.
    pose proof (run_frame _ _ _ _ _ _ H1 GI) as F2. cbn [res_heap p_heap set_heap] in F2.
    assert (F1 : frame ctx (p_heap st') (p_heap st'')) by (eapply frame_weaken; eauto).
    rewrite (read_frame _ _ _ F1), DH in IH2.
    pose proof (run_tail _ _ _ _ H1) as TL. cbn in TL. destruct TL as [u EU].
    assert (LK2 : lacks (odd ++ o_ignore o) rest') by (rewrite EU in LK'; now apply lacks_app in LK').
    destruct (IH2 (good_frame _ _ _ _ G0 F1) (or_introl PB) A1 LK2) as [B1 B2]. split; auto. intros LO NM.
    assert (RO : read_ok o (t :: r)) by (split; [exact LO|split; [|exact NM]]; apply lacks_shut; eapply Forall_impl; [|exact LK]; intros y Y J; apply Y, in_or_app; now right).
    destruct (head_used o t r args cs _ rest RO ST RA) as (mid' & tt' & ALL & RR & F & NE & ASP & NT' & OP & RO').
    assert (TO : tok_is t "{" = false) by (destruct (tok_is t "{") eqn:O; auto; specialize (NM [] t r eq_refl O); discriminate).
    assert (HS : shut_well (t :: mid' ++ [tt'])) by (apply head_shut; auto; [apply ST|]; eapply tt_closes; eauto; [apply ST|discriminate]).
    destruct (A2 (proj1 RO') (proj2 (proj2 RO'))) as [B|(used & E2 & NU & WU & DD)]; [eapply well_bad; eauto|]. rewrite ALL, E2, app_assoc. destruct DD as [->|[D1 D2]].
    + inversion H2; subst. right. exists ((t :: mid' ++ [tt']) ++ used)%list. split; [reflexivity|]. split; [apply Forall_app; auto|]. split; [now apply shut_app|now left].
    + assert (RO2 : read_ok o rest') by (rewrite E2 in RO'; now apply read_suffix in RO').
      apply well_more; [apply Forall_app; auto|rewrite net_app, NT'; change ("{" =? "{") with true; cbv iota; lia|now rewrite after_app, ASP|now apply shut_app|apply B2; apply RO2].
  - pose proof (decide_asked ctx (fresh o st t args) term st SE AS) as X. rewrite D in X. cbn [decision_state] in X.
    pose proof (decide_heap o dir ctx (fresh o st t args) term st) as DH. rewrite D in DH. cbn [decision_state] in DH.
    destruct (read_split _ _ _ _ _ _ RA) as (mid & tt & E & _).
    assert (LK' : lacks (odd ++ o_ignore o) rest).
    { rewrite E in LK. replace (t :: mid ++ tt :: rest)%list with ((t :: mid ++ [tt]) ++ rest)%list in LK by (cbn [app]; now rewrite <- app_assoc). now apply lacks_app in LK. }
    destruct SE as [PB|[NE MB]]; [|pose proof (decide_in_map ctx (fresh o st t args) term st NE MB) as Y; rewrite D in Y; destruct Y].
    apply String.eqb_eq in TB. subst term.
    pose proof (settle_below _ _ _ _ _ _ PB D LK) as SB.
    pose proof OK as G0. rewrite <- DH in G0. destruct (enter_block_spec _ _ _ _ _ G0 EB) as (GI & RI & FE & CI).
    assert (SI : settled (read_slice (p_heap (set_heap st' h)) inner)) by (cbn [p_heap set_heap]; rewrite RI, DH, <- below_enter; exact SB).
    destruct (IH GI SI X LK') as [A1 A2]. split; auto. intros _ _. destruct res; try exact I. destruct FL.
Qed.
End Stray.

(** ** Files *)
Definition stray_tells (o : popts) (c : config) : Prop := forall text, o_open o (cf_file c) = inl text -> orderly (lex (o_lexers o) text) -> runs_into (lex (o_lexers o) text) -> ~ leads (lex (o_lexers o) text) -> cf_status c = "failed".
Lemma run_stray : forall o dir odd ctx text st ds rest st', checking o -> blocks_lead o odd -> good (p_heap st) ctx -> path_bit (read_slice (p_heap st) ctx) <> None -> asked_ok st -> orderly (lex (o_lexers o) text) ->
  lacks (odd ++ o_ignore o) (lex (o_lexers o) text) -> runs_into (lex (o_lexers o) text) -> ~ leads (lex (o_lexers o) text) -> Run o dir ctx (lex (o_lexers o) text) st (POk ds rest st') -> bad st'.
Proof.
  intros o dir odd ctx text st ds rest st' CH BL G PB AS V LK (a & t & b & E & C & N) LD R. set (toks := lex (o_lexers o) text) in *.
  destruct (orderly_last toks V) as (LO & NS & SP).
  destruct (run_well o dir odd CH BL _ _ _ _ R G (or_introl PB) AS LK) as [_ W].
  destruct (W LO (spaced_named _ SP LD)) as [B|(used & EU & NU & WU & D)]; auto. exfalso. destruct rest as [|x rest].
  - rewrite app_nil_r in EU. subst used. specialize (WU a t b E C). congruence.
  - destruct D as [D|[D _]]; [discriminate|]. specialize (NS used (x :: rest) EU). assert (x :: rest <> []) by discriminate. specialize (NS H). lia.
Qed.
Lemma asked_short : forall st, asked_ok st -> short (p_asked st).
Proof. intros st A. eapply Forall_impl; [|exact A]. intros e X. now apply path_short. Qed.
Section Files.
Variables (o : popts) (odd : list string).
Hypothesis CH : checking o.
Hypothesis BL : blocks_lead o odd.
Hypothesis LK : forall f text, o_open o f = inl text -> lacks (odd ++ o_ignore o) (lex (o_lexers o) text).
Lemma stray_files : forall dir first fuel st st', qinv first st -> asked_ok st -> Forall (stray_tells o) (pl_config (p_pay st)) -> run_files fuel o dir st = FDone st' -> Forall (stray_tells o) (pl_config (p_pay st')).
Proof.
  intros dir first. induction fuel as [|fuel IH]; intros st st' Q A H E; cbn [run_files] in E.
  - destruct (p_queue st) as [|[path ctx] q]; inversion E; now subst.
  - destruct (p_queue st) as [|[path ctx] q] eqn:QE; [inversion E; now subst|].
    pose proof (ctx_file first o dir path ctx q st Q QE) as CF.
    pose proof (qinv_short _ _ Q (asked_short _ A)) as V. destruct Q as [Q _]. rewrite QE in Q. inversion Q as [|? ? [G T] Q']; subst. cbn [snd] in G, T.
    assert (PB : path_bit (read_slice (p_heap st) ctx) <> None).
    { assert (I : In (path, read_slice (p_heap st) ctx) ((first, []) :: p_asked st)) by (rewrite <- V; apply in_or_app; right; unfold views; rewrite QE; now left).
      destruct I as [I|I]; [inversion I as [[I1 I2]]; discriminate|]. unfold asked_ok in A. rewrite Forall_forall in A. exact (A _ I). }
    unfold parse_file in E, CF.
    destruct (o_open o path) as [content|msg] eqn:OP; [|discriminate]. specialize (LK _ _ OP). set (toks := lex (o_lexers o) content) in *.
    set (st1 := set_cur (log_use (log_open (set_queue st q) path) path ctx) (Cfg path "ok" [] [])) in *.
    pose proof (parse_run o dir ctx toks st1) as R.
    pose proof (run_state_inv o dir (fun s => Forall (stray_tells o) (pl_config (p_pay s)) /\ cf_parsed (p_cur s) = [])) as RI.
    destruct (parse o dir (S (List.length toks)) ctx toks st1) as [ds rest st2|e rest st2| |] eqn:PA; try discriminate.
    + destruct (run_well o dir odd CH BL _ _ _ _ R G (or_introl PB) A LK) as [A2 _]. cbn in A2.
      pose proof (run_file _ _ _ _ _ _ R) as RF. cbn in RF. pose proof (fun L0 L1 L2 => run_stray o dir odd ctx content st1 ds rest st2 CH BL G PB A L0 LK L1 L2 R) as RL.
      apply RI in R; auto; [|intros c s s' EF B; eapply effect_trees; eauto]. destruct R as [R1 R2]. eapply IH; [apply CF|exact A2| |exact E]. cbn. apply Forall_app. split; auto. constructor; auto.
      intros text OT L. cbn in *. rewrite RF in OT. assert (text = content) by congruence. subst. now apply RL.
    + destruct (run_well o dir odd CH BL _ _ _ _ R G (or_introl PB) A LK) as [A2 _]. cbn in A2.
      destruct (o_stop o); [discriminate|]. apply RI in R; auto; [|intros c s s' EF B; eapply effect_trees; eauto]. destruct R as [R1 R2]. eapply IH; [apply CF|exact A2| |exact E]. cbn. apply Forall_app. split; auto. constructor; auto.
      intros text OT L. reflexivity.
Qed.
Lemma collect_stray : forall fuel filename st c text, collect fuel o filename = FDone st -> In c (pl_config (p_pay st)) ->
  o_open o (cf_file c) = inl text -> orderly (lex (o_lexers o) text) -> runs_into (lex (o_lexers o) text) -> ~ leads (lex (o_lexers o) text) -> cf_status c = "failed".
Proof.
  intros fuel filename st c text C I OP OR RI LD. assert (F : Forall (stray_tells o) (pl_config (p_pay st))).
  { eapply (stray_files (dir_name filename) filename); [apply qinv_init| | |exact C]; constructor. }
  rewrite Forall_forall in F. exact (F c I text OP OR RI LD).
Qed.
End Files.
Lemma parse_stray : forall fuel o odd filename st c text, checking o -> blocks_lead o odd ->
  (forall f s, o_open o f = inl s -> lacks (odd ++ o_ignore o) (lex (o_lexers o) s)) ->
  collect fuel o filename = FDone st -> In c (pl_config (p_pay st)) ->
  o_open o (cf_file c) = inl text -> let toks := lex (o_lexers o) text in o_lexers o = [] \/ orderly toks -> runs_into toks -> ~ leads toks ->
  cf_status c = "failed" /\ forall p, parse_main fuel o filename = ROk p ->
    pl_status p = "failed" /\ exists c', In c' (pl_config p) /\ cf_status c' = "failed" /\ (o_combine o = false -> c' = c).
Proof.
  intros fuel o odd filename st c text CH BL LK C I OP toks NL RI LD.
  assert (F : cf_status c = "failed") by (eapply (collect_stray o odd CH BL LK); eauto; apply lex_orderly; exact NL). split; auto. eapply failed_payload; eauto.
Qed.

(** The shipped tables. *)
Definition leads_on (odd : list string) (t : list (string * list N)) : bool :=
  forallb (fun p => match path_bit p with
    | None => true
    | Some b => forallb (fun e : string * list N =>
        (negb (existsb (fun m => (N.testbit m b && N.testbit m 8)%bool) (snd e)) || existsb (String.eqb (fst e)) map_like ||
         match path_bit (below p (fst e)) with Some _ => true | None => false end || existsb (String.eqb (fst e)) odd)%bool) t
    end) context_paths.
Lemma assoc_listed : forall (t : list (string * list N)) k v, assoc k t = Some v -> In (k, v) t.
Proof.
  induction t as [|[a b] t IH]; intros k v H; [discriminate|]. cbn [assoc] in H. destruct (String.eqb_spec k a); [inversion H; subst; now left|right; auto].
Qed.
Lemma leads_on_ok : forall odd t path b name ms mask, leads_on odd t = true -> path_bit path = Some b -> assoc name t = Some ms -> In mask ms -> bit b mask -> bit 8 mask ->
  map_block name \/ path_bit (below path name) <> None \/ In name odd.
Proof.
  intros odd t path b name ms mask H P A I B1 B2. unfold leads_on in H. rewrite forallb_forall in H. specialize (H _ (path_bit_listed _ _ P)). cbn beta in H. rewrite P in H.
  rewrite forallb_forall in H. specialize (H _ (assoc_listed _ _ _ A)). cbn [fst snd] in H.
  assert (X : existsb (fun m => (N.testbit m b && N.testbit m 8)%bool) ms = true) by (apply existsb_exists; exists mask; split; auto; unfold bit in *; now rewrite B1, B2).
  rewrite X in H. cbn [negb orb] in H. rewrite !orb_true_iff in H. destruct H as [[H|H]|H].
  - left. apply existsb_exists in H as (x & J & E). apply String.eqb_eq in E. subst x. exact J.
  - right. left. now destruct (path_bit (below path name)).
  - right. right. apply existsb_exists in H as (x & J & E). apply String.eqb_eq in E. now subst x.
Qed.
Lemma lacks_dec : forall names toks, forallb (fun t => negb (existsb (String.eqb (t_val t)) names)) toks = true -> lacks names toks.
Proof.
  intros names toks H. apply Forall_forall. intros t I J. rewrite forallb_forall in H. specialize (H t I). cbn beta in H.
  assert (X : existsb (String.eqb (t_val t)) names = true) by (apply existsb_exists; exists (t_val t); split; auto; apply String.eqb_refl). now rewrite X in H.
Qed.
