(** C52: every error is at its statement. *)
From Verif Require Export WordsProofs SpecLocate.
From Verif Require Export StatusProofs IncludeProofs CombineProofs.
From Verif Require Import LexProofs.
Local Open Scope string_scope.

Lemma noted_app : forall f e1 a, noted f e1 a -> forall e2 b, noted f e2 b -> noted f (e1 ++ e2)%list (a ++ b)%list.
Proof.
  intros f e1 a H. induction H as [ts|es t ts H IH|e es t ts stop rest O F S A H IH]; intros e2 b B; cbn [app].
  - induction ts as [|t ts IH]; [exact B|]. cbn. now constructor.
  - constructor. now apply IH.
  - rewrite <- app_assoc. cbn [app]. now apply nt_stmt; auto.
Qed.
Lemma noted_skips : forall f a es b, noted f es b -> noted f es (a ++ b)%list.
Proof. intros f. induction a as [|t a IH]; intros es b H; auto. cbn. constructor. auto. Qed.
Lemma starts_opener : forall t, starts t -> opener t.
Proof.
  intros t (TE & TC & TM). split; auto. unfold tok_is, tok_comment in *. rewrite has_prefix_prefix in TM. destruct (t_quoted t); auto. right. cbn in *.
  rewrite andb_true_r in TM. split; auto. intros E. now rewrite E in TC.
Qed.
Lemma term_ends : forall t, is_term t = true <-> ends t.
Proof.
  intros t. unfold is_term, tok_is, ends. destruct (t_quoted t); cbn.
  - split; [discriminate|intros [X _]; discriminate].
  - rewrite !orb_true_iff, !String.eqb_eq. intuition.
Qed.
Lemma read_args_stmt : forall cm toks args cs term rest, read_args cm toks = Some (args, cs, term, rest) ->
  exists ts stop, toks = (ts ++ stop :: rest)%list /\ Forall (fun u => ~ ends u) ts /\ ends stop /\ t_val stop = term /\ args = arguments ts.
Proof.
  intros cm. induction toks as [|t toks IH]; intros args cs term rest H; [discriminate|]. cbn [read_args] in H.
  destruct (is_term t) eqn:TT.
  - inversion H; subst. exists [], t. repeat split; auto; try (now apply term_ends). all: now apply term_ends.
  - destruct (read_args cm toks) as [[[[a c] tm] rs]|] eqn:E; [|discriminate].
    destruct (IH _ _ _ _ eq_refl) as (ts & stop & -> & F & S & V & A). exists (t :: ts), stop.
    assert (NE : ~ ends t) by (rewrite <- term_ends; congruence).
    assert (M : mark t = tok_comment t).
    { destruct (tok_comment t) eqn:TC; [|now apply not_mark]. unfold mark, tok_comment in *. rewrite has_prefix_prefix in TC. apply andb_true_iff in TC as [-> Q]. rewrite Q. now rewrite !orb_true_r. }
    assert (AR : arguments (t :: ts) = if negb (tok_comment t) then t_val t :: arguments ts else arguments ts).
    { unfold arguments. cbn [filter]. rewrite M. destruct (tok_comment t); reflexivity. }
    destruct (tok_comment t); cbn [negb] in *; [destruct cm|]; inversion H; subst; (split; [reflexivity|]); (split; [now constructor|]); auto.
Qed.
Lemma read_args_none : forall cm toks, read_args cm toks = None -> Forall (fun u => ~ ends u) toks.
Proof.
  intros cm. induction toks as [|t toks IH]; intros H; [constructor|]. cbn [read_args] in H. destruct (is_term t) eqn:TT; [discriminate|].
  constructor; [rewrite <- term_ends; congruence|]. apply IH. destruct (read_args cm toks) as [[[[a c] tm] rs]|]; auto. destruct (negb _); [discriminate|]. destruct cm; discriminate.
Qed.

(** ** One statement *)
Definition errs (st : pst) : list config_error := cf_errors (p_cur st).
Definition about_dir (f : string) (d : directive) (e : goerr) : Prop :=
  exists what block, e = EParse (PE what (Some f) (Some (d_line d)) (d_name d ++ " " ++ join (d_args d) " ") block None).
Definition same_file (a b : pst) : Prop := cf_file (p_cur b) = cf_file (p_cur a).
Lemma analyze_about : forall o f d term cl e, d_block d = None -> analyze o f d term cl = Some e -> about_dir f d (EParse e).
Proof.
  intros o f d term cl e B H.
  assert (X : forall block what, about_dir f d (EParse (stmt_error f d block what))).
  { intros block what. exists what, block. unfold stmt_error, dir_string. now rewrite B. }
  unfold analyze in H. destruct (find_masks o (d_name d)) as [ms kn]. destruct (_ && _)%bool; [inversion H; apply X|].
  destruct (assoc _ _) as [cm|]; [|discriminate]. destruct (negb kn); [discriminate|]. destruct (_ && _)%bool; [inversion H; apply X|].
  destruct (o_skipargs o); [discriminate|]. destruct (check_masks _ _ _ _); [inversion H; apply X|discriminate].
Qed.
Lemma map_about : forall f d term m e, d_block d = None -> analyze_map_body f d term m = Some e -> about_dir f d (EParse e).
Proof.
  intros f d term m e B H.
  assert (X : forall block what, about_dir f d (EParse (stmt_error f d block what))).
  { intros block what. exists what, block. unfold stmt_error, dir_string. now rewrite B. }
  unfold analyze_map_body in H. destruct (assoc m map_bodies) as [mm|]; [|discriminate].
  destruct (negb _); [inversion H; apply X|]. destruct (assoc _ _); (destruct (valid_args _ _); [discriminate|inversion H; apply X]).
Qed.
Lemma errs_handle : forall o st e, errs (handle_error o st e) = (errs st ++ listed [e])%list.
Proof. reflexivity. Qed.
Lemma decide_errs : forall o dir ctx d term st, d_block d = None ->
  let f := cf_file (p_cur st) in
  match decide o dir ctx d term st with
  | DPanic => True
  | DErr e st' => errs st' = errs st /\ same_file st st' /\ (about_dir f d e \/ exists p msg, d_name d = "include" /\ o_glob o p = inr msg /\ e = EOther msg)
  | r => same_file st (decision_state st r) /\ exists es, errs (decision_state st r) = (errs st ++ listed es)%list /\ (es = [] \/ exists e, es = [e] /\ about_dir f d e)
  end.
Proof.
  intros o dir ctx d term st B f. unfold decide. fold f.
  assert (NIL : errs st = (errs st ++ listed [])%list) by (symmetry; apply app_nil_r).
  destruct (match read_slice (p_heap st) ctx with [] => None | _ => _ end) as [m|].
  { destruct (analyze_map_body f d term m) as [e|] eqn:A; [|cbn; split; [reflexivity|]; exists []; auto].
    pose proof (map_about _ _ _ _ _ B A) as AB. destruct (o_stop o); [repeat split; auto|]. cbn [decision_state]. split; [reflexivity|]. exists [EParse e]. split; [reflexivity|]. eauto. }
  destruct (mem_str _ _); [cbn; split; [reflexivity|]; exists []; auto|].
  destruct (analyze _ _ _ _ _) as [e|] eqn:A.
  { pose proof (analyze_about _ _ _ _ _ _ B A) as AB. destruct (o_stop o); [repeat split; auto|].
    destruct (has_suffix _ _); [destruct (negb _)|]; cbn [decision_state]; (split; [reflexivity|]); exists [EParse e]; (split; [reflexivity|]); eauto. }
  destruct (if String.eqb (d_name d) "if" then prepare_if (d_args d) else Some (d_args d)) as [args|] eqn:IFA; [|exact I].
  destruct (_ && _)%bool eqn:INC.
  2:{ cbn. split; [reflexivity|]. exists []. auto. }
  apply andb_true_iff in INC as [_ INC]. change (d_name (set_args d args)) with (d_name d) in INC. apply String.eqb_eq in INC.
  assert (AE : args = d_args d) by (rewrite INC in IFA; cbn in IFA; congruence). subst args.
  unfold do_include. change (d_args (set_args d (d_args d))) with (d_args d). change (d_line (set_args d (d_args d))) with (d_line d).
  change (d_name (set_args d (d_args d))) with (d_name d).
  assert (DS : dir_string (set_args d (d_args d)) = d_name d ++ " " ++ join (d_args d) " ") by (unfold dir_string; cbn; now rewrite B).
  rewrite DS. fold f.
  destruct (d_args d) as [|a0 args] eqn:DA.
  { repeat split; auto. left. unfold about_dir. rewrite DA. eauto. }
  cbv zeta. destruct (has_magic _).
  - destruct (o_glob o _) as [fs|msg] eqn:G.
    + destruct (add_includes ctx st (sort_strings fs)) as [st' is] eqn:AI. cbn [decision_state].
      pose proof (add_includes_frame ctx (sort_strings fs) st) as (_ & C & _). rewrite AI in C. cbn [fst] in C. unfold same_file, errs. rewrite C. split; [reflexivity|]. exists []. auto.
    + repeat split; auto. right. eauto.
  - destruct (o_open o _) as [c|msg] eqn:O.
    + destruct (add_includes ctx (log_open st _) _) as [st' is] eqn:AI. cbn [decision_state].
      match type of AI with add_includes ctx ?s ?l = _ => pose proof (add_includes_frame ctx l s) as (_ & C & _) end. rewrite AI in C. cbn [fst] in C. unfold same_file, errs. rewrite C. split; [reflexivity|]. exists []. auto.
    + assert (AB : forall block, about_dir f d (EParse (PE msg (Some f) (Some (d_line d)) (d_name d ++ " " ++ join (a0 :: args) " ") block None))) by (intros block; unfold about_dir; rewrite DA; eauto).
      destruct (o_stop o); [repeat split; auto|]. cbn [decision_state]. split; [reflexivity|]. eexists [_]. split; [reflexivity|]. eauto.
Qed.

(** ** Token lists *)
Definition outcome_ok (o : popts) (f : string) (toks : list token) (st : pst) (r : pres) : Prop :=
  match r with
  | POk _ rest st' => exists used es, toks = (used ++ rest)%list /\ noted f es used /\ errs st' = (errs st ++ listed es)%list /\ same_file st st'
  | PErr e _ st' => exists es a b, toks = (a ++ b)%list /\ noted f es a /\ errs st' = (errs st ++ listed es)%list /\ last_error o f e b /\ same_file st st'
  | _ => True
  end.
Lemma outcome_padd : forall o f toks st ds r, outcome_ok o f toks st r -> outcome_ok o f toks st (padd ds r).
Proof. intros o f toks st ds [ds' rest st'|e rest st'| |] H; auto. Qed.
Lemma listed_app : forall a b, listed (a ++ b) = (listed a ++ listed b)%list.
Proof. intros a b. apply map_app. Qed.
(** Something read first, then the rest. *)
Lemma outcome_after : forall o f used rest st st1 es r, noted f es used -> errs st1 = (errs st ++ listed es)%list -> same_file st st1 ->
  outcome_ok o f rest st1 r -> outcome_ok o f (used ++ rest)%list st r.
Proof.
  intros o f used rest st st1 es r N E S H. unfold same_file in *. destruct r as [ds rest' st'|e rest' st'| |]; cbn in *; auto.
  - destruct H as (u & es' & -> & N' & E' & S'). exists (used ++ u)%list, (es ++ es')%list. split; [now rewrite app_assoc|]. split; [now apply noted_app|].
    split; [rewrite E', E, listed_app; now rewrite app_assoc|]. unfold same_file in *. congruence.
  - destruct H as (es' & a & b & -> & N' & E' & L & S'). exists (es ++ es')%list, (used ++ a)%list, b. split; [now rewrite app_assoc|]. split; [now apply noted_app|].
    split; [rewrite E', E, listed_app; now rewrite app_assoc|]. split; auto. unfold same_file in *. congruence.
Qed.
Lemma stmt_noted : forall o dir ctx st t r args cs term rest, starts t -> read_args (o_comments o) r = Some (args, cs, term, rest) ->
  let D := decide o dir ctx (fresh o st t args) term st in
  let f := cf_file (p_cur st) in
  match D with
  | DPanic => True
  | DErr e st' => errs st' = errs st /\ same_file st st' /\ last_error o f e (t :: r)
  | _ => same_file st (decision_state st D) /\ exists used es, (t :: r = used ++ rest)%list /\ noted f es used /\ errs (decision_state st D) = (errs st ++ listed es)%list
  end.
Proof.
  intros o dir ctx st t r args cs term rest ST RA D f. destruct (read_args_stmt _ _ _ _ _ _ RA) as (ts & stop & -> & F & S & V & A).
  pose proof (starts_opener _ ST) as OP.
  assert (AB : forall e, about_dir f (fresh o st t args) e -> about f t ts e).
  { intros e (what & block & ->). exists what, block. cbn [fresh d_line d_name d_args]. now rewrite A. }
  pose proof (decide_errs o dir ctx (fresh o st t args) term st eq_refl) as DE. cbv zeta in DE. fold f in DE. fold D in DE.
  assert (K : forall st', (same_file st st' /\ exists es, errs st' = (errs st ++ listed es)%list /\ (es = [] \/ exists e, es = [e] /\ about_dir f (fresh o st t args) e)) ->
     same_file st st' /\ exists used es, (t :: ts ++ stop :: rest = used ++ rest)%list /\ noted f es used /\ errs st' = (errs st ++ listed es)%list).
  { intros st' (SF & es & E & C). split; auto. exists (t :: ts ++ [stop])%list, es. split; [cbn; now rewrite <- app_assoc|]. split; auto.
    destruct C as [->|(e & -> & C)]; [constructor|]. apply (nt_stmt f e [] t ts stop []); auto. constructor. }
  destruct D as [d' st'|d'|eat st'|st'|e st'|]; try (apply K; exact DE); auto.
  destruct DE as (E & SF & C). repeat split; auto. destruct C as [C|(p & msg & N & G & ->)].
  - apply le_stmt; auto.
  - eapply le_glob; eauto.
Qed.
Lemma run_errs : forall o dir ctx toks st r, Run o dir ctx toks st r -> outcome_ok o (cf_file (p_cur st)) toks st r.
Proof.
  intros o dir ctx toks st r H.
  induction H as
    [ctx st|ctx st t r e TE|ctx st t r TE TC|ctx st t r res TE TC TM H IH|ctx st t r ST RA
    |ctx st t r args cs term rest ST RA D|ctx st t r args cs term rest e st' ST RA D
    |ctx st t r args cs term rest st' ST RA D|ctx st t r args cs term rest eat st' res ST RA D H IH
    |ctx st t r args cs term rest d res ST RA D H IH
    |ctx st t r args cs term rest d st' res ST RA D TB H IH
    |ctx st t r args cs term rest d st' h inner blk rest' st'' res ST RA D TB EB H1 IH1 H2 IH2
    |ctx st t r args cs term rest d st' h inner res ST RA D TB EB H IH F];
    try (pose proof (stmt_noted o dir ctx st t r args cs term rest ST RA) as SN; cbv zeta in SN; rewrite D in SN; cbn [decision_state] in SN).
  - exists [], []. repeat split; [constructor|]. symmetry. apply app_nil_r.
  - exists [], [], (t :: r). repeat split; [constructor|symmetry; apply app_nil_r|]. destruct e as [p|m]; cbn [token_error]; [now apply le_lexer|now apply le_foreign].
  - exists [t], []. repeat split; [constructor|]. symmetry. apply app_nil_r.
  - apply outcome_padd. apply (outcome_after o _ [t] r st st []); auto; [constructor|symmetry; apply app_nil_r|reflexivity].
  - exists [], [], (t :: r). repeat split; [constructor|symmetry; apply app_nil_r|]. apply le_premature; [now apply starts_opener|eapply read_args_none; eauto].
  - exact I.
  - destruct SN as (E & SF & L). exists [], [], (t :: r). repeat split; auto; [constructor|]. rewrite E. symmetry. apply app_nil_r.
  - destruct SN as (SF & used & es & E & N & ES). exists used, es. auto.
  - destruct SN as (SF & used & es & E & N & ES). rewrite E. unfold same_file in SF. rewrite SF in IH.
    assert (SU : exists p, rest = (p ++ if eat then consume 0 rest else rest)%list).
    { destruct eat; [destruct (consume_suffix rest 0) as (p & Q); exists p; exact Q|exists []; auto]. }
    destruct SU as (p & Q). rewrite Q, app_assoc. apply (outcome_after o _ _ _ st st' es); auto. rewrite <- (app_nil_r es). apply noted_app; auto. constructor.
  - apply outcome_padd. destruct SN as (SF & used & es & E & N & ES). rewrite E. apply (outcome_after o _ _ _ st st es); auto.
  - apply outcome_padd. destruct SN as (SF & used & es & E & N & ES). rewrite E. unfold same_file in SF. rewrite SF in IH. apply (outcome_after o _ _ _ st st' es); auto.
  - apply outcome_padd. destruct SN as (SF & used & es & E & N & ES). rewrite E. unfold same_file in SF.
    change (cf_file (p_cur (set_heap st' h))) with (cf_file (p_cur st')) in IH1. rewrite SF in IH1. cbn [outcome_ok] in IH1. destruct IH1 as (u1 & es1 & E1 & N1 & X1 & S1).
    unfold same_file in S1. change (cf_file (p_cur (set_heap st' h))) with (cf_file (p_cur st')) in S1. rewrite S1, SF in IH2. rewrite E1.
    apply (outcome_after o _ _ _ st st' es); auto. apply (outcome_after o _ _ _ st' st'' es1); auto.
  - destruct SN as (SF & used & es & E & N & ES). rewrite E. unfold same_file in SF.
    change (cf_file (p_cur (set_heap st' h))) with (cf_file (p_cur st')) in IH. rewrite SF in IH. apply (outcome_after o _ _ _ st st' es); auto.
Qed.

(** ** Whole files *)
Definition located (o : popts) (c : config) : Prop :=
  exists content es, o_open o (cf_file c) = inl content /\ cf_errors c = listed es /\ placed o (cf_file c) es (lex (o_lexers o) content).
Lemma file_located : forall o dir path ctx st st', parse_file o dir path ctx st = FDone st' ->
  Forall (located o) (pl_config (p_pay st)) -> Forall (located o) (pl_config (p_pay st')).
Proof.
  intros o dir path ctx st st' H F. unfold parse_file in H.
  destruct (o_open o path) as [content|msg] eqn:OP; [|discriminate].
  set (toks := lex (o_lexers o) content) in *.
  match type of H with context [parse o dir (S (List.length toks)) ctx toks ?s] => set (s0 := s) in * end.
  pose proof (parse_run o dir ctx toks s0) as R.
  destruct (parse o dir (S (List.length toks)) ctx toks s0) as [ds rest s|e rest s| |] eqn:P; try discriminate.
  - destruct (run_keeps _ _ _ _ _ _ R) as (K1 & K2 & _). destruct (run_errs _ _ _ _ _ _ R) as (u & es & E & N & X & S).
    inversion H; subst st'. cbn. rewrite K1. apply Forall_app. split; auto. constructor; [|constructor].
    exists content, es. cbn [cf_file cf_errors]. rewrite K2. cbn [s0 set_cur p_cur cf_file]. split; auto. split; [exact X|]. left. fold toks. rewrite E.
    rewrite <- (app_nil_r es). apply noted_app; [exact N|constructor].
  - destruct (run_keeps _ _ _ _ _ _ R) as (K1 & K2 & K3). destruct (run_errs _ _ _ _ _ _ R) as (es & a & b & E & N & X & L & S).
    destruct (o_stop o); [discriminate|]. inversion H; subst st'. cbn [handle_error set_cur set_pay p_pay p_cur pl_config cf_file cf_errors]. rewrite K1. apply Forall_app. split; auto.
    constructor; [|constructor]. exists content, (es ++ [e])%list. cbn [cf_file cf_errors]. rewrite K2. cbn [s0 set_cur p_cur cf_file]. split; auto.
    split; [unfold errs in X; rewrite X, listed_app; reflexivity|]. right. exists es, e, a, b. auto.
Qed.
Lemma files_located : forall fuel o dir st st', run_files fuel o dir st = FDone st' ->
  Forall (located o) (pl_config (p_pay st)) -> Forall (located o) (pl_config (p_pay st')).
Proof.
  induction fuel as [|fuel IH]; intros o dir st st' H F; cbn [run_files] in H.
  - destruct (p_queue st) as [|[path ctx] q]; inversion H; now subst.
  - destruct (p_queue st) as [|[path ctx] q]; [inversion H; now subst|].
    destruct (parse_file o dir path ctx (set_queue st q)) eqn:E; try discriminate.
    eapply IH; eauto. eapply file_located; eauto.
Qed.
Theorem parse_located : forall fuel o filename p, o_combine o = false -> parse_main fuel o filename = ROk p -> forall c, In c (pl_config p) ->
  exists content es, o_open o (cf_file c) = inl content /\ cf_errors c = listed es /\ placed o (cf_file c) es (lex (o_lexers o) content).
Proof.
  intros fuel o filename p NC H. unfold parse_main in H.
  destruct (collect fuel o filename) as [st| | |] eqn:C; try discriminate.
  unfold finish in H. destruct (has_cycle _ _ _); [discriminate|]. rewrite NC in H. inversion H; subst.
  apply (proj1 (Forall_forall (located o) _)). unfold collect in C. eapply files_located; [exact C|constructor].
Qed.

(** ** Payloads *)
Theorem payload_located : forall fuel o filename p, parse_main fuel o filename = ROk p ->
  exists fs, map (fun e => (py_file e, py_err e)) (pl_errors p) = by_file fs /\ NoDup (map fst fs) /\
    Forall (fun x => exists content, o_open o (fst x) = inl content /\ placed o (fst x) (snd x) (lex (o_lexers o) content)) fs.
Proof.
  intros fuel o filename p H. unfold parse_main in H.
  destruct (collect fuel o filename) as [st| | |] eqn:C; try discriminate.
  assert (N : pl_config (p_pay st) <> []) by (eapply files_config; [exact C|discriminate]).
  destruct (collect_settled _ _ _ _ C) as [S1 _].
  assert (E : pl_errors p = pl_errors (p_pay st)).
  { unfold finish in H. destruct (has_cycle _ _ _); [discriminate|]. destruct (o_combine o); [|inversion H; reflexivity].
    destruct (combined fuel (p_pay st)) as [p'| | |] eqn:CB; try discriminate. inversion H; subst. now destruct (consistent_combine _ _ _ S1 N CB). }
  rewrite E. exists (map (fun c => (cf_file c, map ce_err (cf_errors c))) (pl_config (p_pay st))). split; [|split].
  - pose proof (con_errors _ S1) as CE. unfold payload_labels in CE.
    assert (X : map (fun e => (py_file e, py_err e)) (pl_errors (p_pay st)) = map (fun x : string * option Z * goerr => (fst (fst x), snd x)) (flat_map labelled (pl_config (p_pay st)))).
    { rewrite <- CE, map_map. reflexivity. }
    rewrite X. unfold by_file. clear. induction (pl_config (p_pay st)) as [|c l IH]; [reflexivity|]. cbn [map flat_map fst snd]. rewrite map_app, IH. f_equal.
    unfold labelled. rewrite !map_map. reflexivity.
  - rewrite map_map. cbn [fst]. exact (inc_distinct _ _ _ (collect_includes_ok _ _ _ _ C)).
  - apply Forall_map. cbn [fst snd]. unfold collect in C. pose proof (files_located _ _ _ _ _ C (Forall_nil _)) as F. eapply Forall_impl; [|exact F].
    intros c (content & es & O & L & P). exists content. split; auto. rewrite L. unfold listed. rewrite map_map. cbn. now rewrite map_id.
Qed.

(** ** Errors that end Parse *)
Lemma file_fatal : forall o dir path ctx st e st', parse_file o dir path ctx st = FErr e st' -> fatal o e.
Proof.
  intros o dir path ctx st e st' H. unfold parse_file in H.
  destruct (o_open o path) as [content|msg] eqn:OP; [|inversion H; subst; left; eauto].
  set (toks := lex (o_lexers o) content) in *.
  match type of H with context [parse o dir (S (List.length toks)) ctx toks ?s] => set (s0 := s) in * end.
  pose proof (parse_run o dir ctx toks s0) as R.
  destruct (parse o dir (S (List.length toks)) ctx toks s0) as [ds rest s|e' rest s| |] eqn:P; try discriminate.
  destruct (run_errs _ _ _ _ _ _ R) as (es & a & b & E & N & X & L & S).
  destruct (o_stop o) eqn:ST; [|discriminate]. inversion H; subst. right. split; auto. exists path, content, a, b. auto.
Qed.
Lemma files_fatal : forall fuel o dir st e st', run_files fuel o dir st = FErr e st' -> fatal o e.
Proof.
  induction fuel as [|fuel IH]; intros o dir st e st' H; cbn [run_files] in H.
  - destruct (p_queue st) as [|[path ctx] q]; discriminate.
  - destruct (p_queue st) as [|[path ctx] q]; [discriminate|].
    destruct (parse_file o dir path ctx (set_queue st q)) eqn:E; try discriminate; [eapply IH; eauto|]. inversion H; subst. eapply file_fatal; eauto.
Qed.
Theorem parse_fatal : forall fuel o filename e, parse_main fuel o filename = RErr e ->
  e = EOther "configs contain include cycle" \/ fatal o e.
Proof.
  intros fuel o filename e H. unfold parse_main in H. destruct (collect fuel o filename) as [st|e' st'| |] eqn:C; try discriminate.
  - unfold finish in H. destruct (has_cycle _ _ _) eqn:HC; [inversion H; now left|]. destruct (o_combine o); [|discriminate].
    destruct (combined fuel (p_pay st)) as [p|e'| |] eqn:CB; try discriminate. exfalso.
    destruct (collect_combines _ _ _ _ C) as (n & p & P). { rewrite <- combine_acyclic by eauto. congruence. }
    specialize (P (Nat.max n fuel) (Nat.le_max_l _ _)). unfold combined in *. destruct (pl_config (p_pay st)) as [|c0 cs]; [discriminate|].
    destruct (perform fuel (c0 :: cs) (cf_file c0) (cf_parsed c0)) as [ds|e''| |] eqn:PF; try discriminate.
    assert (PF' : perform (Nat.max n fuel) (c0 :: cs) (cf_file c0) (cf_parsed c0) = CErr e'').
    { replace (Nat.max n fuel) with (Nat.max n fuel - fuel + fuel) by lia. rewrite perform_more; congruence. }
    rewrite PF' in P. discriminate.
  - inversion H; subst. right. eapply files_fatal; eauto.
Qed.

(** ** Lines *)
Definition dated (hi : Z) (ts : list token) : Prop :=
  forall t e, In t ts -> t_err t = Some e -> exists l, line_of e = Some l /\ (t_line t <= l <= hi)%Z.
Definition inv7 (pre : list string) (c : cst) (done : list token) : Prop :=
  inv4 pre c done /\ dated (1 + count_eol pre) done.
Lemma dated_more : forall a b ts, (a <= b)%Z -> dated a ts -> dated b ts.
Proof. intros a b ts L D t e I E. destruct (D t e I E) as (l & A & B). exists l. split; auto. lia. Qed.
Lemma dated_app : forall hi a b, dated hi a -> dated hi b -> dated hi (a ++ b)%list.
Proof. intros hi a b A B t e I E. apply in_app_iff in I as [I|I]; eauto. Qed.
Lemma dated_good : forall hi ts, Forall (fun t => t_err t = None) ts -> dated hi ts.
Proof. intros hi ts F t e I E. rewrite Forall_forall in F. rewrite (F t I) in E. discriminate. Qed.
Lemma dated_bad : forall hi line start what, (start <= line <= hi)%Z -> dated hi [bad_tok line start what].
Proof. intros hi line start what L t e [<-|[]] E. inversion E; subst. exists line. cbn. auto. Qed.
Lemma csep_dated : forall hi p line start dup depth u, (start <= line <= hi)%Z -> Forall (fun t => t_err t = None) p ->
  match csep p line start dup depth u with Go _ ts => dated hi ts | Halt ts => dated hi ts end.
Proof.
  intros hi p line start dup depth u L F. unfold csep. destruct (_ && _)%bool; [apply dated_app; [now apply dated_good|now apply dated_bad]|].
  cbv zeta. destruct (_ && _)%bool; [apply dated_app; [now apply dated_good|now apply dated_bad]|]. apply dated_good. apply Forall_app. split; auto.
Qed.
Lemma step_dated : forall c u hi, (c_start c <= c_line c)%Z -> ((if is_eol u then c_line c + 1 else c_line c) <= hi)%Z ->
  match cstep c u with Go _ ts => dated hi ts | Halt ts => dated hi ts end.
Proof.
  intros c u hi S L. unfold cstep. cbv zeta. set (line := if is_eol u then _ else _) in *.
  assert (LL : (c_line c <= line)%Z) by (unfold line; destruct (is_eol u); lia). clearbody line.
  destruct (c_mode c) as [|w|w|w|q w]; repeat match goal with |- context [if ?b then _ else _] => destruct b end;
    try (apply dated_good; repeat constructor); apply csep_dated; auto; try lia; repeat constructor.
Qed.
Lemma inv7_step : forall pre c done u, unit_ok u -> inv7 pre c done ->
  match cstep c u with
  | Go c' ts => inv7 (pre ++ [u])%list c' (done ++ ts)%list
  | Halt ts => forall us : list string, dated (1 + count_eol (pre ++ u :: us)) (done ++ ts)%list
  end.
Proof.
  intros pre c done u U [I D]. pose proof (inv4_step pre c done u U I) as S4. destruct I as (A & B & L).
  assert (CE : count_eol (pre ++ [u]) = (count_eol pre + if is_eol u then 1 else 0)%Z).
  { rewrite count_eol_app. unfold count_eol at 2. cbn [fold_right]. destruct (is_eol u); lia. }
  pose proof (step_dated c u (1 + count_eol (pre ++ [u])) B) as SD.
  assert (X : ((if is_eol u then c_line c + 1 else c_line c) <= 1 + count_eol (pre ++ [u]))%Z) by (rewrite CE, L; destruct (is_eol u); lia).
  specialize (SD X). assert (M : (1 + count_eol pre <= 1 + count_eol (pre ++ [u]))%Z) by (rewrite CE; destruct (is_eol u); lia).
  destruct (cstep c u) as [c' ts|ts].
  - split; auto. apply dated_app; auto. eapply dated_more; eauto.
  - intros us. assert (K : (1 + count_eol (pre ++ [u]) <= 1 + count_eol (pre ++ u :: us))%Z).
    { replace (pre ++ u :: us)%list with ((pre ++ [u]) ++ us)%list by now rewrite <- app_assoc. rewrite (count_eol_app (pre ++ [u]) us). pose proof (count_eol_nonneg us). lia. }
    apply dated_app; [eapply dated_more; [|exact D]; lia|eapply dated_more; eauto].
Qed.
Lemma inv7_finish : forall us c done, inv7 us c done -> dated (1 + count_eol us) (done ++ cfinish c)%list.
Proof.
  intros us c done [(A & B & L) D]. apply dated_app; auto. unfold cfinish. apply dated_app.
  - apply dated_good. unfold cpending. destruct (c_mode c); repeat constructor. destruct (w =? ""); repeat constructor.
  - destruct (0 <? c_depth c)%Z; [apply dated_bad; lia|]. intros t e [].
Qed.
Lemma lex_dated : forall s, dated (1 + newlines s) (lex [] s).
Proof.
  intros s. rewrite lex_crun.
  pose proof (crun_inv inv7 (fun us => dated (1 + count_eol us)) inv7_step inv7_finish (units false (scan_runes s)) [] cinit []) as X. cbn [app] in X.
  rewrite <- count_scan, <- (count_units _ false) by apply scan_texts. apply X.
  - apply units_ok, scan_texts.
  - split; [repeat split; cbn; try lia; constructor; lia|]. intros t e [].
Qed.
Lemma rising_le : forall lo hi l, rising lo hi l -> (lo <= hi)%Z.
Proof. induction 1; lia. Qed.
Lemma rising_low : forall a b hi l, (a <= b)%Z -> rising b hi l -> rising a hi l.
Proof. intros a b hi l L H. inversion H; subst; constructor; auto; lia. Qed.
Lemma asc_bound : forall ts lo hi, ascending lo hi ts -> (lo <= hi)%Z.
Proof. induction 1; lia. Qed.
(** The lines of noted errors, and what can follow them. *)
Lemma noted_lines : forall f es a, noted f es a -> forall lo hi b tail, ascending lo hi (a ++ b) ->
  (forall lo', (lo <= lo')%Z -> ascending lo' hi b -> rising lo' hi tail) ->
  rising lo hi (error_lines es ++ tail)%list.
Proof.
  intros f es a H. induction H as [ts|es t ts H IH|e es t ts stop rest O F S A H IH]; intros lo hi b tail AS T.
  - cbn. revert lo AS T. induction ts as [|t ts IHt]; intros lo AS T; [apply T; [lia|exact AS]|]. cbn in AS. inversion AS; subst.
    apply (rising_low lo (t_line t)); [lia|]. apply IHt; auto. intros lo' L X. apply T; auto. lia.
  - cbn in AS. inversion AS; subst. apply (rising_low lo (t_line t)); [lia|]. eapply IH; eauto. intros lo' L X. apply T; auto. lia.
  - destruct A as (what & block & ->). cbn [error_lines flat_map line_of pe_line app]. cbn [app] in AS. inversion AS as [|? ? L1 L2]; subst. constructor; auto.
    assert (X : exists lo', (t_line t <= lo')%Z /\ ascending lo' hi (rest ++ b)).
    { clear - L2. rewrite <- app_assoc in L2. revert L2. generalize (t_line t). cbn [app]. induction ts as [|u ts IHt]; intros z AS; cbn [app] in AS; inversion AS; subst.
      - exists (t_line stop). split; auto.
      - destruct (IHt _ H2) as (lo' & A & B). exists lo'. split; auto. lia. }
    destruct X as (lo' & Y & Z). apply (rising_low _ lo'); auto. eapply IH; eauto. intros lo'' L X. apply T; auto. lia.
Qed.
Lemma placed_rising : forall o f es s, placed o f es (lex [] s) -> rising 1 (1 + newlines s) (error_lines es).
Proof.
  intros o f es s [H|(es0 & e & a & b & -> & E & N & L)].
  - rewrite <- (app_nil_r (error_lines es)). pose proof (lex_lines s) as AS. rewrite <- (app_nil_r (lex [] s)) in AS. eapply noted_lines; eauto.
    intros lo' _ X. constructor. eapply asc_bound; eauto.
  - unfold error_lines. rewrite flat_map_app. fold (error_lines es0). pose proof (lex_lines s) as AS. pose proof (lex_dated s) as D. rewrite E in AS, D.
    eapply noted_lines; eauto. intros lo' _ X.
    assert (HD : forall t r l, b = t :: r -> (t_line t <= l)%Z -> (l <= 1 + newlines s)%Z -> rising lo' (1 + newlines s) [l]).
    { intros t r l -> L1 L2. inversion X; subst. constructor; [lia|]. constructor. lia. }
    assert (TB : forall t r, b = t :: r -> (t_line t <= 1 + newlines s)%Z). { intros t r ->. inversion X; subst. eapply asc_bound; eauto. }
    inversion L as [e' t ts stop rest O F S A B1 B2|p msg t ts stop rest O I F S G B1 B2|t ts block O F B1 B2|p t ts block TE B1 B2|m t ts block TE B1 B2]; subst.
    + destruct A as (what & block & ->). cbn. eapply HD; [reflexivity|lia|]. eapply TB; reflexivity.
    + cbn. constructor. eapply asc_bound; eauto.
    + cbn. eapply HD; [reflexivity|lia|]. eapply TB; reflexivity.
    + destruct (D t (EParse p)) as (l & A & B); auto. { apply in_or_app. right. now left. }
      cbn in A. cbn. rewrite A. cbn. eapply HD; [reflexivity|lia|lia].
    + cbn. eapply HD; [reflexivity|lia|]. eapply TB; reflexivity.
Qed.
Theorem parse_error_lines : forall fuel o filename p, o_combine o = false -> o_lexers o = [] -> parse_main fuel o filename = ROk p ->
  forall c, In c (pl_config p) -> exists content, o_open o (cf_file c) = inl content /\
    rising 1 (1 + newlines content) (error_lines (map ce_err (cf_errors c))).
Proof.
  intros fuel o filename p NC NL H c I. destruct (parse_located _ _ _ _ NC H c I) as (content & es & O & L & P). exists content. split; auto.
  rewrite NL in P. rewrite L. unfold listed. rewrite map_map. cbn [ce_err]. rewrite map_id. eapply placed_rising; eauto.
Qed.
(** ** Texts *)
Theorem located_text : forall what f l stmt block orig, err_string (EParse (PE what (Some f) (Some l) stmt block orig)) = what ++ location f l.
Proof. reflexivity. Qed.
