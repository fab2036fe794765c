(** C30: errors of the lexer reach the file's status. *)
From Verif Require Export SpecLost CleanProofs ValidateProofs StatusProofs LexProofs.
Local Open Scope string_scope.

Definition last_only (toks : list token) : Prop := forall a t b, toks = (a ++ t :: b)%list -> t_err t <> None -> b = [] /\ is_term t = false.
Lemma last_suffix : forall a b, last_only (a ++ b) -> last_only b.
Proof. intros a b H x t y E. apply (H (a ++ x)%list t y). now rewrite E, app_assoc. Qed.
Lemma shut_suffix : forall names a b, ignored_shut names (a ++ b) -> ignored_shut names b.
Proof. intros names a b H x h args t rest E. apply (H (a ++ x)%list h args t rest). now rewrite E, app_assoc. Qed.
Lemma net_app : forall a b, net (a ++ b) = (net a + net b)%Z.
Proof. induction a as [|t a IH]; intros b; auto. cbn [app net]. rewrite IH. destruct (opensb t), (closesb t); lia. Qed.
Lemma read_split : forall c toks args cs term rest, read_args c toks = Some (args, cs, term, rest) ->
  exists mid tt, toks = (mid ++ tt :: rest)%list /\ Forall (fun t => is_term t = false) mid /\ is_term tt = true /\ t_val tt = term.
Proof.
  intros c toks. induction toks as [|t toks IH]; intros args cs term rest H; [discriminate|]. cbn [read_args] in H. destruct (is_term t) eqn:T.
  - inversion H; subst. exists [], t. auto.
  - destruct (read_args c toks) as [[[[a' c'] t'] r']|] eqn:R; [|discriminate].
    assert (E : t' = term /\ r' = rest) by (destruct (negb (tok_comment t)); [|destruct c]; inversion H; auto). destruct E; subst.
    destruct (IH _ _ _ _ eq_refl) as (mid & tt & -> & F & X). exists (t :: mid), tt. repeat split; auto; try apply X; constructor; auto.
Qed.
Lemma term_braces : forall t, is_term t = false -> opensb t = false /\ closesb t = false /\ sepb t = false.
Proof.
  intros t H. unfold is_term, tok_is in H. rewrite !orb_false_iff in H. destruct H as [[A B] C]. unfold opensb, closesb, sepb. repeat split; auto. destruct (t_quoted t); auto. cbn in *. now rewrite A, B, C.
Qed.
Lemma mid_net : forall mid, Forall (fun t => is_term t = false) mid -> net mid = 0%Z.
Proof. intros mid F. induction F as [|t mid T F IH]; auto. cbn [net]. apply term_braces in T as (-> & -> & _). auto. Qed.
Lemma comment_net : forall t, tok_comment t = true -> opensb t = false /\ closesb t = false.
Proof.
  intros t H. unfold tok_comment in H. apply andb_true_iff in H as [P _]. unfold opensb, closesb. destruct (t_val t) as [|c v]; [discriminate|].
  assert (C : c = "#"%char) by (unfold has_prefix in P; cbn [prefix] in P; destruct (ascii_dec "#" c); [auto|discriminate]). subst c. cbn. rewrite !andb_false_r. auto.
Qed.
Lemma stmt_used : forall t r mid tt rest, last_only (t :: r) -> t_err t = None -> tok_is t "}" = false -> tok_is t "{" = false -> r = (mid ++ tt :: rest)%list ->
  Forall (fun t => is_term t = false) mid -> is_term tt = true ->
  no_errors (t :: mid ++ [tt]) /\ net (t :: mid ++ [tt]) = (if opensb tt then 1 else if closesb tt then -1 else 0)%Z.
Proof.
  intros t r mid tt rest L E N1 N2 -> F T. split.
  - constructor; auto. apply Forall_forall. intros x I. destruct (t_err x) as [e|] eqn:X; auto. exfalso. apply in_split in I as (a & b & EQ).
    assert (Q : (t :: mid ++ tt :: rest = (t :: a) ++ x :: (b ++ rest))%list).
    { cbn [app]. f_equal. change (tt :: rest) with ([tt] ++ rest)%list. rewrite app_assoc, EQ. now rewrite <- app_assoc. }
    destruct (L _ _ _ Q) as [B TF]; [congruence|]. apply app_eq_nil in B as [-> ->]. apply app_inj_tail in EQ as [_ ->]. congruence.
  - cbn [net]. change (opensb t) with (tok_is t "{"). change (closesb t) with (tok_is t "}"). rewrite N1, N2, net_app, mid_net by auto. cbn [net]. destruct (opensb tt), (closesb tt); lia.
Qed.
Lemma consume_shut : forall toks depth b c, toks = (b ++ c)%list -> net b = (- Z.of_nat (S depth))%Z -> no_errors b ->
  exists b', toks = (b' ++ consume depth toks)%list /\ net b' = (- Z.of_nat (S depth))%Z /\ no_errors b'.
Proof.
  induction toks as [|t toks IH]; intros depth b c E N NE.
  - destruct b; [cbn in N; lia|discriminate].
  - destruct b as [|x b]; [cbn in N; lia|]. inversion E; subst. inversion NE as [|? ? TE NE']; subst. cbn [consume net] in *. rewrite TE.
    change (opensb x) with (tok_is x "{") in N. change (closesb x) with (tok_is x "}") in N.
    destruct (tok_is x "}") eqn:C.
    + assert (O : tok_is x "{" = false) by (unfold tok_is in *; apply andb_true_iff in C as [-> C]; apply String.eqb_eq in C; now rewrite C). rewrite O in N. destruct depth as [|d].
      * exists [x]. split; [reflexivity|]. split; [|repeat constructor; auto]. cbn [net]. change (opensb x) with (tok_is x "{"). change (closesb x) with (tok_is x "}"). now rewrite O, C.
      * destruct (IH d b c eq_refl ltac:(lia) NE') as (b' & E' & N' & X). exists (x :: b'). cbn [app]. rewrite <- E'. split; [reflexivity|]. split; [|constructor; auto].
        cbn [net]. change (opensb x) with (tok_is x "{"). change (closesb x) with (tok_is x "}"). rewrite O, C. lia.
    + destruct (tok_is x "{") eqn:O.
      * destruct (IH (S depth) b c eq_refl ltac:(lia) NE') as (b' & E' & N' & X). exists (x :: b'). cbn [app]. rewrite <- E'. split; [reflexivity|]. split; [|constructor; auto].
        cbn [net]. change (opensb x) with (tok_is x "{"). rewrite O. lia.
      * destruct (IH depth b c eq_refl ltac:(lia) NE') as (b' & E' & N' & X). exists (x :: b'). cbn [app]. rewrite <- E'. split; [reflexivity|]. split; [|constructor; auto].
        cbn [net]. change (opensb x) with (tok_is x "{"). change (closesb x) with (tok_is x "}"). rewrite O, C. lia.
Qed.

(** "{" neither at the start nor after a separator. *)
Definition headed (b : bool) (toks : list token) : Prop := forall a t r, toks = (a ++ t :: r)%list -> opensb t = true -> after_sep b a = false.
Lemma after_app : forall a b c, after_sep c (a ++ b) = after_sep (after_sep c a) b.
Proof. induction a as [|t a IH]; intros b c; auto. cbn [app after_sep]. apply IH. Qed.
Lemma headed_suffix : forall a b, headed true (a ++ b) -> after_sep true a = true -> headed true b.
Proof. intros a b H A x t r E O. rewrite <- A, <- after_app. apply (H (a ++ x)%list t r); auto. now rewrite E, app_assoc. Qed.
Lemma note_same : forall t, tok_comment t = true -> noteb t = true.
Proof.
  intros t H. unfold tok_comment in H. apply andb_true_iff in H as [P Q]. unfold noteb. rewrite Q. destruct (t_val t) as [|c v]; [discriminate|].
  unfold has_prefix in P; cbn [prefix] in P. destruct (ascii_dec "#" c); [now subst|discriminate].
Qed.
Lemma sep_after : forall a t c, sepb t = true -> after_sep c (a ++ [t]) = true.
Proof.
  intros a t c S. rewrite after_app. cbn [after_sep]. destruct (noteb t) eqn:N; auto. exfalso. unfold sepb, noteb in *. apply andb_true_iff in N as [_ N]. apply andb_true_iff in S as [_ S].
  destruct (t_val t) as [|x v]; [discriminate|]. apply existsb_exists in S as (y & I & E). apply String.eqb_eq in E. cbn in I. destruct I as [<-|[<-|[<-|[]]]]; inversion E; subst; discriminate.
Qed.
Lemma term_sep : forall t, is_term t = true -> sepb t = true.
Proof. intros t H. unfold is_term, tok_is in H. unfold sepb. cbn [existsb]. destruct (t_quoted t); [discriminate|]. cbn in *. rewrite orb_false_r. destruct (t_val t =? "{"), (t_val t =? ";"), (t_val t =? "}"); auto. Qed.
Lemma consume_sep : forall toks depth b c, toks = (b ++ c)%list -> net b = (- Z.of_nat (S depth))%Z -> no_errors b ->
  exists b' t, toks = ((b' ++ [t]) ++ consume depth toks)%list /\ sepb t = true.
Proof.
  induction toks as [|t toks IH]; intros depth b c E N NE.
  - destruct b; [cbn in N; lia|discriminate].
  - destruct b as [|x b]; [cbn in N; lia|]. inversion E; subst. inversion NE as [|? ? TE NE']; subst. cbn [consume net] in *. rewrite TE.
    change (opensb x) with (tok_is x "{") in N. change (closesb x) with (tok_is x "}") in N.
    destruct (tok_is x "}") eqn:C.
    + assert (O : tok_is x "{" = false) by (unfold tok_is in *; apply andb_true_iff in C as [-> C]; apply String.eqb_eq in C; now rewrite C). rewrite O in N. destruct depth as [|d].
      * exists [], x. split; [reflexivity|]. apply term_sep. unfold is_term. rewrite C, orb_true_r. reflexivity.
      * destruct (IH d b c eq_refl ltac:(lia) NE') as (b' & t & E' & S). exists (x :: b'), t. split; auto. cbn [app]. now rewrite <- E'.
    + destruct (tok_is x "{") eqn:O.
      * destruct (IH (S depth) b c eq_refl ltac:(lia) NE') as (b' & t & E' & S). exists (x :: b'), t. split; auto. cbn [app]. now rewrite <- E'.
      * destruct (IH depth b c eq_refl ltac:(lia) NE') as (b' & t & E' & S). exists (x :: b'), t. split; auto. cbn [app]. now rewrite <- E'.
Qed.

Section Lost.
Variables (o : popts) (dir : string).
Definition bad (st : pst) : Prop := cf_status (p_cur st) = "failed".
Lemma bad_effect : forall ctx s s', effect o ctx s s' -> bad s -> bad s'.
Proof.
  intros c s s' EF H. destruct EF as [|e|p|p e|p c0|p fs]; auto; try reflexivity; unfold bad in *.
  - destruct (add_includes_frame c [p] (log_open s p)) as (_ & E1 & _). now rewrite E1.
  - destruct (add_includes_frame c (sort_strings fs) s) as (_ & E1 & _). now rewrite E1.
Qed.
Lemma bad_run : forall ctx toks st r, Run o dir ctx toks st r -> bad st -> match r with POk _ _ st' | PErr _ _ st' => bad st' | _ => True end.
Proof.
  intros ctx toks st r R B. apply (run_state_inv o dir bad) in R; auto. intros c s s'. apply bad_effect.
Qed.
Lemma bad_err : forall st e, bad (handle_error o st e).
Proof. reflexivity. Qed.
Lemma decide_skip : forall ctx d term st eat st', decide o dir ctx d term st = DSkip eat st' -> bad st' \/ (In (d_name d) (o_ignore o) /\ eat = String.eqb term "{" /\ st' = st).
Proof.
  intros ctx d term st eat st' H. unfold decide in H. destruct (match read_slice (p_heap st) ctx with [] => None | _ => _ end) as [m|].
  { destruct (analyze_map_body _ _ _ _); [destruct (o_stop o)|]; inversion H; subst. left. reflexivity. }
  destruct (mem_str (d_name d) (o_ignore o)) eqn:M; [inversion H; subst; right; split; auto; now apply mem_str_iff|]. left.
  destruct (analyze _ _ _ _ _) as [e|].
  { destruct (o_stop o); [discriminate|]. destruct (has_suffix _ _); [destruct (negb _)|]; inversion H; subst; reflexivity. }
  destruct (if String.eqb (d_name d) "if" then prepare_if (d_args d) else Some (d_args d)) as [args|]; [|discriminate].
  destruct (_ && _)%bool; [|discriminate]. unfold do_include in H. cbn [d_args set_args] in H. destruct args as [|a0 args]; [discriminate|].
  destruct (has_magic _); [destruct (o_glob o _); [destruct (add_includes _ _ _)|]; discriminate|]. destruct (o_open o _); [destruct (add_includes _ _ _)|destruct (o_stop o)]; discriminate.
Qed.
Lemma decide_break : forall ctx d term st st', decide o dir ctx d term st = DBreak st' -> bad st'.
Proof.
  intros ctx d term st st' H. unfold decide in H. destruct (match read_slice (p_heap st) ctx with [] => None | _ => _ end) as [m|].
  { destruct (analyze_map_body _ _ _ _); [destruct (o_stop o)|]; discriminate. }
  destruct (mem_str (d_name d) (o_ignore o)) eqn:M; [discriminate|].
  destruct (analyze _ _ _ _ _) as [e|].
  { destruct (o_stop o); [discriminate|]. destruct (has_suffix _ _); [destruct (negb _)|]; inversion H; subst; reflexivity. }
  destruct (if String.eqb (d_name d) "if" then prepare_if (d_args d) else Some (d_args d)) as [args|]; [|discriminate].
  destruct (_ && _)%bool; [|discriminate]. unfold do_include in H. cbn [d_args set_args] in H. destruct args as [|a0 args]; [discriminate|].
  destruct (has_magic _); [destruct (o_glob o _); [destruct (add_includes _ _ _)|]; discriminate|]. destruct (o_open o _); [destruct (add_includes _ _ _)|destruct (o_stop o)]; discriminate.
Qed.
Lemma decide_map_term : forall ctx d term st d', decide o dir ctx d term st = DMap d' -> term = ";".
Proof.
  intros ctx d term st d' H. unfold decide in H. destruct (read_slice (p_heap st) ctx) as [|c r] eqn:RS.
  2: destruct (assoc (last (c :: r) "") map_bodies) eqn:A.
  2: { destruct (analyze_map_body _ _ _ _) eqn:M; [destruct (o_stop o); discriminate|]. apply analyze_map_body_iff in M; [apply M|]. apply map_block_iff. congruence. }
  all: exfalso; destruct (mem_str (d_name d) (o_ignore o)) eqn:M; [discriminate|].
  all: destruct (analyze _ _ _ _ _) as [e|]; [destruct (o_stop o); [discriminate|]; destruct (has_suffix _ _); [destruct (negb _)|]; discriminate|].
  all: destruct (if String.eqb (d_name d) "if" then prepare_if (d_args d) else Some (d_args d)) as [args|]; [|discriminate].
  all: destruct (_ && _)%bool; [|discriminate]; unfold do_include in H; cbn [d_args set_args] in H; destruct args as [|a0 args]; [discriminate|].
  all: destruct (has_magic _); [destruct (o_glob o _); [destruct (add_includes _ _ _)|]; discriminate|]; destruct (o_open o _); [destruct (add_includes _ _ _)|destruct (o_stop o)]; discriminate.
Qed.

Definition read_ok (toks : list token) : Prop := last_only toks /\ ignored_shut (o_ignore o) toks /\ headed true toks.
Definition used_up (toks : list token) (r : pres) : Prop :=
  match r with
  | POk _ rest st' => bad st' \/ exists used, toks = (used ++ rest)%list /\ no_errors used /\ (rest = [] \/ ((net used < 0)%Z /\ after_sep true used = true))
  | _ => True
  end.
Lemma used_padd : forall toks ds r, used_up toks (padd ds r) <-> used_up toks r.
Proof. intros toks ds []; cbn; tauto. Qed.
Lemma used_bad : forall ctx toks st r all, Run o dir ctx toks st r -> bad st -> used_up all r.
Proof. intros ctx toks st r all R B. apply bad_run in R; auto. destruct r; cbn; auto. Qed.
Lemma read_suffix : forall a b, read_ok (a ++ b) -> after_sep true a = true -> read_ok b.
Proof. intros a b (A & B & C) S. split; [eapply last_suffix; eauto|]. split; [eapply shut_suffix; eauto|eapply headed_suffix; eauto]. Qed.
Lemma used_more : forall a b r, no_errors a -> (net a <= 0)%Z -> after_sep true a = true -> used_up b r -> used_up (a ++ b) r.
Proof.
  intros a b [ds rest st'| | |] NE N S U; cbn in *; auto. destruct U as [U|(used & -> & NU & D)]; auto. right. exists (a ++ used)%list. rewrite <- app_assoc. split; auto.
  split; [apply Forall_app; auto|]. destruct D as [D|[D1 D2]]; auto. right. rewrite net_app, after_app, S. split; auto. lia.
Qed.
(** The tokens of a statement's head. *)
Lemma head_used : forall t r args cs term rest, read_ok (t :: r) -> starts t -> read_args (o_comments o) r = Some (args, cs, term, rest) ->
  exists mid tt, (t :: r = (t :: mid ++ [tt]) ++ rest)%list /\ r = (mid ++ tt :: rest)%list /\ Forall (fun t => is_term t = false) mid /\ no_errors (t :: mid ++ [tt]) /\ after_sep true (t :: mid ++ [tt]) = true /\
    net (t :: mid ++ [tt]) = (if String.eqb term "{" then 1 else if String.eqb term "}" then -1 else 0)%Z /\ opensb tt = String.eqb term "{" /\ read_ok rest.
Proof.
  intros t r args cs term rest RO (S1 & S2 & S3) RA. destruct (read_split _ _ _ _ _ _ RA) as (mid & tt & -> & F & T & V).
  assert (ALL : (t :: mid ++ tt :: rest = (t :: mid ++ [tt]) ++ rest)%list) by (cbn [app]; rewrite <- app_assoc; reflexivity).
  assert (O : tok_is t "{" = false).
  { destruct RO as (_ & _ & N). destruct (tok_is t "{") eqn:O; auto. specialize (N [] t (mid ++ tt :: rest)%list eq_refl O). discriminate. }
  destruct (stmt_used t _ mid tt rest (proj1 RO) S1 S2 O eq_refl F T) as [NE NT].
  assert (AS : after_sep true (t :: mid ++ [tt]) = true) by (apply (sep_after (t :: mid)), term_sep; auto).
  assert (Q : t_quoted tt = false) by (unfold is_term, tok_is in T; destruct (t_quoted tt); auto).
  assert (OP : opensb tt = String.eqb term "{") by (unfold opensb; now rewrite Q, V).
  assert (CL : closesb tt = String.eqb term "}") by (unfold closesb; now rewrite Q, V).
  exists mid, tt. split; [exact ALL|]. split; [reflexivity|]. split; [exact F|]. split; [exact NE|]. split; [exact AS|]. split; [now rewrite NT, OP, CL|]. split; [exact OP|].
  rewrite ALL in RO. eapply read_suffix; eauto.
Qed.
Lemma run_used : forall ctx toks st r, Run o dir ctx toks st r -> read_ok toks -> used_up toks r.
Proof.
  intros ctx toks st r R. induction R; intros RO; try exact I.
  - right. exists []. repeat split; auto. constructor.
  - right. exists [t]. repeat split; auto; [repeat constructor; auto|]. right. cbn [net after_sep].
    assert (X : is_term t = true) by (unfold is_term; rewrite H0; apply orb_true_r). pose proof (term_sep t X) as SP. pose proof (sep_after [] t true SP) as SA. cbn [app after_sep] in SA. split; auto.
    change (closesb t) with (tok_is t "}"). change (opensb t) with (tok_is t "{"). rewrite H0. unfold tok_is in *. apply andb_true_iff in H0 as [-> E]. apply String.eqb_eq in E. rewrite E. reflexivity.
  - apply used_padd. change (t :: r) with ([t] ++ r)%list. pose proof (comment_net t H1) as [C1 C2]. pose proof (note_same t H1) as C3.
    apply used_more; [repeat constructor; auto|cbn [net]; rewrite C1, C2; lia|cbn [after_sep]; now rewrite C3|].
    apply IHR. apply (read_suffix [t]); auto. cbn [after_sep]. now rewrite C3.
  - left. eapply decide_break; eauto.
  - destruct (decide_skip _ _ _ _ _ _ H1) as [B|(IG & EE & ->)]; [eapply used_bad; eauto|].
    destruct (head_used t r args cs term rest RO H H0) as (mid & tt & ALL & RR & F & NE & AS & NT & OP & RO').
    destruct eat.
    + symmetry in EE. assert (SH : shut rest).
      { destruct RO as (_ & SHUT & _). eapply (SHUT [] t mid tt rest); auto; [now rewrite RR| |now rewrite OP]. eapply Forall_impl; [|exact F]. intros x. apply term_braces. }
      destruct SH as (b & c & E & N & NB). destruct (consume_shut rest 0 b c E N NB) as (b' & E' & N' & NB'). destruct (consume_sep rest 0 b c E N NB) as (b2 & x & E2 & S2).
      assert (b' = (b2 ++ [x])%list) by (rewrite E' in E2 at 1; now apply app_inv_tail in E2). subst b'.
      rewrite ALL, E', app_assoc. apply used_more.
      * apply Forall_app; auto.
      * rewrite net_app, NT, EE, N'. cbn. lia.
      * rewrite after_app. apply sep_after; auto.
      * apply IHR. rewrite E' in RO'. apply read_suffix in RO'; auto. apply sep_after; auto.
    + rewrite ALL. apply used_more; auto. rewrite NT, <- EE. destruct (term =? "}"); lia.
  - apply used_padd. destruct (head_used t r args cs term rest RO H H0) as (mid & tt & ALL & RR & F & NE & AS & NT & OP & RO'). apply decide_map_term in H1. subst term.
    rewrite ALL. apply used_more; auto. rewrite NT. cbn. lia.
  - apply used_padd. destruct (head_used t r args cs term rest RO H H0) as (mid & tt & ALL & RR & F & NE & AS & NT & OP & RO').
    rewrite ALL. apply used_more; auto. rewrite NT, H2. destruct (term =? "}"); lia.
  - apply used_padd. destruct (head_used t r args cs term rest RO H H0) as (mid & tt & ALL & RR & F & NE & AS & NT & OP & RO').
    destruct (IHR1 RO') as [B|(used & E & NU & D)]; [eapply used_bad; eauto|]. rewrite ALL, E, app_assoc. destruct D as [->|[D1 D2]].
    + inversion R2; subst. right. exists ((t :: mid ++ [tt]) ++ used)%list. repeat split; auto. apply Forall_app; auto.
    + apply used_more.
      * apply Forall_app; auto.
      * rewrite net_app, NT, H2. lia.
      * rewrite after_app, AS. auto.
      * apply IHR2. rewrite E in RO'. now apply read_suffix in RO'.
  - destruct res; try exact I. destruct H4.
Qed.
End Lost.

(** ** Files *)
Lemma after_all_notes : forall a, Forall (fun x => noteb x = true) a -> forall b, after_sep b a = b.
Proof. intros a F. induction F as [|t a N F IH]; intros b; auto. cbn [after_sep]. now rewrite N. Qed.
Lemma after_flag : forall a, (exists x, In x a /\ noteb x = false) -> forall b c, after_sep b a = after_sep c a.
Proof.
  induction a as [|t a IH]; intros (x & I & N) b c; [destruct I|]. cbn [after_sep]. destruct I as [->|I]; [now rewrite N|]. apply IH. eauto.
Qed.
Lemma notes_dec : forall a, Forall (fun x => noteb x = true) a \/ exists x, In x a /\ noteb x = false.
Proof.
  induction a as [|t a [IH|(x & I & N)]]; [left; constructor| |right; exists x; split; auto; now right].
  destruct (noteb t) eqn:N; [left; constructor; auto|right; exists t; split; auto; now left].
Qed.
Definition spaced_named : forall toks, (forall a t b, toks = (a ++ t :: b)%list -> opensb t = true -> after_sep false a = true -> t_val t = "}") -> ~ leads toks -> headed true toks.
Proof.
  intros toks SP NL a t r E O. destruct (notes_dec a) as [F|X].
  - destruct NL. exists a, t, r. auto.
  - rewrite (after_flag a X true false). destruct (after_sep false a) eqn:A; auto. specialize (SP a t r E O A). unfold opensb in O. rewrite SP in O. rewrite andb_false_r in O. discriminate.
Qed.
Lemma opens_sep : forall t, opensb t = true -> sepb t = true.
Proof. intros t O. unfold opensb, sepb in *. apply andb_true_iff in O as [-> E]. apply String.eqb_eq in E. now rewrite E. Qed.
Lemma verdict_bad : forall toks, verdict toks -> ~ no_errors toks -> exists pre t, toks = (pre ++ [t])%list /\ no_errors pre /\ nested pre /\ last_only toks /\
  forall a t b, toks = (a ++ t :: b)%list -> opensb t = true -> after_sep false a = true -> t_val t = "}".
Proof.
  intros toks [NE NS SP NT|pre t -> NE NS SP BR V Q] NN; [contradiction|]. exists pre, t. repeat split; auto.
  - assert (X : In t0 pre \/ b = []).
    { destruct (exists_last (l := t0 :: b)) as (l & y & E); [discriminate|]. destruct b as [|z b]; auto. left. rewrite E in H. rewrite app_assoc in H. apply app_inj_tail in H as [-> _]. apply in_or_app. right.
      destruct l as [|w l]; [discriminate|]. inversion E. now left. }
    destruct X as [X|X]; auto. unfold no_errors in NE. rewrite Forall_forall in NE. specialize (NE t0 X). contradiction.
  - assert (X : In t0 pre \/ t0 = t).
    { assert (I : In t0 (pre ++ [t])) by (rewrite H; apply in_or_app; right; now left). apply in_app_or in I as [I|[->|[]]]; auto. }
    destruct X as [X| ->]; [unfold no_errors in NE; rewrite Forall_forall in NE; specialize (NE t0 X); contradiction|]. unfold is_term, tok_is. now rewrite V, Q.
  - intros a t0 b E O A. destruct (exists_last (l := t0 :: b)) as (l & y & E2); [discriminate|]. rewrite E2, app_assoc in E. apply app_inj_tail in E as [E1 E3]. subst y.
    destruct b as [|z b].
    + destruct l as [|w l]; [|destruct l; discriminate]. inversion E2; subst. unfold opensb in O. rewrite V in O. rewrite andb_false_r in O. discriminate.
    + destruct l as [|w l]; [discriminate|]. inversion E2; subst. apply (SP a w l); auto. now apply opens_sep.
Qed.
Lemma sep_term : forall t, sepb t = false -> is_term t = false.
Proof. intros t H. destruct (is_term t) eqn:E; auto. apply term_sep in E. congruence. Qed.
Lemma verdict_orderly : forall toks, verdict toks -> orderly toks.
Proof.
  intros toks V. assert (NC : forall t, opensb t = true -> t_val t <> "}").
  { intros t O E. unfold opensb in O. rewrite E in O. rewrite andb_false_r in O. discriminate. }
  destruct V as [NE NS SP NT|pre t -> NE NS SP BR V Q].
  - split; [|split].
    + intros a t b E T. exfalso. unfold no_errors in NE. rewrite Forall_forall in NE. apply T, NE. rewrite E. apply in_or_app. right. now left.
    + intros a t b E O. destruct (after_sep false a) eqn:A; auto. exfalso. apply (NC t O). apply (SP a t b E); auto. now apply opens_sep.
    + intros a b E _. exact (NS a b E).
  - destruct (verdict_bad (pre ++ [t])) as (pre' & t' & E & _ & NS' & LO & X).
    + now apply (vd_bad _ pre t).
    + intros NN. apply Forall_app in NN as [_ NN]. inversion NN as [|? ? N _]; subst. destruct BR; congruence.
    + split; [|split].
      * intros a t0 b E0 N0. destruct (LO a t0 b E0 N0) as [-> T]. split; auto. now apply term_braces in T.
      * intros a t0 b E0 O. destruct (after_sep false a) eqn:A; auto. exfalso. apply (NC t0 O). exact (X a t0 b E0 O A).
      * intros a b E2 NB. destruct (exists_last NB) as (l & y & ->). rewrite app_assoc in E2. apply app_inj_tail in E2 as [E2 _]. exact (NS a l E2).
Qed.
Lemma orderly_last : forall toks, orderly toks -> last_only toks /\ (forall a b, toks = (a ++ b)%list -> b <> [] -> (0 <= net a)%Z) /\
  forall a t b, toks = (a ++ t :: b)%list -> opensb t = true -> after_sep false a = true -> t_val t = "}".
Proof.
  intros toks (A & B & C). split; [|split; [exact C|]].
  - intros a t b E N. destruct (A a t b E N) as [-> S]. split; auto. now apply sep_term.
  - intros a t b E O X. specialize (B a t b E O). congruence.
Qed.
Definition lost_content (o : popts) (text : string) : Prop := let toks := lex (o_lexers o) text in
  orderly toks /\ ~ no_errors toks /\ ignored_shut (o_ignore o) toks /\ ~ leads toks.
Lemma run_lost : forall o dir ctx text st ds rest st', lost_content o text -> Run o dir ctx (lex (o_lexers o) text) st (POk ds rest st') -> bad st'.
Proof.
  intros o dir ctx text st ds rest st' (V & NN & SH & NL) R. set (toks := lex (o_lexers o) text) in *.
  destruct (orderly_last toks V) as (LO & NS & SP).
  assert (RO : read_ok o toks) by (split; [exact LO|split; [exact SH|apply spaced_named; auto]]).
  apply run_used in R; auto. destruct R as [B|(used & EU & NU & D)]; auto. exfalso. destruct rest as [|x rest].
  - rewrite app_nil_r in EU. subst used. contradiction.
  - destruct D as [D|[D _]]; [discriminate|]. assert (NX : x :: rest <> []) by discriminate. specialize (NS used (x :: rest) EU NX). lia.
Qed.
Definition tells (o : popts) (c : config) : Prop := forall text, o_open o (cf_file c) = inl text -> lost_content o text -> cf_status c = "failed".
Lemma files_tell : forall o dir fuel st st', Forall (tells o) (pl_config (p_pay st)) -> run_files fuel o dir st = FDone st' -> Forall (tells o) (pl_config (p_pay st')).
Proof.
  intros o dir. induction fuel as [|fuel IH]; intros st st' H E; cbn [run_files] in E.
  - destruct (p_queue st) as [|[path ctx] q]; inversion E; now subst.
  - destruct (p_queue st) as [|[path ctx] q]; [inversion E; now subst|]. unfold parse_file in E.
    destruct (o_open o path) as [content|msg] eqn:OP; [|discriminate]. set (toks := lex (o_lexers o) content) in *.
    set (st1 := set_cur (log_use (log_open (set_queue st q) path) path ctx) (Cfg path "ok" [] [])) in *.
    pose proof (parse_run o dir ctx toks st1) as R.
    pose proof (run_state_inv o dir (fun s => Forall (tells o) (pl_config (p_pay s)) /\ cf_parsed (p_cur s) = [])) as RI.
    destruct (parse o dir (S (List.length toks)) ctx toks st1) as [ds rest st2|e rest st2| |] eqn:PA; try discriminate.
    + pose proof (run_file _ _ _ _ _ _ R) as RF. cbn in RF. pose proof (fun L => run_lost o dir ctx content st1 ds rest st2 L R) as RL.
      apply RI in R; auto; [|intros c s s' EF A; eapply effect_trees; eauto]. destruct R as [R1 R2]. eapply IH; [|exact E]. cbn. apply Forall_app. split; auto. constructor; auto.
      intros text OT L. cbn in *. rewrite RF in OT. apply RL. congruence.
    + destruct (o_stop o); [discriminate|]. apply RI in R; auto; [|intros c s s' EF A; eapply effect_trees; eauto]. destruct R as [R1 R2]. eapply IH; [|exact E]. cbn. apply Forall_app. split; auto. constructor; auto.
      intros text OT L. reflexivity.
Qed.
Lemma collect_tells : forall fuel o filename st, collect fuel o filename = FDone st -> Forall (tells o) (pl_config (p_pay st)).
Proof. intros fuel o filename st C. eapply files_tell; [|exact C]. constructor. Qed.
(** A failed file makes the result failed. *)
Lemma failed_payload : forall fuel o filename st c, collect fuel o filename = FDone st -> In c (pl_config (p_pay st)) -> cf_status c = "failed" ->
  forall p, parse_main fuel o filename = ROk p ->
    pl_status p = "failed" /\ exists c', In c' (pl_config p) /\ cf_status c' = "failed" /\ (o_combine o = false -> c' = c).
Proof.
  intros fuel o filename st c C I F p P. pose proof (parse_consistent _ _ _ _ P) as [_ CS]. unfold parse_main in P. rewrite C in P. unfold finish in P.
  destruct (has_cycle _ _ _); [discriminate|]. destruct (o_combine o).
  - destruct (combined fuel (p_pay st)) as [q|e| |] eqn:CB; try discriminate. inversion P; subst q. clear P. destruct CS as [S1 (c1 & E1 & S2 & S3)].
    assert (F1 : cf_status c1 = "failed").
    { unfold combined in CB. destruct (pl_config (p_pay st)) as [|c0 cs] eqn:PC; [destruct I|]. destruct (perform _ _ _ _); try discriminate. inversion CB; subst p. cbn in E1. inversion E1; subst c1. cbn [cf_status].
      assert (X : existsb (fun c => String.eqb (cf_status c) "failed") (c0 :: cs) = true) by (apply existsb_exists; exists c; rewrite F; auto). cbn [existsb] in X. now rewrite X. }
    split; [|exists c1; rewrite E1; repeat split; auto; [now left|discriminate]]. rewrite F1 in S2. unfold status_fits in *.
    destruct (cf_errors c1); [discriminate|]. destruct (pl_errors p); [discriminate|auto].
  - inversion P; subst p. destruct CS as [S1 S2 S3]. split; [|exists c; auto]. rewrite Forall_forall in S2. specialize (S2 c I). rewrite F in S2. unfold status_fits in *. destruct (cf_errors c) as [|e es] eqn:CE; [discriminate|].
    destruct (pl_errors (p_pay st)) as [|x xs] eqn:PE; auto. exfalso. unfold payload_labels in S3. rewrite PE in S3. cbn in S3. symmetry in S3.
    assert (X : forall l, In c l -> flat_map labelled l <> []).
    { intros l. induction l as [|y l IH]; [intros []|]; intros [->|J] E; cbn in E; apply app_eq_nil in E as [E1 E2]; [unfold labelled in E1; rewrite CE in E1; discriminate|eapply IH; eauto]. }
    eapply X; eauto.
Qed.
Lemma lex_orderly : forall o text, o_lexers o = [] \/ orderly (lex (o_lexers o) text) -> orderly (lex (o_lexers o) text).
Proof. intros o text [->|H]; auto. apply verdict_orderly, lex_verdict. Qed.
Lemma parse_tells : forall fuel o filename st c text, collect fuel o filename = FDone st -> In c (pl_config (p_pay st)) ->
  o_open o (cf_file c) = inl text -> let toks := lex (o_lexers o) text in o_lexers o = [] \/ orderly toks ->
  ~ no_errors toks -> ignored_shut (o_ignore o) toks -> ~ leads toks ->
  cf_status c = "failed" /\ forall p, parse_main fuel o filename = ROk p ->
    pl_status p = "failed" /\ exists c', In c' (pl_config p) /\ cf_status c' = "failed" /\ (o_combine o = false -> c' = c).
Proof.
  intros fuel o filename st c text C I OP toks NL NN SH LD.
  assert (F : cf_status c = "failed").
  { pose proof (collect_tells _ _ _ _ C) as T. rewrite Forall_forall in T. apply (T c I text OP). exact (conj (lex_orderly o text NL) (conj NN (conj SH LD))). }
  split; auto. eapply failed_payload; eauto.
Qed.

(** Deciding the conditions on concrete texts. *)
Fixpoint shutb (d : nat) (toks : list token) : bool :=
  match toks with
  | [] => false
  | t :: r =>
    match t_err t with
    | Some _ => false
    | None => if opensb t then shutb (S d) r else if closesb t then match d with O => true | S d => shutb d r end else shutb d r
    end
  end.
Lemma shutb_shut : forall toks d, shutb d toks = true -> exists b c, toks = (b ++ c)%list /\ net b = (- Z.of_nat (S d))%Z /\ no_errors b.
Proof.
  induction toks as [|t toks IH]; intros d H; [discriminate|]. cbn [shutb] in H. destruct (t_err t) eqn:TE; [discriminate|].
  assert (X : forall k, shutb k toks = true -> (net [t] - Z.of_nat (S k) = - Z.of_nat (S d))%Z -> exists b c, t :: toks = (b ++ c)%list /\ net b = (- Z.of_nat (S d))%Z /\ no_errors b).
  { intros k S E. destruct (IH k S) as (b & c & -> & N & NE). exists (t :: b), c. split; [reflexivity|]. split; [|constructor; auto]. change (t :: b) with ([t] ++ b)%list. rewrite net_app. lia. }
  destruct (opensb t) eqn:O; [apply (X _ H); cbn [net]; rewrite O; lia|]. destruct (closesb t) eqn:C; [|apply (X _ H); cbn [net]; rewrite O, C; lia].
  destruct d as [|d]; [|apply (X _ H); cbn [net]; rewrite O, C; lia]. exists [t], toks. split; [reflexivity|]. split; [cbn [net]; now rewrite O, C|]. repeat constructor; auto.
Qed.
Fixpoint opened (toks : list token) : option (list token) :=
  match toks with [] => None | t :: r => if sepb t then if opensb t then Some r else None else opened r end.
Fixpoint ignored_shutb (names : list string) (toks : list token) : bool :=
  match toks with
  | [] => true
  | t :: r => ((if existsb (String.eqb (t_val t)) names then match opened r with Some rest => shutb 0 rest | None => true end else true) && ignored_shutb names r)%bool
  end.
Lemma opened_at : forall args t rest, Forall (fun x => sepb x = false) args -> opensb t = true -> opened (args ++ t :: rest) = Some rest.
Proof.
  intros args t rest F O. induction F as [|x args S F IH]; cbn [app opened]; [now rewrite (opens_sep _ O), O|]. now rewrite S.
Qed.
Lemma ignored_shutb_ok : forall names toks, ignored_shutb names toks = true -> ignored_shut names toks.
Proof.
  intros names toks H a h args t rest E I F O. assert (X : ignored_shutb names (h :: args ++ t :: rest) = true).
  { subst toks. induction a as [|x a IH]; auto. cbn [app ignored_shutb] in H. apply andb_true_iff in H as [_ H]. auto. }
  cbn [ignored_shutb] in X. apply andb_true_iff in X as [X _]. assert (Y : existsb (String.eqb (t_val h)) names = true) by (apply existsb_exists; exists (t_val h); split; auto; apply String.eqb_refl).
  rewrite Y, opened_at in X by auto. apply shutb_shut in X as (b & c & -> & N & NE). exists b, c. auto.
Qed.
Fixpoint leadsb (toks : list token) : bool := match toks with [] => false | t :: r => if noteb t then leadsb r else opensb t end.
Lemma leadsb_ok : forall toks, leadsb toks = false -> ~ leads toks.
Proof.
  intros toks H (a & t & r & -> & F & O). induction F as [|x a N F IH]; cbn [app leadsb] in H.
  - assert (N : noteb t = false) by (unfold noteb, opensb in *; apply andb_true_iff in O as [_ O]; apply String.eqb_eq in O; rewrite O, andb_false_r; reflexivity). rewrite N in H. congruence.
  - rewrite N in H. auto.
Qed.
Definition cleanb (toks : list token) : bool := forallb (fun t => match t_err t with None => true | Some _ => false end) toks.
Lemma cleanb_not : forall toks, cleanb toks = false -> ~ no_errors toks.
Proof.
  intros toks H NE. assert (X : cleanb toks = true); [|congruence]. apply forallb_forall. intros t I. unfold no_errors in NE. rewrite Forall_forall in NE. now rewrite (NE t I).
Qed.
Fixpoint orderlyb (sep : bool) (d : Z) (toks : list token) : bool :=
  match toks with
  | [] => true
  | t :: r =>
    (Z.leb 0 d && (match t_err t with Some _ => negb (sepb t) && match r with [] => true | _ => false end | None => true end)
     && (negb (opensb t) || negb sep) && orderlyb (if noteb t then sep else sepb t) (d + net [t]) r)%bool
  end.
Lemma orderlyb_ok : forall toks, orderlyb false 0 toks = true -> orderly toks.
Proof.
  assert (X : forall toks sep d, orderlyb sep d toks = true ->
    (forall a t b, toks = (a ++ t :: b)%list -> t_err t <> None -> b = [] /\ sepb t = false) /\
    (forall a t b, toks = (a ++ t :: b)%list -> opensb t = true -> after_sep sep a = false) /\
    (forall a b, toks = (a ++ b)%list -> b <> [] -> (0 <= d + net a)%Z)).
  { induction toks as [|t toks IH]; intros sep d H.
    - split; [intros a t b E; destruct a; discriminate|]. split; [intros a t b E; destruct a; discriminate|]. intros a b E N. destruct a, b; try discriminate. congruence.
    - cbn [orderlyb] in H. rewrite !andb_true_iff in H. destruct H as [[[D E] O] R]. apply IH in R as (A & B & C). apply Z.leb_le in D. split; [|split].
      + intros a x b H NX. destruct a as [|y a]; injection H as <- H; [|eapply A; eauto]. destruct (t_err t); [|congruence]. apply andb_true_iff in E as [E1 E2]. subst toks. split; [destruct b; [auto|discriminate]|now apply negb_true_iff in E1].
      + intros a x b Q OX. destruct a as [|y a]; injection Q as <- Q; [rewrite OX in O; now apply negb_true_iff in O|]. cbn [after_sep]. eapply B; eauto.
      + intros a b Q NB. destruct a as [|y a]; [cbn [net]; lia|]. injection Q as <- Q. specialize (C a b Q NB). change (t :: a) with ([t] ++ a)%list. rewrite net_app. lia. }
  intros toks H. destruct (X toks false 0%Z H) as (A & B & C). split; [exact A|]. split; [exact B|]. intros a b E N. specialize (C a b E N). lia.
Qed.
