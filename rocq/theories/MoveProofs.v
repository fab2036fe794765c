(** C80: simulation of runs on files with other names. *)
From Verif Require Export SpecMove Util LibProofs.
Local Open Scope string_scope.

Lemma F2_app : forall A B (P : A -> B -> Prop) a b c d, Forall2 P a b -> Forall2 P c d -> Forall2 P (a ++ c) (b ++ d).
Proof. intros. now apply Forall2_app. Qed.
Definition refile (g : string) (e : parse_error) : parse_error := PE (pe_what e) (Some g) (pe_line e) (pe_stmt e) (pe_block e) (pe_orig e).
Lemma check_masks_file : forall v l a f g i b c m term ms what,
  check_masks (Dir v l a f i b c m) term what ms = check_masks (Dir v l a g i b c m) term what ms.
Proof.
  intros v l a f g i b c m term ms. induction ms as [|x ms IH]; intros what; [reflexivity|]. cbn [check_masks d_args d_name].
  rewrite !IH. reflexivity.
Qed.
Lemma analyze_file : forall o fn fn' v l a f g term cl,
  analyze o fn' (Dir v l a g None None None false) term cl = option_map (refile fn') (analyze o fn (Dir v l a f None None None false) term cl) /\
  (forall e, analyze o fn (Dir v l a f None None None false) term cl = Some e -> pe_file e = Some fn).
Proof.
  intros. unfold analyze. cbn [d_name d_line]. destruct (find_masks o v) as [ms known].
  destruct (o_strict o && negb known)%bool; [split; [reflexivity|now intros e [= <-]]|]. destruct (assoc _ contexts) as [cm|]; [|split; [reflexivity|discriminate]].
  destruct (negb known); [split; [reflexivity|discriminate]|]. destruct (negb (o_skipctx o) && _)%bool; [split; [reflexivity|now intros e [= <-]]|].
  destruct (o_skipargs o); [split; [reflexivity|discriminate]|]. rewrite (check_masks_file v l a g f). destruct (check_masks _ _ _ _); (split; [reflexivity|now try intros e [= <-]]).
Qed.
Lemma analyze_map_file : forall fn fn' v l a f g term cl,
  analyze_map_body fn' (Dir v l a g None None None false) term cl = option_map (refile fn') (analyze_map_body fn (Dir v l a f None None None false) term cl) /\
  (forall e, analyze_map_body fn (Dir v l a f None None None false) term cl = Some e -> pe_file e = Some fn).
Proof.
  intros. unfold analyze_map_body. destruct (assoc cl map_bodies) as [mm|]; [|split; [reflexivity|discriminate]]. cbn [d_name d_args].
  destruct (negb _); [split; [reflexivity|now intros e [= <-]]|]. destruct (assoc v _); destruct (valid_args _ _); (split; [reflexivity|]); try discriminate; now intros e [= <-].
Qed.

(** ** Tokens *)
Definition good (P : string -> Prop) (ts : list token) : Prop := forall a, included ts a -> P a.
Lemma good_app : forall P a b, good P (a ++ b) -> good P b.
Proof.
  intros P a b G x (pre & t & mid & y & post & -> & N & F & V). apply G. exists (a ++ pre)%list, t, mid, y, post. now rewrite <- app_assoc.
Qed.
Lemma term_ends : forall t, is_term t = false -> ~ ends_stmt t.
Proof.
  intros [v l q e] T [Q I]. unfold is_term, tok_is in T. cbn in *. subst q. cbn in T. destruct I as [<-|[<-|[<-|[]]]]; discriminate T.
Qed.
Lemma read_args_rest : forall b ts a c tm r, read_args b ts = Some (a, c, tm, r) -> exists p, ts = (p ++ r)%list.
Proof.
  intros b. induction ts as [|t ts IH]; intros a c tm r H; [discriminate|]. cbn [read_args] in H. destruct (is_term t).
  - injection H as <- <- <- <-. now exists [t].
  - destruct (read_args b ts) as [[[[a1 c1] t1] r1]|] eqn:E; [|discriminate]. destruct (IH _ _ _ _ eq_refl) as [p ->].
    exists (t :: p). destruct (negb _); [|destruct b]; injection H as <- <- <- <-; reflexivity.
Qed.
Lemma read_args_first : forall b ts a0 a c tm r, read_args b ts = Some (a0 :: a, c, tm, r) ->
  exists mid y post, ts = (mid ++ y :: post)%list /\ Forall (fun x => ~ ends_stmt x) (mid ++ [y])%list /\ t_val y = a0.
Proof.
  intros b. induction ts as [|t ts IH]; intros a0 a c tm r H; [discriminate|]. cbn [read_args] in H. destruct (is_term t) eqn:T; [discriminate|]. apply term_ends in T.
  destruct (read_args b ts) as [[[[a1 c1] t1] r1]|] eqn:E; [|discriminate]. destruct (negb _).
  - injection H as <- <- <- <- <-. exists [], t, ts. split; [reflexivity|]. split; [|reflexivity]. now constructor.
  - assert (X : a1 = a0 :: a) by (destruct b; injection H; auto). subst a1. destruct (IH _ _ _ _ _ eq_refl) as (mid & y & post & -> & F & V).
    exists (t :: mid), y, post. split; [reflexivity|]. split; [|exact V]. now constructor.
Qed.
Lemma consume_rest : forall ts n, exists p, ts = (p ++ consume n ts)%list.
Proof.
  induction ts as [|t ts IH]; intros n; [now exists []|]. cbn [consume].
  assert (L : exists p, t :: ts = (p ++ match n with O => ts | S d => consume d ts end)%list).
  { destruct n as [|d]; [now exists [t]|]. destruct (IH d) as [p X]. exists (t :: p). cbn. now rewrite <- X. }
  destruct (t_err t); [exact L|]. destruct (tok_is t "}"); [exact L|].
  destruct (tok_is t "{"); [destruct (IH (S n)) as [p X]|destruct (IH n) as [p X]]; exists (t :: p); cbn; now rewrite <- X.
Qed.

Section Move.
Variables (R M : string -> string -> Prop) (o : popts) (op : string -> string + string) (gl : string -> list string + string) (dir dir' : string).
Hypothesis one : one_to_one R.
Hypothesis texts : forall f g, R f g -> same_text M (o_open o f) (op g).
Definition target_ok (a : string) : Prop := same_target R M o gl (meant_path dir a) (meant_path dir' a).
Hypothesis targets : forall f g t, R f g -> o_open o f = inl t -> good target_ok (lex (o_lexers o) t).
Let o' := with_disk o op gl.

Notation serr := (same_err R M).
Notation sdirs := (Forall2 (same_dir R)).
Definition pair_eq {A} (x y : string * A) : Prop := R (fst x) (fst y) /\ snd x = snd y.
Definition pair_all (x y : string * list string) : Prop := R (fst x) (fst y) /\ Forall2 R (snd x) (snd y).
Definition sst (s s' : pst) : Prop :=
  Forall2 pair_eq (p_queue s) (p_queue s') /\ Forall2 pair_eq (p_included s) (p_included s') /\ Forall2 pair_all (p_edges s) (p_edges s') /\
  Forall2 pair_eq (p_indeg s) (p_indeg s') /\ p_heap s = p_heap s' /\ same_payload R M (p_pay s) (p_pay s').
Definition scur (s s' : pst) : Prop := same_config R M (p_cur s) (p_cur s').

Lemma R_eqb : forall f g f' g', R f g -> R f' g' -> String.eqb f f' = String.eqb g g'.
Proof.
  intros f g f' g' A B. destruct one as [U V]. destruct (String.eqb_spec f f') as [->|N], (String.eqb_spec g g') as [->|N']; auto.
  - exfalso. apply N'. eapply U; eauto.
  - exfalso. apply N. eapply V; eauto.
Qed.
Lemma assoc_rel : forall A B (P : A -> B -> Prop) m m' f g, Forall2 (fun x y => R (fst x) (fst y) /\ P (snd x) (snd y)) m m' -> R f g ->
  match assoc f m, assoc g m' with Some a, Some b => P a b | None, None => True | _, _ => False end.
Proof.
  intros A B P m m' f g F RF. induction F as [|[k a] [k' b] m m' [RK PA] F IH]; [exact I|]. cbn [assoc fst snd] in *. rewrite (R_eqb _ _ _ _ RF RK). destruct (String.eqb g k'); auto.
Qed.
Lemma set_rel : forall A B (P : A -> B -> Prop) m m' f g a b, Forall2 (fun x y => R (fst x) (fst y) /\ P (snd x) (snd y)) m m' -> R f g -> P a b ->
  Forall2 (fun x y => R (fst x) (fst y) /\ P (snd x) (snd y)) (assoc_set f a m) (assoc_set g b m').
Proof.
  intros A B P m m' f g a b F RF PA. induction F as [|[k c] [k' d] m m' [RK PC] F IH]; cbn [assoc_set]; [now repeat constructor|].
  cbn [fst snd] in *. rewrite (R_eqb _ _ _ _ RF RK). destruct (String.eqb g k'); constructor; auto.
Qed.
Lemma get_rel : forall m m' f g, Forall2 pair_eq m m' -> R f g -> get_z f m = get_z g m'.
Proof. intros m m' f g F RF. pose proof (assoc_rel _ _ eq m m' f g F RF) as X. unfold get_z. destruct (assoc f m), (assoc g m'); try contradiction; auto. Qed.
Lemma rel_len : forall A B (P : A -> B -> Prop) l l', Forall2 P l l' -> List.length l = List.length l'.
Proof. induction 1; cbn; congruence. Qed.

Lemma mv_handle : forall s s' e e', sst s s' -> scur s s' -> serr e e' -> sst (handle_error o s e) (handle_error o' s' e') /\ scur (handle_error o s e) (handle_error o' s' e').
Proof.
  intros s s' e e' (Q & I & E & D & H & (P1 & P2 & P3)) (C1 & C2 & C3 & C4) SE.
  assert (SL : err_line e = err_line e') by (destruct SE; reflexivity).
  unfold handle_error, sst, scur. cbn. split.
  - repeat (split; [assumption|]). split; [reflexivity|]. split; [|exact P3]. cbn. apply Forall2_app; [exact P2|]. constructor; [|constructor].
    split; [exact C1|]. split; [exact SL|]. split; [exact SE|]. cbn. destruct (o_callback o); [split; discriminate|reflexivity].
  - split; [exact C1|]. split; [reflexivity|]. split; [|exact C4]. cbn. apply Forall2_app; [exact C3|]. constructor; [now split|constructor].
Qed.
Lemma mv_add : forall ctx f g s s', R f g -> sst s s' -> scur s s' ->
  sst (fst (add_include ctx s f)) (fst (add_include ctx s' g)) /\ scur (fst (add_include ctx s f)) (fst (add_include ctx s' g)) /\
  snd (add_include ctx s f) = snd (add_include ctx s' g).
Proof.
  intros ctx f g s s' RF (Q & I & E & D & H & P) C. unfold add_include. pose proof (assoc_rel _ _ eq _ _ f g I RF) as AI.
  assert (ED : Forall2 R (match assoc (cf_file (p_cur s)) (p_edges s) with Some l => l | None => [] end ++ [f])%list (match assoc (cf_file (p_cur s')) (p_edges s') with Some l => l | None => [] end ++ [g])%list).
  { apply Forall2_app; [|now repeat constructor]. pose proof (assoc_rel _ _ (Forall2 R) _ _ _ _ E (proj1 C)) as X. destruct (assoc _ (p_edges s)), (assoc _ (p_edges s')); try contradiction; auto. }
  pose proof (set_rel _ _ (Forall2 R) _ _ _ _ _ _ E (proj1 C) ED) as E2.
  assert (D2 : Forall2 pair_eq (assoc_set f (get_z f (p_indeg s) + 1)%Z (p_indeg s)) (assoc_set g (get_z g (p_indeg s') + 1)%Z (p_indeg s'))).
  { apply (set_rel _ _ eq); auto. now rewrite (get_rel _ _ f g D RF). }
  destruct (assoc f (p_included s)), (assoc g (p_included s')); try contradiction; cbn [fst snd]; unfold sst, scur; cbn.
  - split; [now repeat (split; [assumption|])|]. split; [exact C|]. now apply get_rel.
  - assert (I2 : Forall2 pair_eq (assoc_set f (Z.of_nat (List.length (p_included s))) (p_included s)) (assoc_set g (Z.of_nat (List.length (p_included s'))) (p_included s'))).
    { apply (set_rel _ _ eq); auto. now rewrite (rel_len _ _ _ _ _ I). }
    split; [split; [|now repeat (split; [assumption|])]|split; [exact C|now apply get_rel]].
    apply Forall2_app; [exact Q|]. repeat constructor. exact RF.
Qed.
Lemma mv_adds : forall ctx fs gs, Forall2 R fs gs -> forall s s', sst s s' -> scur s s' ->
  sst (fst (add_includes ctx s fs)) (fst (add_includes ctx s' gs)) /\ scur (fst (add_includes ctx s fs)) (fst (add_includes ctx s' gs)) /\
  snd (add_includes ctx s fs) = snd (add_includes ctx s' gs).
Proof.
  intros ctx. induction 1 as [|f g fs gs RF F IH]; intros s s' SS SC; [auto|]. cbn [add_includes].
  destruct (mv_add ctx f g s s' RF SS SC) as (A & C & B). destruct (add_include ctx s f) as [s1 i1]. destruct (add_include ctx s' g) as [s2 i2]. cbn in A, B, C.
  destruct (IH s1 s2 A C) as (A2 & C2 & B2). destruct (add_includes ctx s1 fs) as [s3 j1]. destruct (add_includes ctx s2 gs) as [s4 j2]. cbn in *. split; [exact A2|]. split; [exact C2|congruence].
Qed.

Inductive sdec : decision -> decision -> Prop :=
| xd_keep : forall d d' s s', same_dir R d d' -> d_block d = None -> sst s s' -> scur s s' -> sdec (DKeep d s) (DKeep d' s')
| xd_map : forall d d', same_dir R d d' -> sdec (DMap d) (DMap d')
| xd_skip : forall b s s', sst s s' -> scur s s' -> sdec (DSkip b s) (DSkip b s')
| xd_break : forall s s', sst s s' -> scur s s' -> sdec (DBreak s) (DBreak s')
| xd_err : forall e e' s s', serr e e' -> sst s s' -> scur s s' -> sdec (DErr e s) (DErr e' s')
| xd_panic : sdec DPanic DPanic.
Inductive spres : pres -> pres -> Prop :=
| xp_ok : forall ds ds' r s s', sdirs ds ds' -> good target_ok r -> sst s s' -> scur s s' -> spres (POk ds r s) (POk ds' r s')
| xp_err : forall e e' r r' s s', serr e e' -> sst s s' -> scur s s' -> spres (PErr e r s) (PErr e' r' s')
| xp_panic : spres PPanic PPanic
| xp_fuel : spres PFuel PFuel.
Inductive sfres : fres -> fres -> Prop :=
| xf_done : forall s s', sst s s' -> sfres (FDone s) (FDone s')
| xf_err : forall e e' s s', serr e e' -> sfres (FErr e s) (FErr e' s')
| xf_panic : sfres FPanic FPanic
| xf_fuel : sfres FFuel FFuel.

Lemma mv_include : forall ctx v l a f g s s', sst s s' -> scur s s' -> label R f g -> (forall a0 r, a = a0 :: r -> target_ok a0) ->
  sdec (do_include o dir ctx (Dir v l a f None None None false) s) (do_include o' dir' ctx (Dir v l a g None None None false) s').
Proof.
  intros ctx v l a f g s s' SS SC LB TG. pose proof SS as (Q & I & E & D & H & P). pose proof SC as (C1 & _). unfold do_include. cbn [d_args d_name d_line].
  rewrite <- H. destruct a as [|a0 a].
  { apply xd_err; [|exact SS|exact SC]. constructor; [|exact C1]. right. right.
    exists ("invalid number of arguments in " ++ s_dq ++ v ++ s_dq ++ " directive in "), (cf_file (p_cur s)), (cf_file (p_cur s')), (":" ++ itoa l).
    split; [exact C1|]. split; now rewrite !app_assoc_s. }
  change (o_glob o') with gl. change (o_open o') with op. change (o_stop o') with (o_stop o).
  specialize (TG a0 a eq_refl). unfold target_ok, same_target in TG. change (meant_path dir a0) with (resolve dir a0) in TG. change (meant_path dir' a0) with (resolve dir' a0) in TG.
  destruct TG as [MG TG]. unfold has_magic. rewrite <- MG. destruct (contains_any _ _).
  - destruct TG as [fs gs F|m m' MM]; [|apply xd_err; [constructor; now right|exact SS|exact SC]].
    destruct (mv_adds ctx _ _ F s s' SS SC) as (X & Z & Y).
    destruct (add_includes ctx s (sort_strings fs)) as [s1 is1]. destruct (add_includes ctx s' (sort_strings gs)) as [s2 is2]. cbn in X, Y, Z. subst. constructor; auto. unfold set_includes. cbn. now constructor.
  - assert (SL : sst (log_open s (resolve dir a0)) (log_open s' (resolve dir' a0))) by exact SS.
    assert (SL2 : scur (log_open s (resolve dir a0)) (log_open s' (resolve dir' a0))) by exact SC.
    destruct (texts _ _ TG) as [t|m m' MM].
    + destruct (mv_adds ctx [resolve dir a0] [resolve dir' a0] ltac:(now repeat constructor) _ _ SL SL2) as (X & Z & Y).
      destruct (add_includes ctx (log_open s _) _). destruct (add_includes ctx (log_open s' _) _). cbn in X, Y, Z. subst. constructor; auto. unfold set_includes. cbn. now constructor.
    + match goal with |- sdec (if _ then DErr ?e _ else _) (if _ then DErr ?e' _ else _) => assert (SE : serr e e') end.
      { constructor; [|exact C1]. right. now left. }
      destruct (o_stop o); [now constructor|]. destruct (mv_handle _ _ _ _ SL SL2 SE). constructor; auto. now constructor.
Qed.
Lemma same_refile : forall e f g, pe_file e = Some f -> R f g -> serr (EParse e) (EParse (refile g e)).
Proof. intros [w fi l s b og] f g E RF. cbn in E. subst fi. unfold refile. cbn. constructor; auto. now left. Qed.
Lemma mv_decide : forall ctx v l a f g term s s', sst s s' -> scur s s' -> label R f g -> (forall a0 r, v = "include" -> a = a0 :: r -> target_ok a0) ->
  sdec (decide o dir ctx (Dir v l a f None None None false) term s) (decide o' dir' ctx (Dir v l a g None None None false) term s').
Proof.
  intros ctx v l a f g term s s' SS SC LB TG. pose proof SS as (Q & I & E & D & H & P). pose proof SC as (C1 & _). unfold decide. cbn [d_name d_args set_args].
  rewrite <- H. change (o_stop o') with (o_stop o). change (o_ignore o') with (o_ignore o). change (analyze o') with (analyze o). change (o_single o') with (o_single o).
  destruct (match read_slice (p_heap s) ctx with [] => None | _ => _ end) as [m|].
  { destruct (analyze_map_file (cf_file (p_cur s)) (cf_file (p_cur s')) v l a f g term m) as [-> AM].
    destruct (analyze_map_body (cf_file (p_cur s)) _ term m) as [e|]; cbn [option_map]; [|constructor; now constructor].
    pose proof (same_refile e _ _ (AM e eq_refl) C1) as SE.
    destruct (o_stop o); [now constructor|]. destruct (mv_handle _ _ _ _ SS SC SE). now constructor. }
  destruct (mem_str _ _); [now constructor|].
  destruct (analyze_file o (cf_file (p_cur s)) (cf_file (p_cur s')) v l a f g term (read_slice (p_heap s) ctx)) as [-> AN].
  destruct (analyze o (cf_file (p_cur s)) _ term _) as [e|]; cbn [option_map].
  { pose proof (same_refile e _ _ (AN e eq_refl) C1) as SE. change (pe_what (refile (cf_file (p_cur s')) e)) with (pe_what e).
    destruct (o_stop o); [now constructor|]. destruct (mv_handle _ _ _ _ SS SC SE).
    destruct (has_suffix _ _); [destruct (negb _)|]; now constructor. }
  destruct (String.eqb_spec v "if") as [->|NI].
  - destruct (prepare_if a) as [args|]; [|constructor]. rewrite andb_false_r. constructor; auto. now constructor.
  - destruct (negb (o_single o)); cbn [andb]; [|constructor; auto; now constructor].
    destruct (String.eqb_spec v "include") as [->|N]; [apply mv_include; eauto|constructor; auto; now constructor].
Qed.
Lemma padd_s : forall ds ds' r r', sdirs ds ds' -> spres r r' -> spres (padd ds r) (padd ds' r').
Proof. intros ds ds' r r' S1 []; cbn [padd]; constructor; auto. now apply Forall2_app. Qed.
Lemma mv_parse : forall fuel ctx ts s s', good target_ok ts -> sst s s' -> scur s s' -> spres (parse o dir fuel ctx ts s) (parse o' dir' fuel ctx ts s').
Proof.
  induction fuel as [|fuel IH]; intros ctx ts s s' G SS SC; [constructor|]. cbn [parse].
  destruct ts as [|t ts]; [constructor; auto; constructor|]. assert (GT : good target_ok ts) by (now apply (good_app _ [t])).
  pose proof SS as (QU & I & E & D & H & P). pose proof SC as (C1 & _). rewrite <- H.
  assert (FL : label R (file_label o s) (file_label o' s')) by (unfold file_label, o', label; cbn; destruct (o_combine o); auto).
  change (o_comments o') with (o_comments o).
  destruct (t_err t) as [e|].
  { apply xp_err; auto. unfold token_error. destruct e as [[w fi l st b og]|m]; cbn; constructor; auto; now left. }
  destruct (tok_is _ "}"); [constructor; auto|].
  destruct (tok_comment _).
  { apply padd_s; [destruct (o_comments o); [constructor; [constructor; exact FL|constructor]|constructor]|]. now apply IH. }
  destruct (read_args (o_comments o) ts) as [[[[a c] tm] r]|] eqn:RA.
  2:{ apply xp_err; auto. constructor; auto. now left. }
  assert (GR : good target_ok r) by (destruct (read_args_rest _ _ _ _ _ _ RA) as [p X]; rewrite X in GT; now apply good_app in GT).
  assert (CD : sdirs (map (comment_dir (file_label o s) (t_line t)) c) (map (comment_dir (file_label o' s') (t_line t)) c)).
  { clear -FL. induction c; constructor; auto. now constructor. }
  assert (TG : forall a0 q, t_val t = "include" -> a = a0 :: q -> target_ok a0).
  { intros a0 q N ->. apply G. destruct (read_args_first _ _ _ _ _ _ _ RA) as (mid & y & post & -> & F & V). now exists [], t, mid, y, post. }
  destruct (mv_decide ctx (t_val t) (t_line t) a _ _ tm s s' SS SC FL TG) as [d d' s1 s1' PD NB S1 S1c|d d' PD|b s1 s1' S1 S1c|s1 s1' S1 S1c|e e' s1 s1' SE S1 S1c|].
  - assert (NM : d_name d = d_name d') by (destruct PD; reflexivity).
    pose proof S1 as (? & ? & ? & ? & H1 & ?).
    destruct (String.eqb tm "{").
    + rewrite <- NM, <- H1. destruct (enter_block (p_heap s1) ctx (d_name d)) as [h inner].
      assert (S2 : sst (set_heap s1 h) (set_heap s1' h)) by (unfold sst; cbn; now repeat (split; [assumption || reflexivity|])).
      destruct (IH inner r _ _ GR S2 S1c) as [ds ds' q1 s2 s2' TD FQ S3 S3c|e e' q1 q1' s2 s2' SE S3 S3c| |]; try (constructor; auto).
      apply padd_s; [|now apply IH]. constructor; [|exact CD]. destruct PD; cbn in NB; [|discriminate]. unfold set_block. cbn. now constructor.
    + apply padd_s; [|now apply IH]. now constructor.
  - apply padd_s; [now repeat constructor|]. now apply IH.
  - apply IH; auto. destruct b; auto. destruct (consume_rest r 0) as [p X]. rewrite X in GR. now apply good_app in GR.
  - constructor; auto.
  - now constructor.
  - constructor.
Qed.
Lemma mv_file : forall f g ctx s s', R f g -> sst s s' -> sfres (parse_file o dir f ctx s) (parse_file o' dir' g ctx s').
Proof.
  intros f g ctx s s' RF SS. unfold parse_file. change (o_open o') with op. change (o_lexers o') with (o_lexers o). change (o_stop o') with (o_stop o).
  pose proof (targets f g) as TG. destruct (texts f g RF) as [t|m m' MM]; [|constructor; constructor; now right].
  specialize (TG t RF eq_refl).
  assert (S2 : sst (set_cur (log_use (log_open s f) f ctx) (Cfg f "ok" [] [])) (set_cur (log_use (log_open s' g) g ctx) (Cfg g "ok" [] []))) by exact SS.
  assert (S3 : scur (set_cur (log_use (log_open s f) f ctx) (Cfg f "ok" [] [])) (set_cur (log_use (log_open s' g) g ctx) (Cfg g "ok" [] []))).
  { split; [exact RF|]. split; [reflexivity|]. split; constructor. }
  destruct (mv_parse (S (List.length (lex (o_lexers o) t))) ctx _ _ _ TG S2 S3) as [ds ds' r s1 s1' TD _ S4 C4|e e' r r' s1 s1' SE S4 C4| |]; try constructor.
  - destruct S4 as (? & ? & ? & ? & ? & (P1 & P2 & P3)). destruct C4 as (C1 & C2 & C3 & _). unfold sst. cbn.
    do 5 (split; [assumption|]). split; [exact P1|]. split; [exact P2|].
    cbn. apply Forall2_app; [exact P3|]. constructor; [|constructor]. do 3 (split; [assumption|]). exact TD.
  - destruct (o_stop o); constructor; auto. destruct (mv_handle _ _ _ _ S4 C4 SE) as [(? & ? & ? & ? & ? & (P1 & P2 & P3)) C5].
    unfold sst. cbn [set_pay p_queue p_included p_edges p_indeg p_heap p_cur p_pay].
    do 5 (split; [assumption|]). split; [exact P1|]. split; [exact P2|]. apply Forall2_app; [exact P3|]. constructor; [exact C5|constructor].
Qed.
Lemma mv_files : forall fuel s s', sst s s' -> sfres (run_files fuel o dir s) (run_files fuel o' dir' s').
Proof.
  induction fuel as [|fuel IH]; intros s s' SS; cbn [run_files]; pose proof (proj1 SS) as Q; destruct Q as [|[f ctx] [g ctx'] q q' [RF E] Q].
  1: now constructor. 1: constructor. 1: now constructor. cbn in RF, E. subst ctx'.
  assert (S2 : sst (set_queue s q) (set_queue s' q')) by (destruct SS as (_ & SS); split; [exact Q|exact SS]).
  destruct (mv_file f g ctx _ _ RF S2); try (constructor; assumption). now apply IH.
Qed.

(** ** The cycle check *)
Lemma relax_rel : forall ns ns' m m', Forall2 R ns ns' -> Forall2 pair_eq m m' ->
  Forall2 pair_eq (fst (relax m ns)) (fst (relax m' ns')) /\ Forall2 R (snd (relax m ns)) (snd (relax m' ns')).
Proof.
  intros ns ns' m m' F. revert m m'. induction F as [|f g ns ns' RF F IH]; intros m m' MM; [split; [exact MM|constructor]|]. cbn [relax].
  rewrite <- (get_rel _ _ f g MM RF). specialize (IH (assoc_set f (get_z f m - 1)%Z m) (assoc_set g (get_z f m - 1)%Z m') ltac:(now apply (set_rel _ _ eq))).
  destruct (relax _ ns), (relax _ ns'). cbn in IH |- *. destruct IH as [A B]. split; [exact A|]. destruct (Z.eqb _ 0); [now constructor|exact B].
Qed.
Lemma kahn_rel : forall fuel e e' m m' q q' n, Forall2 pair_all e e' -> Forall2 pair_eq m m' -> Forall2 R q q' -> kahn fuel e m q n = kahn fuel e' m' q' n.
Proof.
  induction fuel as [|fuel IH]; intros e e' m m' q q' n E MM Q; destruct Q as [|f g q q' RF Q]; cbn [kahn]; auto.
  assert (X : Forall2 R (match assoc f e with Some l => l | None => [] end) (match assoc g e' with Some l => l | None => [] end)).
  { pose proof (assoc_rel _ _ (Forall2 R) _ _ f g E RF) as X. destruct (assoc f e), (assoc g e'); try contradiction; auto. }
  destruct (relax_rel _ _ _ _ X MM) as [A B]. destruct (relax m _), (relax m' _). cbn in A, B. apply IH; auto. now apply Forall2_app.
Qed.
Lemma cycle_rel : forall e e' m m', Forall2 pair_all e e' -> Forall2 pair_eq m m' -> has_cycle (map fst m) e m = has_cycle (map fst m') e' m'.
Proof.
  intros e e' m m' E MM. unfold has_cycle.
  assert (Q : Forall2 R (filter (fun k => Z.eqb (get_z k m) 0) (map fst m)) (filter (fun k => Z.eqb (get_z k m') 0) (map fst m'))).
  { assert (X : forall l l' : list (string * Z), Forall2 pair_eq l l' -> Forall2 R (filter (fun k => Z.eqb (get_z k m) 0) (map fst l)) (filter (fun k => Z.eqb (get_z k m') 0) (map fst l'))); [|now apply X].
    induction 1 as [|[k a] [k' b] l l' [RK _] F IH]; [constructor|]. cbn [map filter fst] in *. rewrite <- (get_rel _ _ k k' MM RK). destruct (Z.eqb _ 0); [now constructor|exact IH]. }
  assert (EC : edge_count e = edge_count e') by (clear -E; induction E as [|[k a] [k' b] l l' [_ F] E IH]; [reflexivity|]; unfold edge_count in *; cbn [fold_right snd] in *; now rewrite (rel_len _ _ _ _ _ F), IH).
  rewrite !map_length, <- EC, <- (rel_len _ _ _ _ _ MM). now rewrite (kahn_rel _ _ _ _ _ _ _ 0 E MM Q).
Qed.
End Move.

(** ** Combining *)
Section Combine.
Variables R M : string -> string -> Prop.
Inductive scres : Combine.cres -> Combine.cres -> Prop :=
| xc_ok : forall ds ds', Forall2 (same_dir R) ds ds' -> scres (COk ds) (COk ds')
| xc_err : forall e e', same_err R M e e' -> scres (CErr e) (CErr e')
| xc_panic : scres CPanic CPanic
| xc_fuel : scres CFuel CFuel.
Lemma cadd_s : forall ds ds' r r', Forall2 (same_dir R) ds ds' -> scres r r' -> scres (cadd ds r) (cadd ds' r').
Proof. intros ds ds' r r' S1 []; cbn [cadd]; constructor; auto. now apply Forall2_app. Qed.
Lemma cseq_s : forall a a' b b', scres a a' -> scres b b' -> scres (cseq a b) (cseq a' b').
Proof. intros a a' b b' [] S2; cbn [cseq]; try constructor; auto. now apply cadd_s. Qed.
Lemma same_dir_fields : forall x y, same_dir R x y -> is_include x = is_include y /\ d_includes x = d_includes y /\ dir_string x = dir_string y /\ d_line x = d_line y.
Proof.
  intros x y [n l a f g i c m L|n l a f g i b b' c m L F]; repeat split; unfold dir_string; cbn; try reflexivity. destruct F; reflexivity.
Qed.
Lemma perform_s : forall old old', Forall2 (same_config R M) old old' -> forall fuel f g ds ds', R f g -> Forall2 (same_dir R) ds ds' ->
  scres (perform fuel old f ds) (perform fuel old' g ds').
Proof.
  intros old old' FO. induction fuel as [|fuel IH]; intros f g ds ds' RF T; [constructor|].
  assert (LE : List.length old = List.length old') by (clear -FO; induction FO; cbn; congruence).
  assert (NT : forall n, match nth_error old n, nth_error old' n with None, None => True | Some c, Some c' => same_config R M c c' | _, _ => False end).
  { clear -FO. induction FO as [|x y l l2 SC FO IHF]; intros [|n]; cbn [nth_error]; first [exact I|exact SC|apply IHF]. }
  cbn [perform]. induction T as [|d d' ds ds' SD T IHT]; [constructor; constructor|].
  assert (STEP : forall x y, same_dir R x y -> forall is, scres
    ((fix go (idxs : list Z) : Combine.cres :=
        match idxs with
        | [] => COk []
        | i :: r =>
          if Z.leb (Z.of_nat (List.length old)) i then CErr (index_error f x i)
          else if Z.ltb i 0 then CPanic
          else match nth_error old (Z.to_nat i) with
               | None => CPanic
               | Some c => cseq (perform fuel old (cf_file c) (cf_parsed c)) (go r)
               end
        end) is)
    ((fix go (idxs : list Z) : Combine.cres :=
        match idxs with
        | [] => COk []
        | i :: r =>
          if Z.leb (Z.of_nat (List.length old')) i then CErr (index_error g y i)
          else if Z.ltb i 0 then CPanic
          else match nth_error old' (Z.to_nat i) with
               | None => CPanic
               | Some c => cseq (perform fuel old' (cf_file c) (cf_parsed c)) (go r)
               end
        end) is)).
  { intros x y E. destruct (same_dir_fields x y E) as (_ & _ & DS & DL). induction is as [|i is IHi]; [constructor; constructor|]. rewrite <- LE in *.
    destruct (Z.leb _ i); [constructor; unfold index_error; rewrite DS, DL; constructor; [now left|exact RF]|].
    destruct (Z.ltb i 0); [constructor|]. specialize (NT (Z.to_nat i)).
    destruct (nth_error old (Z.to_nat i)) as [c|], (nth_error old' (Z.to_nat i)) as [c'|]; try contradiction; [|constructor].
    destruct NT as (CF & _ & _ & CP). apply cseq_s; [now apply IH|]. exact IHi. }
  assert (GO : forall x y, same_dir R x y -> scres
    (if negb (is_include x) then cadd [x] (perform (S fuel) old f ds) else
       cseq ((fix go (idxs : list Z) : Combine.cres :=
        match idxs with
        | [] => COk []
        | i :: r =>
          if Z.leb (Z.of_nat (List.length old)) i then CErr (index_error f x i)
          else if Z.ltb i 0 then CPanic
          else match nth_error old (Z.to_nat i) with
               | None => CPanic
               | Some c => cseq (perform fuel old (cf_file c) (cf_parsed c)) (go r)
               end
        end) (opt_list (d_includes x))) (perform (S fuel) old f ds))
    (if negb (is_include y) then cadd [y] (perform (S fuel) old' g ds') else
       cseq ((fix go (idxs : list Z) : Combine.cres :=
        match idxs with
        | [] => COk []
        | i :: r =>
          if Z.leb (Z.of_nat (List.length old')) i then CErr (index_error g y i)
          else if Z.ltb i 0 then CPanic
          else match nth_error old' (Z.to_nat i) with
               | None => CPanic
               | Some c => cseq (perform fuel old' (cf_file c) (cf_parsed c)) (go r)
               end
        end) (opt_list (d_includes y))) (perform (S fuel) old' g ds'))).
  { intros x y E. destruct (same_dir_fields x y E) as (A & B & _). rewrite <- A, <- B. destruct (negb _).
    - apply cadd_s; [now repeat constructor|exact IHT].
    - apply cseq_s; [now apply STEP|exact IHT]. }
  pose proof SD as SD0. destruct SD as [n l a h k i c m L|n l a h k i b b' c m L F]; cbn [d_block].
  - exact (GO _ _ SD0).
  - pose proof (IH f g b b' RF F) as X. destruct X as [nb nb' TB|e e' SE| |]; try (constructor; assumption).
    apply (GO (with_block (Dir n l a h i (Some b) c m) nb) (with_block (Dir n l a k i (Some b') c m) nb')). unfold with_block. cbn. now constructor.
Qed.
Lemma errs_s : forall cs cs', Forall2 (same_config R M) cs cs' -> Forall2 (same_cerr R M) (flat_map cf_errors cs) (flat_map cf_errors cs').
Proof. induction 1 as [|c c' l l' (_ & _ & E & _) F IH]; [constructor|]. cbn [flat_map]. now apply Forall2_app. Qed.
Lemma failed_s : forall cs cs', Forall2 (same_config R M) cs cs' -> existsb (fun c => String.eqb (cf_status c) "failed") cs = existsb (fun c => String.eqb (cf_status c) "failed") cs'.
Proof. induction 1 as [|c c' l l' (_ & E & _) F IH]; [reflexivity|]. cbn [existsb]. now rewrite E, IH. Qed.
End Combine.

Lemma move_main : forall R M o op gl filename filename' fuel, one_to_one R -> R filename filename' ->
  (forall f g, R f g -> same_text M (o_open o f) (op g)) ->
  (forall f g text a, R f g -> o_open o f = inl text -> included (lex (o_lexers o) text) a ->
     same_target R M o gl (meant_path (dir_name filename) a) (meant_path (dir_name filename') a)) ->
  same_result R M (parse_main fuel o filename) (parse_main fuel (with_disk o op gl) filename').
Proof.
  intros R M o op gl filename filename' fuel ONE RF TX TG. unfold parse_main, collect.
  assert (S0 : sst R M (init_state filename) (init_state filename')).
  { unfold sst. cbn. do 4 (split; [repeat constructor; exact RF|]). split; [reflexivity|]. split; [reflexivity|]. split; constructor. }
  assert (TG' : forall f g t, R f g -> o_open o f = inl t -> good (target_ok R M o gl (dir_name filename) (dir_name filename')) (lex (o_lexers o) t)) by (intros f g t F O a I; exact (TG f g t a F O I)).
  destruct (mv_files R M o op gl _ _ ONE TX TG' fuel _ _ S0) as [s s' SS|e e' s s' SE| |]; try (constructor; assumption).
  pose proof SS as (_ & _ & E & D & _ & (P1 & P2 & P3)). unfold finish. rewrite <- (cycle_rel R ONE _ _ _ _ E D).
  destruct (has_cycle _ _ _); [constructor; constructor; now left|]. change (o_combine (with_disk o op gl)) with (o_combine o).
  destruct (o_combine o); [|constructor; now split].
  unfold combined. pose proof P3 as P4. pose proof (errs_s R M _ _ P3) as ER. pose proof (failed_s R M _ _ P3) as FA.
  destruct (pl_config (p_pay s)) as [|c0 cs] eqn:EC, (pl_config (p_pay s')) as [|c0' cs'] eqn:EC'; try (now inversion P3).
  { constructor. split; [exact P1|]. split; [exact P2|]. now rewrite EC, EC'. }
  inversion P4 as [|x1 x2 x3 x4 (F0 & _ & _ & T0) P5]; subst.
  destruct (perform_s R M _ _ P3 fuel _ _ _ _ F0 T0) as [ds ds' TD|e e' SE| |]; constructor; try assumption. rewrite <- P1, <- FA.
  split; [reflexivity|]. split; [exact P2|]. cbn [pl_config]. constructor; [|constructor]. split; [exact F0|]. split; [reflexivity|]. split; [exact ER|exact TD].
Qed.

(** ** A directory that is moved *)
Lemma join_cons : forall e es, es <> [] -> join (e :: es) "/" = e ++ "/" ++ join es "/".
Proof. intros e [|x es] N; [congruence|reflexivity]. Qed.
Lemma join_app : forall a b, a <> [] -> b <> [] -> join (a ++ b) "/" = join a "/" ++ "/" ++ join b "/".
Proof.
  induction a as [|e a IH]; intros b N1 N2; [congruence|]. destruct a as [|x a].
  - cbn [app]. rewrite join_cons by auto. reflexivity.
  - change ((e :: x :: a) ++ b)%list with (e :: ((x :: a) ++ b))%list. rewrite join_cons by discriminate. rewrite IH by (auto; discriminate). rewrite (join_cons e (x :: a)) by discriminate. now rewrite !app_assoc_s.
Qed.
Lemma split_parts : forall es, es <> [] -> Forall part es -> split slash (join es "/") = es.
Proof.
  induction es as [|e es IH]; intros N F; [congruence|]. inversion F as [|? ? (P & _) F']; subst. destruct es as [|x es].
  - cbn. now apply split_plain.
  - rewrite join_cons by discriminate. change ("/" ++ join (x :: es) "/") with (String slash (join (x :: es) "/")). rewrite split_first by exact P. rewrite IH; auto. discriminate.
Qed.
Lemma clean_parts : forall r es acc, Forall part es -> clean_elems r acc es = (rev acc ++ es)%list.
Proof.
  induction es as [|e es IH]; intros acc F; cbn [clean_elems]; [now rewrite app_nil_r|]. inversion F as [|? ? (_ & N1 & N2 & N3) F']; subst.
  rewrite (proj2 (String.eqb_neq _ _) N1), (proj2 (String.eqb_neq _ _) N2), (proj2 (String.eqb_neq _ _) N3). cbn [orb]. rewrite IH by auto. cbn [rev]. now rewrite <- app_assoc.
Qed.
Lemma abs_slash : forall x, is_abs (String slash x) = true.
Proof. intros []; reflexivity. Qed.
Lemma split_slash : forall x, split slash (String slash x) = "" :: split slash x.
Proof. reflexivity. Qed.
Lemma clean_rooted : forall es, es <> [] -> Forall part es -> clean ("/" ++ join es "/") = "/" ++ join es "/".
Proof.
  intros es N F. change ("/" ++ join es "/") with (String slash (join es "/")). unfold clean. rewrite abs_slash, split_slash. change (String.eqb (String slash (join es "/")) "") with false. cbv iota.
  cbn [clean_elems String.eqb orb]. rewrite split_parts by auto. now rewrite clean_parts.
Qed.
Lemma dir_join : forall D a, a_directory D -> path_down a -> join_path D a = below D a.
Proof.
  intros D a (x & (es & N & F & ->) & -> & _) (fs & N2 & F2 & ->). unfold join_path, below. change (String.eqb ("/" ++ join es "/") "") with false. cbv iota.
  rewrite app_assoc_s, <- join_app by auto. apply clean_rooted; [|apply Forall_app; auto]. destruct es; [congruence|discriminate].
Qed.
Lemma dir_of : forall D e, a_directory D -> part e -> dir_name (below D e) = D.
Proof.
  intros D e (x & (es & N & F & ->) & -> & _) (P & _). unfold dir_name, below. rewrite <- app_assoc_s. rewrite dir_prefix_app; [|exact P|right; now eexists].
  change (("/" ++ join es "/") ++ "/") with (String slash (join es "/" ++ "/")). unfold clean. rewrite abs_slash, split_slash.
  change (String.eqb (String slash (join es "/" ++ "/")) "") with false. cbv iota.
  assert (X : split slash (join es "/" ++ "/") = (es ++ [""])%list).
  { clear -N F. induction es as [|y es IH]; [congruence|]. inversion F as [|? ? (Q & _) F']; subst. destruct es as [|z es].
    - cbn [join String.concat app]. change (y ++ "/") with (y ++ String slash ""). rewrite split_first by exact Q. reflexivity.
    - rewrite join_cons by discriminate. rewrite !app_assoc_s. change ("/" ++ ?q) with (String slash q). rewrite split_first by exact Q. rewrite IH; auto. discriminate. }
  rewrite X. cbn [clean_elems String.eqb orb]. rewrite clean_app. rewrite (clean_parts true es []) by auto. cbn [rev app clean_elems String.eqb orb]. rewrite rev_involutive. reflexivity.
Qed.
Lemma app_cancel : forall p a b : string, p ++ a = p ++ b -> a = b.
Proof. induction p as [|c p IH]; intros a b H; auto. cbn in H. injection H as H. auto. Qed.
Lemma below_inj : forall D a b, below D a = below D b -> a = b.
Proof. intros D a b H. unfold below in H. apply app_cancel in H. now apply (app_cancel "/"). Qed.
Lemma moved_one : forall D D', one_to_one (moved D D').
Proof.
  intros D D'. split.
  - intros f g g' (x & _ & -> & ->) (y & _ & E & ->). apply below_inj in E. now subst.
  - intros f f' g (x & _ & -> & ->) (y & _ & -> & E). apply below_inj in E. now subst.
Qed.
Lemma str_exists_app : forall p a b, str_exists p (a ++ b) = (str_exists p a || str_exists p b)%bool.
Proof. intros p. unfold str_exists. induction a as [|c a IH]; intros b; auto. cbn [String.append list_of_str existsb]. now rewrite IH, orb_assoc. Qed.
Lemma magic_below : forall D x, a_directory D -> contains_any (below D x) "*?[" = contains_any x "*?[".
Proof. intros D x (y & _ & _ & N). unfold contains_any, below in *. rewrite !str_exists_app, N. reflexivity. Qed.
Lemma compare_prefix : forall p a b, String.compare (p ++ a) (p ++ b) = String.compare a b.
Proof. induction p as [|c p IH]; intros a b; auto. cbn. rewrite IH. unfold Ascii.compare. now rewrite N.compare_refl. Qed.
Lemma sort_below : forall D l, sort_strings (map (below D) l) = map (below D) (sort_strings l).
Proof.
  intros D. induction l as [|x l IH]; auto. unfold sort_strings in *. cbn [map fold_right]. rewrite IH. generalize (fold_right insert_str [] l) as m. induction m as [|y m IHm]; auto. cbn [map insert_str].
  assert (E : str_leb (below D x) (below D y) = str_leb x y) by (unfold str_leb, below; now rewrite !compare_prefix). rewrite E. destruct (str_leb x y); auto. cbn [map]. now rewrite IHm.
Qed.
Lemma part_relative : forall x, path_down x -> has_prefix x "/" = false.
Proof.
  intros x (es & N & F & ->). destruct es as [|e es]; [congruence|]. inversion F as [|? ? (P & E & _) _]; subst. destruct e as [|c e]; [congruence|].
  assert (C : c <> slash). { intros ->. apply P. exists "", e. reflexivity. }
  assert (X : exists t, join (String c e :: es) "/" = String c t) by (destruct es; eexists; reflexivity). destruct X as [t ->]. unfold has_prefix. cbn [prefix]. destruct (ascii_dec "/" c) as [E2|_]; [exfalso; apply C; now rewrite <- E2|reflexivity].
Qed.
Lemma move_dir : forall M D D' o op gl e fuel, a_directory D -> a_directory D' -> part e ->
  (forall x, path_down x -> same_text M (o_open o (below D x)) (op (below D' x))) ->
  (forall x text a, path_down x -> o_open o (below D x) = inl text -> included (lex (o_lexers o) text) a -> path_down a) ->
  (forall a, path_down a -> contains_any a "*?[" = true -> moved_list M D D' (o_glob o (below D a)) (gl (below D' a))) ->
  same_result (moved D D') M (parse_main fuel o (below D e)) (parse_main fuel (with_disk o op gl) (below D' e)).
Proof.
  intros M D D' o op gl e fuel HD HD' P TX TG GL. apply move_main.
  - apply moved_one.
  - exists e. split; [|auto]. exists [e]. split; [discriminate|]. split; [constructor; [exact P|constructor]|reflexivity].
  - intros f g (x & X & -> & ->). auto.
  - intros f g text a (x & X & -> & ->) O I. specialize (TG x text a X O I). rewrite !dir_of by auto. unfold meant_path. rewrite part_relative by auto. rewrite !dir_join by auto.
    unfold same_target. rewrite !magic_below by auto. split; [reflexivity|]. destruct (contains_any a "*?[") eqn:MG; [|now exists a].
    destruct (GL a TG MG) as [l F|m m' MM]; constructor; auto. rewrite !sort_below.
    assert (FS : Forall path_down (sort_strings l)). { apply Forall_forall. intros y Y. rewrite Forall_forall in F. apply F. apply (Permutation.Permutation_in (l := sort_strings l)); auto. apply Permutation.Permutation_sym. apply sort_sorted. }
    clear -FS. induction FS; cbn [map]; constructor; auto. now exists x.
Qed.
