(** Proofs for C66. *)
From Verif Require Export SpecInline FlattenProofs.
Local Open Scope string_scope.
Local Open Scope list_scope.

(** ** The tokens determine the statements *)
Lemma plain_not_term : forall t v l, plain t -> In v ["{"; "}"; ";"] -> t = Tok v l false None -> False.
Proof. intros t v l [Q|Q] I ->; cbn in *; [discriminate|]. now apply Q. Qed.
Lemma args_same : forall a b x y r s, Forall (fun a => t_err a = None /\ plain a) a -> Forall (fun a => t_err a = None /\ plain a) b ->
  ~ plain x -> ~ plain y -> a ++ x :: r = b ++ y :: s -> a = b /\ x = y /\ r = s.
Proof.
  induction a as [|u a IH]; intros [|v b] x y r s A B X Y E; cbn in E; inversion E as [[E1 E2]]; subst; auto.
  - inversion B as [|? ? [_ P] _]; contradiction.
  - inversion A as [|? ? [_ P] _]; contradiction.
  - inversion A; inversion B; subst. destruct (IH b x y r s) as (-> & -> & ->); auto.
Qed.
Lemma term_not_plain : forall v l, In v ["{"; "}"; ";"] -> ~ plain (Tok v l false None).
Proof. intros v l I P. exact (plain_not_term _ v l P I eq_refl). Qed.
Definition closes (r : list token) : Prop := r = [] \/ exists l r', r = Tok "}" l false None :: r'.
Lemma hash_plain : forall t, hash t -> plain t.
Proof. intros t [_ (r & E)]. right. rewrite E. cbn. intuition discriminate. Qed.
Lemma flat_unique_aux : forall n F G r s, List.length (flat F) < n -> Forall wf_stmt F -> Forall wf_stmt G -> closes r -> closes s ->
  flat F ++ r = flat G ++ s -> F = G /\ r = s.
Proof.
  assert (CL : forall n l (r : list token), ~ plain n -> plain l -> ~ (l :: r = n :: r)) by (intros n l r A B E; congruence).
  assert (HD : forall x G s, wf_stmt x -> exists t, hd_error (flat (x :: G) ++ s) = Some t /\ plain t).
  { intros x G s W. destruct W as [t E H|h args l E P NH A|h args l b c E P NH A B]; [exists t|exists h|exists h]; (split; [reflexivity|auto]). now apply hash_plain. }
  assert (NP : forall r t, closes r -> hd_error r = Some t -> plain t -> False).
  { intros r t [->|(l & r' & ->)] E P; [discriminate|]. cbn in E. injection E as <-. revert P. apply term_not_plain. cbn. auto. }
  induction n as [|n IH]; intros F G r s LT WF WG CR CS E; [lia|].
  destruct F as [|x F], G as [|y G].
  - cbn in E. auto.
  - exfalso. inversion WG as [|? ? W _]; subst. destruct (HD y G s W) as (t & T & P). rewrite <- E in T. cbn [flat flat_map app] in T. exact (NP r t CR T P).
  - exfalso. inversion WF as [|? ? W _]; subst. destruct (HD x F r W) as (t & T & P). rewrite E in T. cbn [flat flat_map app] in T. exact (NP s t CS T P).
  - inversion WF as [|? ? Wx WF']; inversion WG as [|? ? Wy WG']; subst.
    assert (S1 : flat (x :: F) = stmt_toks x ++ flat F) by reflexivity. assert (S2 : flat (y :: G) = stmt_toks y ++ flat G) by reflexivity.
    rewrite S1, S2, <- !app_assoc in E. rewrite S1, app_length in LT.
    assert (T1 : ~ plain (Tok ";" 0 false None)) by (apply term_not_plain; cbn; auto).
    assert (TP : forall v l l', plain (Tok v l false None) -> plain (Tok v l' false None)) by (intros v l l' [Q|Q]; [now left|now right]).
    inversion Wx as [t Et Ht|h args l Eh Ph NH A|h args l b c Eh Ph NH A B]; inversion Wy as [t' Et' Ht'|h' args' l' Eh' Ph' NH' A'|h' args' l' b' c' Eh' Ph' NH' A' B']; subst; cbn [stmt_toks] in E, LT; cbn [app] in E.
    + inversion E; subst. cbn in LT. destruct (IH F G r s) as [-> ->]; auto. lia.
    + inversion E; subst. contradiction.
    + inversion E; subst. contradiction.
    + inversion E; subst. contradiction.
    + rewrite <- !app_assoc in E. cbn [app] in E. inversion E as [[E1 E2]]; subst. apply args_same in E2 as (-> & El & E2); auto; try (apply term_not_plain; cbn; auto). injection El as ->.
      destruct (IH F G r s) as [-> ->]; auto. cbn [List.length] in LT. rewrite ?app_length in LT. cbn [List.length] in LT. lia.
    + exfalso. rewrite <- !app_assoc in E. cbn [app] in E. inversion E as [[E1 E2]]; subst. apply args_same in E2 as (-> & El & E2); auto; try (apply term_not_plain; cbn; auto). discriminate.
    + inversion E; subst. contradiction.
    + exfalso. rewrite <- !app_assoc in E. cbn [app] in E. inversion E as [[E1 E2]]; subst. apply args_same in E2 as (-> & El & E2); auto; try (apply term_not_plain; cbn; auto). discriminate.
    + rewrite <- !app_assoc in E. cbn [app] in E. inversion E as [[E1 E2]]; subst. apply args_same in E2 as (-> & El & E2); auto; try (apply term_not_plain; cbn; auto). injection El as ->.
      rewrite <- !app_assoc in E2. cbn [app] in E2. do 4 (cbn [List.length] in LT; rewrite ?app_length in LT).
      destruct (IH b b' (Tok "}" c false None :: flat F ++ r) (Tok "}" c' false None :: flat G ++ s)) as [-> E3]; auto; [unfold flat; lia|right; eauto|right; eauto|].
      inversion E3 as [[Ec E4]]; subst. destruct (IH F G r s) as [-> ->]; auto. lia.
Qed.
Lemma flat_unique : forall F G, Forall wf_stmt F -> Forall wf_stmt G -> flat F = flat G -> F = G.
Proof.
  intros F G WF WG E. destruct (flat_unique_aux (S (List.length (flat F))) F G [] []) as [-> _]; auto; [left|left|]; auto. now rewrite !app_nil_r.
Qed.

(** ** Lines do not matter *)
Lemma words_same : forall a b, Forall2 same_token a b -> words a = words b.
Proof.
  intros a b H. induction H as [|x y a b (V & Q & E) H IH]; [reflexivity|]. unfold words in *. cbn [filter]. assert (W : word x = word y) by (unfold word; now rewrite V, Q). rewrite W. destruct (word y); cbn [map]; congruence.
Qed.
Lemma hash_same : forall a b, same_token a b -> hash a -> hash b.
Proof. intros a b (V & Q & E) [H (r & R)]. split; [congruence|]. exists r. congruence. Qed.
Lemma same_sym : forall a b, same_token a b -> same_token b a.
Proof. intros a b (V & Q & E). repeat split; congruence. Qed.
Lemma remarks_same : forall a cs, remarks a cs -> forall b, Forall2 same_token a b -> remarks b cs.
Proof.
  intros a cs H. induction H as [|t args cs N H IH|t c args cs Q E H IH]; intros b S; inversion S as [|? y ? b' ST SA]; subst.
  - constructor.
  - apply rm_word; auto. intros X. apply N. exact (hash_same _ _ (same_sym _ _ ST) X).
  - destruct ST as (V & QQ & _). apply rm_comment; auto; congruence.
Qed.
Lemma remarks_one : forall a cs ds, remarks a cs -> remarks a ds -> cs = ds.
Proof. intros a cs ds A B. apply remarks_coms in A, B. congruence. Qed.

Fixpoint free (d : directive) : bool :=
  (match d_includes d with None => true | _ => false end && match d_block d with Some b => forallb free b | None => true end)%bool.
Lemma free_parts : forall d, free d = true -> d_includes d = None /\ (forall b, d_block d = Some b -> forallb free b = true).
Proof. intros [n l a f i b c m]. cbn. destruct i; [discriminate|]. destruct b; intros H; split; auto; intros x E; first [discriminate E|injection E as <-; auto]. Qed.
Lemma free_within : forall d ds, within d ds -> forallb free ds = true -> d_includes d = None.
Proof.
  intros d ds W. induction W as [ds I|e b ds I B W IH]; intros F; rewrite forallb_forall in F.
  - apply free_parts. auto.
  - apply IH. apply (free_parts e); auto.
Qed.
Lemma notes_same : forall cm lab ln args ns args' lab' ln', notes cm lab ln args ns -> Forall2 same_token args args' ->
  exists ns', notes cm lab' ln' args' ns' /\ map unplaced ns' = map unplaced ns /\ forallb free ns' = true.
Proof.
  intros cm lab ln args ns args' lab' ln' (cs & R & ->) S. exists (if cm then map (note lab' ln') cs else []). split; [exists cs; split; auto; eapply remarks_same; eauto|].
  destruct cm; [|now split]. split; [rewrite !map_map; reflexivity|]. clear. induction cs as [|c cs IH]; auto.
Qed.
Lemma accepts_same : forall o path h h' args args' t, same_token h h' -> Forall2 same_token args args' -> accepts o path (stm_dir h args) t -> accepts o path (stm_dir h' args') t.
Proof. intros o path h h' args args' t (V & _) S A. eapply accepts_ext; [| |exact A]; cbn; [exact V|now apply words_same]. Qed.

(** ** The numbers are those of the files *)
Lemma targets_one : forall o dir arg fs gs, targets o dir arg fs -> targets o dir arg gs -> fs = gs.
Proof.
  intros o dir arg fs gs A B. destruct A as [l fs M G P S|c M O|m M O], B as [l' gs M' G' P' S'|c' M' O'|m' M' O']; try contradiction; try congruence; auto.
  rewrite G in G'. injection G' as <-. apply sorted_same; auto. eapply Permutation_trans; [apply Permutation_sym; eauto|auto].
Qed.
Definition carries (l : list page) (K : known) : Prop := forall m f q, nth_error K m = Some (f, q) -> exists g, nth_error l m = Some g /\ pg_file g = f.
Lemma numbers_named : forall path K fs is K', numbers path K fs is K' -> forall l, carries l K' ->
  Forall2 (fun i f => (0 <= i)%Z /\ exists g, nth_error l (Z.to_nat i) = Some g /\ pg_file g = f) is fs.
Proof.
  intros path K fs is K' H. induction H as [K|K i f q fs is K' E H IH|K f fs is K' N H IH]; intros l C; constructor; auto.
  - split; [lia|]. rewrite Nat2Z.id. destruct (numbers_grow _ _ _ _ _ H) as (M & -> & _). apply (C i f q). rewrite nth_error_app1; auto. apply nth_error_Some. congruence.
  - split; [lia|]. rewrite Nat2Z.id. destruct (numbers_grow _ _ _ _ _ H) as (M & -> & _). apply (C (List.length K) f path). rewrite <- app_assoc, nth_error_app2, Nat.sub_diag by lia. reflexivity.
Qed.
Lemma carries_prefix : forall l K M, carries l (K ++ M) -> carries l K.
Proof. intros l K M C m f q E. apply (C m f q). rewrite nth_error_app1; auto. apply nth_error_Some. congruence. Qed.
Lemma pages_names : forall o dir i K l, pages o dir i K l -> Forall (fun g => pg_errors g = []) l -> forall m f q, i <= m -> nth_error K m = Some (f, q) -> exists g, nth_error l (m - i) = Some g /\ pg_file g = f.
Proof.
  intros o dir i K l P. induction P as [K|i K f path text F ds es ls K' l N OP LX WF PP LEN R P IH|i K f path text es e ls K' l N OP PP LEN B P IH]; intros ER m g q LE E.
  - exfalso. assert (m < List.length K) by (apply nth_error_Some; congruence). lia.
  - destruct (Nat.eq_dec m i) as [->|D].
    + rewrite Nat.sub_diag. eexists. split; [reflexivity|]. cbn. congruence.
    + destruct (reads_grow _ _ _ _ _ _ _ _ _ _ R) as (M & -> & _). inversion ER; subst. destruct (IH ltac:(auto) m g q) as (x & X & Y); [lia|rewrite nth_error_app1; auto; apply nth_error_Some; congruence|].
      exists x. split; auto. replace (m - i) with (S (m - S i)) by lia. exact X.
  - inversion ER as [|? ? X _]; subst. cbn in X. destruct es; discriminate.
Qed.
Definition read_at (o : popts) (dir : string) (l : list page) (n : nat) (g : page) : Prop :=
  exists path text F K ls K', stands l n path /\ o_open o (pg_file g) = inl text /\ lex (o_lexers o) text = flat F /\ Forall wf_stmt F /\
    reads o dir (pg_file g) path K F (pg_tree g) [] ls K' /\ carries l K'.
Lemma pages_read : forall o dir i K l, pages o dir i K l -> forall pre, List.length pre = i -> Forall (fun g => pg_errors g = []) l ->
  (forall n f q, nth_error K n = Some (f, q) -> stands (pre ++ l) n q) ->
  (forall n f q, n < i -> nth_error K n = Some (f, q) -> exists g, nth_error pre n = Some g /\ pg_file g = f) ->
  forall n g, i <= n -> nth_error (pre ++ l) n = Some g -> read_at o dir (pre ++ l) n g.
Proof.
  intros o dir i K l P. induction P as [K|i K f path text F ds es ls K' l N OP LX WF PP LEN R P IH|i K f path text es e ls K' l N OP PP LEN B P IH]; intros pre LE ER ST NM n g LO NT.
  - exfalso. rewrite app_nil_r in NT. assert (n < List.length pre) by (apply nth_error_Some; congruence). lia.
  - assert (HERE : stands (pre ++ Page f ds es ls :: l) i path) by (eapply ST; eauto). assert (NI : nth_error (pre ++ Page f ds es ls :: l) i = Some (Page f ds es ls)) by (rewrite nth_error_app2 by lia; rewrite LE, Nat.sub_diag; reflexivity).
    assert (CA : carries (pre ++ Page f ds es ls :: l) K').
    { destruct (reads_grow _ _ _ _ _ _ _ _ _ _ R) as (M & -> & _). intros m f' q E. destruct (lt_eq_lt_dec m i) as [[L| ->]|L].
      - assert (X : m < List.length K) by (assert (i < List.length K) by (apply nth_error_Some; congruence); lia). rewrite nth_error_app1 in E by exact X. destruct (NM m f' q L E) as (g' & G & Y). exists g'. split; auto. rewrite nth_error_app1; auto. apply nth_error_Some. congruence.
      - assert (X : i < List.length K) by (apply nth_error_Some; congruence). rewrite nth_error_app1 in E by exact X. eexists. split; [exact NI|]. cbn. congruence.
      - inversion ER; subst. destruct (pages_names _ _ _ _ _ P ltac:(auto) m f' q) as (g' & G & Y); [lia|exact E|]. exists g'. split; auto. rewrite nth_error_app2 by lia. replace (m - List.length pre) with (S (m - S (List.length pre))) by lia. exact G. }
    destruct (Nat.eq_dec n i) as [->|D].
    + rewrite NI in NT. injection NT as <-. inversion ER as [|? ? X _]; subst. cbn in X. subst. exists path, text, F, K, ls, K'. repeat (split; [assumption|]). assumption.
    + replace (pre ++ Page f ds es ls :: l)%list with ((pre ++ [Page f ds es ls]) ++ l)%list in * by (rewrite <- app_assoc; reflexivity).
      destruct (reads_grow _ _ _ _ _ _ _ _ _ _ R) as (M & EK & X). apply IH; auto; [rewrite app_length; cbn; lia|now inversion ER| | |lia].
      * intros m f' q E. destruct (X m f' q E) as [L|Pt].
        -- rewrite EK, nth_error_app1 in E by exact L. eapply ST; eauto.
        -- rewrite <- (Nat2Z.id m). eapply sd_included; [exact HERE|exact NI|exact Pt|lia].
      * intros m f' q L E. destruct (CA m f' q E) as (g' & G & Y). exists g'. split; auto. rewrite nth_error_app1 in G; auto. rewrite app_length. cbn. lia.
  - inversion ER as [|? ? X _]; subst. cbn in X. destruct es; discriminate.
Qed.

(** ** Reading the statements put in place *)
Lemma targets_nonempty : forall o dir arg fs is path K K', numbers path K fs is K' -> is <> [] -> targets o dir arg fs -> fs <> [].
Proof. intros o dir arg fs is path K K' N I T ->. inversion N; subst; congruence. Qed.
Lemma forall2_nil : forall A B (R : A -> B -> Prop) b, Forall2 R [] b -> b = [].
Proof. intros A B R b H. now inversion H. Qed.
Section Inline.
Variables (o : popts) (dir : string) (l : list page) (op : string -> string + string) (dir2 f2 : string).
Hypothesis CM : o_combine o = true.
Hypothesis HOME : one_home l.
Hypothesis RD : forall n g, nth_error l n = Some g -> read_at o dir l n g /\ forallb all_resolved (pg_tree g) = true.
Let o2 := with_open o op.
(** What the statements put in place give. *)
Definition fits (path : list string) (G : list stmt) (out : list directive) : Prop :=
  exists ds, (forall K, reads o2 dir2 f2 path K G ds [] [] K) /\ map unplaced ds = map unplaced out /\ forallb free ds = true.
Lemma fits_app : forall path G out, fits path G out -> forall G' out', fits path G' out' -> fits path (G ++ G') (out ++ out').
Proof.
  intros path G out (ds & R & E & F) G' out' (ds' & R' & E' & F'). exists (ds ++ ds'). rewrite !map_app, E, E', forallb_app, F, F'. split; [|auto]. clear - R R'.
  assert (X : forall path K G ds es ls K', reads o2 dir2 f2 path K G ds es ls K' -> forall G' ds' es' ls' K2, reads o2 dir2 f2 path K' G' ds' es' ls' K2 -> reads o2 dir2 f2 path K (G ++ G') (ds ++ ds') (es ++ es') (ls ++ ls') K2).
  { intros p K0 G0 ds0 es0 ls0 K' H. induction H; intros G1 ds1' es1' ls1' K2 Y; cbn [app]; rewrite <- ?app_assoc; cbn [app]; try (econstructor; eauto; fail); auto. }
  intros K. exact (X _ _ _ _ _ _ _ (R K) _ _ _ _ _ (R' K)).
Qed.
Lemma fits_comments : forall path cs N ns lab ln, Forall2 comment_stmt cs N -> ns = (if o_comments o then map (note lab ln) cs else []) -> fits path N ns.
Proof.
  intros path cs N ns lab ln H ->. induction H as [|c s cs N (t & -> & Q & E & V) H (ds & R & EQ & F)].
  - exists []. split; [intros; constructor|]. destruct (o_comments o); auto.
  - exists ((if o_comments o then [note (label_of o2 f2) (t_line t) c] else []) ++ ds). split; [|split].
    + intros K. exact (rd_comment o2 dir2 f2 path K t c N ds [] [] K V (R K)).
    + rewrite map_app, EQ. destruct (o_comments o); reflexivity.
    + rewrite forallb_app, F. destruct (o_comments o); reflexivity.
Qed.
Lemma resolved_not : forall d, d_includes d = None -> ~ resolved d.
Proof. intros d E [_ X]. congruence. Qed.
Lemma expand_cons : forall cs d r out, d_includes d = None -> d_block d = None -> expand cs (d :: r) out -> exists r', expand cs r r' /\ out = d :: r'.
Proof. intros cs d r out I B X. inversion X; subst; try congruence. eauto. Qed.
Lemma expand_cons_block : forall cs d b r out, d_includes d = None -> d_block d = Some b -> expand cs (d :: r) out ->
  exists b' r', expand cs b b' /\ expand cs r r' /\ out = reblock d (Some b') :: r'.
Proof. intros cs d b r out I B X. inversion X; subst; try congruence. rewrite B in *. match goal with H : Some _ = Some _ |- _ => injection H as <- end. eauto 6. Qed.
Lemma expand_include : forall cs d is r out, d_name d = "include" -> d_includes d = Some is -> expand cs (d :: r) out ->
  exists ds r', expand_all cs is ds /\ expand cs r r' /\ out = ds ++ r'.
Proof. intros cs d is r out N I X. inversion X; subst; [exfalso|exfalso|]; try (match goal with H : ~ resolved _ |- _ => apply H; split; congruence end). rewrite I in *. match goal with H : Some _ = Some _ |- _ => injection H as <- end. eauto 6. Qed.
Lemma expand_plain : forall cs a r out, (forall d, In d a -> d_includes d = None /\ d_block d = None) -> expand cs (a ++ r) out -> exists r', expand cs r r' /\ out = a ++ r'.
Proof.
  intros cs. induction a as [|d a IH]; intros r out H X; [eauto|]. cbn [app] in X. destruct (H d (or_introl eq_refl)) as [I B]. destruct (expand_cons _ _ _ _ I B X) as (r1 & X1 & ->).
  destruct (IH r r1 ltac:(intros; apply H; now right) X1) as (r' & X' & ->). eauto.
Qed.
Lemma notes_plain : forall cm lab ln args ns, notes cm lab ln args ns -> forall d, In d ns -> d_includes d = None /\ d_block d = None.
Proof. intros cm lab ln args ns (cs & _ & ->) d I. destruct cm; [|destruct I]. apply in_map_iff in I as (c & <- & _). auto. Qed.

Lemma unplaced_ismap : forall n ln a fl i b c m n' ln' fl', n = n' -> unplaced (Dir n ln a fl i b c m) = unplaced (Dir n' ln' a fl' i b c m).
Proof. intros. subst. reflexivity. Qed.
Lemma inline_both :
  (forall path F G, inlined o dir path F G -> forall f K ds ls K' out, reads o dir f path K F ds [] ls K' -> carries l K' ->
    (forall i q, points path ds i q -> (0 <= i)%Z -> stands l (Z.to_nat i) q) -> forallb all_resolved ds = true ->
    expand (map config_of l) ds out -> fits path G out) /\
  (forall path fs B, contents o dir path fs B -> forall is out, Forall2 (fun i f => (0 <= i)%Z /\ exists g, nth_error l (Z.to_nat i) = Some g /\ pg_file g = f) is fs ->
    (forall i, In i is -> stands l (Z.to_nat i) path) -> expand_all (map config_of l) is out -> fits path B out).
Proof.
  assert (PI : forall path ds a i q, points path ds i q -> points path (a ++ ds) i q) by (intros path ds a i q P; apply (points_incl _ _ _ _ P); intros d I; apply in_or_app; now right).
  assert (LB : forall (d d' : directive) r r', unplaced d = unplaced d' -> map unplaced r = map unplaced r' -> map unplaced (d :: r) = map unplaced (d' :: r')) by (intros d d' r r' A B; cbn [map]; congruence).
  apply inlined_both with (o := o) (dir := dir)
    (P := fun path F G _ => forall f K ds ls K' out, reads o dir f path K F ds [] ls K' -> carries l K' ->
      (forall i q, points path ds i q -> (0 <= i)%Z -> stands l (Z.to_nat i) q) -> forallb all_resolved ds = true -> expand (map config_of l) ds out -> fits path G out)
    (P0 := fun path fs B _ => forall is out, Forall2 (fun i f => (0 <= i)%Z /\ exists g, nth_error l (Z.to_nat i) = Some g /\ pg_file g = f) is fs ->
      (forall i, In i is -> stands l (Z.to_nat i) path) -> expand_all (map config_of l) is out -> fits path B out).
  - intros path f K ds ls K' out R _ _ _ X. inversion R; subst. inversion X; subst. exists []. split; [intros; constructor|auto].
  - intros path s s' F G U C I IH f K ds ls K' out R CA PT AR X.
    destruct C as [t t' ST|h h' args args' ln ln' SH SA|h h' args args' ln ln' b b' c c' SH SA SB].
    + inversion R as [|? ? ? cm ? ds0 ? ? ? V R0| | | | | | | |]; subst. apply expand_plain in X as (r' & X' & ->); [|intros d D; destruct (o_comments o); [destruct D as [<-|[]]; auto|destruct D]].
      rewrite forallb_app in AR. apply andb_true_iff in AR as [_ AR]. apply (fits_app path [SCom t'] (if o_comments o then _ else [])); [|eapply IH; eauto].
      destruct ST as (E & _). exists (if o_comments o then [note (label_of o2 f2) (t_line t') cm] else []). split; [|destruct (o_comments o); auto].
      intros K0. rewrite <- (app_nil_r (if o_comments o then _ else [])). apply (rd_comment o2 dir2 f2 path K0 t' cm [] [] [] [] K0); [congruence|constructor].
    + inversion R as [| |? ? ? ? ? ? ds0 ? ? ? M FA R0| |? ? ? ? ? ? ? ? ? ? ? M IG R0| |? ? ? ? ? args2 ns ? ds0 ? ? ? M IG AC FO FI NO R0| |? ? ? ? ? ? ? ? ? ? ? ? ? ? ? ? M IG AC FO| ]; subst.
      * apply expand_cons in X as (r' & X' & ->); auto. cbn [forallb] in AR. apply andb_true_iff in AR as [_ AR].
        destruct (IH _ _ _ _ _ r' R0 CA) as (ds' & R' & E' & F'); auto; try (intros i q P; apply PT; apply (PI _ _ [_] _ _ P)).
        destruct SH as (V & _). rewrite (words_same _ _ SA) in *. exists (Dir (t_val h') (t_line h') (words args') (label_of o2 f2) None None None true :: ds'). split; [|split].
        -- intros K0. apply rd_entry; auto. rewrite <- V. exact FA.
        -- apply LB; auto. now apply unplaced_ismap.
        -- exact F'.
      * destruct (IH _ _ _ _ _ _ R0 CA PT AR X) as (ds' & R' & E' & F'). exists ds'. split; [|auto]. intros K0. apply rd_ignored; auto. destruct SH as (V & _). now rewrite <- V.
      * change (?a :: ns ++ ds0) with ([a] ++ ns ++ ds0) in *. cbn [app] in X. apply expand_cons in X as (r' & X' & ->); auto. apply expand_plain in X' as (r2 & X2 & ->); [|eapply notes_plain; eauto].
        cbn [forallb app] in AR. apply andb_true_iff in AR as [_ AR]. rewrite forallb_app in AR. apply andb_true_iff in AR as [_ AR].
        destruct (IH _ _ _ _ _ r2 R0 CA) as (ds' & R' & E' & F'); auto; try (intros i q P; apply PT; apply (PI _ _ [_]); apply PI; exact P).
        destruct (notes_same _ _ _ _ _ args' (label_of o2 f2) (t_line h') NO SA) as (ns' & NO' & EN & FN).
        exists (Dir (t_val h') (t_line h') args2 (label_of o2 f2) None None None false :: ns' ++ ds'). assert (V : t_val h = t_val h') by apply SH. split; [|split].
        -- intros K0. apply rd_simple; auto; rewrite <- ?V; auto; [apply accepts_open; eapply accepts_same; eauto|]. now rewrite <- (words_same _ _ SA).
        -- apply LB; [now apply unplaced_ismap|]. rewrite !map_app. congruence.
        -- cbn [forallb]. rewrite forallb_app, FN, F'. reflexivity.
      * exfalso. cbn in U. destruct U as [U|[U|[_ U]]]; auto.
    + inversion R as [| | | |? ? ? ? ? ? ? ? ? ? ? M IG R0| | |? ? ? ? ? ? ? ? ? ? ? ? ? ? ? ? ? ? ? M IG AC FO| | ]; subst.
      * destruct (IH _ _ _ _ _ _ R0 CA PT AR X) as (ds' & R' & E' & F'). exists ds'. split; [|auto]. intros K0. apply rd_ignored; auto. destruct SH as (V & _). now rewrite <- V.
      * exfalso. cbn in U. destruct U as [U|[U|[U _]]]; auto. discriminate.
  - intros path h h' args args' ln ln' b b' c c' F G M IG SH SA IB IHB I IH f K ds ls K' out R CA PT AR X.
    inversion R as [| | | |? ? ? ? ? ? ? ? ? ? ? M0 IG0 R0| | |? ? ? ? ? args2 ? ? ns ds1 es1 ls1 K1 ? ds0 ? ? ? M0 IG0 AC FO FI NO PP R1 R0| | ]; subst; [contradiction|].
    match goal with H : _ ++ _ = [] |- _ => apply app_eq_nil in H as [-> ->] end.
    eapply expand_cons_block in X as (ob & r' & XB & X' & ->); [|reflexivity|reflexivity]. apply expand_plain in X' as (r2 & X2 & ->); [|eapply notes_plain; eauto].
    cbn [forallb] in AR. apply andb_true_iff in AR as [AB AR]. rewrite forallb_app in AR. apply andb_true_iff in AR as [_ AR]. cbn in AB. apply andb_true_iff in AB as [_ AB].
    destruct (reads_grow _ _ _ _ _ _ _ _ _ _ R0) as (M2 & EK & _). assert (CA1 : carries l K1) by (apply (carries_prefix l K1 M2); now rewrite <- EK).
    destruct (IHB _ _ _ _ _ ob R1 CA1) as (dsb & RB & EB & FB); auto; [intros i q P; apply PT; eapply pt_below; [left; reflexivity|reflexivity|exact P]|].
    destruct (IH _ _ _ _ _ r2 R0 CA) as (ds' & R' & E' & F'); auto; try (intros i q P; apply PT; apply (PI _ _ [_]); apply PI; exact P).
    destruct (notes_same _ _ _ _ _ args' (label_of o2 f2) (t_line h') NO SA) as (ns' & NO' & EN & FN). assert (V : t_val h = t_val h') by apply SH.
    exists (Dir (t_val h') (t_line h') args2 (label_of o2 f2) None (Some dsb) None false :: ns' ++ ds'). split; [|split].
    + intros K0. apply (rd_block o2 dir2 f2 path K0 h' args' ln' args2 b' c' ns' dsb [] [] K0 G ds' [] [] K0); auto; rewrite <- ?V; auto; [apply accepts_open; eapply accepts_same; eauto|]. now rewrite <- (words_same _ _ SA).
    + apply LB; [cbn; congruence|]. rewrite !map_app. congruence.
    + cbn [forallb free d_includes d_block]. rewrite forallb_app, FN, F'. cbn. now rewrite FB.
  - intros path h args ln arg more fs cs N B F G M IG FO WD TG CT IHC RM CN I IH f K ds ls K' out R CA PT AR X.
    inversion R as [| | | |? ? ? ? ? ? ? ? ? ? ? M0 IG0 R0| |? ? ? ? ? args2 ns ? ds0 ? ? ? M0 IG0 AC0 FO0| |? ? ? ? ? arg2 more2 fs2 is ns K1 ? ds0 ? ? ? M0 IG0 AC FO0 WD2 TG2 MG NU NO R0| ]; subst; try contradiction.
    rewrite WD in WD2. injection WD2 as <- <-. rewrite <- (targets_one _ _ _ _ _ TG TG2) in *.
    destruct is as [|i0 is0] eqn:EI; [exfalso|].
    { cbn [forallb] in AR. apply andb_true_iff in AR as [AB _]. cbn in AB. destruct FO as [E _]. rewrite E in AB. discriminate. }
    rewrite <- EI in *. assert (UN : unless_none is = Some is) by (rewrite EI; reflexivity).
    eapply expand_include in X as (dsi & r' & XI & X' & ->); [|exact (proj1 FO)|exact UN]. apply expand_plain in X' as (r2 & X2 & ->); [|eapply notes_plain; eauto].
    cbn [forallb] in AR. apply andb_true_iff in AR as [_ AR]. rewrite forallb_app in AR. apply andb_true_iff in AR as [_ AR].
    destruct (reads_grow _ _ _ _ _ _ _ _ _ _ R0) as (M2 & EK & _). assert (CA1 : carries l K1) by (apply (carries_prefix l K1 M2); now rewrite <- EK).
    pose proof (numbers_named _ _ _ _ _ NU _ CA1) as NN. apply fits_app; [|apply fits_app].
    + apply (IHC is); auto. intros i Ii. apply PT; [|].
      * eapply pt_here; [left; reflexivity|exact (proj1 FO)|exact UN|exact Ii].
      * clear - NN Ii. induction NN as [|x y is fs [L _] NN IHN]; [destruct Ii|]; destruct Ii as [<-|Ii]; auto.
    + destruct NO as (cs' & RM' & ->). rewrite <- (remarks_one _ _ _ RM RM') in *. eapply fits_comments; eauto.
    + eapply IH; eauto. intros i q P. apply PT. apply (PI _ _ [_]). apply PI. exact P.
  - intros path is out F2 _ X. inversion F2; subst. inversion X; subst. exists []. split; [intros; constructor|auto].
  - intros path f text F B fs R OP LX WF I IH CT IHC is out F2 ST X. inversion F2 as [|i ? is0 ? (L & g & NG & EF) F2']; subst. inversion X as [|? c ds ? rest L0 NC XD XR]; subst.
    rewrite nth_error_map, NG in NC. injection NC as <-. cbn [config_of cf_parsed] in XD. apply fits_app; [|eapply IHC; eauto; intros; apply ST; now right].
    destruct (RD _ _ NG) as [(p0 & text0 & F0 & K0 & ls0 & K0' & S0 & OP0 & LX0 & WF0 & R0 & CA0) AR0]. rewrite OP in OP0. injection OP0 as <-. rewrite LX in LX0. rewrite <- (flat_unique _ _ WF WF0 LX0) in R0.
    rewrite (HOME _ _ _ S0 (ST i (or_introl eq_refl))) in *. eapply IH; eauto. intros j q P J. eapply sd_included; [exact (ST i (or_introl eq_refl))|exact NG|exact P|exact J].
Qed.
End Inline.

(** ** The theorem *)
Lemma pages_alone : forall o f text F ds, o_open o f = inl text -> lex (o_lexers o) text = flat F -> Forall wf_stmt F ->
  reads o (dir_name f) f [] [(f, [])] F ds [] [] [(f, [])] -> book o f [Page f ds [] []].
Proof.
  intros o f text F ds OP LX WF R. unfold book. refine (pg_whole o _ 0 [(f, [])] f [] text F ds [] [] _ [] eq_refl OP LX WF _ _ R _).
  - constructor.
  - cbn. lia.
  - exact (pg_done o (dir_name f) [(f, [])]).
Qed.
Lemma combined_ok : forall o filename l, book o filename l -> o_combine o = true -> ~ loops l -> Forall (fun g => pg_errors g = []) l ->
  exists n g0 ds, nth_error l 0 = Some g0 /\ expand (map config_of l) (pg_tree g0) ds /\
    forall fuel, n <= fuel -> parse_main fuel o filename = ROk (Pay "ok" [] [Cfg filename "ok" [] ds]).
Proof.
  intros o filename l BK CM LP ER. destruct (book_combined o filename l BK (or_intror ER) CM LP) as (n & P). exists n.
  rewrite (no_errors o l ER) in P.
  assert (ST : existsb (fun c => String.eqb (cf_status c) "failed") (map config_of l) = false).
  { clear - ER. induction ER as [|g l G ER IH]; [reflexivity|]. cbn [map existsb]. rewrite IH. unfold config_of. cbn [cf_status]. rewrite G. reflexivity. }
  assert (SE : flat_map cf_errors (map config_of l) = []).
  { clear - ER. induction ER as [|g l G ER IH]; [reflexivity|]. cbn [map flat_map]. rewrite IH. unfold config_of. cbn [cf_errors]. rewrite G. reflexivity. }
  destruct (P n (le_n _)) as (p & g0 & H0 & PM & [(ds & X & PC & _) _ _]). exists g0, ds. cbn [pl_config] in *.
  assert (N0 : nth_error l 0 = Some g0) by (destruct l; [discriminate|exact H0]). split; [exact N0|]. split; [exact X|]. intros fuel LE.
  assert (G0 : pg_file g0 = filename) by (destruct l as [|g l]; [discriminate|]; injection H0 as ->; destruct (pages_first _ _ _ _ _ _ BK) as (q & E); cbn in E; congruence).
  destruct (P fuel LE) as (p' & g1 & H1 & PM' & [(ds' & X' & PC' & _) PE' PS']). rewrite H0 in H1. injection H1 as <-. cbn [pl_config pl_errors pl_status config_of cf_file cf_parsed] in *. rewrite <- (proj1 (expand_det _) _ _ X' _ X) in PC'.
  rewrite ST, SE, G0 in PC'. rewrite PM'. f_equal. destruct p' as [a b c]. cbn in *. subst. reflexivity.
Qed.
Theorem inline : forall o filename l text F G op f t, o_combine o = true -> book o filename l -> ~ loops l -> one_home l ->
  (forall g, In g l -> pg_errors g = [] /\ forallb all_resolved (pg_tree g) = true) ->
  o_open o filename = inl text -> lex (o_lexers o) text = flat F -> Forall wf_stmt F -> inlined o (dir_name filename) [] F G ->
  op f = inl t -> lex (o_lexers o) t = flat G -> Forall wf_stmt G ->
  exists n ds ds', (forall k, n <= k -> parse_main k o filename = ROk (Pay "ok" [] [Cfg filename "ok" [] ds])) /\
    (forall k, n <= k -> parse_main k (with_open o op) f = ROk (Pay "ok" [] [Cfg f "ok" [] ds'])) /\
    map unplaced ds' = map unplaced ds.
Proof.
  intros o filename l text F G op f t CM BK LP HM OK OP LX WF IL OP2 LX2 WG.
  assert (ER : Forall (fun g => pg_errors g = []) l) by (apply Forall_forall; intros g I; now apply OK).
  destruct (combined_ok o filename l BK CM LP ER) as (n & g0 & ds & N0 & X & PM).
  assert (RD : forall m g, nth_error l m = Some g -> read_at o (dir_name filename) l m g /\ forallb all_resolved (pg_tree g) = true).
  { intros m g E. split; [|apply OK; eapply nth_error_In; eauto]. apply (pages_read o _ _ _ _ BK [] eq_refl ER); [| |lia|exact E].
    - intros k h q Y. destruct k as [|k]; [|destruct k; discriminate]. injection Y as <- <-. apply sd_main.
    - intros k h q Y. lia. }
  assert (G0 : pg_file g0 = filename) by (destruct l as [|g l]; [discriminate|]; injection N0 as ->; destruct (pages_first _ _ _ _ _ _ BK) as (q & E); cbn in E; congruence).
  destruct (RD 0 g0 N0) as [(p0 & text0 & F0 & K0 & ls0 & K0' & S0 & OP0 & LX0 & WF0 & R0 & CA0) AR0]. rewrite G0, OP in OP0. injection OP0 as <-. rewrite LX in LX0. rewrite <- (flat_unique _ _ WF WF0 LX0) in R0.
  rewrite (HM 0 _ _ S0 (sd_main l)) in *.
  destruct (inline_both o (dir_name filename) l op (dir_name f) f HM RD) as [IB _].
  destruct (IB _ _ _ IL _ _ _ _ _ ds R0 CA0) as (ds' & R' & E' & F'); auto.
  { intros i q P J. eapply sd_included; [apply sd_main|exact N0|exact P|exact J]. }
  assert (BK2 : book (with_open o op) f [Page f ds' [] []]) by (eapply pages_alone; [exact OP2|exact LX2|exact WG|apply R']).
  destruct (combined_ok (with_open o op) f _ BK2 CM) as (n2 & g2 & ds2 & N2 & X2 & PM2).
  { intros (x & L). assert (Z : forall a b, clos_trans string (leads [Page f ds' [] []]) a b -> False); [|exact (Z _ _ L)]. intros a b T. induction T as [a b (g & [<-|[]] & _ & [])|]; auto. }
  { repeat constructor. }
  injection N2 as <-. cbn [pg_tree] in X2. rewrite (proj1 (no_includes_expand _) _ _ X2) in PM2 by (intros d W; eapply free_within; eauto).
  exists (Nat.max n n2), ds, ds'. split; [intros k L; apply PM; lia|]. split; [intros k L; apply PM2; lia|exact E'].
Qed.

(** ** Every configuration has such statements *)
Inductive seen (d : directive) : list directive -> Prop :=
| se_here : forall ds, In d ds -> seen d ds
| se_block : forall e b ds, In e ds -> ~ resolved e -> d_block e = Some b -> seen d b -> seen d ds.
Lemma seen_cons : forall d x r, seen d (x :: r) -> d = x \/ (exists b, ~ resolved x /\ d_block x = Some b /\ seen d b) \/ seen d r.
Proof.
  intros d x r W. inversion W as [? I|e b ? I NR B W']; subst.
  - destruct I as [<-|I]; auto. right. right. now apply se_here.
  - destruct I as [<-|I]; [right; left; eauto|]. right. right. eapply se_block; eauto.
Qed.
Lemma seen_tail : forall d a r, seen d r -> seen d (a ++ r).
Proof. intros d a r W. inversion W as [? I|e b ? I NR B W']; subst; [apply se_here|eapply se_block; eauto]; apply in_or_app; now right. Qed.
Section Tall.
Variable cs : list config.
Fixpoint tall (n : nat) (ds : list directive) : Prop :=
  forall d is i, seen d ds -> d_name d = "include" -> d_includes d = Some is -> In i is ->
    match n with 0 => False | S m => exists c, nth_error cs (Z.to_nat i) = Some c /\ tall m (cf_parsed c) end.
Definition found (n : nat) (i : Z) : Prop := match n with 0 => False | S m => exists c, nth_error cs (Z.to_nat i) = Some c /\ tall m (cf_parsed c) end.
Lemma tall_iff : forall n ds, tall n ds <-> forall d is i, seen d ds -> d_name d = "include" -> d_includes d = Some is -> In i is -> found n i.
Proof. intros [|n] ds; reflexivity. Qed.
Lemma tall_more : forall n ds, tall n ds -> forall m, n <= m -> tall m ds.
Proof.
  induction n as [|n IH]; intros ds D m L; apply tall_iff; intros d is i W E I J; pose proof (proj1 (tall_iff _ _) D d is i W E I J) as X; [destruct X|].
  destruct m as [|m]; [lia|]. destruct X as (c & Y & Z0). exists c. split; auto. apply (IH _ Z0). lia.
Qed.
Lemma found_more : forall n i, found n i -> forall m, n <= m -> found m i.
Proof. intros [|n] i F m L; [destruct F|]. destruct m as [|m]; [lia|]. destruct F as (c & E & T). exists c. split; auto. apply (tall_more _ _ T). lia. Qed.
Lemma expand_tall : (forall ds out, expand cs ds out -> exists n, tall n ds) /\
  (forall is out, expand_all cs is out -> exists n, forall i, In i is -> found n i).
Proof.
  apply expand_both.
  - exists 0. intros d is i W. exfalso. inversion W as [? X|e b ? X]; subst; destruct X.
  - intros d r r' NR NB X (n & D). exists n. rewrite tall_iff in *. intros e is i W E I J. apply seen_cons in W as [->|[(b & _ & B & _)|W]]; [|congruence|eauto].
    exfalso. apply NR. split; congruence.
  - intros d b b' r r' NR B Xb (n & Db) X (m & D). exists (Nat.max n m). pose proof (tall_more _ _ Db (Nat.max n m) (Nat.le_max_l _ _)) as Db'. clear Db. rename Db' into Db. pose proof (tall_more _ _ D (Nat.max n m) (Nat.le_max_r _ _)) as D'. clear D. rename D' into D. clear - B NR Db D.
    rewrite tall_iff in *. intros e is i W E I J. apply seen_cons in W as [->|[(b0 & _ & B0 & W)|W]]; [|rewrite B in B0; injection B0 as <-; eauto|eauto].
    exfalso. apply NR. split; congruence.
  - intros d is ds r r' N0 I0 XA (n & A) X (m & D). exists (Nat.max n m). pose proof (tall_more _ _ D (Nat.max n m) (Nat.le_max_r _ _)) as D'. clear D. rename D' into D. rewrite tall_iff in *.
    intros e is' i W E I J. apply seen_cons in W as [->|[(b0 & NR & _)|W]]; [|exfalso; apply NR; split; congruence|eauto].
    rewrite I0 in I. injection I as <-. apply (found_more n); auto. lia.
  - exists 0. intros i [].
  - intros i c ds is rest L E X (n & D) XA (m & A). exists (S (Nat.max n m)). intros j [<-|J]; [|apply (found_more m); auto; lia].
    exists c. split; auto. apply (tall_more _ _ D). lia.
Qed.
End Tall.
Lemma same_refl : forall t, same_token t t.
Proof. intros t. repeat split. Qed.
Lemma sames_refl : forall l, Forall2 same_token l l.
Proof. induction l; constructor; auto using same_refl. Qed.
Lemma copy_refl : forall s, copy s s.
Proof.
  fix IH 1. intros [t|h args l [[b c]|]].
  - constructor. apply same_refl.
  - constructor; [apply same_refl|apply sames_refl|]. induction b as [|x b IHb]; constructor; auto.
  - constructor; [apply same_refl|apply sames_refl].
Qed.
Lemma comments_exist : forall cs, exists N, Forall2 comment_stmt cs N.
Proof. induction cs as [|c cs (N & H)]; [exists []; constructor|]. exists (SCom (Tok ("#" ++ c)%string 0 false None) :: N). constructor; auto. eexists. repeat split. Qed.
Lemma remarks_exist : forall cm lab ln args ns, notes cm lab ln args ns -> exists cs, remarks args cs.
Proof. intros cm lab ln args ns (cs & R & _). eauto. Qed.
Section Exist.
Variables (o : popts) (dir : string) (l : list page).
Hypothesis HOME : one_home l.
Hypothesis RD : forall n g, nth_error l n = Some g -> read_at o dir l n g /\ forallb all_resolved (pg_tree g) = true.
Lemma inline_exists_at : forall n f path K F ds es ls K', reads o dir f path K F ds es ls K' -> es = [] -> carries l K' ->
  (forall i q, points path ds i q -> (0 <= i)%Z -> stands l (Z.to_nat i) q) -> forallb all_resolved ds = true ->
  tall (map config_of l) n ds -> exists G, inlined o dir path F G.
Proof.
  induction n as [n IHn] using lt_wf_ind. intros f path K F ds es ls K' R.
  assert (SUB : forall n a ds, tall (map config_of l) n (a ++ ds) -> tall (map config_of l) n ds) by (intros k a ds0 T; rewrite tall_iff in *; intros d is i W; apply T; now apply seen_tail).
  assert (PI : forall path ds a i q, points path ds i q -> points path (a ++ ds) i q) by (intros p ds0 a i q P; apply (points_incl _ _ _ _ P); intros d I; apply in_or_app; now right).
  induction R as [path K|path K t c F ds es ls K' T R IH|path K h args ln F ds es ls K' M FA R IH|path K h args ln body what F ds es ls K' M OB R IH|path K h args ln body F ds es ls K' M IG R IH
    |path K h args ln body what F ds es ls K' M IG OB UN R IH|path K h args ln args' ns F ds es ls K' M IG AC FO FI NO R IH|path K h args ln args' b c ns ds1 es1 ls1 K1 F ds es ls K' M IG AC FO FI NO PP R1 IH1 R IH
    |path K h args ln arg more fs is ns K1 F ds es ls K' M IG AC FO WD TG MG NU NO R IH|path K h args ln arg more m ns F ds es ls K' M IG AC FO WD MG OP NO R IH]; intros EE CA PT AR TL; try discriminate EE.
  - exists []. constructor.
  - rewrite forallb_app in AR. apply andb_true_iff in AR as [_ AR]. destruct IH as (G & IG); eauto. exists (SCom t :: G). apply il_same; [exact I|apply copy_refl|exact IG].
  - cbn [forallb] in AR. apply andb_true_iff in AR as [_ AR]. destruct IH as (G & IG); eauto; [intros i q P; apply PT; apply (PI _ _ [_] _ _ P)|apply (SUB _ [_] _ TL)|]. eexists. apply il_same; [now left|apply copy_refl|exact IG].
  - destruct IH as (G & IG'); eauto. eexists. apply il_same; [right; left; exact IG|apply copy_refl|exact IG'].
  - cbn [forallb] in AR. apply andb_true_iff in AR as [_ AR]. rewrite forallb_app in AR. apply andb_true_iff in AR as [_ AR].
    destruct IH as (G & IG'); auto; [intros i q P; apply PT; apply (PI _ _ [_]); apply PI; exact P|apply (SUB _ ns), (SUB _ [_] _ TL)|]. eexists. apply il_same; [right; right; split; [reflexivity|exact FO]|apply copy_refl|exact IG'].
  - apply app_eq_nil in EE as [-> ->]. cbn [forallb] in AR. apply andb_true_iff in AR as [AB AR]. rewrite forallb_app in AR. apply andb_true_iff in AR as [_ AR]. cbn in AB. apply andb_true_iff in AB as [_ AB].
    destruct (reads_grow _ _ _ _ _ _ _ _ _ _ R) as (M2 & EK & _). assert (CA1 : carries l K1) by (apply (carries_prefix l K1 M2); now rewrite <- EK).
    destruct IH1 as (G1 & IG1); auto.
    { intros i q P; apply PT; eapply pt_below; [left; reflexivity|reflexivity|exact P]. }
    { rewrite tall_iff in *. intros d is i W. apply TL. eapply se_block; [left; reflexivity| |reflexivity|exact W]. intros [_ X]. cbn in X. congruence. }
    destruct IH as (G & IG'); auto; [intros i q P; apply PT; apply (PI _ _ [_]); apply PI; exact P|apply (SUB _ ns), (SUB _ [_] _ TL)|].
    eexists. eapply (il_block o dir path h h args args ln ln b G1 c c); auto using same_refl, sames_refl; eauto.
  - cbn [forallb] in AR. apply andb_true_iff in AR as [AB AR]. rewrite forallb_app in AR. apply andb_true_iff in AR as [_ AR].
    destruct (remarks_exist _ _ _ _ _ NO) as (cs & RM). destruct (comments_exist cs) as (N & CN).
    destruct IH as (G & IG'); auto; [intros i q P; apply PT; apply (PI _ _ [_]); apply PI; exact P|apply (SUB _ ns), (SUB _ [_] _ TL)|].
    assert (UN : unless_none is = Some is).
    { destruct is; [|reflexivity]. cbn in AB. destruct FO as [E _]. rewrite E in AB. discriminate. }
    destruct (reads_grow _ _ _ _ _ _ _ _ _ _ R) as (M2 & EK & _). assert (CA1 : carries l K1) by (apply (carries_prefix l K1 M2); now rewrite <- EK).
    pose proof (numbers_named _ _ _ _ _ NU _ CA1) as NN.
    assert (FD : forall i, In i is -> found (map config_of l) n i /\ stands l (Z.to_nat i) path).
    { intros i Ii. split.
      - apply (proj1 (tall_iff _ _ _) TL (Dir (t_val h) (t_line h) (words args) (label_of o f) (unless_none is) None None false) is i); [apply se_here; now left|exact (proj1 FO)|exact UN|exact Ii].
      - apply PT; [eapply pt_here; [left; reflexivity|exact (proj1 FO)|exact UN|exact Ii]|]. clear - NN Ii. induction NN as [|x y is fs [L _] NN IHN]; [destruct Ii|]; destruct Ii as [<-|Ii]; auto. }
    assert (CT : exists B, contents o dir path fs B).
    { clear - IHn NN FD RD HOME. induction NN as [|i g is fs (L & pg & NG & EF) NN IHN]; [exists []; constructor|].
      destruct IHN as (B & CB); [intros j J; apply FD; now right|]. destruct (FD i (or_introl eq_refl)) as [FN ST]. destruct n as [|n]; [destruct FN|]. destruct FN as (c & EC & TL).
      rewrite nth_error_map, NG in EC. injection EC as <-. cbn [config_of cf_parsed] in TL.
      destruct (RD _ _ NG) as [(p0 & text0 & F0 & K0 & ls0 & K0' & S0 & OP0 & LX0 & WF0 & R0 & CA0) AR0]. rewrite (HOME _ _ _ S0 ST) in *.
      assert (PT0 : forall j q, points path (pg_tree pg) j q -> (0 <= j)%Z -> stands l (Z.to_nat j) q) by (intros j q P J; eapply sd_included; [exact ST|exact NG|exact P|exact J]).
      destruct (IHn n (Nat.lt_succ_diag_r n) _ _ _ _ _ _ _ _ R0 eq_refl CA0 PT0 AR0 TL) as (G0 & IG0).
      exists (G0 ++ B). rewrite EF in OP0. eapply ct_file; eauto. }
    destruct CT as (B & CB). eexists. eapply il_include; eauto.
Qed.
End Exist.
Theorem inline_exists : forall o filename l text F, o_combine o = true -> book o filename l -> ~ loops l -> one_home l ->
  (forall g, In g l -> pg_errors g = [] /\ forallb all_resolved (pg_tree g) = true) ->
  o_open o filename = inl text -> lex (o_lexers o) text = flat F -> Forall wf_stmt F -> exists G, inlined o (dir_name filename) [] F G.
Proof.
  intros o filename l text F CM BK LP HM OK OP LX WF.
  assert (ER : Forall (fun g => pg_errors g = []) l) by (apply Forall_forall; intros g I; now apply OK).
  destruct (combined_ok o filename l BK CM LP ER) as (n & g0 & ds & N0 & X & PM).
  assert (RD : forall m g, nth_error l m = Some g -> read_at o (dir_name filename) l m g /\ forallb all_resolved (pg_tree g) = true).
  { intros m g E. split; [|apply OK; eapply nth_error_In; eauto]. apply (pages_read o _ _ _ _ BK [] eq_refl ER); [| |lia|exact E].
    - intros k h q Y. destruct k as [|k]; [|destruct k; discriminate]. injection Y as <- <-. apply sd_main.
    - intros k h q Y. lia. }
  assert (G0 : pg_file g0 = filename) by (destruct l as [|g l]; [discriminate|]; injection N0 as ->; destruct (pages_first _ _ _ _ _ _ BK) as (q & E); cbn in E; congruence).
  destruct (RD 0 g0 N0) as [(p0 & text0 & F0 & K0 & ls0 & K0' & S0 & OP0 & LX0 & WF0 & R0 & CA0) AR0]. rewrite G0, OP in OP0. injection OP0 as <-. rewrite LX in LX0. rewrite <- (flat_unique _ _ WF WF0 LX0) in R0.
  rewrite (HM 0 _ _ S0 (sd_main l)) in *. destruct (proj1 (expand_tall (map config_of l)) _ _ X) as (k & TL).
  eapply (inline_exists_at o (dir_name filename) l HM RD k); eauto. intros i q P J. eapply sd_included; [apply sd_main|exact N0|exact P|exact J].
Qed.
Lemma plain_same : forall a b, same_token a b -> t_err a = None /\ plain a -> t_err b = None /\ plain b.
Proof. intros a b (V & Q & E) [X [P|P]]; (split; [congruence|]); [left|right]; congruence. Qed.
Lemma plains_same : forall a b, Forall2 same_token a b -> Forall (fun t => t_err t = None /\ plain t) a -> Forall (fun t => t_err t = None /\ plain t) b.
Proof. intros a b S. induction S as [|x y a b X S IH]; intros F; [constructor|]. inversion F; subst. constructor; [eapply plain_same; eauto|auto]. Qed.
Lemma head_same : forall a b, same_token a b -> t_err a = None -> plain a -> ~ hash a -> t_err b = None /\ plain b /\ ~ hash b.
Proof. intros a b S E P N. destruct (plain_same _ _ S (conj E P)) as [E' P']. split; auto. split; auto. intros H. apply N. exact (hash_same _ _ (same_sym _ _ S) H). Qed.
Lemma copy_wf : forall s s', copy s s' -> wf_stmt s -> wf_stmt s'.
Proof.
  fix IH 3. intros s s' C W. destruct C as [t t' S|h h' args args' l l' SH SA|h h' args args' l l' b b' c c' SH SA SB].
  - inversion W as [? E H| |]; subst. constructor; [destruct S as (_ & _ & X); congruence|exact (hash_same _ _ S H)].
  - inversion W as [|? ? ? E P N A|]; subst. destruct (head_same _ _ SH E P N) as (E' & P' & N'). constructor; auto. eapply plains_same; eauto.
  - inversion W as [| |? ? ? ? ? E P N A B]; subst. destruct (head_same _ _ SH E P N) as (E' & P' & N'). constructor; auto; [eapply plains_same; eauto|].
    clear - IH SB B. induction SB as [|x y b b' C SB IHB]; [constructor|]. constructor; [apply (IH _ _ C); now inversion B|apply IHB; now inversion B].
Qed.
Lemma inlined_wf : forall o dir, (forall path F G, inlined o dir path F G -> Forall wf_stmt F -> Forall wf_stmt G) /\ (forall path fs B, contents o dir path fs B -> Forall wf_stmt B).
Proof.
  intros o dir. apply inlined_both.
  - auto.
  - intros path s s' F G U C I IH W. inversion W; subst. constructor; auto. eapply copy_wf; eauto.
  - intros path h h' args args' l l' b b' c c' F G M IG SH SA IB IHB I IH W. inversion W as [|? ? W1 W2]; subst. inversion W1 as [| |? ? ? ? ? E P N A B]; subst. constructor; auto.
    destruct (head_same _ _ SH E P N) as (E' & P' & N'). constructor; auto. eapply plains_same; eauto.
  - intros path h args l arg more fs cs N B F G M IG FO WD TG CT IHC RM CN I IH W. inversion W; subst. apply Forall_app. split; auto. apply Forall_app. split; auto.
    clear - CN. induction CN as [|c s cs N (t & -> & Q & E & V) CN IHN]; constructor; auto. constructor; auto. split; eauto.
  - constructor.
  - intros path f text F B fs R OP LX WF I IH CT IHC. apply Forall_app. split; auto.
Qed.
Theorem inline_any : forall o filename l text F G op f t, o_combine o = true -> book o filename l -> ~ loops l -> one_home l ->
  (forall g, In g l -> pg_errors g = [] /\ forallb all_resolved (pg_tree g) = true) ->
  o_open o filename = inl text -> lex (o_lexers o) text = flat F -> Forall wf_stmt F -> inlined o (dir_name filename) [] F G ->
  op f = inl t -> lex (o_lexers o) t = flat G ->
  exists n ds ds', (forall k, n <= k -> parse_main k o filename = ROk (Pay "ok" [] [Cfg filename "ok" [] ds])) /\
    (forall k, n <= k -> parse_main k (with_open o op) f = ROk (Pay "ok" [] [Cfg f "ok" [] ds'])) /\
    map unplaced ds' = map unplaced ds.
Proof. intros o filename l text F G op f t CM BK LP HM OK OP LX WF IL OP2 LX2. exact (inline o filename l text F G op f t CM BK LP HM OK OP LX WF IL OP2 LX2 (proj1 (inlined_wf _ _) _ _ _ IL WF)). Qed.
