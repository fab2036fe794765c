(** Proofs for C65. *)
From Verif Require Export SpecFlatten FormatProofs.
Local Open Scope string_scope.

(** ** What [reads] says about the directives *)
Inductive sound (o : popts) : list string -> directive -> Prop :=
| sn_comment : forall path d, is_comment d = true -> d_block d = None -> d_name d = "#" -> sound o path d
| sn_entry : forall path d, is_comment d = false -> inside_map path -> fits_arity (entry_arity (last path "") (d_name d)) (d_args d) ->
    d_block d = None -> d_includes d = None -> d_ismap d = true -> sound o path d
| sn_stmt : forall path d d0, is_comment d = false -> ~ inside_map path -> ~ In (d_name d) (o_ignore o) -> ~ followed o (d_name d) ->
    d_name d0 = d_name d -> (d_name d <> "if" -> d_args d0 = d_args d) -> accepts o path d0 (term_of d) -> d_includes d = None ->
    (forall b, d_block d = Some b -> plain_path (below path (d_name d)) /\ Forall (sound o (below path (d_name d))) b) -> sound o path d
| sn_include : forall path d, followed o (d_name d) -> d_block d = None -> d_ismap d = false -> sound o path d.
Lemma sound_notes : forall o cm lab ln args ns path, notes cm lab ln args ns -> Forall (sound o path) ns.
Proof.
  intros o cm lab ln args ns path (cs & _ & ->). destruct cm; [|constructor]. apply Forall_forall. intros d I. apply in_map_iff in I as (c & <- & _). now apply sn_comment.
Qed.
Lemma reads_sound : forall o dir f path K F ds es ls K', reads o dir f path K F ds es ls K' -> Forall (sound o path) ds.
Proof.
  intros o dir f path K F ds es ls K' R.
  induction R as [path K|path K t c F ds es ls K' T R IH|path K h args l F ds es ls K' M FA R IH|path K h args l body what F ds es ls K' M OB R IH|path K h args l body F ds es ls K' M IG R IH
    |path K h args l body what F ds es ls K' M IG OB UN R IH|path K h args l args' ns F ds es ls K' M IG AC FO FI NO R IH|path K h args l args' b c ns ds1 es1 ls1 K1 F ds es ls K' M IG AC FO FI NO PP R1 IH1 R IH
    |path K h args l arg more fs is ns K1 F ds es ls K' M IG AC FO WD TG MG NU NO R IH|path K h args l arg more m ns F ds es ls K' M IG AC FO WD MG OP NO R IH]; try exact IH.
  - constructor.
  - apply Forall_app. split; [|exact IH]. destruct (o_comments o); repeat constructor.
  - constructor; [|exact IH]. apply sn_entry; auto. unfold is_comment. cbn. apply andb_false_r.
  - constructor; [|apply Forall_app; split; [eapply sound_notes; eauto|exact IH]]. apply (sn_stmt _ _ _ (stm_dir h args)); auto; [unfold is_comment; cbn; apply andb_false_r|cbn; intros N; symmetry; now apply FI|intros b E; discriminate].
  - constructor; [|apply Forall_app; split; [eapply sound_notes; eauto|exact IH]]. apply (sn_stmt _ _ _ (stm_dir h args)); auto; [unfold is_comment; cbn; apply andb_false_r|cbn; intros N; symmetry; now apply FI|]. intros b0 E. cbn in E. injection E as <-. split; auto.
  - constructor; [|apply Forall_app; split; [eapply sound_notes; eauto|exact IH]]. now apply sn_include.
  - constructor; [|apply Forall_app; split; [eapply sound_notes; eauto|exact IH]]. now apply sn_include.
Qed.

(** ** Where the files are met *)
Lemma numbers_grow : forall path K fs is K', numbers path K fs is K' -> exists N, K' = (K ++ N)%list /\
  forall n f q, nth_error K' n = Some (f, q) -> n < List.length K \/ q = path /\ In (Z.of_nat n) is.
Proof.
  intros path K fs is K' H. induction H as [K|K i f q fs is K' E H IH|K f fs is K' N H IH].
  - exists []. split; [now rewrite app_nil_r|]. intros n f q E. left. apply nth_error_Some. congruence.
  - destruct IH as (N & -> & X). exists N. split; auto. intros n g p Y. destruct (X n g p Y) as [L|[A B]]; auto. right. split; auto. now right.
  - destruct IH as (M & -> & X). exists ((f, path) :: M). split; [now rewrite <- app_assoc|]. intros n g p Y. destruct (X n g p Y) as [L|[A B]].
    + rewrite app_length in L. cbn in L. destruct (Nat.eq_dec n (List.length K)) as [->|D]; [|left; lia]. right. split; [|now left].
      rewrite <- app_assoc in Y. rewrite nth_error_app2 in Y by lia. rewrite Nat.sub_diag in Y. cbn in Y. congruence.
    + right. split; auto. now right.
Qed.
Lemma points_incl : forall path ds i q, points path ds i q -> forall es, (forall d, In d ds -> In d es) -> points path es i q.
Proof. intros path ds i q P es S. inversion P; subst; [eapply pt_here; eauto|eapply pt_below; eauto]. Qed.
Lemma reads_grow : forall o dir f path K F ds es ls K', reads o dir f path K F ds es ls K' -> exists N, K' = (K ++ N)%list /\
  forall n g q, nth_error K' n = Some (g, q) -> n < List.length K \/ points path ds (Z.of_nat n) q.
Proof.
  intros o dir f path K F ds es ls K' R.
  assert (BASE : forall (K : known) (path : list string) (ds : list directive) n g q, nth_error K n = Some (g, q) -> n < List.length K \/ points path ds (Z.of_nat n) q) by (intros; left; apply nth_error_Some; congruence).
  induction R as [path K|path K t c F ds es ls K' T R IH|path K h args l F ds es ls K' M FA R IH|path K h args l body what F ds es ls K' M OB R IH|path K h args l body F ds es ls K' M IG R IH
    |path K h args l body what F ds es ls K' M IG OB UN R IH|path K h args l args' ns F ds es ls K' M IG AC FO FI NO R IH|path K h args l args' b c ns ds1 es1 ls1 K1 F ds es ls K' M IG AC FO FI NO PP R1 IH1 R IH
    |path K h args l arg more fs is ns K1 F ds es ls K' M IG AC FO WD TG MG NU NO R IH|path K h args l arg more m ns F ds es ls K' M IG AC FO WD MG OP NO R IH]; try exact IH.
  1: exists []; split; [now rewrite app_nil_r|apply BASE].
  1, 2, 3, 6: (destruct IH as (N & E & X); exists N; split; [exact E|]; intros n g q Y; destruct (X n g q Y) as [L|P]; [now left|right; apply (points_incl _ _ _ _ P); intros d I; try (apply in_or_app; now right); right; try (apply in_or_app; now right); exact I]).
  - destruct IH1 as (N1 & -> & X1). destruct IH as (N & -> & X). exists (N1 ++ N)%list. split; [now rewrite app_assoc|]. intros n g q Y. destruct (X n g q Y) as [L|P].
    + rewrite nth_error_app1 in Y by exact L. destruct (X1 n g q Y) as [L1|P1]; [now left|right]. eapply pt_below; [left; reflexivity|reflexivity|exact P1].
    + right. apply (points_incl _ _ _ _ P). intros d I. right. apply in_or_app. now right.
  - destruct (numbers_grow _ _ _ _ _ NU) as (N1 & -> & X1). destruct IH as (N & -> & X). exists (N1 ++ N)%list. split; [now rewrite app_assoc|]. intros n g q Y. destruct (X n g q Y) as [L|P].
    + rewrite nth_error_app1 in Y by exact L. destruct (X1 n g q Y) as [L1|[-> I]]; [now left|right]. eapply (pt_here path _ _ is); [left; reflexivity|exact (proj1 FO)| |exact I]. cbn [d_includes]. destruct is; [destruct I|reflexivity].
    + right. apply (points_incl _ _ _ _ P). intros d I. right. apply in_or_app. now right.
Qed.
Lemma pages_homes : forall o dir i K l, pages o dir i K l -> forall pre, List.length pre = i -> Forall (fun g => pg_errors g = []) l ->
  (forall n f q, nth_error K n = Some (f, q) -> stands (pre ++ l) n q) ->
  forall n g, i <= n -> nth_error (pre ++ l) n = Some g -> exists path, stands (pre ++ l) n path /\ Forall (sound o path) (pg_tree g).
Proof.
  intros o dir i K l P. induction P as [K|i K f path text F ds es ls K' l N OP LX WF PP LEN R P IH|i K f path text es e ls K' l N OP PP LEN B P IH]; intros pre LE ER ST n g LO NT.
  - exfalso. rewrite app_nil_r in NT. apply nth_error_Some in LO || (assert (n < List.length pre) by (apply nth_error_Some; congruence); lia).
  - assert (HERE : stands (pre ++ Page f ds es ls :: l) i path) by (eapply ST; eauto). assert (NI : nth_error (pre ++ Page f ds es ls :: l) i = Some (Page f ds es ls)) by (rewrite nth_error_app2 by lia; rewrite LE, Nat.sub_diag; reflexivity).
    destruct (Nat.eq_dec n i) as [->|D].
    + rewrite NI in NT. injection NT as <-. exists path. split; auto. eapply reads_sound; eauto.
    + replace (pre ++ Page f ds es ls :: l)%list with ((pre ++ [Page f ds es ls]) ++ l)%list in * by (rewrite <- app_assoc; reflexivity).
      apply IH; auto; [rewrite app_length; cbn; lia|now inversion ER| |lia]. intros m f' q E. destruct (reads_grow _ _ _ _ _ _ _ _ _ _ R) as (M & -> & X). destruct (X m f' q E) as [L|Pt].
      * rewrite nth_error_app1 in E by exact L. eapply ST; eauto.
      * rewrite <- (Nat2Z.id m). eapply sd_included; [exact HERE|exact NI|exact Pt|lia].
  - inversion ER as [|? ? X _]; subst. cbn in X. destruct es; discriminate.
Qed.

(** ** What includes are replaced by is legal where it is put *)
(** All that legality takes from the classes of trees: the arguments of an if can be put into parentheses. *)
Fixpoint ifs_fit (pr : N -> bool) (d : directive) : bool :=
  if is_comment d then true
  else ((if String.eqb (d_name d) "if" then forallb (kept pr) (d_args d) && if_ok (d_args d) else true) &&
        match d_block d with None => true | Some b => forallb (ifs_fit pr) b end)%bool.
Lemma ifs_parts : forall pr d, is_comment d = false -> ifs_fit pr d = true ->
  (d_name d = "if" -> forallb (kept pr) (d_args d) = true /\ if_ok (d_args d) = true) /\ forall b, d_block d = Some b -> forallb (ifs_fit pr) b = true.
Proof.
  intros pr d C W. destruct d as [nm ln args file inc blk cm mp]. cbn [ifs_fit] in W. rewrite C in W. cbn [d_name d_args d_block] in *. apply andb_true_iff in W as [I B]. split.
  - intros ->. cbn in I. now apply andb_true_iff in I.
  - intros b ->. exact B.
Qed.
Lemma forallb_weak : forall {A} (p q : A -> bool) l, Forall (fun x => p x = true -> q x = true) l -> forallb p l = true -> forallb q l = true.
Proof. intros A p q l F H. rewrite forallb_forall in *. rewrite Forall_forall in F. auto. Qed.
Lemma writable_ifs : forall pr ok d, writable pr ok d = true -> ifs_fit pr d = true.
Proof.
  intros pr ok d. induction d as [d IH] using dir_ind'. intros W. destruct (is_comment d) eqn:C; [destruct d; cbn [ifs_fit]; now rewrite C|].
  destruct (writable_parts pr ok d C W) as (KA & IF & WB). destruct d as [nm ln args file inc blk cm mp]. cbn [ifs_fit]. rewrite C. cbn [d_name d_args d_block] in *. apply andb_true_iff. split.
  - destruct (String.eqb_spec nm "if") as [E|E]; [|reflexivity]. rewrite KA. now apply IF.
  - destruct blk as [b|]; [|reflexivity]. eapply forallb_weak; [exact IH|]. now apply WB.
Qed.
Section Expand.
Variables (o : popts) (pr : N -> bool) (l : list page).
Hypothesis AR : ascii_right pr.
Hypothesis LI : loose_if o.
Hypothesis HOME : one_home l.
Definition clean (ds : list directive) : Prop := forallb no_if_entry ds = true /\ forallb all_resolved ds = true.
Hypothesis SD : forall n g, nth_error l n = Some g -> exists path, stands l n path /\ Forall (sound o path) (pg_tree g) /\ clean (pg_tree g).
Lemma stmt_legal : forall path d d0, is_comment d = false -> ifs_fit pr d = true -> ~ inside_map path -> ~ In (d_name d) (o_ignore o) -> ~ followed o (d_name d) ->
  d_name d0 = d_name d -> (d_name d <> "if" -> d_args d0 = d_args d) -> accepts o path d0 (term_of d) ->
  (forall b, d_block d = Some b -> plain_path (below path (d_name d)) /\ Forall (legal o (below path (d_name d))) b) -> legal o path d.
Proof.
  intros path d d0 C W M IG FO N A AC B. apply lg_stmt; auto.
  - intros X. apply M. split; auto. intros ->. cbn in X. repeat destruct X as [X|X]; try discriminate. destruct X.
  - intros E. destruct (o_single o) eqn:S; auto. destruct FO. split; auto.
  - destruct (ifs_parts pr d C W) as [IF _]. destruct (String.eqb_spec (d_name d) "if") as [E|E].
    + destruct (IF E) as [KA IO]. apply (accepts_if pr o path d d0); auto. congruence.
    + apply (accepts_ext o path d0); auto. rewrite (A E). unfold written. apply String.eqb_neq in E. now rewrite E.
  - intros b E. destruct (B b E) as [P F]. split; auto. unfold plain_path in *. rewrite <- (below_last path (d_name d)). rewrite Forall_forall in P. constructor; [|constructor]. apply P.
    destruct (exists_last (l := below path (d_name d))) as (r & x & ->); [rewrite below_enter; unfold enter_path; destruct path as [|p r]; [discriminate|destruct (_ && _)%bool; discriminate]|].
    rewrite last_last. apply in_or_app. right. now left.
Qed.
Lemma expand_legal :
  (forall ds out, expand (map config_of l) ds out -> forall path, (forall i q, points path ds i q -> (0 <= i)%Z -> stands l (Z.to_nat i) q) -> Forall (sound o path) ds -> clean ds ->
    forallb (ifs_fit pr) out = true -> Forall (legal o path) out) /\
  (forall is out, expand_all (map config_of l) is out -> forall path, (forall i, In i is -> (0 <= i)%Z -> stands l (Z.to_nat i) path) ->
    forallb (ifs_fit pr) out = true -> Forall (legal o path) out).
Proof.
  apply expand_both.
  - intros path _ _ _ _. constructor.
  - intros d r r' NR NB X IH path PT SN [C1 C2] W. cbn [forallb] in *. apply andb_true_iff in C1 as [C1 C1r]. apply andb_true_iff in C2 as [C2 C2r]. apply andb_true_iff in W as [W Wr]. inversion SN as [|? ? S SN']; subst.
    constructor; [|apply IH; auto; [|split; auto]; intros i q P L; apply PT; auto; apply (points_incl _ _ _ _ P); intros; now right].
    destruct S as [path d C _ _|path d C M FA _ _ IM|path d d0 C M IG FO N A AC _ _|path d FO _ IM].
    + now apply lg_comment.
    + destruct M as [NE M]. rewrite (app_removelast_last "" NE). apply lg_entry; auto. destruct d; cbn in *. subst. cbn in C1. intros ->. discriminate.
    + apply (stmt_legal path d d0); auto. congruence.
    + exfalso. destruct FO as [E _]. apply NR. split; auto. intros X'. destruct d; cbn in *. subst. discriminate.
  - intros d b b' r r' NR EB Xb IHb X IH path PT SN [C1 C2] W. cbn [forallb] in *. apply andb_true_iff in C1 as [C1 C1r]. apply andb_true_iff in C2 as [C2 C2r]. apply andb_true_iff in W as [W Wr]. inversion SN as [|? ? S SN']; subst.
    constructor; [|apply IH; auto; [|split; auto]; intros i q P L; apply PT; auto; apply (points_incl _ _ _ _ P); intros; now right].
    destruct S as [path d C NB _|path d C M FA NB _ _|path d d0 C M IG FO N A AC _ B|path d _ NB _]; try congruence.
    assert (C' : is_comment (reblock d (Some b')) = false) by exact C. destruct (B b EB) as [PP SB].
    apply (stmt_legal path _ d0); auto.
    + unfold term_of in *. cbn [reblock d_block]. now rewrite EB in AC.
    + intros b0 E. cbn in E. injection E as <-. split; [exact PP|]. destruct (ifs_parts pr _ C' W) as [_ WB]. apply IHb; auto.
      * intros i q P L. apply PT; auto. eapply pt_below; [left; reflexivity|exact EB|exact P].
      * split; destruct d; cbn in *; subst; [apply andb_true_iff in C1 as [_ C1]; exact C1|apply andb_true_iff in C2 as [_ C2]; exact C2].
  - intros d is ds r r' NM EI Xi IHi X IH path PT SN [C1 C2] W. cbn [forallb] in *. apply andb_true_iff in C1 as [C1 C1r]. apply andb_true_iff in C2 as [C2 C2r]. rewrite forallb_app in W. apply andb_true_iff in W as [W Wr]. inversion SN as [|? ? S SN']; subst.
    apply Forall_app. split.
    + apply IHi; auto. intros i I L. apply PT; auto. eapply pt_here; [left; reflexivity|exact NM|exact EI|exact I].
    + apply IH; auto; [|split; auto]. intros i q P L. apply PT; auto. apply (points_incl _ _ _ _ P). intros. now right.
  - intros path _ _. constructor.
  - intros i c ds is rest L NT X IH XA IHA path PT W. rewrite forallb_app in W. apply andb_true_iff in W as [W Wr]. apply Forall_app. split; [|apply IHA; auto; intros j J; apply PT; now right].
    rewrite nth_error_map in NT. destruct (nth_error l (Z.to_nat i)) as [g|] eqn:NG; [|discriminate]. injection NT as <-. cbn [config_of cf_parsed] in *.
    destruct (SD _ _ NG) as (p0 & S0 & SN & CL). assert (HS : stands l (Z.to_nat i) path) by (apply PT; [now left|exact L]). rewrite (HOME _ _ _ S0 HS) in *. apply IH; auto.
    intros j q P J. eapply sd_included; eauto.
Qed.
End Expand.

Lemma legal_open : forall o op d path, legal o path d -> legal (with_open o op) path d.
Proof.
  intros o op d. induction d as [d IH] using dir_ind'. intros path L. destruct L as [path d C|path m d C MB NI NB FA|path d C NM NIG INC ACC BLK].
  - now apply lg_comment.
  - now apply lg_entry.
  - apply lg_stmt; auto; [now apply accepts_open|]. intros b E. destruct (BLK b E) as [P F]. split; auto. rewrite E in IH. cbn [opt_list] in IH. rewrite Forall_forall in *. auto.
Qed.
Lemma pages_first : forall o dir i K g l, pages o dir i K (g :: l) -> exists path, nth_error K i = Some (pg_file g, path).
Proof. intros o dir i K g l P. inversion P; subst; eexists; eassumption. Qed.
Lemma flatten_core : forall pr o filename l, o_combine o = true -> loose_if o ->
  book o filename l -> ~ loops l -> one_home l ->
  (forall g, In g l -> pg_errors g = [] /\ forallb no_if_entry (pg_tree g) = true /\ forallb all_resolved (pg_tree g) = true) ->
  exists n ds, (forall fuel, n <= fuel -> parse_main fuel o filename = ROk (Pay "ok" [] [Cfg filename "ok" [] ds])) /\
    (forallb (ifs_fit pr) ds = true -> Forall (legal o []) ds).
Proof.
  intros pr o filename l CM LI BK LP HM FM.
  assert (ER : Forall (fun g => pg_errors g = []) l) by (apply Forall_forall; intros g I; now apply FM).
  destruct (book_combined o filename l BK (or_intror ER) CM LP) as (n & P).
  assert (Q : exists g0 ds, hd_error l = Some g0 /\ expand (map config_of l) (pg_tree g0) ds /\ forall fuel, n <= fuel -> parse_main fuel o filename = ROk (Pay "ok" [] [Cfg (pg_file g0) "ok" [] ds])).
  { rewrite (no_errors o l ER) in P.
    assert (ST : existsb (fun c => String.eqb (cf_status c) "failed") (map config_of l) = false).
    { clear - ER. induction ER as [|g l G ER IH]; [reflexivity|]. cbn [map existsb]. rewrite IH. unfold config_of. cbn [cf_status]. rewrite G. reflexivity. }
    assert (SE : flat_map cf_errors (map config_of l) = []).
    { clear - ER. induction ER as [|g l G ER IH]; [reflexivity|]. cbn [map flat_map]. rewrite IH. unfold config_of. cbn [cf_errors]. rewrite G. reflexivity. }
    destruct (P n (le_n _)) as (p & g0 & H0 & PM & [(ds & X & PC & _) _ _]). exists g0, ds. cbn [pl_config] in *. split; auto. split; [exact X|]. intros fuel LE.
    destruct (P fuel LE) as (p' & g1 & H1 & PM' & [(ds' & X' & PC' & _) PE' PS']). rewrite H0 in H1. injection H1 as <-. cbn [pl_config pl_errors pl_status config_of cf_file cf_parsed] in *. rewrite <- (proj1 (expand_det _) _ _ X' _ X) in PC'.
    rewrite ST, SE in PC'. rewrite PM'. f_equal. destruct p' as [a b c]. cbn in *. subst. reflexivity. }
  destruct Q as (g0 & ds & H0 & X & PM). assert (G0 : pg_file g0 = filename) by (destruct l as [|g l]; [discriminate|]; injection H0 as ->; destruct (pages_first _ _ _ _ _ _ BK) as (q & E); cbn in E; congruence). rewrite G0 in PM. exists n, ds. split; [exact PM|]. intros W.
  assert (SD : forall m g, nth_error l m = Some g -> exists path, stands l m path /\ Forall (sound o path) (pg_tree g) /\ clean (pg_tree g)).
  { intros m g E. destruct (pages_homes o _ _ _ _ BK [] eq_refl ER) with (n := m) (g := g) as (path & S1 & S2); [|lia|exact E|].
    - intros k f q Y. destruct k as [|k]; [|destruct k; discriminate]. injection Y as <- <-. apply sd_main.
    - exists path. split; [exact S1|]. split; [exact S2|]. apply nth_error_In in E. destruct (FM g E) as (_ & A & B). now split. }
  assert (N0 : nth_error l 0 = Some g0) by (destruct l; [discriminate|exact H0]).
  destruct (SD 0 g0 N0) as (p0 & S0 & SN & CL). rewrite (HM 0 _ _ S0 (sd_main l)) in *.
  destruct (expand_legal o pr l LI HM SD) as [EX _]. apply (EX _ _ X []); auto.
  intros i q Pt L. exact (sd_included l 0 [] g0 i q (sd_main l) N0 Pt L).
Qed.
Theorem flatten : forall bo o filename l, ascii_right (b_print bo) -> b_ext bo = [] -> (0 <= b_indent bo)%Z -> o_combine o = true -> o_lexers o = [] -> loose_if o ->
  book o filename l -> ~ loops l -> one_home l ->
  (forall g, In g l -> pg_errors g = [] /\ forallb no_if_entry (pg_tree g) = true /\ forallb all_resolved (pg_tree g) = true) ->
  exists n ds, (forall fuel, n <= fuel -> parse_main fuel o filename = ROk (Pay "ok" [] [Cfg filename "ok" [] ds])) /\
    (writables (b_print bo) not_note ds = true -> exists text, build bo ds = Some text /\
      forall op f, op f = inl text -> exists n ds', (forall k, n <= k -> parse_main k (with_open o op) f = ROk (Pay "ok" [] [Cfg f "ok" [] ds'])) /\
        map bare ds' = map bare (expected (o_comments o) (b_header bo) ds)).
Proof.
  intros bo o filename l AR NE IN CM NL LI BK LP HM FM.
  destruct (flatten_core (b_print bo) o filename l CM LI BK LP HM FM) as (n & ds & PM & LG'). exists n, ds. split; [exact PM|]. intros W.
  assert (LG : Forall (legal o []) ds).
  { apply LG'. unfold writables in W. apply andb_true_iff in W as [_ W]. eapply forallb_weak; [|exact W]. apply Forall_forall. intros d _. apply writable_ifs. }
  clear LG'.
  destruct (round_trip_bare bo o filename ds AR NE IN NL W LG) as (text & B & _). exists text. split; [exact B|]. intros op f OP.
  assert (LG' : Forall (legal (with_open o op) []) ds) by (rewrite Forall_forall in *; intros d I; apply legal_open; auto).
  destruct (round_trip_bare bo (with_open o op) f ds AR NE IN NL W LG') as (text' & B' & R). rewrite B in B'. injection B' as <-. exact (R OP).
Qed.
