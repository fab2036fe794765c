(** Proofs for C67. *)
From Verif Require Export SpecJoin LayoutProofs.
Local Open Scope string_scope.
Local Open Scope list_scope.

(** ** Runs in parts *)
Fixpoint cgo (c : cst) (us : list string) : list token * option cst :=
  match us with
  | [] => ([], Some c)
  | u :: us => match cstep c u with Halt ts => (ts, None) | Go c' ts => let r := cgo c' us in (ts ++ fst r, snd r) end
  end.
Definition finish (x : option cst) : list token := match x with Some c => cfinish c | None => [] end.
Lemma crun_go : forall us c, crun c us = fst (cgo c us) ++ finish (snd (cgo c us)).
Proof. induction us as [|u us IH]; intros c; [reflexivity|]. cbn [crun cgo]. destruct (cstep c u) as [c' ts|ts]; cbn [fst snd finish]; [now rewrite IH, app_assoc|now rewrite app_nil_r]. Qed.
Lemma cgo_app : forall us vs c, cgo c (us ++ vs) = match snd (cgo c us) with Some c' => (fst (cgo c us) ++ fst (cgo c' vs), snd (cgo c' vs)) | None => cgo c us end.
Proof.
  induction us as [|u us IH]; intros vs c; cbn [app cgo].
  - cbn [fst snd app]. now destruct (cgo c vs).
  - destruct (cstep c u) as [c' ts|ts]; [|reflexivity]. rewrite IH. cbn [fst snd]. destruct (cgo c' us) as [t [x|]]; cbn [fst snd]; [now rewrite app_assoc|reflexivity].
Qed.
Definition bad (t : token) : Prop := t_err t <> None.
Lemma csep_bad : forall pre line start dup depth u ts, csep pre line start dup depth u = Halt ts -> exists t, In t ts /\ bad t.
Proof.
  intros pre line start dup depth u ts H. unfold csep in H. destruct (dup && _)%bool; [|destruct (_ && Z.ltb _ 0)%bool; [|discriminate]]; injection H as <-; eexists; (split; [apply in_or_app; right; now left|]); discriminate.
Qed.
Lemma cstep_bad : forall c u ts, cstep c u = Halt ts -> exists t, In t ts /\ bad t.
Proof.
  intros c u ts H. unfold cstep in H. destruct (c_mode c); repeat match type of H with (if ?b then _ else _) = _ => destruct b end; try discriminate H; eapply csep_bad; eauto.
Qed.
Lemma cgo_bad : forall us c, snd (cgo c us) = None -> exists t, In t (fst (cgo c us)) /\ bad t.
Proof.
  induction us as [|u us IH]; intros c H; [discriminate|]. cbn [cgo] in *. destruct (cstep c u) as [c' ts|ts] eqn:E; cbn [fst snd] in *; [|eapply cstep_bad; eauto].
  destruct (IH c' H) as (t & I & B). exists t. split; auto. apply in_or_app. now right.
Qed.
Lemma bad_not : forall ts t, no_errors ts -> In t ts -> bad t -> False.
Proof. intros ts t N I B. unfold no_errors in N. rewrite Forall_forall in N. apply B. now apply N. Qed.

(** ** Depth and lines *)
Lemma cstep_depth : forall c u c' ts, cstep c u = Go c' ts -> (0 <= c_depth c)%Z -> (0 <= c_depth c')%Z.
Proof.
  intros c u c' ts H D. unfold cstep, csep in H. destruct (c_mode c); repeat match type of H with (if ?b then _ else _) = _ => destruct b eqn:? end; try discriminate H; inversion H; subst; cbn [c_depth]; auto;
    repeat match goal with |- context [if ?b then _ else _] => destruct b eqn:? end; try lia;
    repeat match goal with X : (_ && _)%bool = false |- _ => cbn [andb] in X end; try (match goal with X : Z.ltb _ 0 = false |- _ => apply Z.ltb_ge in X end); try lia.
Qed.
Lemma cgo_depth : forall us c c', snd (cgo c us) = Some c' -> (0 <= c_depth c)%Z -> (0 <= c_depth c')%Z.
Proof.
  induction us as [|u us IH]; intros c c' H D; [injection H as <-; auto|]. cbn [cgo] in H. destruct (cstep c u) as [c1 ts|ts] eqn:E; [|discriminate]. cbn [snd] in H. apply (IH _ _ H). eapply cstep_depth; eauto.
Qed.
Lemma cstep_line : forall c u c' ts, cstep c u = Go c' ts -> c_line c' = (c_line c + (if is_eol u then 1 else 0))%Z.
Proof.
  intros c u c' ts H. unfold cstep, csep in H. destruct (is_eol u); destruct (c_mode c); repeat match type of H with (if ?b then _ else _) = _ => destruct b end; try discriminate H; inversion H; subst; cbn [c_line]; lia.
Qed.
Lemma cgo_line : forall us c c', snd (cgo c us) = Some c' -> c_line c' = (c_line c + nls us)%Z.
Proof.
  induction us as [|u us IH]; intros c c' H; [injection H as <-; unfold nls; cbn; lia|]. cbn [cgo] in H. destruct (cstep c u) as [c1 ts|ts] eqn:E; [|discriminate]. cbn [snd] in H.
  rewrite (IH _ _ H), (cstep_line _ _ _ _ E), nls_cons. lia.
Qed.

(** ** The text in parts *)
Fixpoint esc_after (e : bool) (rs : list string) : bool :=
  match rs with
  | [] => e
  | r :: rs => if String.eqb r s_cr then esc_after e rs else if (String.eqb r "\" && negb e)%bool then esc_after true rs else esc_after false rs
  end.
Lemma units_app : forall x y e, units e (x ++ y) = units e x ++ units (esc_after e x) y.
Proof.
  induction x as [|r x IH]; intros y e; cbn [app units esc_after]; auto. destruct (String.eqb r s_cr); auto. destruct (String.eqb r "\" && negb e)%bool; auto. now rewrite IH.
Qed.
Lemma scan_nl : forall a b, scan_runes (a ++ s_nl ++ b)%string = (scan_runes a ++ s_nl :: scan_runes b).
Proof.
  intros a b. unfold scan_runes. rewrite scan_app_boundary by (apply boundary_ascii; reflexivity). now rewrite map_app.
Qed.
Definition nlu (a : string) : string := if esc_after false (scan_runes a) then ("\" ++ s_nl)%string else s_nl.
Lemma U_nl : forall a b, U (a ++ s_nl ++ b)%string = U a ++ nlu a :: U b.
Proof.
  intros a b. unfold U, nlu. rewrite scan_nl, units_app. reflexivity.
Qed.
Lemma U_nl0 : forall a, U (a ++ s_nl)%string = U a ++ [nlu a].
Proof. intros a. exact (U_nl a ""). Qed.
Lemma nls_U : forall a, nls (U a) = newlines a.
Proof. intros a. unfold nls, U. rewrite count_units by apply LexFacts.scan_texts. apply count_scan. Qed.

(** ** The state behind a newline *)
Definition settles (c : cst) (c' : cst) (ts : list token) : Prop := cpending c = ts ++ cpending c'.
Lemma longer : forall w x : string, x <> "" -> (w ++ x)%string <> w.
Proof. intros w x N E. apply (f_equal String.length) in E. rewrite app_slen in E. destruct x; [congruence|cbn in E; lia]. Qed.
Lemma tok_longer : forall w x s q e, x <> "" -> [Tok w s q e] <> [Tok (w ++ x)%string s q e].
Proof. intros w x s q e N E. injection E as E. symmetry in E. revert E. now apply longer. Qed.
Lemma nlu_cases : forall a, nlu a = s_nl \/ nlu a = ("\" ++ s_nl)%string.
Proof. intros a. unfold nlu. destruct (esc_after _ _); auto. Qed.
Lemma step_nl : forall c u, u = s_nl \/ u = ("\" ++ s_nl)%string -> exists c' ts, cstep c u = Go c' ts /\
  c_line c' = (c_line c + 1)%Z /\ c_depth c' = c_depth c /\ no_errors ts /\ (cpending c = ts ++ cpending c' -> c_mode c' = MSkip /\ ts = cpending c).
Proof.
  intros c u E. assert (NE : u <> "") by (destruct E as [-> | ->]; discriminate).
  assert (EL : is_eol u = true) by (destruct E as [-> | ->]; reflexivity).
  assert (NH : String.eqb u "#" = false) by (destruct E as [-> | ->]; reflexivity).
  assert (NQ : is_quote u = false) by (destruct E as [-> | ->]; reflexivity).
  assert (NS : is_special u = false) by (destruct E as [-> | ->]; reflexivity).
  assert (NV : String.eqb u "{" = false) by (destruct E as [-> | ->]; reflexivity).
  unfold cstep. rewrite EL, NH, NQ, NS, NV. destruct c as [m line start dup depth]. cbn [c_mode c_line c_start c_dup c_depth]. destruct m as [|w|w|w|q w].
  - destruct (is_space u).
    + do 2 eexists. split; [reflexivity|]. cbn. repeat split; auto. constructor.
    + do 2 eexists. split; [reflexivity|]. cbn. repeat split; auto; try constructor; discriminate.
  - rewrite andb_false_r. destruct (is_space u).
    + do 2 eexists. split; [reflexivity|]. cbn. repeat split; auto. repeat constructor.
    + do 2 eexists. split; [reflexivity|]. cbn. repeat split; auto; try constructor; exfalso; revert H; now apply tok_longer.
  - do 2 eexists. split; [reflexivity|]. cbn. repeat split; auto. repeat constructor.
  - do 2 eexists. split; [reflexivity|]. cbn. split; [auto|]. split; [auto|]. split; [constructor|]. intros H. exfalso. revert H. unfold cpending. cbn [c_mode c_start].
    destruct (_ || _)%bool; now apply tok_longer.
  - destruct (String.eqb u q).
    + do 2 eexists. split; [reflexivity|]. cbn. repeat split; auto. repeat constructor.
    + do 2 eexists. split; [reflexivity|]. cbn [c_mode c_line c_depth]. split; [auto|]. split; [auto|]. split; [constructor|]. unfold cpending. cbn [c_mode c_start app]. intros H. exfalso. revert H.
      assert (X : (if String.eqb u ("\" ++ q) then q else u) <> "").
      { destruct (String.eqb_spec u ("\" ++ q)) as [Y|Y]; auto. destruct E as [E|E]; rewrite E in Y; [discriminate|]. injection Y as <-. discriminate. }
      set (x := if String.eqb u ("\" ++ q) then q else u) in *. clearbody x.
      destruct (String.eqb_spec w "") as [->|W].
      * change ("" ++ x)%string with x. rewrite (proj2 (String.eqb_neq _ _) X). discriminate.
      * destruct (String.eqb_spec (w ++ x) "") as [Y|Y]; [discriminate|]. now apply tok_longer.
Qed.

(** ** Moving a run *)
Definition moved (n k : Z) (c : cst) : cst := C (c_mode c) (c_line c + n) (c_start c + n) (c_dup c) (c_depth c + k).
Definition moved_res (n k : Z) (r : cres) : cres := match r with Go c ts => Go (moved n k c) (map (later n) ts) | Halt ts => Halt (map (later n) ts) end.
Lemma eol_line : forall u l n, (if is_eol u then (l + n + 1)%Z else (l + n)%Z) = ((if is_eol u then l + 1 else l) + n)%Z.
Proof. intros u l n. destruct (is_eol u); lia. Qed.
Lemma csep_moved : forall n k pre line start dup depth u, (0 <= k)%Z -> (k = 0%Z \/ exists c ts, csep pre line start dup depth u = Go c ts) ->
  csep (map (later n) pre) (line + n) (start + n) dup (depth + k) u = moved_res n k (csep pre line start dup depth u).
Proof.
  intros n k pre line start dup depth u K H. unfold csep in *. destruct (dup && negb (String.eqb u "}"))%bool; [cbn [moved_res]; now rewrite map_app|].
  set (d := if String.eqb u "{" then (depth + 1)%Z else if String.eqb u "}" then (depth - 1)%Z else depth) in *.
  replace (if String.eqb u "{" then (depth + k + 1)%Z else if String.eqb u "}" then (depth + k - 1)%Z else (depth + k)%Z) with (d + k)%Z
    by (unfold d; destruct (String.eqb u "{"); [lia|destruct (String.eqb u "}"); lia]).
  destruct (String.eqb u "}" && Z.ltb d 0)%bool eqn:E.
  - destruct H as [->|(c & ts & H)]; [|discriminate]. rewrite Z.add_0_r, E. cbn [moved_res]. now rewrite map_app.
  - replace (String.eqb u "}" && Z.ltb (d + k) 0)%bool with false.
    + cbn [moved_res]. rewrite map_app. reflexivity.
    + symmetry. apply andb_false_iff in E as [E|E]; [now rewrite E|]. apply andb_false_iff. right. apply Z.ltb_ge. apply Z.ltb_ge in E. lia.
Qed.
Lemma cstep_moved : forall n k c u, (0 <= k)%Z -> (k = 0%Z \/ exists c' ts, cstep c u = Go c' ts) -> cstep (moved n k c) u = moved_res n k (cstep c u).
Proof.
  intros n k [m line start dup depth] u K H. change (moved n k (C m line start dup depth)) with (C m (line + n) (start + n) dup (depth + k)). unfold cstep in *. cbn [c_mode c_line c_start c_dup c_depth] in *. rewrite eol_line.
  set (l := if is_eol u then (line + 1)%Z else line) in *. clearbody l.
  destruct m as [|w|w|w|q w].
  - destruct (is_space u); [reflexivity|]. destruct (String.eqb u "#"); [reflexivity|]. destruct (is_quote u); [reflexivity|]. destruct (is_special u); [|reflexivity].
    now apply (csep_moved n k []).
  - destruct (is_space u); [reflexivity|]. destruct (_ && _)%bool; [reflexivity|]. destruct (is_special u); [|reflexivity].
    now apply (csep_moved n k [Tok w start false None]).
  - destruct (is_eol u); reflexivity.
  - reflexivity.
  - destruct (String.eqb u q); reflexivity.
Qed.
Lemma cgo_moved : forall us n k c, (0 <= k)%Z -> (k = 0%Z \/ snd (cgo c us) <> None) ->
  cgo (moved n k c) us = (map (later n) (fst (cgo c us)), option_map (moved n k) (snd (cgo c us))).
Proof.
  induction us as [|u us IH]; intros n k c K H; [reflexivity|]. cbn [cgo] in *. rewrite cstep_moved; auto.
  - destruct (cstep c u) as [c' ts|ts]; cbn [moved_res fst snd option_map]; [|reflexivity]. rewrite IH; auto. cbn [fst snd]. now rewrite map_app.
  - destruct H as [H|H]; auto. right. destruct (cstep c u) as [c' ts|ts]; [eauto|]. now destruct H.
Qed.
Lemma finish_moved : forall n x, finish (option_map (moved n 0) x) = map (later n) (finish x).
Proof.
  intros n [c|]; [|reflexivity]. cbn [option_map finish]. unfold cfinish. rewrite map_app. destruct c as [m line start dup depth]. unfold cpending, moved. cbn [c_mode c_line c_start c_dup c_depth].
  rewrite Z.add_0_r. f_equal; [|destruct (Z.ltb 0 depth); reflexivity]. destruct m as [|w|w|w|q w]; try reflexivity. destruct (String.eqb w ""); reflexivity.
Qed.
Lemma crun_moved : forall us n c, crun (moved n 0 c) us = map (later n) (crun c us).
Proof. intros us n c. rewrite !crun_go, cgo_moved by (auto; lia). cbn [fst snd]. now rewrite finish_moved, map_app. Qed.

(** ** What came before matters little *)
Inductive near (dup dup' : bool) : cst -> cst -> Prop :=
| near_skip : forall l s s' d, near dup dup' (C MSkip l s dup d) (C MSkip l s' dup' d)
| near_note : forall w l s d, near dup dup' (C (MNote (String "#" w)) l s dup d) (C (MNote (String "#" w)) l s dup' d).
Lemma fresh_tail : forall t ts, noteb t = true -> fresh (t :: ts) -> fresh ts.
Proof. intros t ts N F a x b E NA. subst ts. apply (F (t :: a) x b); auto. Qed.
Lemma special_val : forall u, is_special u = true -> sepb (Tok u 0 false None) = true.
Proof. intros u H. unfold sepb, is_special in *. cbn [t_quoted t_val negb andb existsb]. rewrite !orb_true_iff in *. intuition. Qed.
Lemma near_go : forall us dup dup' c c', near dup dup' c c' ->
  dup = dup' \/ (fresh (fst (cgo c us)) /\ (dup = false \/ no_errors (fst (cgo c us)))) ->
  fst (cgo c' us) = fst (cgo c us) /\
  (snd (cgo c' us) = snd (cgo c us) \/ exists x x', snd (cgo c us) = Some x /\ snd (cgo c' us) = Some x' /\ near dup dup' x x' /\ c_depth x = c_depth c).
Proof.
  induction us as [|u us IH]; intros dup dup' c c' N H.
  - split; auto. right. exists c, c'. cbn. auto.
  - cbn [cgo] in *. destruct N as [l s s' d|w l s d]; unfold cstep in *; cbn [c_mode c_line c_start c_dup c_depth] in *; set (l1 := if is_eol u then (l + 1)%Z else l) in *.
    + destruct (is_space u).
      { cbn [app fst snd] in *. apply (IH dup dup' (C MSkip l1 s dup d)); [constructor|exact H]. }
      destruct (String.eqb_spec u "#") as [->|NH].
      { cbn [app fst snd] in *. apply (IH dup dup' (C (MNote "#") l1 l1 dup d)); [constructor|exact H]. }
      destruct (is_quote u); [auto|]. destruct (is_special u) eqn:SP; [|auto].
      destruct H as [->|[F E]]; [auto|]. unfold csep in *. destruct (String.eqb_spec u "}") as [->|NB].
      { rewrite !andb_false_r in *. auto. }
      exfalso. cbn [negb] in *. rewrite !andb_true_r in *. cbn [andb] in *. destruct dup.
      * destruct E as [E|E]; [discriminate|]. cbn [fst app] in E. inversion E as [|? ? X]; subst. discriminate X.
      * apply NB. apply (F [] (Tok u l1 false None) (fst (cgo (C MSkip l1 l1 true (if String.eqb u "{" then d + 1 else d)%Z) us))); [reflexivity|constructor|]. now apply special_val in SP.
    + destruct (is_eol u).
      * cbn [app fst snd] in *. destruct (IH dup dup' (C MSkip l1 s dup d) (C MSkip l1 s dup' d)) as [E1 E2]; [constructor| |].
        { destruct H as [H|[F E]]; [auto|right]. split; [apply fresh_tail in F; auto|]. destruct E as [E|E]; [auto|right]. now inversion E. }
        rewrite E1. auto.
      * cbn [app fst snd] in *. apply (IH dup dup' (C (MNote (String "#" (w ++ u))) l1 s dup d)); [constructor|exact H].
Qed.
Lemma fresh_app : forall a b, fresh (a ++ b) -> fresh a.
Proof. intros a b F p t q E. subst a. intros NA S. apply (F p t (q ++ b)); auto. now rewrite <- app_assoc. Qed.
Lemma near_run : forall us dup dup' c c', near dup dup' c c' ->
  dup = dup' \/ (fresh (crun c us) /\ (dup = false \/ no_errors (crun c us))) -> (c_depth c <= 0)%Z \/ no_errors (crun c us) ->
  crun c' us = crun c us.
Proof.
  intros us dup dup' c c' N H D. rewrite !crun_go in *. destruct (near_go us dup dup' c c' N) as [E1 E2].
  - destruct H as [H|[F E]]; [auto|right]. split; [eapply fresh_app; eauto|]. destruct E as [E|E]; [auto|right]. now apply Forall_app in E.
  - rewrite E1. f_equal. destruct E2 as [->|(x & x' & X & X' & NX & DX)]; auto. rewrite X, X' in *. cbn [finish] in *. unfold cfinish in *.
    assert (DP : c_depth x' = c_depth x) by (destruct NX; auto). rewrite DP.
    assert (PP : cpending x' = cpending x) by (destruct NX; auto). rewrite PP. f_equal.
    destruct (Z.ltb 0 (c_depth x)) eqn:L; auto. exfalso. apply Z.ltb_lt in L. destruct D as [D|D]; [lia|]. apply Forall_app in D as [_ D]. apply Forall_app in D as [_ D]. inversion D as [|? ? Y]. discriminate Y.
Qed.

(** ** Joining *)
Lemma cstep_clean : forall c u c' ts, cstep c u = Go c' ts -> no_errors ts.
Proof.
  intros c u c' ts H. unfold cstep, csep in H. destruct (c_mode c); repeat match type of H with (if ?b then _ else _) = _ => destruct b end; try discriminate H; inversion H; subst; repeat constructor.
Qed.
Lemma cgo_clean : forall us c c', snd (cgo c us) = Some c' -> no_errors (fst (cgo c us)).
Proof.
  induction us as [|u us IH]; intros c c' H; [constructor|]. cbn [cgo] in *. destruct (cstep c u) as [c1 ts|ts] eqn:E; [|discriminate]. cbn [fst snd] in *.
  apply Forall_app. split; [exact (cstep_clean _ _ _ _ E)|eapply IH; eauto].
Qed.
Lemma pending_clean : forall c, no_errors (cpending c).
Proof. intros c. unfold cpending. destruct (c_mode c); try destruct (String.eqb _ ""); repeat constructor. Qed.
Lemma tokens_state : forall s P c ts, no_errors P -> tokens_are s P -> cgo cinit (U s) = (ts, Some c) -> ts ++ cpending c = P.
Proof.
  intros s P c ts NP T E. unfold tokens_are in T. rewrite lex_crun in T. fold (U s) in T. rewrite crun_go, E in T. cbn [fst snd finish] in T. unfold cfinish in T. rewrite app_assoc in T.
  assert (CL : no_errors (ts ++ cpending c)).
  { apply Forall_app. split; [|apply pending_clean]. pose proof (cgo_clean (U s) cinit c) as X. rewrite E in X. now apply X. }
  destruct (Z.ltb 0 (c_depth c)).
  - destruct T as [T|(e & x & T & X)].
    + exfalso. subst P. apply Forall_app in NP as [_ NP]. inversion NP as [|? ? Y]. discriminate Y.
    + now apply app_inj_tail in T.
  - rewrite app_nil_r in T. destruct T as [T|(e & x & T & X)]; auto. exfalso. rewrite T in CL. apply Forall_app in CL as [_ CL]. inversion CL as [|? ? Y]. congruence.
Qed.
Lemma settle : forall a P, settled a P -> snd (cgo cinit (U a)) <> None ->
  exists s dup d, cgo cinit (U a ++ [nlu a]) = (P, Some (C MSkip (1 + (newlines a + 1)) s dup d)) /\ (0 <= d)%Z /\ (lex [] a = P -> d = 0%Z).
Proof.
  intros a P (NP & T1 & T2) NH. destruct (cgo cinit (U a)) as [ts [c|]] eqn:E; [|now destruct NH]. clear NH.
  pose proof (tokens_state a P c ts NP T1 E) as P1.
  destruct (step_nl c (nlu a) (nlu_cases a)) as (c' & ts' & ST & LN & DP & _ & K).
  assert (E2 : cgo cinit (U a ++ [nlu a]) = (ts ++ ts', Some c')).
  { rewrite cgo_app, E. cbn [snd fst cgo]. rewrite ST. cbn [fst snd]. now rewrite app_nil_r. }
  pose proof (tokens_state (a ++ s_nl) P c' (ts ++ ts') NP T2) as P2. rewrite U_nl0 in P2. specialize (P2 E2).
  assert (X : cpending c = ts' ++ cpending c') by (apply (app_inv_head ts); rewrite P1, app_assoc; auto).
  destruct (K X) as [M ->]. destruct c' as [m l s dup d]. cbn [c_mode c_line c_depth] in *. subst m.
  assert (Y : snd (cgo cinit (U a)) = Some c) by now rewrite E.
  pose proof (cgo_line _ _ _ Y) as CL. rewrite nls_U in CL. cbn [c_line cinit] in CL.
  pose proof (cgo_depth _ _ _ Y ltac:(cbn; lia)) as CD.
  exists s, dup, d. rewrite E2, P1. repeat split.
  - do 3 f_equal. rewrite LN, CL. lia.
  - lia.
  - intros L. rewrite lex_crun in L. fold (U a) in L. rewrite crun_go, E in L. cbn [fst snd finish] in L. unfold cfinish in L. rewrite app_assoc, P1 in L.
    destruct (Z.ltb 0 (c_depth c)) eqn:Z; [|apply Z.ltb_ge in Z; lia]. exfalso. apply (f_equal (@List.length _)) in L. rewrite app_length in L. cbn in L. lia.
Qed.
Lemma not_halted : forall us vs, no_errors (crun cinit (us ++ vs)) -> snd (cgo cinit us) <> None.
Proof.
  intros us vs N H. destruct (cgo_bad _ _ H) as (t & I & B). apply (bad_not _ t N); auto. rewrite crun_go, cgo_app, H. apply in_or_app. now left.
Qed.
Lemma settled_alone : forall a, no_errors (lex [] a) -> lex [] (a ++ s_nl)%string = lex [] a -> settled a (lex [] a).
Proof. intros a N E. repeat split; auto; now left. Qed.
Lemma not_halted_alone : forall a, no_errors (lex [] a) -> snd (cgo cinit (U a)) <> None.
Proof. intros a N. apply (not_halted (U a) []). rewrite app_nil_r. now rewrite lex_crun in N. Qed.
Lemma lex_U : forall s, lex [] s = crun cinit (U s).
Proof. intros s. apply lex_crun. Qed.
Lemma crun_part : forall us vs ts c, cgo cinit us = (ts, Some c) -> crun cinit (us ++ vs) = ts ++ crun c vs.
Proof. intros us vs ts c E. rewrite !crun_go, cgo_app, E. cbn [fst snd]. now rewrite app_assoc. Qed.
Lemma snoc_cons : forall (us : list string) u vs, us ++ u :: vs = (us ++ [u]) ++ vs.
Proof. intros. now rewrite <- app_assoc. Qed.

Lemma map_mid : forall {A B} (f : A -> B) l p t q, map f l = p ++ t :: q -> exists p' t' q', l = p' ++ t' :: q' /\ p = map f p' /\ t = f t'.
Proof.
  intros A B f. induction l as [|x xs IH]; intros p t q Q; [destruct p; discriminate|]. destruct p as [|y p]; cbn [map app] in Q; injection Q as Q0 Q.
  - exists [], x, xs. auto.
  - destruct (IH p t q Q) as (p' & t' & q' & -> & -> & ->). exists (x :: p'), t', q'. subst y. auto.
Qed.
Lemma fresh_later : forall n l, fresh l -> fresh (map (later n) l).
Proof.
  intros n l F p t q Q NA SP. apply map_mid in Q as (p' & t' & q' & Q & -> & ->). apply (F p' t' q' Q); [|exact SP]. rewrite Forall_forall in *. intros z I. apply (NA (later n z)). now apply in_map.
Qed.

Theorem join : forall a b, no_errors (lex [] a) -> lex [] (a ++ s_nl)%string = lex [] a -> fresh (lex [] b) ->
  lex [] (a ++ s_nl ++ b)%string = lex [] a ++ map (later (newlines a + 1)) (lex [] b).
Proof.
  intros a b N E F. destruct (settle a (lex [] a) (settled_alone a N E) (not_halted_alone a N)) as (s & dup & d & G & _ & D). specialize (D eq_refl). subst d.
  rewrite (lex_U (a ++ s_nl ++ b)), U_nl, snoc_cons, (crun_part _ _ _ _ G). f_equal. rewrite (lex_U b) in *.
  rewrite <- crun_moved. apply (near_run (U b) false dup (moved (newlines a + 1) 0 cinit)); [constructor| |left; cbn; lia].
  right. split; [|auto]. rewrite crun_moved. now apply fresh_later.
Qed.

Theorem insert : forall a b w P S, settled a P -> no_errors (lex [] w) -> lex [] (w ++ s_nl)%string = lex [] w -> fresh (lex [] w) ->
  lex [] (a ++ s_nl ++ b)%string = P ++ S -> no_errors S -> fresh S ->
  lex [] (a ++ s_nl ++ w ++ s_nl ++ b)%string = P ++ map (later (newlines a + 1)) (lex [] w) ++ map (later (newlines w + 1)) S.
Proof.
  intros a b w P S ST NW EW FW EB NS FS. pose proof ST as (NP & _).
  assert (NH : snd (cgo cinit (U a)) <> None).
  { apply (not_halted (U a) (nlu a :: U b)). rewrite <- U_nl, <- lex_U, EB. apply Forall_app. auto. }
  destruct (settle a P ST NH) as (s & dup & d & G & D & _).
  destruct (settle w (lex [] w) (settled_alone w NW EW) (not_halted_alone w NW)) as (s1 & dup1 & d1 & G1 & _ & D1). specialize (D1 eq_refl). subst d1.
  rewrite (lex_U (a ++ s_nl ++ b)), U_nl, snoc_cons, (crun_part _ _ _ _ G) in EB. apply app_inv_head in EB.
  rewrite (lex_U (a ++ s_nl ++ w ++ s_nl ++ b)), !U_nl, snoc_cons, (crun_part _ _ _ _ G). f_equal.
  rewrite snoc_cons.
  set (n := (newlines a + 1)%Z) in *. set (m := (newlines w + 1)%Z) in *.
  (* the part w, from where a ends *)
  pose proof (cgo_moved (U w ++ [nlu w]) n d cinit D) as M. rewrite G1 in M. cbn [fst snd option_map] in M. specialize (M ltac:(right; discriminate)).
  set (c0 := moved n d cinit) in *.
  destruct (near_go (U w ++ [nlu w]) false dup c0 (C MSkip (1 + n) s dup d)) as [E1 E2].
  { unfold c0, moved. cbn [cinit c_mode c_line c_start c_dup c_depth]. rewrite Z.add_0_l. constructor. }
  { right. split; [|auto]. rewrite M. now apply fresh_later. }
  rewrite M in E1, E2. cbn [fst snd] in E1, E2.
  assert (exists s2 dup2, cgo (C MSkip (1 + n) s dup d) (U w ++ [nlu w]) = (map (later n) (lex [] w), Some (C MSkip (1 + n + m) s2 dup2 d))) as (s2 & dup2 & G2).
  { destruct (cgo (C MSkip (1 + n) s dup d) (U w ++ [nlu w])) as [x y]. cbn [fst snd] in E1, E2. subst x.
    unfold moved in E2. cbn [c_mode c_line c_start c_dup c_depth] in E2. rewrite Z.add_0_l in E2.
    destruct E2 as [->|(x & x' & X & -> & NX & _)].
    - exists (s1 + n)%Z, dup1. replace (1 + n + m)%Z with (1 + m + n)%Z by lia. reflexivity.
    - injection X as <-. inversion NX; subst. exists s', dup. replace (1 + n + m)%Z with (1 + m + n)%Z by lia. reflexivity. }
  rewrite crun_go, cgo_app, G2. cbn [fst snd]. rewrite <- app_assoc, <- crun_go. f_equal.
  rewrite <- EB, <- crun_moved. apply (near_run (U b) dup dup2 (moved m 0 (C MSkip (1 + n) s dup d))).
  - unfold moved. cbn [c_mode c_line c_start c_dup c_depth]. rewrite Z.add_0_r. constructor.
  - right. rewrite crun_moved, EB. split; [|right]. 2:{ apply Forall_forall. intros t I. apply in_map_iff in I as (t0 & <- & I). unfold no_errors in NS. rewrite Forall_forall in NS. cbn. now rewrite (NS _ I). }
    now apply fresh_later.
  - right. rewrite crun_moved, EB. apply Forall_forall. intros t I. apply in_map_iff in I as (t0 & <- & I). unfold no_errors in NS. rewrite Forall_forall in NS. cbn. now rewrite (NS _ I).
Qed.
Lemma fresh_by : forall t l, noteb t = false -> sepb t = false -> fresh (t :: l).
Proof. intros t l N S p x q E F X. destruct p as [|y p]; [injection E as <- _; congruence|]. injection E as <- _. inversion F; congruence. Qed.
