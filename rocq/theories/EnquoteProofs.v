(** C08: what Enquote writes and the lexer reads. *)
From Verif Require Export EnquoteForm.
Local Open Scope string_scope.

(** ** The text around the argument *)
Definition facts (t : token) : string * bool * option goerr := (t_val t, t_quoted t, t_err t).
Lemma reads_iff : forall e s, reads_back e s <->
  exists q, map facts (crun (C MSkip 1 1 false 0) (U (e ++ ";"))) = [(s, q, None); (";", false, None)].
Proof.
  intros e s. unfold reads_back. rewrite lex_crun. fold (U ("x " ++ e ++ ";")).
  change ("x " ++ e ++ ";") with (src (Raw "x") ++ (src (Raw " ") ++ (e ++ ";"))). rewrite !U_piece by reflexivity.
  assert (X : crun cinit (src (Raw "x") :: src (Raw " ") :: U (e ++ ";")) = Tok "x" 1 false None :: crun (C MSkip 1 1 false 0) (U (e ++ ";"))) by reflexivity.
  rewrite X. cbn [map]. split; intros [q H]; exists q.
  - inversion H. reflexivity.
  - change (fun t => _) with facts. rewrite H. reflexivity.
Qed.

(** ** In quotes *)
Lemma str_grows : forall us q w line start dup depth, w <> "" ->
  exists t ts y, crun (C (MStr q w) line start dup depth) us = t :: ts /\ t_val t = w ++ y.
Proof.
  induction us as [|u us IH]; intros q w line start dup depth N; cbn [crun].
  - unfold cfinish, cpending. cbn [c_mode]. apply String.eqb_neq in N. rewrite N. eexists _, _, "". split; [reflexivity|]. cbn. now rewrite app_nil_r_s.
  - unfold cstep. cbn [c_mode c_line c_start c_dup c_depth]. destruct (u =? q).
    + eexists _, _, "". split; [reflexivity|]. cbn. now rewrite app_nil_r_s.
    + cbn [app]. set (v := if u =? _ then _ else _). destruct (IH q (w ++ v) (if is_eol u then (line + 1)%Z else line) start dup depth (app_ne _ _ N)) as (t & ts & y & E & V).
      rewrite E. exists t, ts, (v ++ y). split; auto. rewrite V. now rewrite app_assoc_s.
Qed.
Lemma scan_ascii : forall c s, (bval c < 128)%N -> scan_runes (String c s) = str1 c :: scan_runes s.
Proof.
  intros c s L. change (String c s) with (str1 c ++ s).
  assert (R : rune_text (str1 c)) by (split; [discriminate|]; exists (bval c); unfold str1, decode_rune; now rewrite (proj2 (N.ltb_lt _ _) L)).
  rewrite scan_runes_app_valid by now apply rune_valid. now rewrite rune_scan_runes.
Qed.
Lemma units_char : forall odd r rs, r <> s_cr -> r <> "\" -> units odd (r :: rs) = ((if odd then "\" else "") ++ r) :: units false rs.
Proof.
  intros odd r rs A B. cbn [units]. apply String.eqb_neq in A, B. rewrite A, B. cbn [andb]. destruct odd; reflexivity.
Qed.
Fixpoint good_kinds (single odd : bool) (ks : list kind) : bool :=
  match ks with
  | [] => negb odd
  | KB :: ks => good_kinds single (negb odd) ks
  | KS :: ks => (negb (single && odd) && good_kinds single false ks)%bool
  | KE _ _ :: _ => false
  | _ :: ks => good_kinds single false ks
  end.
Definition bs (odd : bool) : string := if odd then "\" else "".
Definition quote_of (single : bool) : string := if single then s_sq else s_dq.
Lemma step_char : forall q w line start u us, String.eqb u q = false -> String.eqb u ("\" ++ q) = false ->
  exists line', crun (C (MStr q w) line start false 0) (u :: us) = crun (C (MStr q (w ++ u)) line' start false 0) us.
Proof.
  intros q w line start u us A B. cbn [crun]. unfold cstep. cbn [c_mode c_line c_start c_dup c_depth]. rewrite A, B. cbn [app]. eauto.
Qed.
Lemma quoted_run : forall single ks, Forall kind_ok ks -> (single = false -> ~ In KQ ks) -> forall odd w line start,
  let q := quote_of single in
  let R := crun (C (MStr q w) line start false 0) (units odd (scan_runes (cat (tq single) ks ++ q ++ ";"))) in
  let v := w ++ bs odd ++ cat raw ks in
  if good_kinds single odd ks then map facts R = [(v, true, None); (";", false, None)]
  else List.length R <= 1 \/ exists t ts, R = t :: ts /\ t_val t <> v.
Proof.
  intros single ks F NQ. cbv zeta. revert NQ. induction F as [|k ks K F IH]; intros NQ odd w line start.
  - cbn [good_kinds]. change (cat (tq single) []) with "". change (cat raw []) with "". cbn [String.append].
    unfold quote_of. destruct odd; cbn [negb bs].
    + left. destruct single; cbn [String.append s_sq s_dq str1 scan_runes]; rewrite !scan_ascii by reflexivity;
        change (scan_runes "") with (@nil string); cbn [units String.eqb Ascii.eqb eqb s_cr str1 andb negb];
        cbn [crun]; unfold cstep; cbn; unfold cfinish, cpending; cbn; rewrite ?app_assoc_s;
        match goal with |- context [?x =? ""] => destruct (x =? "") end; cbn; lia.
    + destruct single; cbn [String.append s_sq s_dq str1]; rewrite !scan_ascii by reflexivity;
        change (scan_runes "") with (@nil string); cbn [units String.eqb Ascii.eqb eqb s_cr str1 andb negb];
        cbn; unfold facts; cbn; rewrite app_nil_r_s; reflexivity.
  - assert (NQ' : single = false -> ~ In KQ ks) by (intros S I; now apply (NQ S), or_intror).
    specialize (IH NQ'). rewrite !cat_cons, app_assoc_s. set (z := cat (tq single) ks ++ quote_of single ++ ";") in *.
    assert (CH : forall r, r <> s_cr -> r <> "\" -> r <> quote_of single -> (r <> "" /\ scan_runes (r ++ z) = r :: scan_runes z) -> raw k = r ->
      (if good_kinds single false ks
       then map facts (crun (C (MStr (quote_of single) w) line start false 0) (units odd (scan_runes (r ++ z)))) = [(w ++ bs odd ++ raw k ++ cat raw ks, true, None); (";", false, None)]
       else List.length (crun (C (MStr (quote_of single) w) line start false 0) (units odd (scan_runes (r ++ z)))) <= 1 \/
         exists t ts, crun (C (MStr (quote_of single) w) line start false 0) (units odd (scan_runes (r ++ z))) = t :: ts /\ t_val t <> w ++ bs odd ++ raw k ++ cat raw ks)).
    { intros r A B D [RN E] RK. rewrite E, units_char by auto. fold (bs odd).
      assert (QL : slen (quote_of single) = 1) by (destruct single; reflexivity).
      assert (X1 : String.eqb (bs odd ++ r) (quote_of single) = false).
      { apply String.eqb_neq. destruct odd; cbn [bs String.append]; auto. intros X. rewrite <- X in QL. destruct r; [congruence|discriminate]. }
      assert (X2 : String.eqb (bs odd ++ r) ("\" ++ quote_of single) = false).
      { apply String.eqb_neq. destruct odd; cbn [bs]; intros X.
        - now apply (app_inv_l_s "\") in X.
        - cbn [String.append] in X. rewrite X in E. cbn [String.append] in E. rewrite scan_ascii in E by reflexivity.
          destruct single; discriminate. }
      destruct (step_char (quote_of single) w line start _ (units false (scan_runes z)) X1 X2) as [line' ->].
      specialize (IH false (w ++ bs odd ++ r) line' start). cbn [bs String.append] in IH. rewrite RK.
      replace (w ++ bs odd ++ r ++ cat raw ks) with ((w ++ bs odd ++ r) ++ cat raw ks) by now rewrite !app_assoc_s. exact IH. }
    destruct k as [| | |r|c b]; cbn [tq good_kinds raw] in *.
    + apply (CH """"); auto; try discriminate. * destruct single; [discriminate|]. exfalso. apply (NQ eq_refl). now left.
      * split; [discriminate|]. cbn [String.append]. rewrite scan_ascii by reflexivity. reflexivity.
    + cbn [String.append]. rewrite scan_ascii by reflexivity. destruct odd; cbn [negb].
      * assert (E : units true (str1 "\" :: scan_runes z) = "\\" :: units false (scan_runes z)) by reflexivity. rewrite E.
        assert (X1 : String.eqb "\\" (quote_of single) = false) by (destruct single; reflexivity).
        assert (X2 : String.eqb "\\" ("\" ++ quote_of single) = false) by (destruct single; reflexivity).
        destruct (step_char (quote_of single) w line start "\\" (units false (scan_runes z)) X1 X2) as [line' ->].
        specialize (IH false (w ++ "\\") line' start). cbn [bs] in *. cbn [String.append] in IH.
        rewrite app_assoc_s in IH. exact IH.
      * assert (E : units false (str1 "\" :: scan_runes z) = units true (scan_runes z)) by reflexivity. rewrite E.
        exact (IH true w line start).
    + destruct single; cbn [andb].
      * change (quote_of true) with "'" in *. cbn [String.append]. rewrite !scan_ascii by reflexivity. destruct odd; cbn [negb andb].
        -- right. assert (E : units true (str1 "\" :: str1 "'" :: scan_runes z) = "\\" :: "'" :: units false (scan_runes z)) by reflexivity. rewrite E.
           destruct (step_char "'" w line start "\\" ("'" :: units false (scan_runes z)) eq_refl eq_refl) as [line' ->].
           eexists _, _. split; [reflexivity|]. cbn [t_val bs]. intros X. apply app_inv_l_s in X. discriminate.
        -- assert (E : units false (str1 "\" :: str1 "'" :: scan_runes z) = "\'" :: units false (scan_runes z)) by reflexivity. rewrite E.
           assert (X : exists line', crun (C (MStr "'" w) line start false 0) ("\'" :: units false (scan_runes z)) = crun (C (MStr "'" (w ++ "'")) line' start false 0) (units false (scan_runes z))) by (eexists; reflexivity).
           destruct X as [line' ->]. specialize (IH false (w ++ "'") line' start). cbn [bs String.append] in *.
           rewrite app_assoc_s in IH. exact IH.
      * cbn [negb andb]. apply (CH "'"); auto; try discriminate. split; [discriminate|]. cbn [String.append]. rewrite scan_ascii by reflexivity. reflexivity.
    + destruct K as ((RN & CA) & RT & CR). apply (CH r); auto.
      * intros ->. destruct (CA "\"%char) as [X _]; [now left|congruence].
      * intros ->. unfold quote_of in CA. destruct single; [destruct (CA "'"%char) as (_ & _ & X)|destruct (CA """"%char) as (_ & X & _)]; try (now left); congruence.
      * split; auto. rewrite scan_runes_app_valid by now apply rune_valid. now rewrite rune_scan_runes.
    + destruct K as (CA & (cx & cy & -> & CN) & (bx & by' & -> & BL & BC)). right. cbn [String.append]. rewrite scan_ascii by reflexivity.
      destruct odd; cbn [bs].
      * assert (E : forall l, units true (str1 "\" :: l) = "\\" :: units false l) by reflexivity. rewrite E.
        assert (X1 : String.eqb "\\" (quote_of single) = false) by (destruct single; reflexivity).
        assert (X2 : String.eqb "\\" ("\" ++ quote_of single) = false) by (destruct single; reflexivity).
        match goal with |- context [crun _ (_ :: ?us)] => destruct (step_char (quote_of single) w line start "\\" us X1 X2) as [line' ->];
          destruct (str_grows us (quote_of single) (w ++ "\\") line' start false 0) as (t & ts & y & E' & V) end; [now apply app_ne_r|].
        exists t, ts. split; auto. rewrite V. intros X. rewrite app_assoc_s in X. apply app_inv_l_s in X. cbn in X. inversion X. congruence.
      * rewrite scan_ascii by auto.
        assert (E : forall l, units false (str1 "\" :: l) = units true l) by reflexivity. rewrite E.
        destruct CA as [_ CA]. destruct (CA bx) as (A1 & A2 & A3); [now left|].
        rewrite units_char by (intros X; inversion X; congruence).
        assert (X1 : String.eqb ("\" ++ str1 bx) (quote_of single) = false) by (destruct single; reflexivity).
        assert (X2 : String.eqb ("\" ++ str1 bx) ("\" ++ quote_of single) = false).
        { apply String.eqb_neq. intros X. apply (app_inv_l_s "\") in X. destruct single; inversion X; congruence. }
        match goal with |- context [crun _ (_ :: ?us)] => destruct (step_char (quote_of single) w line start ("\" ++ str1 bx) us X1 X2) as [line' ->];
          destruct (str_grows us (quote_of single) (w ++ "\" ++ str1 bx) line' start false 0) as (t & ts & y & E' & V) end; [now apply app_ne_r|].
        exists t, ts. split; auto. rewrite V. intros X. rewrite app_assoc_s in X. apply app_inv_l_s in X. cbn in X. inversion X. congruence.
Qed.

Lemma even_calm : forall single r x odd, calm r -> even_runs single odd (r ++ x) = even_runs single false x.
Proof.
  intros single r x odd [N C]. assert (G : forall r odd, (forall c, in_str c r -> c <> "\"%char /\ c <> """"%char /\ c <> "'"%char) ->
    even_runs single odd (r ++ x) = even_runs single (match r with "" => odd | _ => false end) x).
  { clear. induction r as [|c r IH]; intros odd C; auto. cbn [String.append even_runs]. destruct (C c) as (A & _ & B); [now left|].
    apply Ascii.eqb_neq in A, B. rewrite A, B, andb_false_r. rewrite IH by (intros d D; apply C; now right). destruct r; reflexivity. }
  rewrite G by auto. destruct r; [congruence|reflexivity].
Qed.
Lemma good_even : forall pr s, ascii_right pr -> forall l, (forall i, In i l -> In i (scan s)) -> forall single odd,
  good_kinds single odd (map (kind_of pr) l) =
  (forallb it_ok l && forallb pr (map it_rune l) && even_runs single odd (unscan l))%bool.
Proof.
  intros pr s AR. induction l as [|i l IH]; intros IN single odd; auto.
  specialize (IH (fun j J => IN j (or_intror J))). assert (I : In i (scan s)) by (apply IN; now left).
  pose proof (quote_item_kind pr s i AR I) as (_ & KO & RW). pose proof (item_ascii s i) as IA. specialize (IA) with (1 := I).
  change (unscan (i :: l)) with (it_raw i ++ unscan l). cbn [map forallb]. unfold kind_of in *.
  destruct (it_ok i) eqn:O; cbn [negb andb]; auto. specialize (IA) with (1 := eq_refl). cbn [negb] in *.
  destruct (N.eqb_spec (it_rune i) 34) as [E|N1].
  { rewrite (IA _ E) by reflexivity. rewrite E, AR by reflexivity. cbn [good_kinds in_rng N.leb N.compare Pos.compare Pos.compare_cont andb]. rewrite IH. cbn. now rewrite andb_false_r. }
  destruct (N.eqb_spec (it_rune i) 92) as [E|N2].
  { rewrite (IA _ E) by reflexivity. rewrite E, AR by reflexivity. cbn [good_kinds]. rewrite IH. reflexivity. }
  destruct (pr (it_rune i)) eqn:P; cbn [andb].
  - destruct (N.eqb_spec (it_rune i) 39) as [E|N3].
    + rewrite (IA _ E) by reflexivity. cbn [good_kinds]. rewrite IH. change (str1 (byte 39) ++ unscan l) with (String "'" (unscan l)). cbn [even_runs].
      change (Ascii.eqb "'" "\") with false. change (Ascii.eqb "'" "'") with true. rewrite andb_true_r. cbv iota.
      destruct single, odd; cbn [negb andb]; rewrite ?andb_false_r; reflexivity.
    + cbn [good_kinds]. rewrite IH. cbn [kind_ok] in KO. now rewrite even_calm.
  - cbn [good_kinds]. now rewrite andb_false_r.
Qed.
Lemma str_exists_app : forall p a b, str_exists p (a ++ b) = (str_exists p a || str_exists p b)%bool.
Proof. intros p. unfold str_exists. induction a as [|c a IH]; intros b; auto. cbn [String.append list_of_str existsb]. now rewrite IH, orb_assoc. Qed.
Lemma str_exists_in : forall c s, str_exists (Ascii.eqb c) s = true <-> in_str c s.
Proof.
  unfold str_exists. induction s as [|d s IH]; [cbn; intuition discriminate|]. cbn [list_of_str existsb in_str]. rewrite orb_true_iff, IH. destruct (Ascii.eqb_spec c d); intuition congruence.
Qed.
Lemma dq_runes : forall s, existsb (N.eqb 34) (runes s) = has_dq s.
Proof.
  intros s. unfold has_dq. rewrite <- (unscan_scan s) at 2. unfold runes.
  assert (G : forall l, (forall i, In i l -> In i (scan s)) -> existsb (N.eqb 34) (map it_rune l) = str_exists (Ascii.eqb "034"%char) (unscan l)); [|now apply G].
  induction l as [|i l IH]; intros IN; auto. specialize (IH (fun j J => IN j (or_intror J))). assert (I : In i (scan s)) by (apply IN; now left).
  change (unscan (i :: l)) with (it_raw i ++ unscan l). rewrite str_exists_app, <- IH. cbn [map existsb]. f_equal.
  pose proof (scan_items s i I) as (NE & OK & BAD). destruct (it_ok i) eqn:O.
  - destruct (N.eqb_spec 34 (it_rune i)) as [E|E].
    + rewrite (item_ascii s i 34 I O (eq_sym E)) by reflexivity. reflexivity.
    + symmetry. apply not_true_iff_false. intros X. apply str_exists_in in X. assert (RT : rune_text (it_raw i)) by (split; eauto).
      specialize (OK eq_refl). rewrite (rune_byte _ _ RT X) in OK by reflexivity. cbn in OK. inversion OK. congruence.
  - destruct (scan_bad s i I O) as (c & E & L). rewrite E. destruct (BAD eq_refl) as [-> _]. unfold str_exists. cbn [list_of_str str1 existsb]. rewrite orb_false_r. change (34 =? rune_error)%N with false. symmetry. apply Ascii.eqb_neq. intros <-. vm_compute in L. now apply L.
Qed.
Lemma enquote_quoted : forall pr s, ascii_right pr -> needs_quote s = true -> (reads_back (enquote pr s) s <-> quotable pr s = true).
Proof.
  intros pr s AR NQ. rewrite reads_iff. pose proof (enquote_form pr s AR NQ) as E. cbv zeta in E. rewrite E. clear E.
  set (single := existsb (N.eqb 34) (runes s)).
  change (if single then s_sq else s_dq) with (quote_of single).
  assert (G : quotable pr s = good_kinds single false (kinds pr s)).
  { unfold quotable, kinds. rewrite (good_even pr s AR) by auto. rewrite unscan_scan. unfold single. rewrite dq_runes. reflexivity. }
  rewrite G. pose proof (quoted_run single (kinds pr s) (kinds_ok pr s AR)) as R.
  assert (NK : single = false -> ~ In KQ (kinds pr s)).
  { intros S I. apply (kinds_KQ pr s) in I. unfold single in S. congruence. }
  specialize (R NK).
  specialize (R false "" 1%Z 1%Z). cbv zeta in R. cbn [bs String.append] in R. rewrite kinds_raw in R by auto.
  rewrite !app_assoc_s.
  assert (X : U (quote_of single ++ cat (tq single) (kinds pr s) ++ quote_of single ++ ";") = quote_of single :: U (cat (tq single) (kinds pr s) ++ quote_of single ++ ";")).
  { change (quote_of single) with (src (Raw (quote_of single))) at 1. rewrite U_piece by (destruct single; reflexivity). reflexivity. }
  rewrite X.
  assert (Y : crun (C MSkip 1 1 false 0) (quote_of single :: U (cat (tq single) (kinds pr s) ++ quote_of single ++ ";")) =
    crun (C (MStr (quote_of single) "") 1 1 false 0) (U (cat (tq single) (kinds pr s) ++ quote_of single ++ ";"))) by (destruct single; reflexivity).
  rewrite Y. unfold U. destruct (good_kinds single false (kinds pr s)).
  - rewrite R. split; auto. intros _. now exists true.
  - split; [|discriminate]. intros [q H]. exfalso. destruct R as [R|(t & ts & R & V)].
    + apply (f_equal (@List.length _)) in H. rewrite map_length in H. cbn [List.length] in H. lia.
    + rewrite R in H. cbn [map] in H. inversion H. congruence.
Qed.

(** ** Without quotes *)
Definition mlen (m : mode) : nat := match m with MSkip => 0 | MWord w | MNote w | MVar w | MStr _ w => slen w end.
Definition vlen (ts : list token) : nat := list_sum (map (fun t => slen (t_val t)) ts).
Definition ulen (us : list string) : nat := list_sum (map slen us).
Lemma vlen_app : forall a b, vlen (a ++ b) = vlen a + vlen b.
Proof. intros a b. unfold vlen. now rewrite map_app, list_sum_app. Qed.
Lemma step_len : forall c u, match cstep c u with Go c' ts => vlen ts + mlen (c_mode c') | Halt ts => vlen ts end <= mlen (c_mode c) + slen u.
Proof.
  intros [m line start dup depth] u. unfold cstep. cbn [c_mode c_line c_start c_dup c_depth].
  assert (SE : forall pre line start dup, match csep pre line start dup depth u with Go c' ts => vlen ts + mlen (c_mode c') | Halt ts => vlen ts end <= vlen pre + slen u).
  { intros pre l st d. unfold csep. destruct (d && _)%bool; [rewrite vlen_app; cbn; lia|].
    destruct ((u =? "}") && _)%bool; [rewrite vlen_app; cbn; lia|]. rewrite vlen_app. cbn. lia. }
  destruct m as [|w|w|w|q w]; cbn [mlen].
  - destruct (is_space u); [cbn; lia|]. destruct (u =? "#"); [cbn; lia|]. destruct (is_quote u); [cbn; lia|]. destruct (is_special u); [|cbn; lia].
    etransitivity; [apply SE|]. cbn. lia.
  - destruct (is_space u); [cbn; lia|]. destruct (_ && _)%bool; [cbn; rewrite app_slen; lia|]. destruct (is_special u); [|cbn; rewrite app_slen; lia].
    etransitivity; [apply SE|]. cbn. lia.
  - destruct (is_eol u); cbn; rewrite ?app_slen; lia.
  - destruct (_ || _)%bool; cbn; rewrite ?app_slen; lia.
  - destruct (u =? q); [cbn; lia|]. cbn [c_mode mlen]. rewrite app_slen. change (vlen []) with 0. destruct (String.eqb_spec u ("\" ++ q)) as [->|]; [cbn [String.append slen]|]; lia.
Qed.
Lemma run_len : forall us c, vlen (crun c us) <= mlen (c_mode c) + ulen us.
Proof.
  induction us as [|u us IH]; intros c.
  - cbn [crun]. unfold cfinish. rewrite vlen_app. unfold cpending. destruct c as [m line start dup depth]. cbn [c_mode c_depth].
    assert (Z : vlen (if (0 <? depth)%Z then [bad_tok line start expecting] else []) = 0) by (destruct (0 <? depth)%Z; reflexivity).
    cbn [c_line c_start]. rewrite Z. destruct m; cbn [mlen]; try destruct (w =? ""); cbn; lia.
  - cbn [crun]. pose proof (step_len c u) as S. change (ulen (u :: us)) with (slen u + ulen us). destruct (cstep c u) as [c' ts|ts]; [|lia].
    rewrite vlen_app. specialize (IH c'). lia.
Qed.
Lemma units_len : forall rs esc, ulen (units esc rs) + List.length (filter is_cr rs) <= ulen rs + (if esc then 1 else 0).
Proof.
  induction rs as [|r rs IH]; intros esc; cbn [units]; [cbn; lia|]. cbn [filter]. change (ulen (r :: rs)) with (slen r + ulen rs). unfold is_cr.
  destruct (String.eqb_spec r s_cr) as [->|N]; cbn [List.length].
  - specialize (IH esc). unfold is_cr in IH. change (slen s_cr) with 1. destruct esc; lia.
  - destruct ((r =? "\") && negb esc)%bool eqn:B.
    + specialize (IH true). apply andb_true_iff in B as [B1 B2]. apply String.eqb_eq in B1. subst r. destruct esc; [discriminate|]. unfold is_cr in IH. change (slen "\") with 1. lia.
    + specialize (IH false). unfold is_cr in IH. destruct esc; cbn [String.append]; match goal with |- ulen (?u :: ?x) + _ <= _ => change (ulen (u :: x)) with (slen u + ulen x) end; cbn [slen]; lia.
Qed.

Lemma scan_cr : forall s, valid_utf8 s = true -> ulen (scan_runes s) = slen s.
Proof.
  intros s V. rewrite <- (unscan_scan s) at 2. unfold valid_utf8 in V. unfold scan_runes, unscan. induction (scan s) as [|i l IH]; auto.
  cbn [forallb] in V. apply andb_true_iff in V as [V1 V2]. cbn [map concat_str]. rewrite app_slen, <- IH by auto. unfold ulen. cbn [map list_sum fold_right]. unfold it_text at 1. now rewrite V1.
Qed.
Lemma scan_texts : forall s, valid_utf8 s = true -> Forall rune_text (scan_runes s) /\ concat_str (scan_runes s) = s.
Proof.
  intros s V. unfold valid_utf8 in V. unfold scan_runes. rewrite forallb_forall in V. split.
  - apply Forall_map, Forall_forall. intros i I. pose proof (scan_items s i I) as (NE & OK & _). unfold it_text. rewrite (V i I). split; eauto.
  - rewrite <- (unscan_scan s) at 2. unfold unscan. f_equal. apply map_ext_in. intros i I. unfold it_text. now rewrite (V i I).
Qed.
Lemma cr_in : forall s, valid_utf8 s = true -> (filter is_cr (scan_runes s) = [] <-> str_exists (Ascii.eqb "013"%char) s = false).
Proof.
  intros s V. destruct (scan_texts s V) as [T E]. rewrite <- E at 2. clear E V. induction T as [|r rs T1 T IH]; [cbn; tauto|].
  cbn [filter concat_str]. rewrite str_exists_app, orb_false_iff, <- IH. unfold is_cr. destruct (String.eqb_spec r s_cr) as [->|N]; [cbn; intuition discriminate|].
  split; [|tauto]. intros H. split; auto. apply not_true_iff_false. intros X. apply str_exists_in in X. apply N. now rewrite (rune_byte _ _ T1 X).
Qed.
Lemma pieces_units : forall rs esc ps d, Forall rune_text rs -> filter is_cr rs = [] -> pieces_of esc rs = (ps, d) ->
  bs esc ++ concat_str rs = srcs ps ++ bs d /\ units esc (rs ++ [";"]) = (map src ps ++ [(bs d ++ ";")%string])%list /\ forallb piece_ok ps = true.
Proof.
  induction rs as [|r rs IH]; intros esc ps d T F P; cbn [pieces_of] in P.
  - inversion P; subst. cbn [app units]. change (";" =? s_cr) with false. change (";" =? "\") with false. cbn [andb map app]. repeat split; [cbn; now rewrite app_nil_r_s|destruct d; reflexivity].
  - inversion T as [|? ? T1 T2]; subst. cbn [filter] in F. unfold is_cr in F at 1. destruct (r =? s_cr) eqn:CR; [discriminate|].
    cbn [app units concat_str]. rewrite CR. destruct esc.
    + destruct (pieces_of false rs) as [ps' d'] eqn:E. inversion P; subst. destruct (IH _ _ _ T2 F E) as (A & B & D).
      rewrite andb_false_r. unfold srcs in *. cbn [map app concat_str src]. rewrite B. split; [|split; auto].
      * cbn [bs] in *. cbn [String.append] in A. rewrite A. now rewrite !app_assoc_s.
      * cbn [forallb piece_ok]. rewrite D. unfold is_cr. rewrite CR. rewrite (proj2 (one_char_text r)) by auto. reflexivity.
    + destruct (String.eqb_spec r "\") as [->|NB]; cbn [negb andb].
      * destruct (IH _ _ _ T2 F P) as (A & B & D). split; auto.
      * destruct (pieces_of false rs) as [ps' d'] eqn:E. inversion P; subst. destruct (IH _ _ _ T2 F E) as (A & B & D).
        unfold srcs in *. cbn [map app concat_str src]. rewrite B. split; [|split; auto].
        -- cbn [bs] in *. cbn [String.append] in *. rewrite A. now rewrite !app_assoc_s.
        -- cbn [forallb piece_ok]. rewrite D. unfold is_cr. rewrite CR. rewrite (proj2 (one_char_text r)) by auto. apply String.eqb_neq in NB. now rewrite NB.
Qed.
Lemma word_stuck : forall ps var dollar w line start d, forallb piece_ok ps = true -> w <> "" -> (var = false -> has_suffix w "$" = dollar) ->
  (word_rest var dollar ps && negb d)%bool = false ->
  let R := crun (C (if var then MVar w else MWord w) line start false 0) (map src ps ++ [(bs d ++ ";")%string]) in
  List.length R <= 1 \/ exists t ts, R = t :: ts /\ t_val t <> w ++ srcs ps ++ bs d.
Proof.
  cbv zeta. induction ps as [|p ps IH]; intros var dollar w line start d PO NW DS H.
  - left. cbn [word_rest] in H. cbn [map app crun]. destruct var, d; cbn [negb andb] in H; try discriminate; unfold cstep; cbn [c_mode c_line c_start c_dup c_depth bs String.append].
    + destruct (has_suffix "\;" "}" || is_space "\;")%bool; cbn; lia.
    + destruct (has_suffix ";" "}" || is_space ";")%bool; cbn; lia.
    + change (is_space "\;") with false. change ("\;" =? "{") with false. rewrite andb_false_r. change (is_special "\;") with false. cbn. lia.
  - cbn [forallb] in PO. apply andb_true_iff in PO as [PO1 PO]. pose proof (piece_text p PO1) as T. cbn [word_rest] in H. rewrite PO1 in H. cbn [andb] in H.
    cbn [map app crun]. assert (E1 : w ++ srcs (p :: ps) ++ bs d = (w ++ src p) ++ srcs ps ++ bs d) by (unfold srcs; cbn [map concat_str]; now rewrite !app_assoc_s). rewrite E1.
    assert (NE : w ++ src p <> "") by now apply app_ne.
    assert (DF : forall y, w <> (w ++ src p) ++ y).
    { intros y X. apply (f_equal slen) in X. rewrite !app_slen in X. pose proof (src_unit p PO1) as Z. destruct (src p); [congruence|]. cbn [slen] in X. lia. }
    assert (SD : has_suffix (w ++ src p) "$" = String.eqb (char_of p) "$").
    { change "$" with (str1 "$"%char). rewrite suffix1_app by now apply src_unit. apply src_suffix; auto. reflexivity. }
    unfold cstep. set (line' := if is_eol (src p) then _ else _). destruct var; cbn [c_mode c_line c_start c_dup c_depth] in *.
    + assert (X : (has_suffix (src p) "}" || is_space (src p))%bool = (String.eqb (char_of p) "}" || match p with Raw r => white r | Esc _ => false end)%bool).
      { change "}" with (str1 "}"%char). rewrite src_suffix by (auto; reflexivity). f_equal. destruct p; cbn [src char_of] in *; [now apply white_space|now apply esc_not_space]. }
      rewrite X. destruct (_ || _)%bool eqn:CL; cbn [app].
      * apply (IH false false); auto. intros _. rewrite SD. destruct (String.eqb_spec (char_of p) "$") as [E|]; auto.
        rewrite E in CL. cbn in CL. destruct p; cbn [char_of] in *; [subst; discriminate|discriminate].
      * apply (IH true false); auto. discriminate.
    + rewrite (DS eq_refl). destruct p as [r|r]; cbn [src char_of piece_ok] in *.
      * rewrite (white_space r T). destruct (dollar && (r =? "{"))%bool eqn:DL.
        -- apply andb_true_iff in DL as [_ DL]. apply String.eqb_eq in DL. subst r. cbn [app]. change (white "{") with false. cbv iota. apply (IH true false); auto; discriminate.
        -- destruct (white r); cbn [negb andb] in H; [right; eexists _, _; split; [reflexivity|]; cbn [t_val]; auto|].
           assert (SP : is_special r = mem r separators). { unfold is_special, mem, separators. cbn [existsb]. now rewrite orb_false_r, orb_assoc. }
           rewrite SP. destruct (mem r separators); cbn [negb andb] in H.
           ++ right. unfold csep. cbn [andb]. match goal with |- context [if ?b then Halt _ else _] => destruct b end; (eexists _, _; split; [reflexivity|]; cbn [t_val]; auto).
           ++ cbn [app]. apply (IH false (r =? "$")); auto.
      * rewrite esc_not_space by auto. assert (NB : String.eqb ("\" ++ r) "{" = false) by reflexivity. rewrite NB, andb_false_r.
        assert (SP : is_special ("\" ++ r) = false) by reflexivity. rewrite SP. cbn [app]. apply (IH false (r =? "$")); auto.
Qed.
Lemma note_stuck : forall us w line start dup, List.length (crun (C (MNote w) line start dup 0) us) <= 1 \/
  exists t ts us1 nl us2, crun (C (MNote w) line start dup 0) us = t :: ts /\ us = (us1 ++ nl :: us2)%list /\ t_val t = w ++ concat_str us1 /\ is_eol nl = true.
Proof.
  induction us as [|u us IH]; intros w line start dup; [left; cbn; lia|]. cbn [crun]. unfold cstep. cbn [c_mode c_line c_start c_dup c_depth].
  destruct (is_eol u) eqn:EO.
  - right. eexists _, _, [], u, us. repeat split; auto. cbn. now rewrite app_nil_r_s.
  - cbn [app]. destruct (IH (w ++ u) line start dup) as [L|(t & ts & us1 & nl & us2 & E & -> & V & EN)]; [now left|]. right.
    exists t, ts, (u :: us1), nl, us2. repeat split; auto. rewrite V. cbn [concat_str]. now rewrite app_assoc_s.
Qed.

Lemma reads_valid : forall e s, reads_back e s -> valid_utf8 s = true.
Proof.
  intros e s [q H]. assert (I : In (s, q, None) (map (fun t => (t_val t, t_quoted t, t_err t)) (lex [] ("x " ++ e ++ ";")))) by (rewrite H; cbn; auto).
  apply in_map_iff in I as (t & E & I). inversion E; subst. now apply (lex_shapes _ _ I).
Qed.
Lemma bare_reads : forall s, needs_quote s = false -> (reads_back s s <-> bare_word s = true).
Proof.
  intros s NQ. destruct (valid_utf8 s) eqn:V.
  2: { split; [intros R; apply reads_valid in R; congruence|]. unfold bare_word. rewrite V. discriminate. }
  rewrite reads_iff. unfold bare_word. rewrite V. cbn [andb].
  assert (SC : scan_runes (s ++ ";") = (scan_runes s ++ [";"])%list) by (rewrite scan_runes_app_valid by auto; reflexivity).
  assert (LE : forall us c, us = U (s ++ ";") -> forall q, map facts (crun c us) = [(s, q, None); (";", false, None)] -> vlen (crun c us) = slen s + 1).
  { intros us c _ q H. unfold vlen. assert (X : map (fun t => slen (t_val t)) (crun c us) = map (fun x => slen (fst (fst x))) (map facts (crun c us))) by (rewrite map_map; reflexivity).
    rewrite X, H. cbn. lia. }
  assert (UL : ulen (U (s ++ ";")) + List.length (filter is_cr (scan_runes s)) <= slen s + 1).
  { unfold U. rewrite SC. pose proof (units_len (scan_runes s ++ [";"]) false) as L. rewrite filter_app, app_length in L. unfold ulen in L at 2. rewrite map_app, list_sum_app in L. fold (ulen (scan_runes s)) in L.
    rewrite scan_cr in L by auto. cbn in L. cbn. lia. }
  destruct (str_exists (Ascii.eqb "013"%char) s) eqn:CR; cbn [negb andb].
  { split; [|discriminate]. intros [q H]. exfalso. pose proof (LE _ _ eq_refl q H) as L. pose proof (run_len (U (s ++ ";")) (C MSkip 1 1 false 0)) as R. cbn [c_mode mlen] in R.
    destruct (filter is_cr (scan_runes s)) eqn:F; [apply (cr_in s V) in F; congruence|]. cbn [List.length] in UL. lia. }
  apply (cr_in s V) in CR. destruct (pieces_of false (scan_runes s)) as [ps d] eqn:P.
  destruct (scan_texts s V) as [T E]. destruct (pieces_units _ _ _ _ T CR P) as (A & B & PO). cbn [bs String.append] in A. rewrite E in A.
  assert (UE : U (s ++ ";") = (map src ps ++ [(bs d ++ ";")%string])%list) by (unfold U; now rewrite SC). rewrite UE in *.
  destruct ps as [|p ps].
  { split; [|discriminate]. intros [q H]. exfalso. destruct d; [discriminate H|]. cbn in A. subst s. discriminate NQ. }
  cbn [forallb] in PO. apply andb_true_iff in PO as [PO1 PO]. pose proof (piece_text p PO1) as TP.
  assert (SW : starts_word p = true -> crun (C MSkip 1 1 false 0) (map src (p :: ps) ++ [(bs d ++ ";")%string]) =
    crun (C (MWord (src p)) (if is_eol (src p) then 2 else 1) (if is_eol (src p) then 2 else 1) false 0) (map src ps ++ [(bs d ++ ";")%string])).
  { intros S. cbn [map app crun]. unfold cstep. cbn [c_mode c_line c_start c_dup c_depth].
    assert (X : is_space (src p) = false /\ String.eqb (src p) "#" = false /\ is_quote (src p) = false /\ is_special (src p) = false).
    { destruct p as [r|r]; cbn [src starts_word char_of] in *; [|rewrite esc_not_space by auto; repeat split].
      rewrite andb_true_iff, !negb_true_iff in S. destruct S as [S1 S2]. rewrite (white_space r TP), S1. unfold mem in S2. cbn [separators quotes app existsb] in S2. rewrite !orb_false_iff in S2.
      unfold is_quote, is_special. destruct S2 as (-> & -> & -> & -> & -> & -> & _). repeat split. }
    destruct X as (-> & -> & -> & ->). reflexivity. }
  assert (SD : has_suffix (src p) "$" = String.eqb (char_of p) "$") by (change "$" with (str1 "$"%char); apply src_suffix; auto; reflexivity).
  pose proof (src_unit p PO1) as NP.
  assert (STUCK : forall R : list token, R = crun (C MSkip 1 1 false 0) (map src (p :: ps) ++ [(bs d ++ ";")%string]) -> List.length R <= 1 \/ (exists t ts, R = t :: ts /\ t_val t <> s) ->
    (exists q, map facts R = [(s, q, None); (";", false, None)]) -> False).
  { intros R _ X [q H]. destruct X as [X|(t & ts & X & N)].
    - apply (f_equal (@List.length _)) in H. rewrite map_length in H. cbn [List.length] in H. lia.
    - rewrite X in H. cbn [map] in H. inversion H. congruence. }
  destruct (starts_word p) eqn:S.
  - specialize (SW eq_refl). cbn [andb]. destruct d.
    + split; [|discriminate]. intros H. exfalso. revert H. apply (STUCK _ eq_refl). rewrite SW.
      pose proof (word_stuck ps false _ (src p) (if is_eol (src p) then 2 else 1) (if is_eol (src p) then 2 else 1) true PO NP (fun _ => SD)) as W. rewrite andb_false_r in W.
      specialize (W eq_refl). cbv zeta in W. rewrite A. unfold srcs in *. cbn [map concat_str]. rewrite app_assoc_s. exact W.
    + destruct (word_rest false (char_of p =? "$") ps) eqn:WR.
      * split; auto. intros _. rewrite SW.
        pose proof (run_word ps false _ (src p) (if is_eol (src p) then 2 else 1) (if is_eol (src p) then 2 else 1) 0 [";"] WR NP (fun _ => SD)) as RW. cbv iota in RW.
        cbn [bs String.append] in *. rewrite RW. exists false. cbn. rewrite A. unfold facts. cbn [t_val t_quoted t_err]. unfold srcs. cbn [map concat_str]. rewrite andb_false_r. cbn [map app t_val t_quoted t_err crun cfinish]. rewrite app_nil_r_s. reflexivity.
      * split; [|discriminate]. intros H. exfalso. revert H. apply (STUCK _ eq_refl). rewrite SW.
        pose proof (word_stuck ps false _ (src p) (if is_eol (src p) then 2 else 1) (if is_eol (src p) then 2 else 1) false PO NP (fun _ => SD)) as W. rewrite WR in W.
        specialize (W eq_refl). cbv zeta in W. rewrite A. unfold srcs in *. cbn [map concat_str]. rewrite app_assoc_s. exact W.
  - split; [|destruct d; discriminate]. intros H. exfalso. destruct p as [r|r]; [|discriminate S]. cbn [src starts_word char_of] in *.
    assert (FST : forall c, cstep (C MSkip 1 1 false 0) r = Go c [] -> mlen (c_mode c) = 0 -> False).
    { intros c CS ML. destruct H as [q H]. pose proof (LE _ _ eq_refl q H) as L. cbn [map app crun src] in L. rewrite CS in L. cbn [app] in L.
      pose proof (run_len (map src ps ++ [(bs d ++ ";")%string]) c) as RL. rewrite ML in RL.
      cbn [map app src] in UL. match type of UL with ulen (?a :: ?x) + _ <= _ => change (ulen (a :: x)) with (slen a + ulen x) in UL end.
      destruct r; [congruence|]. cbn [slen] in UL. lia. }
    unfold cstep in FST. cbn [c_mode c_line c_start c_dup c_depth] in FST. rewrite (white_space r TP) in FST.
    destruct (white r); [now apply (FST _ eq_refl)|]. cbn [negb andb] in S. apply negb_false_iff, mem_In in S.
    cbn in S. destruct S as [<-|[<-|[<-|[<-|[<-|[<-|[]]]]]]].
    + destruct H as [q H]. inversion H. subst s. discriminate NQ.
    + destruct H as [q H]. discriminate H.
    + destruct H as [q H]. apply (f_equal (fun l => match l with (x, _, _) :: _ => x | [] => "" end)) in H. change (";" = s) in H. rewrite <- H in NQ. discriminate NQ.
    + now apply (FST _ eq_refl).
    + now apply (FST _ eq_refl).
    + revert H. apply (STUCK _ eq_refl). cbn [map app src]. set (us := (map src ps ++ _)%list) in *.
      assert (N1 : crun (C MSkip 1 1 false 0) ("#" :: us) = crun (C (MNote "#") 1 1 false 0) us) by reflexivity. rewrite N1.
      destruct (note_stuck us "#" 1%Z 1%Z false) as [L|(t & ts & us1 & nl & us2 & R & EU & VT & EN)]; [now left|]. right. exists t, ts. split; auto. intros X.
      assert (CU : concat_str us = srcs ps ++ bs d ++ ";").
      { unfold us, srcs. clear. induction (map src ps) as [|x l IH]; cbn [app concat_str]; [now rewrite app_nil_r_s|]. now rewrite IH, app_assoc_s. }
      assert (CA : forall a b, concat_str (a ++ b) = concat_str a ++ concat_str b) by (clear; induction a as [|x l IH]; intros b; cbn [app concat_str]; auto; now rewrite IH, app_assoc_s).
      rewrite EU, CA in CU. cbn [concat_str] in CU. rewrite X in VT.
      assert (SS : s ++ ";" = s ++ nl ++ concat_str us2).
      { rewrite A at 1. unfold srcs in *. cbn [map concat_str src]. rewrite !app_assoc_s, <- CU, VT. now rewrite !app_assoc_s. }
      apply app_inv_l_s in SS. destruct nl as [|c nl]; [discriminate EN|]. destruct nl; [|discriminate SS]. cbn in SS. inversion SS; subst. discriminate EN.
Qed.
Theorem enquote_exact : forall pr s, ascii_right pr ->
  (reads_back (enquote pr s) s <-> (if needs_quote s then quotable pr s else bare_word s) = true).
Proof.
  intros pr s AR. destruct (needs_quote s) eqn:NQ; [now apply enquote_quoted|]. unfold enquote. rewrite NQ. cbn [negb]. now apply bare_reads.
Qed.

(** ** Text without backslashes *)
Lemma escape_same : forall rs pc, pc <> 92%N -> ~ In 92%N rs ->
  escape_loop pc rs ++ (if (N.eqb (last rs pc) 92 || N.eqb (last rs pc) 36)%bool then encode_rune (last rs pc) else "") =
  (if N.eqb pc 36 then encode_rune pc else "") ++ concat_str (map encode_rune rs).
Proof.
  induction rs as [|c rs IH]; intros pc N1 N2.
  - cbn [escape_loop last map concat_str String.append]. apply N.eqb_neq in N1. rewrite N1. cbn [orb]. now rewrite app_nil_r_s.
  - assert (C1 : c <> 92%N) by (intros ->; apply N2; now left). assert (C2 : ~ In 92%N rs) by (intros I; apply N2; now right).
    cbn [escape_loop map concat_str]. rewrite (proj2 (N.eqb_neq _ _) N1). cbn [orb].
    assert (LA : last (c :: rs) pc = last rs c) by (clear; revert c pc; induction rs as [|d rs IH]; intros c pc; auto; change (last (d :: rs) pc = last (d :: rs) c); destruct rs; auto; exact (eq_trans (IH d pc) (eq_sym (IH d c)))).
    rewrite LA. destruct (N.eqb pc 36 && N.eqb c 123)%bool eqn:B.
    + apply andb_true_iff in B as [B1 B2]. rewrite B1. apply N.eqb_eq in B2. subst c. rewrite !app_assoc_s. f_equal. f_equal.
      assert (L2 : (if (N.eqb (last rs 123%N) 92 || N.eqb (last rs 123%N) 36)%bool then encode_rune (last rs 123%N) else "") = (if (N.eqb (last rs 0%N) 92 || N.eqb (last rs 0%N) 36)%bool then encode_rune (last rs 0%N) else "")).
      { destruct rs as [|d rs]; [reflexivity|]. assert (X : forall a b, last (d :: rs) a = last (d :: rs) b) by (clear; revert d; induction rs as [|e rs IH]; intros d a b; auto; exact (IH e a b)). rewrite (X 123%N 0%N). reflexivity. }
      rewrite L2. rewrite IH by (auto; discriminate). reflexivity.
    + rewrite !app_assoc_s. f_equal. specialize (IH c C1 C2). rewrite IH. apply N.eqb_neq in C1. rewrite C1. cbn [negb andb].
      destruct (N.eqb c 36); cbn [negb String.append]; reflexivity.
Qed.
Lemma encode_runes : forall s, valid_utf8 s = true -> concat_str (map encode_rune (runes s)) = s.
Proof.
  intros s V. rewrite <- (unscan_scan s) at 2. unfold unscan, runes. rewrite map_map. f_equal. apply map_ext_in. intros i I.
  unfold valid_utf8 in V. rewrite forallb_forall in V. pose proof (scan_items s i I) as (_ & OK & _). specialize (OK (V i I)).
  pose proof (dec_encode _ _ _ OK) as E. rewrite take_all in E by lia. exact E.
Qed.
Lemma bs_runes : forall s, str_exists (Ascii.eqb "\"%char) s = false -> ~ In 92%N (runes s).
Proof.
  intros s B I. apply in_map_iff in I as (i & R & I). assert (O : it_ok i = true).
  { destruct (it_ok i) eqn:O; auto. pose proof (scan_items s i I) as (_ & _ & X). destruct (X O) as [X1 _]. rewrite X1 in R. discriminate. }
  pose proof (item_ascii s i 92 I O R eq_refl) as E. apply not_true_iff_false in B. apply B. apply str_exists_in.
  assert (X : forall l, In i l -> in_str "\"%char (unscan l)).
  { induction l as [|j l IH]; intros []; change (unscan (j :: l)) with (it_raw j ++ unscan l); apply in_str_app; [left; subst j; rewrite E; now left|right; auto]. }
  rewrite <- (unscan_scan s). now apply X.
Qed.
Lemma escape_id : forall s, valid_utf8 s = true -> str_exists (Ascii.eqb "\"%char) s = false -> escape s = s.
Proof.
  intros s V B. unfold escape. destruct (negb _); auto. pose proof (escape_same (runes s) 0 ltac:(discriminate) (bs_runes s B)) as E. cbv zeta. rewrite E. cbn [N.eqb String.append]. now apply encode_runes.
Qed.
Lemma loop_plain : forall rs prev char, prev <> 92%N -> ~ In 92%N rs -> needs_loop false prev char rs = false ->
  forall c, In c rs -> is_space_rune c = false /\ in_set [123; 59; 34; 39]%N c = false /\ c <> 125%N.
Proof.
  induction rs as [|d rs IH]; intros prev char P B H c I; [destruct I|]. cbn [needs_loop] in H. rewrite (proj2 (N.eqb_neq _ _) P) in H.
  destruct (is_space_rune d || in_set [123; 59; 34; 39]%N d)%bool eqn:S; [discriminate|]. apply orb_false_iff in S as [S1 S2]. cbn [andb orb negb] in H.
  destruct (N.eqb_spec d 125) as [|N125]; [discriminate|].
  assert (D : d <> 92%N) by (intros ->; apply B; now left). assert (B' : ~ In 92%N rs) by (intros X; apply B; now right).
  assert (D2 : N.eqb d 123 = false). { cbn [in_set existsb] in S2. rewrite !orb_false_iff in S2. apply S2. }
  rewrite D2, andb_false_r in H. destruct I as [->|I]; auto. exact (IH _ _ D B' H c I).
Qed.
Lemma raw_pieces : forall rs, ~ In "\" rs -> pieces_of false rs = (map Raw rs, false).
Proof.
  induction rs as [|r rs IH]; intros N; auto. cbn [pieces_of]. assert (X : r =? "\" = false) by (apply String.eqb_neq; intros ->; apply N; now left).
  rewrite X, IH by (intros I; apply N; now right). reflexivity.
Qed.
Lemma plain_word : forall rs dollar, Forall (fun r => piece_ok (Raw r) = true /\ white r = false /\ mem r separators = false) rs -> word_rest false dollar (map Raw rs) = true.
Proof.
  intros rs dollar F. revert dollar. induction F as [|r rs (A & B & D) F IH]; intros dollar; auto. cbn [map word_rest]. rewrite A, B, D. cbn [andb negb].
  assert (X : r =? "{" = false). { unfold mem, separators in D. cbn [existsb] in D. now apply orb_false_iff in D. }
  rewrite X, andb_false_r. apply IH.
Qed.
Lemma even_plain : forall single s, str_exists (Ascii.eqb "\"%char) s = false -> even_runs single false s = true.
Proof.
  unfold str_exists. induction s as [|c s IH]; intros H; auto. cbn [list_of_str existsb] in H. apply orb_false_iff in H as [H1 H2]. cbn [even_runs].
  rewrite Ascii.eqb_sym, H1. destruct (single && _)%bool; cbn [negb andb]; auto.
Qed.
Lemma rune_of : forall s r, valid_utf8 s = true -> In r (scan_runes s) -> exists n, In n (runes s) /\ decode_rune r = (n, slen r, true).
Proof.
  intros s r V I. apply in_map_iff in I as (i & E & I). pose proof (scan_items s i I) as (_ & OK & _). unfold valid_utf8 in V. rewrite forallb_forall in V.
  unfold it_text in E. rewrite (V i I) in E. subst r. exists (it_rune i). split; [now apply in_map|auto].
Qed.
Theorem plain_reads : forall pr s, ascii_right pr -> valid_utf8 s = true -> forallb pr (runes s) = true ->
  str_exists (Ascii.eqb "\"%char) s = false -> has_prefix s "#" = false -> reads_back (enquote pr s) s.
Proof.
  intros pr s AR V P B H. apply enquote_exact; auto. destruct (needs_quote s) eqn:NQ.
  - unfold quotable. now rewrite V, P, even_plain.
  - assert (NE : s <> "") by (intros ->; discriminate NQ). unfold needs_quote in NQ. rewrite (proj2 (String.eqb_neq _ _) NE), escape_id in NQ by auto. cbv zeta in NQ.
    pose proof (bs_runes s B) as BR. destruct (runes s) as [|n ns] eqn:RS; [discriminate|].
    destruct (is_space_rune n || _ || _)%bool eqn:F; [discriminate|]. rewrite !orb_false_iff in F. destruct F as [[F1 F2] _].
    assert (ALL : forall c, In c (n :: ns) -> is_space_rune c = false /\ in_set [123; 59; 34; 39]%N c = false /\ c <> 125%N).
    { intros c [<-|I].
      - split; auto. cbn [in_set existsb] in F2. rewrite !orb_false_iff, !N.eqb_neq in F2. cbn [in_set existsb]. rewrite !orb_false_iff, !N.eqb_neq. tauto.
      - apply (loop_plain ns 0%N n) with (c := c); auto; [discriminate|]. intros X. apply BR. now right. }
    assert (RU : forall r, In r (scan_runes s) -> piece_ok (Raw r) = true /\ white r = false /\ mem r (separators ++ quotes)%list = false).
    { intros r I. destruct (rune_of s r V I) as (c & I' & D). rewrite RS in I'. destruct (ALL c I') as (S1 & S2 & S3).
      assert (RT : rune_text r) by (destruct (scan_texts s V) as [T _]; rewrite Forall_forall in T; auto).
      assert (ASC : forall x, r = str1 x -> (bval x < 128)%N -> bval x = c).
      { intros x -> L. unfold str1, decode_rune in D. rewrite (proj2 (N.ltb_lt _ _) L) in D. now inversion D. }
      cbn [in_set existsb] in S2. rewrite !orb_false_iff, !N.eqb_neq in S2.
      split; [|split].
      - cbn [piece_ok]. rewrite (proj2 (one_char_text r) RT). cbn [andb]. apply andb_true_iff. rewrite !negb_true_iff. unfold is_cr. rewrite !String.eqb_neq. split; intros X.
        + apply (ASC "013"%char) in X; [|reflexivity]. change (13%N = c) in X. subst c. discriminate S1.
        + apply (ASC "\"%char) in X; [|reflexivity]. change (92%N = c) in X. subst c. now apply BR.
      - unfold white. now rewrite D.
      - apply not_true_iff_false. rewrite mem_In. intros X. cbn in X. intuition (subst r; cbn in D; inversion D; subst; tauto). }
    unfold bare_word. rewrite V. destruct (str_exists (Ascii.eqb "013"%char) s) eqn:CR; cbn [negb andb].
    { exfalso. assert (X : filter is_cr (scan_runes s) <> []) by (intros X; apply (cr_in s V) in X; congruence).
      apply X. clear X CR. assert (X : forall l, (forall r, In r l -> piece_ok (Raw r) = true) -> filter is_cr l = []).
      { induction l as [|r l IH]; intros G; auto. cbn [filter]. specialize (G r (or_introl eq_refl)) as G1. cbn [piece_ok] in G1. rewrite !andb_true_iff, negb_true_iff in G1. destruct G1 as [[_ G1] _]. rewrite G1. apply IH. intros; apply G; now right. }
      apply X. intros r I. now apply RU. }
    rewrite raw_pieces.
    2: { intros I. apply RU in I as (X & _). discriminate X. }
    destruct (scan_runes s) as [|r rs] eqn:SR; [apply map_eq_nil in SR; unfold runes in RS; rewrite SR in RS; discriminate RS|]. cbn [map].
    apply andb_true_iff. split.
    + destruct (RU r (or_introl eq_refl)) as (A1 & A2 & A3). cbn [starts_word]. rewrite A2. cbn [negb andb]. apply negb_true_iff. unfold mem in *. rewrite app_assoc, existsb_app, A3. cbn [existsb orb]. rewrite orb_false_r.
      apply String.eqb_neq. intros ->. destruct (scan_texts s V) as [_ E]. rewrite SR in E. cbn [concat_str] in E. apply not_true_iff_false in H. apply H, prefix_iff. now exists (concat_str rs).
    + apply plain_word, Forall_forall. intros x I. destruct (RU x (or_intror I)) as (A1 & A2 & A3). repeat split; auto. unfold mem in *. rewrite existsb_app in A3. now apply orb_false_iff in A3.
Qed.

(** ** Quoting always changes the text *)
Lemma hex_len : forall d n, slen (hex_fixed d n) = d.
Proof. induction d as [|d IH]; intros n; auto. cbn [hex_fixed]. rewrite app_slen, IH. cbn. lia. Qed.
Lemma item_len : forall pr s i single, In i (scan s) -> slen (it_raw i) <= slen (tq single (kind_of pr i)).
Proof.
  intros pr s i single I. pose proof (scan_items s i I) as (NE & OK & BAD). pose proof (item_ascii s i) as IA. specialize (IA) with (1 := I).
  unfold kind_of. destruct (it_ok i) eqn:O; cbn [negb].
  - specialize (IA) with (1 := eq_refl). specialize (OK eq_refl). pose proof (dec_encode _ _ _ OK) as E. rewrite take_all in E by lia.
    destruct (N.eqb_spec (it_rune i) 34) as [X|]; [rewrite (IA _ X) by reflexivity; cbn; lia|].
    destruct (N.eqb_spec (it_rune i) 92) as [X|]; [rewrite (IA _ X) by reflexivity; cbn; lia|].
    destruct (pr (it_rune i)); [destruct (N.eqb_spec (it_rune i) 39) as [X|]; [rewrite (IA _ X) by reflexivity; destruct single; cbn; lia|cbn [tq]; lia]|].
    cbn [tq String.append slen]. unfold esc_body. rewrite O. cbn [negb].
    repeat match goal with |- context [N.eqb (it_rune i) ?n] => destruct (N.eqb_spec (it_rune i) n) as [X|]; [rewrite (IA _ X) by reflexivity; rewrite ?orb_true_r; try (destruct (N.ltb (it_rune i) 32)); cbn; lia|] end.
    rewrite orb_false_r. destruct (N.ltb_spec (it_rune i) 32) as [L|L]; [rewrite (IA _ eq_refl) by lia; cbn; lia|].
    assert (L4 : slen (it_raw i) <= 4).
    { rewrite <- E. unfold encode_rune. repeat match goal with |- context [if ?b then _ else _] => destruct b end; cbn; lia. }
    destruct (it_rune i <? 65536)%N; rewrite app_slen, hex_len; cbn; lia.
  - destruct (BAD eq_refl) as [_ ->]. cbn. lia.
Qed.
Lemma enquote_changes : forall pr s, ascii_right pr -> (enquote pr s = s <-> needs_quote s = false).
Proof.
  intros pr s AR. destruct (needs_quote s) eqn:NQ; [|unfold enquote; rewrite NQ; split; auto].
  split; [|discriminate]. intros E. exfalso. pose proof (enquote_form pr s AR NQ) as F. cbv zeta in F. rewrite E in F. apply (f_equal slen) in F. rewrite !app_slen in F.
  set (single := existsb _ _) in F. assert (L : forall l, (forall i, In i l -> In i (scan s)) -> slen (unscan l) <= slen (cat (tq single) (map (kind_of pr) l))).
  { induction l as [|i l IH]; intros IN; auto. change (unscan (i :: l)) with (it_raw i ++ unscan l). cbn [map]. rewrite cat_cons, !app_slen.
    specialize (IH (fun j J => IN j (or_intror J))). pose proof (item_len pr s i single (IN i (or_introl eq_refl))). lia. }
  specialize (L (scan s) (fun i I => I)). rewrite unscan_scan in L. unfold kinds in F. destruct single; cbn in F; lia.
Qed.
Theorem enquote_class : forall pr s, ascii_right pr ->
  (reads_back (enquote pr s) s <-> (if String.eqb (enquote pr s) s then bare_word s else quotable pr s) = true).
Proof.
  intros pr s AR. rewrite enquote_exact by auto. destruct (String.eqb_spec (enquote pr s) s) as [E|N].
  - apply (enquote_changes pr s AR) in E. now rewrite E.
  - destruct (needs_quote s) eqn:NQ; [tauto|]. exfalso. apply N. now apply enquote_changes.
Qed.
