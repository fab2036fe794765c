From Verif Require Import SpecReader CharsProofs Util.
Local Open Scope string_scope.

Lemma rngP : forall lo hi x, reflect ((lo <= x)%N /\ (x <= hi)%N) (in_rng lo hi x).
Proof. intros. apply iff_reflect. unfold in_rng. rewrite Bool.andb_true_iff, !N.leb_le. reflexivity. Qed.
Ltac cases := repeat (cbn [negb andb snd Nat.leb slen] in *;
  match goal with
  | H : ?a = ?a -> _ |- _ => specialize (H eq_refl)
  | H : true = false |- _ => discriminate H
  | H : false = true |- _ => discriminate H
  | H : context [N.ltb ?a ?b] |- _ => destruct (N.ltb_spec a b); try lia
  | H : context [N.eqb ?a ?b] |- _ => destruct (N.eqb_spec a b); try lia
  | H : context [in_rng ?a ?b ?c] |- _ => destruct (rngP a b c); try lia
  | |- context [N.ltb ?a ?b] => destruct (N.ltb_spec a b); try lia
  | |- context [N.eqb ?a ?b] => destruct (N.eqb_spec a b); try lia
  | |- context [in_rng ?a ?b ?c] => destruct (rngP a b c); try lia
  | |- context [match ?m with EmptyString => _ | _ => _ end] => is_var m; destruct m; cbn [String.append]
  end; try reflexivity; try congruence).
Lemma full_bad : forall s m, full_rune s = true -> snd (decode_rune s) = false -> decode_rune (s ++ m) = (rune_error, 1, false).
Proof.
  intros s m F D. destruct s as [|c0 [|c1 [|c2 [|c3 s]]]]; [discriminate|..].
  all: cbn [String.append]; unfold full_rune, decode_rune, is_cont in *.
  all: cases.
Qed.

(** ** One token *)
Lemma drop_app : forall n s m, n <= slen s -> drop n (s ++ m) = drop n s ++ m.
Proof. induction n as [|n IH]; intros [|c s] m L; auto; cbn in L; [lia|]. apply IH. lia. Qed.
Lemma take_app : forall n s m, n <= slen s -> take n (s ++ m) = take n s.
Proof. induction n as [|n IH]; intros [|c s] m L; auto; cbn in L; [lia|]. cbn. f_equal. apply IH. lia. Qed.
Lemma skip_drop : forall n s, scan_from n s = scan_from 0 (drop n s).
Proof. induction n as [|n IH]; intros [|c s]; auto. cbn [drop]. rewrite <- IH. reflexivity. Qed.
Lemma scan_next : forall s n w ok, s <> "" -> decode_rune s = (n, w, ok) -> 1 <= w ->
  scan_runes s = (if ok then take w s else error_rune_text) :: scan_runes (drop w s).
Proof.
  intros [|c s] n w ok NE D L; [congruence|]. unfold scan_runes, scan. cbn [scan_from]. rewrite D. cbn [map].
  f_equal. rewrite skip_drop. destruct w; [lia|]. reflexivity.
Qed.
Lemma decode_ok_app : forall s n w m, decode_rune s = (n, w, true) -> decode_rune (s ++ m) = (n, w, true) /\ 1 <= w <= slen s.
Proof.
  intros s n w m D. apply decode_exact in D. destruct D as (t & r & -> & U & ->).
  split; [apply decode_exact; exists t, (r ++ m); rewrite app_assoc_s; auto|].
  rewrite app_slen. split; [|lia]. destruct U; cbn; lia.
Qed.
Lemma bad_one : forall c s n w, decode_rune (String c s) = (n, w, false) -> n = rune_error /\ w = 1.
Proof.
  intros c s n w D. unfold decode_rune in D.
  repeat match type of D with context [match ?x with _ => _ end] => destruct x end; injection D as <- <- ; auto; discriminate.
Qed.
Lemma split_some : forall data eof t n m, scan_split data eof = Some (t, n) -> eof = false \/ m = "" ->
  scan_runes (data ++ m) = t :: scan_runes (drop n data ++ m) /\ 1 <= n <= slen data.
Proof.
  intros [|c0 data] eof t n m S E; [discriminate|]. unfold scan_split in S.
  destruct (N.ltb_spec (bval c0) 0x80) as [L|L].
  - injection S as <- <-. split; [|cbn; lia]. rewrite (scan_next (String c0 data ++ m) (bval c0) 1 true); auto.
    + cbn. discriminate.
    + cbn [String.append]. unfold decode_rune. destruct (N.ltb_spec (bval c0) 0x80); [reflexivity|lia].
  - destruct (decode_rune (String c0 data)) as [[r w] ok] eqn:D. destruct ok.
    + destruct (decode_ok_app _ _ _ m D) as [D' W].
      assert (W2 : 1 < w).
      { destruct (Nat.eq_dec w 1) as [->|]; [|lia]. exfalso. unfold decode_rune in D.
        destruct (N.ltb_spec (bval c0) 0x80); [lia|].
        repeat match type of D with context [match ?x with _ => _ end] => destruct x end; discriminate. }
      destruct (Nat.ltb_spec 1 w); [|lia]. injection S as <- <-. split; auto.
      rewrite (scan_next (String c0 data ++ m) _ _ _ ltac:(discriminate) D') by lia. rewrite drop_app, take_app by lia. reflexivity.
    + destruct (bad_one _ _ _ _ D) as [-> ->]. cbn [Nat.ltb Nat.leb] in S.
      assert (X : t = error_rune_text /\ n = 1 /\ (eof = true \/ full_rune (String c0 data) = true)).
      { destruct eof; cbn [negb andb] in S; [injection S as <- <-; auto|].
        destruct (full_rune (String c0 data)); cbn [negb] in S; [injection S as <- <-; auto|discriminate]. }
      destruct X as (-> & -> & X). split; [|cbn; lia].
      assert (D' : decode_rune (String c0 data ++ m) = (rune_error, 1, false)).
      { destruct X as [-> | X]; [destruct E as [E| ->]; [discriminate|]; now rewrite app_nil_r_s|].
        apply full_bad; auto. now rewrite D. }
      rewrite (scan_next (String c0 data ++ m) _ _ _ ltac:(discriminate) D') by lia. reflexivity.
Qed.
Lemma split_none : forall data, scan_split data true = None -> data = "".
Proof.
  intros [|c0 data] S; auto. unfold scan_split in S. destruct (N.ltb _ _); [discriminate|].
  destruct (decode_rune _) as [[r w] ok]. destruct (Nat.ltb 1 w); discriminate.
Qed.

(** ** What arrives, as a function *)
Fixpoint arr (loop : nat) (rs : list rd) : string * rerr :=
  match rs with
  | [] => ("", EndOfFile)
  | r :: rs =>
    match rd_err r with
    | Some e => (rd_bytes r, e)
    | None =>
      if String.eqb (rd_bytes r) "" then if Nat.ltb 100 (S loop) then ("", NoProgress) else arr (S loop) rs
      else (rd_bytes r ++ fst (arr 0 rs), snd (arr 0 rs))
    end
  end.
Definition rest (s : scanner) : string * rerr :=
  match sc_err s with
  | Some e => (sc_buf s, e)
  | None => (sc_buf s ++ fst (arr 0 (sc_reads s)), snd (arr 0 (sc_reads s)))
  end.
Definition right (x : option string * scanner) (s : string) (e : rerr) : Prop :=
  match fst x with
  | None => s = "" /\ sc_buf (snd x) = "" /\ sc_err (snd x) = Some e
  | Some t => scan_runes s = t :: scan_runes (fst (rest (snd x))) /\ snd (rest (snd x)) = e /\ slen (fst (rest (snd x))) < slen s
  end.
Lemma end_right : forall buf e rs, right (at_end buf e rs) buf e.
Proof.
  intros buf e rs. unfold at_end. destruct (scan_split buf true) as [[t n]|] eqn:S.
  - destruct (split_some _ _ _ _ "" S (or_intror eq_refl)) as [R L]. rewrite !app_nil_r_s in R.
    cbn. split; [exact R|]. split; auto. rewrite slen_drop. lia.
  - apply split_none in S. cbn. auto.
Qed.
Lemma some_right : forall buf t n rs, scan_split buf false = Some (t, n) ->
  right (Some t, Sc (drop n buf) None rs) (buf ++ fst (arr 0 rs)) (snd (arr 0 rs)).
Proof.
  intros buf t n rs S. destruct (split_some _ _ _ _ (fst (arr 0 rs)) S (or_introl eq_refl)) as [R L].
  cbn. split; [exact R|]. split; auto. rewrite !app_slen, slen_drop. lia.
Qed.
Lemma more_right : forall rs loop buf, right (scan_more loop buf rs) (buf ++ fst (arr loop rs)) (snd (arr loop rs)).
Proof.
  induction rs as [|r rs IH]; intros loop buf; cbn [scan_more arr].
  - cbn [fst snd]. rewrite app_nil_r_s. apply end_right.
  - destruct (rd_err r) as [e|]; [apply end_right|]. destruct (String.eqb_spec (rd_bytes r) "") as [E|E].
    + rewrite E, app_nil_r_s. destruct (Nat.ltb 100 (S loop)); [|apply IH]. cbn [fst snd]. rewrite app_nil_r_s. apply end_right.
    + cbn [fst snd]. rewrite <- app_assoc_s. destruct (scan_split (buf ++ rd_bytes r) false) as [[t n]|] eqn:S; [now apply some_right|apply IH].
Qed.
Lemma scan_right : forall s, right (sc_scan s) (fst (rest s)) (snd (rest s)).
Proof.
  intros [buf [e|] rs]; unfold sc_scan, rest; cbn [sc_err sc_buf sc_reads fst snd]; [apply end_right|].
  destruct (String.eqb_spec buf "") as [->|E]; [apply more_right|].
  destruct (scan_split buf false) as [[t n]|] eqn:S; [now apply some_right|apply more_right].
Qed.
Lemma scans_rest : forall n s, slen (fst (rest s)) < n -> exists s', scans s (scan_runes (fst (rest s))) s' /\
  sc_buf s' = "" /\ sc_err s' = Some (snd (rest s)).
Proof.
  induction n as [|n IH]; intros s L; [lia|]. pose proof (scan_right s) as R. destruct (sc_scan s) as [[t|] s1] eqn:E; unfold right in R; cbn [fst snd] in R.
  - destruct R as (R & R1 & R2). destruct (IH s1 ltac:(lia)) as (s' & S & B & X). exists s'. rewrite R. split; [econstructor; eauto|]. split; auto. congruence.
  - destruct R as (R & B & X). exists s1. rewrite R. split; [now constructor|auto].
Qed.
Lemma scans_one : forall s l s', scans s l s' -> forall m s'', scans s m s'' -> l = m /\ s' = s''.
Proof.
  induction 1 as [s s' E|s t s' l s'' E _ IH]; intros m z M; inversion M; subst; try congruence.
  - split; auto; congruence.
  - assert (t0 = t /\ s'0 = s') as [-> ->] by (split; congruence). destruct (IH _ _ H0) as [-> ->]. auto.
Qed.
Lemma end_again : forall s e, sc_buf s = "" -> sc_err s = Some e -> sc_scan s = (None, s).
Proof. intros [b x rs] e B X. cbn in B, X. subst. reflexivity. Qed.
Lemma texts_scans : forall s l s', scans s l s' -> forall f, List.length l < f -> sc_texts f s = l.
Proof.
  induction 1 as [s s' E|s t s' l s'' E _ IH]; intros [|f] L; try (cbn in L; lia); cbn [sc_texts]; rewrite E; auto.
  f_equal. apply IH. cbn in L. lia.
Qed.

(** ** The same, as specified *)
Lemma lively_tail : forall a b, lively (a ++ b) -> lively b.
Proof. intros a b L x y E. apply (L (a ++ x)%list y). now rewrite E, <- app_assoc. Qed.
Lemma quiet_empty : forall r, rd_err r = None -> rd_bytes r = "" -> r = empty_read.
Proof. intros [b e] E B. cbn in *. now subst. Qed.
Lemma repeat_snoc : forall (A : Type) (x : A) n, (repeat x n ++ [x])%list = repeat x (S n).
Proof. induction n as [|n IH]; auto. cbn [repeat app]. now rewrite IH. Qed.
Lemma arr_app : forall rs k tail, Forall quiet_read rs -> lively (repeat empty_read k ++ rs) ->
  exists j, arr k (rs ++ tail) = (bytes_of rs ++ fst (arr j tail), snd (arr j tail)) /\ exists a, (repeat empty_read k ++ rs)%list = (a ++ repeat empty_read j)%list.
Proof.
  induction rs as [|r rs IH]; intros k tail Q L.
  - exists k. cbn. split; [now destruct (arr k tail)|]. exists []. now rewrite app_nil_r.
  - inversion Q as [|? ? Q1 Q2]; subst. unfold quiet_read in Q1. cbn [app arr]. rewrite Q1. destruct (String.eqb_spec (rd_bytes r) "") as [E|E].
    + assert (R := quiet_empty _ Q1 E). subst r.
      assert (X : (repeat empty_read k ++ empty_read :: rs = repeat empty_read (S k) ++ rs)%list).
      { rewrite <- repeat_snoc, <- app_assoc. reflexivity. }
      rewrite X in *. destruct (Nat.ltb_spec 100 (S k)) as [K|K].
      * exfalso. apply (L (repeat empty_read (S k - 101)) rs).
        rewrite app_assoc, <- repeat_app. f_equal. f_equal. lia.
      * destruct (IH (S k) tail Q2 L) as (j & A & B). exists j. split; auto.
    + destruct (IH 0 tail Q2) as (j & A & a & B).
      { cbn [repeat app]. apply (lively_tail (repeat empty_read k ++ [r])). now rewrite <- app_assoc. }
      exists j. rewrite A. cbn [fst snd]. split; [unfold bytes_of; cbn [map concat_str]; now rewrite app_assoc_s|].
      cbn [repeat app] in B. exists (repeat empty_read k ++ r :: a)%list. rewrite B, <- app_assoc. reflexivity.
Qed.
Lemma arrives_arr : forall rs s e, arrives rs s e -> arr 0 rs = (s, e).
Proof.
  intros rs s e A. destruct A as [rs Q L|rs b e after Q L|rs after Q L].
  - destruct (arr_app rs 0 [] Q L) as (j & E & _). rewrite app_nil_r in E. rewrite E. cbn. now rewrite app_nil_r_s.
  - destruct (arr_app rs 0 (Rd b (Some e) :: after) Q L) as (j & E & _). rewrite E. reflexivity.
  - assert (L' : lively rs).
    { intros x y E. apply (L x (y ++ repeat empty_read 100)%list). rewrite E, <- !app_assoc. reflexivity. }
    destruct (arr_app rs 0 (repeat empty_read 101 ++ after) Q L') as (j & E & a & B). rewrite E.
    assert (j = 0) as ->.
    { destruct j as [|j]; auto. exfalso. cbn [repeat app] in B. apply (L (a ++ repeat empty_read j)%list []).
      rewrite B, app_nil_r, <- !app_assoc. f_equal.
      change (empty_read :: repeat empty_read j) with (repeat empty_read (S j)). rewrite <- !repeat_app. f_equal. lia. }
    replace (arr 0 (repeat empty_read 101 ++ after)) with ("", NoProgress) by reflexivity. cbn [fst snd]. now rewrite app_nil_r_s.
Qed.
Lemma ends_dec : forall n l, (exists a, l = (a ++ repeat empty_read n)%list) \/ (forall a, l <> (a ++ repeat empty_read n)%list).
Proof.
  induction n as [|n IH]; intros l; [left; exists l; cbn; now rewrite app_nil_r|].
  destruct l as [|r l _] using rev_ind; [right; intros a E; symmetry in E; apply app_eq_nil in E; destruct E; discriminate|].
  destruct r as [b [e|]]; [|destruct b as [|c b]].
  - right. intros a E. rewrite <- repeat_snoc, app_assoc in E. apply app_inj_tail in E. destruct E; discriminate.
  - destruct (IH l) as [[a ->]|H].
    + left. exists a. rewrite <- app_assoc. f_equal. apply repeat_snoc.
    + right. intros a E. rewrite <- repeat_snoc, app_assoc in E. apply app_inj_tail in E. destruct E as [E _]. now apply (H a).
  - right. intros a E. rewrite <- repeat_snoc, app_assoc in E. apply app_inj_tail in E. destruct E; discriminate.
Qed.
Lemma arrives_some : forall rs, (Forall quiet_read rs /\ lively rs) \/ exists s e, forall tail, arrives (rs ++ tail) s e.
Proof.
  induction rs as [|r rs IH] using rev_ind.
  - left. split; [constructor|]. intros a b E. symmetry in E. apply app_eq_nil in E. destruct E; discriminate.
  - destruct IH as [[Q L]|(s & e & A)]; [|right; exists s, e; intros tail; rewrite <- app_assoc; apply A].
    destruct r as [b [e|]].
    + right. exists (bytes_of rs ++ b), e. intros tail. rewrite <- app_assoc. now constructor.
    + destruct (ends_dec 101 (rs ++ [Rd b None])) as [[a E]|E].
      * right. rewrite <- (repeat_snoc _ empty_read 100), app_assoc in E. apply app_inj_tail in E. destruct E as [-> E]. exists (bytes_of a), NoProgress.
        intros tail. rewrite E, <- !app_assoc. rewrite (app_assoc (repeat _ _)), repeat_snoc. constructor; auto.
        apply Forall_app in Q. tauto.
      * left. split; [apply Forall_app; split; auto; repeat constructor|].
        intros x y F. destruct y as [|z y _] using rev_ind; [rewrite app_nil_r in F; now apply (E x)|].
        rewrite !app_assoc in F. apply app_inj_tail in F. destruct F as [F _]. apply (L x y). now rewrite F, <- app_assoc.
Qed.
Lemma arrives_total : forall rs, exists s e, arrives rs s e.
Proof.
  intros rs. destruct (arrives_some rs) as [[Q L]|(s & e & A)].
  - exists (bytes_of rs), EndOfFile. now constructor.
  - exists s, e. rewrite <- (app_nil_r rs). apply A.
Qed.
Lemma arrives_one : forall rs s e s' e', arrives rs s e -> arrives rs s' e' -> s = s' /\ e = e'.
Proof. intros rs s e s' e' A B. apply arrives_arr in A, B. rewrite A in B. injection B as <- <-. auto. Qed.

(** ** The texts and the tokens *)
Lemma scanner_texts : forall rs s e, arrives rs s e -> forall l st, scans (new_scanner rs) l st ->
  l = scan_runes s /\ sc_error st = match e with EndOfFile => None | _ => Some e end /\ sc_scan st = (None, st).
Proof.
  intros rs s e A l st S. apply arrives_arr in A.
  destruct (scans_rest _ (new_scanner rs) (Nat.lt_succ_diag_r _)) as (s' & S' & B & X).
  unfold rest, new_scanner in S', X. cbn [sc_err sc_buf sc_reads fst snd String.append] in S', X. rewrite A in S', X. cbn [fst snd] in S', X.
  destruct (scans_one _ _ _ S _ _ S') as [-> ->]. split; auto. split; [|eapply end_again; eauto].
  unfold sc_error. rewrite X. now destruct e.
Qed.
Lemma scanner_ends : forall rs, exists l st, scans (new_scanner rs) l st.
Proof. intros rs. destruct (scans_rest _ (new_scanner rs) (Nat.lt_succ_diag_r _)) as (s' & S' & _). eauto. Qed.
Lemma runes_le : forall n s, slen s <= n -> List.length (scan_runes s) <= slen s.
Proof.
  intros n s _. unfold scan_runes. rewrite map_length. unfold scan. generalize 0. induction s as [|c s IH]; intros k; [cbn; lia|].
  cbn [scan_from]. destruct k; [|cbn [slen]; specialize (IH k); lia]. destruct (decode_rune _) as [[r w] ok]. cbn [List.length slen]. specialize (IH (pred w)). lia.
Qed.
Lemma arr_le : forall rs k, slen (fst (arr k rs)) <= slen (bytes_of rs).
Proof.
  induction rs as [|r rs IH]; intros k; [cbn; lia|]. cbn [arr]. unfold bytes_of. cbn [map concat_str]. rewrite app_slen. fold (bytes_of rs).
  destruct (rd_err r); [cbn; lia|]. destruct (String.eqb (rd_bytes r) "").
  - destruct (Nat.ltb 100 (S k)); [cbn; lia|]. specialize (IH (S k)). lia.
  - cbn [fst]. rewrite app_slen. specialize (IH 0). lia.
Qed.
Lemma reader_tokens : forall ext rs s e, arrives rs s e -> lex_reader ext rs = lex ext s.
Proof.
  intros ext rs s e A. destruct (scanner_ends rs) as (l & st & S). destruct (scanner_texts rs s e A l st S) as (-> & _).
  unfold lex_reader. rewrite (texts_scans _ _ _ S); [reflexivity|]. apply arrives_arr in A.
  pose proof (arr_le rs 0) as B. rewrite A in B. cbn [fst] in B. pose proof (runes_le _ s (le_n _)). lia.
Qed.
Lemma lively_by : forall rs, List.length rs < 101 -> lively rs.
Proof. intros rs L a b E. subst. rewrite !app_length, repeat_length in L. lia. Qed.
