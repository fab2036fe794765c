(** C11: the text of a tree. *)
From Verif Require Export SpecText QuoteProofs BuildFacts.
Local Open Scope string_scope.

Lemma if_alone : left_alone "if".
Proof.
  exists 105%N, [102%N]. split; [reflexivity|]. split; [intros H; apply ends_iff in H; discriminate|]. split.
  - apply sm_plain; [discriminate|intros H; apply ends_iff in H; discriminate|constructor].
  - cbn. intuition discriminate.
Qed.
Lemma written_if : forall pr s t, written_as pr s t -> t = "if" -> s = "if".
Proof. intros pr s t [A|x _ _ _|x _ _ _] E; auto; discriminate. Qed.
Section Same.
  Variable o : bopts.
  Variable w : string -> string.
  Hypothesis W : forall s, w s = enquote (b_print o) s.
  Hypothesis AR : ascii_right (b_print o).
  Lemma head_same : forall d, head_as w d = head_text o d.
  Proof.
    intros d. unfold head_as, head_text. rewrite (map_ext _ _ W). rewrite (map_ext _ _ (fun a => f_equal (String.append " ") (W a))), W.
    destruct (String.eqb_spec (d_name d) "if") as [->|N].
    - change (enquote (b_print o) "if") with "if". reflexivity.
    - destruct (String.eqb_spec (enquote (b_print o) (d_name d)) "if") as [E|]; auto. exfalso. apply N.
      apply (written_if (b_print o) _ (enquote (b_print o) (d_name d))); auto. now apply enquote_writes.
  Qed.
  Lemma remark_same : forall d, match remark_of d with Some c => is_comment d = true /\ comment_text d = c | None => is_comment d = false end.
  Proof. intros d. unfold remark_of, is_comment, comment_text. destruct (String.eqb _ _); auto. destruct (d_comment d); auto. Qed.
  Lemma loop_same : forall f g depth ds, Forall (fun d => f d = g d) ds -> forall last, loop_as w (b_ext o) f depth last ds = rows_loop o g depth last ds.
  Proof.
    intros f g depth ds F. induction F as [|d ds E F IH]; intros last; auto. cbn [loop_as rows_loop]. pose proof (remark_same d) as R. rewrite W.
    destruct (remark_of d) as [c|].
    - destruct R as [-> ->]. destruct (Z.eqb _ _); cbn [andb]; [now rewrite IH|]. destruct (assoc _ _); rewrite IH; auto. now rewrite E.
    - rewrite R, andb_false_r. destruct (assoc _ _); rewrite IH; auto. now rewrite E.
  Qed.
  Lemma rows_same : forall d depth, rows_as w (b_ext o) depth d = rows o depth d.
  Proof.
    induction d as [d IH] using dir_ind'. intros depth. destruct d as [name line args file incl block comment ismap]. cbn [rows_as rows d_block] in *. pose proof (remark_same (Dir name line args file incl block comment ismap)) as R.
    destruct (remark_of _) as [c|]; [destruct R as [-> ->]; reflexivity|]. rewrite R. cbn [d_block d_line]. rewrite !head_same. destruct block as [b|]; auto.
    f_equal. f_equal. apply loop_same. cbn [opt_list] in IH. eapply Forall_impl; [|exact IH]. auto.
  Qed.
End Same.
Lemma chomp_ended : forall t, ended t (chomp t).
Proof.
  intros t. unfold chomp, ended. destruct (has_suffix t s_nl) eqn:E.
  - left. apply has_suffix_iff in E as [x ->]. rewrite app_slen. change (slen s_nl) with 1. replace (slen x + 1 - 1) with (slen x) by lia. now rewrite take_app.
  - right. split; auto. intros X. apply has_suffix_iff in X. congruence.
Qed.
Lemma app_nl_inv : forall a b, a ++ s_nl = b ++ s_nl -> a = b.
Proof.
  intros a b H. assert (L : slen a = slen b). { apply (f_equal slen) in H. rewrite !app_slen in H. lia. }
  apply (f_equal (take (slen a))) in H. now rewrite take_app, L, take_app in H.
Qed.
Lemma ended_one : forall t u v, ended t u -> ended t v -> u = v.
Proof.
  intros t u v [A|[A NA]] [B|[B NB]]; subst; auto; try (now (exfalso; apply NA || apply NB; eexists)).
  - now apply app_nl_inv.
Qed.

(** ** Negative Indent *)
Definition far (o : bopts) (depth : nat) : bool := (Z.ltb (b_indent o) 0 && if b_tabs o then Nat.ltb 100 depth else Nat.ltb 0 depth)%bool.
Definition far_row (o : bopts) (r : row) : bool := match r with Row k _ => far o k | More _ => false end.
Lemma margin_far : forall o depth, b_indent o <> 0%Z ->
  margin o (Z.of_nat depth) = if far o depth then None else Some (blanks (b_indent o) (b_tabs o) depth).
Proof.
  intros o depth NZ. unfold far. destruct (Z.ltb_spec (b_indent o) 0) as [L|L]; cbn [andb].
  - unfold margin, max_indent, slice_rep. rewrite (proj2 (Z.ltb_lt _ _)) by nia. destruct (b_tabs o).
    + rewrite (proj2 (Z.ltb_ge (Z.of_nat depth) 0)) by lia. cbn [orb].
      destruct (Nat.ltb_spec 100 depth); [rewrite (proj2 (Z.ltb_lt _ _)) by lia; reflexivity|]. rewrite (proj2 (Z.ltb_ge _ _)) by lia.
      unfold blanks. now rewrite repeat_times, Nat2Z.id.
    + destruct depth as [|n]; [reflexivity|]. change (Nat.ltb 0 (S n)) with true. cbv iota. rewrite (proj2 (Z.ltb_lt (Z.of_nat (S n) * b_indent o) 0)) by nia. reflexivity.
  - apply margin_blanks; lia.
Qed.
Lemma obind_none : forall A B (f : A -> option B), obind None f = None.
Proof. reflexivity. Qed.
Lemma loop_far : forall o depth stmt rows1 ds nl last, b_indent o <> 0%Z ->
  (forall d, In d ds -> exists t rs, rows1 d = Row depth t :: rs /\ stmt d = if existsb (far_row o) rs then None else Some (t ++ texts o rs)) ->
  build_loop o (Z.of_nat depth) stmt nl last ds =
  if existsb (far_row o) (rows_loop o rows1 depth last ds) then None else
  Some (if nl then texts o (rows_loop o rows1 depth last ds) else
        match rows_loop o rows1 depth last ds with
        | Row k t :: rs => blanks (b_indent o) (b_tabs o) k ++ t ++ texts o rs
        | rs => texts o rs
        end).
Proof.
  intros o depth stmt rows1 ds nl last NZ. revert nl last. induction ds as [|d ds IH]; intros nl last H; [now destruct nl|].
  assert (IH' : forall last, build_loop o (Z.of_nat depth) stmt true last ds =
    if existsb (far_row o) (rows_loop o rows1 depth last ds) then None else Some (texts o (rows_loop o rows1 depth last ds))) by (intros; apply (IH true); intros; apply H; now right).
  cbn [build_loop rows_loop]. destruct (_ && is_comment d)%bool.
  - rewrite IH'. cbn [existsb far_row orb]. destruct (existsb _ _); [reflexivity|]. cbn [obind].
    destruct nl; f_equal; unfold texts; cbn [map concat_str row_text]; unfold comment_of, comment_text; now rewrite !app_assoc_s.
  - rewrite margin_far by auto. destruct (assoc _ _) as [f|].
    + cbn [existsb far_row]. destruct (far o depth); [reflexivity|]. cbn [obind orb]. rewrite IH'. destruct (existsb _ _); [reflexivity|]. cbn [obind].
      destruct nl; f_equal; unfold texts; cbn [map concat_str row_text String.append]; now rewrite ?app_assoc_s.
    + destruct (H d) as (t & rs & E1 & E2); [now left|]. rewrite E1, E2, IH'. cbn [app existsb far_row]. rewrite existsb_app. destruct (far o depth); [reflexivity|]. cbn [obind orb].
      destruct (existsb (far_row o) rs); [reflexivity|]. cbn [obind orb]. destruct (existsb _ _); [reflexivity|]. cbn [obind].
      destruct nl; f_equal; unfold texts; cbn [map concat_str row_text]; rewrite ?map_app, ?concat_app_s, ?app_assoc_s; reflexivity.
Qed.
Lemma stmt_far : forall o d depth, b_indent o <> 0%Z -> exists t rs, rows o depth d = Row depth t :: rs /\
  build_stmt o (Z.of_nat depth) d = if existsb (far_row o) rs then None else Some (t ++ texts o rs).
Proof.
  intros o d. induction d as [d IH] using dir_ind'. intros depth I. destruct d as [nm line args file incl block cmt mp]. cbn [rows build_stmt d_block d_line] in *.
  destruct (is_comment _). { exists ("#" ++ comment_text (Dir nm line args file incl block cmt mp)), []. split; auto. unfold texts. cbn [existsb map concat_str]. now rewrite app_nil_r_s. }
  destruct block as [b|].
  2: { eexists _, []. split; [reflexivity|]. unfold texts. cbn [existsb map concat_str]. now rewrite app_nil_r_s. }
  eexists _, _. split; [reflexivity|]. replace (Z.of_nat depth + 1)%Z with (Z.of_nat (S depth)) by lia.
  rewrite (loop_far o (S depth) _ (rows o (S depth)) b true line I). 2: { intros d D. cbn [opt_list] in IH. rewrite Forall_forall in IH. now apply IH. }
  rewrite existsb_app. cbn [existsb far_row]. rewrite orb_false_r. destruct (existsb _ _); [reflexivity|]. cbn [obind orb].
  rewrite margin_far by auto. destruct (far o depth); [reflexivity|]. cbn [obind]. f_equal. rewrite texts_app. rewrite !app_assoc_s. f_equal. f_equal. f_equal.
  unfold texts. cbn [map concat_str row_text]. now rewrite app_nil_r_s.
Qed.
Lemma rows_default : forall o ds, all_rows (default_indent o) ds = all_rows o ds.
Proof.
  intros o ds.
  assert (X : forall d k, rows (default_indent o) k d = rows o k d).
  { intros d. induction d as [d IH] using dir_ind'. intros k. destruct d as [nm line args file incl block cmt mp]. cbn [rows d_block d_line] in *. destruct (is_comment _); auto.
    destruct block as [b|]; auto. cbn [opt_list] in IH. f_equal. f_equal. revert IH. generalize line. induction b as [|e b IHb]; intros l F; auto. inversion F; subst. cbn [rows_loop].
    destruct (_ && _)%bool; [now rewrite IHb|]. cbn [default_indent b_print b_ext]. destruct (assoc _ _); [now rewrite IHb|]. rewrite IHb by auto. now rewrite H1. }
  unfold all_rows. generalize 0%Z. induction ds as [|e b IHb]; intros l; auto. cbn [rows_loop]. destruct (_ && _)%bool; [now rewrite IHb|]. cbn [default_indent b_print b_ext]. destruct (assoc _ _); [now rewrite IHb|]. now rewrite IHb, X.
Qed.
Lemma build_far : forall o ds, build o ds = if existsb (far_row o) (all_rows o ds) then None else
  Some ((if b_header o then header else "") ++
    chomp (rows_text (if Z.eqb (b_indent o) 0 then 4 else b_indent o)%Z (b_tabs o) (all_rows o ds))).
Proof.
  intros o ds. assert (NZ : b_indent (default_indent o) <> 0%Z) by (cbn [default_indent b_indent]; destruct (Z.eqb_spec (b_indent o) 0); lia).
  unfold build, build_block.
  pose proof (loop_far (default_indent o) 0 (build_stmt (default_indent o) 0) (rows (default_indent o) 0) ds false 0 NZ) as L.
  cbn [Z.of_nat] in L. rewrite L by (intros d _; apply (stmt_far (default_indent o) d 0 NZ)).
  change (rows_loop (default_indent o) (rows (default_indent o) 0) 0 0 ds) with (all_rows (default_indent o) ds). rewrite rows_default.
  assert (F : existsb (far_row (default_indent o)) (all_rows o ds) = existsb (far_row o) (all_rows o ds)).
  { induction (all_rows o ds) as [|r l IH]; auto. cbn [existsb]. rewrite IH. f_equal. destruct r as [k t|t]; auto. unfold far_row, far. cbn [default_indent b_indent b_tabs].
    destruct (Z.eqb_spec (b_indent o) 0) as [E|]; auto. rewrite E. reflexivity. }
  rewrite F. clear L. destruct (existsb (far_row o) (all_rows o ds)); [reflexivity|]. cbn [obind default_indent b_header b_indent b_tabs]. f_equal. f_equal. f_equal.
  unfold rows_text, texts. cbn [default_indent b_indent b_tabs]. now destruct (all_rows o ds) as [|[k t|t] rs].
Qed.
Lemma as_rows : forall o w ds, ascii_right (b_print o) -> (forall s, written_as (b_print o) s (w s)) -> all_as w (b_ext o) ds = all_rows o ds.
Proof.
  intros o w ds AR H. assert (W : forall s, w s = enquote (b_print o) s) by (intros s; now apply enquote_writes).
  apply loop_same; auto. apply Forall_forall. intros d _. now apply rows_same.
Qed.
Lemma too_deep_iff : forall o ds, ascii_right (b_print o) -> (too_deep o ds <-> existsb (far_row o) (all_rows o ds) = true).
Proof.
  intros o ds AR. rewrite existsb_exists. split.
  - intros (N & w & depth & t & W & I & D). exists (Row depth t). rewrite <- (as_rows o w ds AR W). split; auto. cbn [far_row]. unfold far. rewrite (proj2 (Z.ltb_lt _ _) N). cbn [andb].
    destruct (b_tabs o); now apply Nat.ltb_lt.
  - intros ([depth t|t] & I & F); [|discriminate]. cbn [far_row] in F. unfold far in F. apply andb_true_iff in F as [N D]. split; [now apply Z.ltb_lt|].
    exists (enquote (b_print o)), depth, t. assert (W : forall s, written_as (b_print o) s (enquote (b_print o) s)) by (intros s; now apply enquote_writes).
    split; auto. split; [now rewrite as_rows|]. destruct (b_tabs o); now apply Nat.ltb_lt.
Qed.
Theorem build_text_of : forall o ds text, ascii_right (b_print o) -> (build o ds = Some text <-> text_as o ds text /\ ~ too_deep o ds).
Proof.
  intros o ds text AR. rewrite (too_deep_iff o ds AR), build_far. destruct (existsb _ _); [split; [discriminate|intros [_ H]; now elim H]|].
  assert (W : forall s, written_as (b_print o) s (enquote (b_print o) s)) by (intros s; now apply enquote_writes).
  split.
  - intros H. inversion H. split; [|discriminate]. exists (enquote (b_print o)). eexists. split; [exact W|]. split; [|destruct (b_header o); reflexivity].
    rewrite (as_rows o _ ds AR W). apply chomp_ended.
  - intros ((w & body & V & B & ->) & _). rewrite (as_rows o w ds AR V) in B. rewrite (ended_one _ _ _ B (chomp_ended _)). destruct (b_header o); reflexivity.
Qed.
Theorem build_panics : forall o ds, ascii_right (b_print o) -> (build o ds = None <-> too_deep o ds).
Proof. intros o ds AR. rewrite (too_deep_iff o ds AR), build_far. destruct (existsb _ _); split; congruence. Qed.
