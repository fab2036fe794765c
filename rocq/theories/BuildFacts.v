(** Build writes its rows. *)
From Verif Require Export SpecBuild TreeFacts.
Local Open Scope string_scope.

Lemma times_app : forall n m s, times (n + m) s = times n s ++ times m s.
Proof. induction n as [|n IH]; intros m s; auto. cbn [Nat.add times]. now rewrite IH, app_assoc_s. Qed.
Lemma times_mul : forall n m s, times (n * m) s = times n (times m s).
Proof. induction n as [|n IH]; intros m s; auto. cbn [Nat.mul times]. now rewrite times_app, IH. Qed.
Lemma repeat_times : forall n s, repeat_str s n = times n s.
Proof. induction n as [|n IH]; intros s; auto. cbn. now rewrite IH. Qed.
Lemma margin_blanks : forall o depth, (0 <= b_indent o)%Z -> (b_tabs o = true -> (0 < b_indent o)%Z) ->
  margin o (Z.of_nat depth) = Some (blanks (b_indent o) (b_tabs o) depth).
Proof.
  intros o depth I T. unfold margin, blanks, slice_rep, repeat_z, max_indent.
  assert (M : (0 <= Z.of_nat depth * b_indent o)%Z) by nia. destruct (b_tabs o).
  - specialize (T eq_refl). destruct (Z.ltb_spec (Z.of_nat depth * b_indent o) 100) as [L|L].
    + assert (D : (Z.of_nat depth <= 100)%Z) by nia. rewrite (proj2 (Z.ltb_ge _ _)), (proj2 (Z.ltb_ge _ _)) by lia. cbn [orb]. now rewrite repeat_times, Nat2Z.id.
    + rewrite (proj2 (Z.ltb_ge _ _)) by lia. now rewrite repeat_times, Nat2Z.id.
  - rewrite <- times_mul. replace (Z.to_nat (Z.of_nat depth * b_indent o)) with (depth * Z.to_nat (b_indent o)) by (rewrite Z2Nat.inj_mul, Nat2Z.id; lia).
    destruct (Z.ltb_spec (Z.of_nat depth * b_indent o) 100) as [L|L].
    + rewrite (proj2 (Z.ltb_ge _ 0)), (proj2 (Z.ltb_ge _ _)) by lia. cbn [orb]. now rewrite repeat_times.
    + rewrite (proj2 (Z.ltb_ge _ _)) by lia. now rewrite repeat_times.
Qed.
Definition texts (o : bopts) (rs : list row) : string := concat_str (map (row_text (b_indent o) (b_tabs o)) rs).
Lemma concat_app_s : forall a b, concat_str (a ++ b) = concat_str a ++ concat_str b.
Proof. induction a as [|x a IH]; intros b; auto. cbn [app concat_str]. now rewrite IH, app_assoc_s. Qed.
Lemma texts_app : forall o a b, texts o (a ++ b) = texts o a ++ texts o b.
Proof. intros o a b. unfold texts. now rewrite map_app, concat_app_s. Qed.
Definition indent_ok (o : bopts) : Prop := (0 <= b_indent o)%Z /\ (b_tabs o = true -> (0 < b_indent o)%Z).
Lemma loop_rows : forall o depth stmt rows1 ds nl last, indent_ok o ->
  (forall d, In d ds -> exists t rs, rows1 d = Row depth t :: rs /\ stmt d = Some (t ++ texts o rs)) ->
  build_loop o (Z.of_nat depth) stmt nl last ds =
  Some (if nl then texts o (rows_loop o rows1 depth last ds) else
        match rows_loop o rows1 depth last ds with
        | Row k t :: rs => blanks (b_indent o) (b_tabs o) k ++ t ++ texts o rs
        | rs => texts o rs
        end).
Proof.
  intros o depth stmt rows1 ds nl last [I1 I2]. revert nl last. induction ds as [|d ds IH]; intros nl last H; [now destruct nl|].
  assert (IH' : forall last, build_loop o (Z.of_nat depth) stmt true last ds = Some (texts o (rows_loop o rows1 depth last ds))) by (intros; apply (IH true); intros; apply H; now right).
  cbn [build_loop rows_loop]. destruct (_ && is_comment d)%bool.
  - rewrite IH'. cbn [obind]. destruct nl; f_equal; unfold texts; cbn [map concat_str row_text]; unfold comment_of, comment_text; now rewrite !app_assoc_s.
  - rewrite margin_blanks by auto. cbn [obind]. destruct (assoc _ _) as [f|].
    + rewrite IH'. cbn [obind]. destruct nl; f_equal; unfold texts; cbn [map concat_str row_text String.append]; now rewrite ?app_assoc_s.
    + destruct (H d) as (t & rs & E1 & E2); [now left|]. rewrite E1, E2, IH'. cbn [obind app].
      destruct nl; f_equal; unfold texts; cbn [map concat_str row_text]; rewrite ?map_app, ?concat_app_s, ?app_assoc_s; reflexivity.
Qed.
Lemma stmt_rows : forall o d depth, indent_ok o -> exists t rs, rows o depth d = Row depth t :: rs /\ build_stmt o (Z.of_nat depth) d = Some (t ++ texts o rs).
Proof.
  intros o d. induction d as [d IH] using dir_ind'. intros depth I. destruct d as [nm line args file incl block cmt mp]. cbn [rows build_stmt d_block d_line] in *.
  destruct (is_comment _). { exists ("#" ++ comment_text (Dir nm line args file incl block cmt mp)), []. split; auto. cbn [texts map concat_str]. unfold texts. cbn [map concat_str]. now rewrite app_nil_r_s. }
  destruct block as [b|].
  2: { eexists _, []. split; [reflexivity|]. unfold texts. cbn [map concat_str]. now rewrite app_nil_r_s. }
  eexists _, _. split; [reflexivity|]. replace (Z.of_nat depth + 1)%Z with (Z.of_nat (S depth)) by lia.
  rewrite (loop_rows o (S depth) _ (rows o (S depth)) b true line I). 2: { intros d D. cbn [opt_list] in IH. rewrite Forall_forall in IH. now apply IH. }
  cbn [obind]. destruct I as [I1 I2]. rewrite margin_blanks by auto. cbn [obind]. f_equal. rewrite texts_app. rewrite !app_assoc_s. f_equal. f_equal. f_equal.
  unfold texts. cbn [map concat_str row_text]. now rewrite app_nil_r_s.
Qed.
Lemma indent_default : forall o, (0 <= b_indent o)%Z -> indent_ok (default_indent o).
Proof. intros o H. unfold indent_ok, default_indent. cbn [b_indent b_tabs]. destruct (Z.eqb_spec (b_indent o) 0); lia. Qed.
Lemma build_rows : forall o ds, (0 <= b_indent o)%Z ->
  build o ds = Some ((if b_header o then header else "") ++
    chomp (rows_text (if Z.eqb (b_indent o) 0 then 4 else b_indent o)%Z (b_tabs o) (all_rows o ds))).
Proof.
  intros o ds I. pose proof (indent_default o I) as D. unfold build, build_block.
  pose proof (loop_rows (default_indent o) 0 (build_stmt (default_indent o) 0) (rows (default_indent o) 0) ds false 0 D) as L.
  cbn [Z.of_nat] in L. rewrite L by (intros d _; apply (stmt_rows (default_indent o) d 0 D)). cbn [obind default_indent b_header]. f_equal. f_equal. f_equal.
  assert (X : forall d k, rows (default_indent o) k d = rows o k d).
  { intros d. induction d as [d IH] using dir_ind'. intros k. destruct d as [nm line args file incl block cmt mp]. cbn [rows d_block d_line] in *. destruct (is_comment _); auto.
    destruct block as [b|]; auto. cbn [opt_list] in IH. f_equal. f_equal. revert IH. generalize line. induction b as [|e b IHb]; intros l F; auto. inversion F; subst. cbn [rows_loop].
    destruct (_ && _)%bool; [now rewrite IHb|]. cbn [default_indent b_print b_ext]. destruct (assoc _ _); [now rewrite IHb|]. rewrite IHb by auto. now rewrite H1. }
  assert (Y : forall l ds, rows_loop (default_indent o) (rows (default_indent o) 0) 0 l ds = rows_loop o (rows o 0) 0 l ds).
  { intros l ds'. revert l. induction ds' as [|e b IHb]; intros l; auto. cbn [rows_loop]. destruct (_ && _)%bool; [now rewrite IHb|]. cbn [default_indent b_print b_ext]. destruct (assoc _ _); [now rewrite IHb|]. now rewrite IHb, X. }
  unfold all_rows, rows_text. rewrite Y. unfold texts. cbn [default_indent b_indent b_tabs]. now destruct (rows_loop o (rows o 0) 0 0 ds) as [|[k t|t] rs].
Qed.

Lemma list_of_app : forall a b, list_of_str (a ++ b) = (list_of_str a ++ list_of_str b)%list.
Proof. induction a as [|c a IH]; intros b; auto. cbn [String.append list_of_str app]. now rewrite IH. Qed.
Lemma blanks_tabs : forall indent depth, list_of_str (blanks indent true depth) = repeat "009"%char depth.
Proof. intros indent depth. unfold blanks. induction depth as [|n IH]; auto. cbn [times repeat]. rewrite list_of_app, IH. reflexivity. Qed.
Lemma blanks_spaces : forall indent depth, list_of_str (blanks indent false depth) = repeat " "%char (depth * Z.to_nat indent).
Proof.
  intros indent depth. unfold blanks. set (k := Z.to_nat indent).
  assert (X : forall m, list_of_str (times m s_sp) = repeat " "%char m) by (induction m as [|m IH]; auto; cbn [times repeat]; rewrite list_of_app, IH; reflexivity).
  induction depth as [|n IH]; auto. cbn [times]. rewrite list_of_app, IH, X. cbn [Nat.mul]. now rewrite repeat_app.
Qed.
Lemma negative_panics : forall o n l, (b_indent o < 0)%Z -> b_tabs o = false -> b_ext o = [] ->
  build o [mkd n l [] (Some [mkd n l [] None])] = None.
Proof.
  intros o n l H T E. unfold build. set (o1 := default_indent o).
  assert (I1 : b_indent o1 = b_indent o) by (unfold o1, default_indent; cbn [b_indent]; destruct (Z.eqb_spec (b_indent o) 0); lia).
  assert (M : margin o1 1 = None).
  { unfold margin. rewrite I1. change (b_tabs o1) with (b_tabs o). rewrite T. destruct (Z.ltb_spec (1 * b_indent o) max_indent) as [L|L]; [|unfold max_indent in L; lia].
    unfold slice_rep. destruct (Z.ltb_spec (1 * b_indent o) 0); [reflexivity|lia]. }
  assert (N : forall x y z, is_comment (mkd x y [] z) = false) by (intros; unfold is_comment, mkd; cbn [d_name d_comment]; now rewrite ?andb_false_r).
  unfold build_block. cbn [build_loop]. rewrite N, andb_false_r. destruct (margin o1 0) as [m|]; [|reflexivity]. cbn [obind].
  change (b_ext o1) with (b_ext o). rewrite E. cbn [assoc].
  assert (SE : forall d, build_stmt o1 0 d = if is_comment d then Some ("#" ++ comment_of d) else match d_block d with
    | None => Some (build_head o1 d ++ ";")
    | Some b => obind (build_loop o1 1 (build_stmt o1 1) true (d_line d) b) (fun body => obind (margin o1 0) (fun m => Some (build_head o1 d ++ " {" ++ body ++ s_nl ++ m ++ "}")))
    end) by (intros [d1 d2 d3 d4 d5 d6 d7 d8]; reflexivity).
  rewrite SE, N. change (d_block (mkd n l [] (Some [mkd n l [] None]))) with (Some [mkd n l [] None]). cbv iota. cbn [build_loop]. rewrite N, andb_false_r, M. reflexivity.
Qed.
