(** C09, C10: from the tree to the text, to the tree and to the text again. *)
From Verif Require Export RoundEval CombineProofs.
Local Open Scope string_scope.

(** ** Erasure *)
Definition kept_tree (keep : bool) (ds : list directive) : list directive := if keep then ds else flat_map quiet ds.
Lemma kept_one : forall keep d, kept_tree keep [d] = if keep then [d] else quiet d.
Proof. intros [] d; cbn; auto using app_nil_r. Qed.
Lemma kept_cons : forall keep d ds, kept_tree keep (d :: ds) = (kept_tree keep [d] ++ kept_tree keep ds)%list.
Proof. intros [] d ds; cbn; auto. now rewrite app_nil_r. Qed.
Lemma place_each : forall keep lab ds, Forall (fun d => forall m line, map bare (reread keep lab m line d) = map bare (kept_tree keep [d])) ds ->
  forall mp m inc la line, map bare (List.concat (place (reread keep lab mp) bottom m inc la line ds)) = map bare (kept_tree keep ds).
Proof.
  intros keep lab ds F. induction F as [|d ds D F IH]; intros mp m inc la line; [now destruct keep|]. rewrite kept_cons, map_app. cbn [place].
  destruct (_ && _)%bool; cbn [List.concat]; now rewrite map_app, D, IH.
Qed.
Lemma reread_bare : forall pr ok keep lab d, writable pr ok d = true -> forall m line, map bare (reread keep lab m line d) = map bare (kept_tree keep [d]).
Proof.
  intros pr ok keep lab d. induction d as [d IH] using dir_ind'. intros W m line. rewrite kept_one. destruct d as [nm ln args file inc blk cm mp]. cbn [writable] in W. destruct (is_comment _) eqn:C.
  - cbn [reread quiet]. rewrite C. destruct keep; [|reflexivity]. cbn [d_args d_block] in W. rewrite !andb_true_iff in W. destruct W as [[_ A] B]. destruct args; [|discriminate]. destruct blk; [discriminate|].
    unfold is_comment in C. cbn [d_name d_comment] in C. apply andb_true_iff in C as [N C]. apply String.eqb_eq in N. subst nm. destruct cm as [c|]; [|discriminate]. reflexivity.
  - cbn [reread quiet]. rewrite C. cbn [d_name d_line d_args d_file d_includes d_block d_comment d_ismap] in *. rewrite !andb_true_iff in W. destruct W as [[[[CM _] _] _] BL]. destruct cm; [discriminate|].
    assert (X : forall b, blk = Some b -> map bare (List.concat (place (reread keep lab (mapb nm)) bottom 0 1 ln line b)) = map bare (kept_tree keep b)).
    { intros b ->. apply andb_true_iff in BL as [_ BL]. rewrite forallb_forall in BL. apply place_each. cbn [opt_list] in IH. rewrite Forall_forall in *. intros d I. apply IH; auto. }
    destruct blk as [b|]; destruct keep; cbn [map bare d_name d_args d_block d_comment]; auto; now rewrite (X b eq_refl).
Qed.

(** ** Parse *)
Lemma wr_weak : forall pr (ok ok' : spot -> bool), (forall s, ok s = true -> ok' s = true) ->
  (forall ds la s, apart ok la s ds = true -> apart ok' la s ds = true) /\ (forall d, writable pr ok d = true -> writable pr ok' d = true).
Proof.
  intros pr ok ok' H. assert (A : forall ds la s, apart ok la s ds = true -> apart ok' la s ds = true).
  { induction ds as [|d ds IH]; intros la s X; auto. cbn [apart] in *. destruct (_ && _)%bool; auto. apply andb_true_iff in X as [X Y]. apply andb_true_iff. auto. }
  split; auto. intros d. induction d as [d IH] using dir_ind'. destruct d as [nm ln args file inc blk cm mp]. cbn [writable d_block] in *. destruct (is_comment _); auto. rewrite !andb_true_iff.
  intros [X Y]. split; auto. destruct blk as [b|]; auto. apply andb_true_iff in Y as [Y1 Y2]. apply andb_true_iff. split; auto. cbn [opt_list] in IH. rewrite forallb_forall in *. rewrite Forall_forall in IH. auto.
Qed.
Definition head_dirs (keep : bool) (lab : string) : list directive :=
  if keep then match header_notes with [a; b; c] => [comment_dir lab 1 a; comment_dir lab 2 b; comment_dir lab 3 c] | _ => [] end else [].
Definition round_tree (keep header : bool) (lab : string) (ds : list directive) : list directive :=
  if header then (head_dirs keep lab ++ List.concat (place (reread keep lab false) bottom 2 2 0 3 ds))%list
  else List.concat (place (reread keep lab false) bottom 0 0 0 1 ds).
Definition config_label (o : popts) (f : string) : string := if o_combine o then f else "".
Lemma label_cur : forall o st f, cf_file (p_cur st) = f -> file_label o st = config_label o f.
Proof. intros o st f <-. unfold file_label, config_label. now destruct (o_combine o). Qed.

Lemma round_eval : forall pr ok o dir f header ds st, ascii_right pr -> forallb (writable pr ok) ds = true -> Forall (legal o []) ds ->
  p_heap st = [[]] -> cf_file (p_cur st) = f ->
  exists h', eval_forest o dir (Slice 0 0) (forest_of header ds) st = EOk (round_tree (o_comments o) header (config_label o f) ds) (set_heap st h').
Proof.
  intros pr ok o dir f header ds st AR W LG H CF. 
  assert (SP : Forall (eval_spec o dir) ds).
  { rewrite forallb_forall in W. apply Forall_forall. intros d I. apply (eval_plant pr AR ok). auto. }
  assert (RD : read_slice (p_heap st) (Slice 0 0) = []) by (now rewrite H).
  assert (G : good (p_heap st) (Slice 0 0)) by (rewrite H; unfold good; cbn; lia).
  pose proof (fun m inc la l => eval_loop pr AR ok o dir ds SP W [] (Slice 0 0) m inc la l st LG RD G (Forall_nil _)) as L.
  rewrite (label_cur o st f CF) in L. change (mapb (last [] "")) with false in L. unfold forest_of, round_tree. destruct header; [|apply L].
  destruct (L 2%Z 2%Z 0%Z 3%Z) as [h' E]. exists h'. unfold eval_forest in *. unfold head_stmts, header_notes. cbn [app eseq eval_stmt t_line t_val]. rewrite E. rewrite (label_cur o st f CF). unfold head_dirs. destruct (o_comments o); reflexivity.
Qed.
Lemma within_nil : forall x, ~ within x [].
Proof. intros x X. inversion X as [ds I|e b ds I]; destruct I. Qed.
Lemma within_app : forall x a c, within x (a ++ c) <-> within x a \/ within x c.
Proof.
  intros x a c. split.
  - intros Y. inversion Y as [ds I|e b ds I B W]; subst; apply in_app_or in I as [I|I]; [left|right|left|right]; (now constructor) || (eapply in_block; eauto).
  - intros [Y|Y]; inversion Y as [ds I|e b ds I B W]; subst; (constructor; apply in_or_app; now auto) || (eapply in_block; [apply in_or_app; eauto|eauto|auto]).
Qed.
Lemma within_one : forall x d, within x [d] <-> x = d \/ exists b, d_block d = Some b /\ within x b.
Proof.
  intros x d. split.
  - intros Y. inversion Y as [ds I|e b ds I B W]; subst; destruct I as [<-|[]]; eauto.
  - intros [->|(b & B & W)]; [constructor; now left|eapply in_block; [now left|eauto|auto]].
Qed.
Lemma within_place : forall (f : Z -> directive -> list directive) (P : directive -> Prop) ds, Forall (fun d => forall line x, within x (f line d) -> P x) ds ->
  forall bot m inc la line x, within x (List.concat (place f bot m inc la line ds)) -> P x.
Proof.
  intros f P ds F bot. induction F as [|d ds D F IH]; intros m inc la line x X; [now apply within_nil in X|]. cbn [place] in X.
  destruct (_ && _)%bool; cbn [List.concat] in X; apply within_app in X as [X|X]; eauto.
Qed.
Lemma reread_includes : forall keep lab d m line x, within x (reread keep lab m line d) -> d_includes x = None.
Proof.
  intros keep lab d. induction d as [d IH] using dir_ind'. intros m line x X. destruct d as [nm ln args file inc blk cm mp]. cbn [reread] in X. destruct (is_comment _).
  - destruct keep; [|now apply within_nil in X]. apply within_one in X as [->|(b & B & _)]; [reflexivity|discriminate].
  - apply within_one in X as [->|(b & B & X)]; [reflexivity|]. cbn [d_name d_line d_block opt_list] in *. destruct blk as [b0|]; [|discriminate]. inversion B; subst. clear B.
    eapply (within_place _ (fun x => d_includes x = None)); [|exact X]. cbn [opt_list] in IH. eapply Forall_impl; [|exact IH]. cbv beta. intros a A line0 x0. apply A.
Qed.
Lemma round_includes : forall keep header lab ds d, within d (round_tree keep header lab ds) -> d_includes d = None.
Proof.
  intros keep header lab ds x X.
  assert (P : forall m inc la line, within x (List.concat (place (reread keep lab false) bottom m inc la line ds)) -> d_includes x = None).
  { intros m inc la line Y. eapply (within_place _ (fun x => d_includes x = None)); [|exact Y]. apply Forall_forall. intros d _ l y. apply reread_includes. }
  unfold round_tree in X. destruct header; [|eauto]. apply within_app in X as [X|X]; [|eauto].
  unfold head_dirs in X. destruct keep; [|now apply within_nil in X]. inversion X as [? I|? ? ? I B W]; subst; destruct I as [<-|[<-|[<-|[]]]]; try reflexivity; discriminate.
Qed.
Definition ok_payload (f : string) (ds : list directive) : payload := Pay "ok" [] [Cfg f "ok" [] ds].
Lemma perform_same : forall old f ds, (forall d, within d ds -> d_includes d = None) -> exists n, forall k, n <= k -> perform k old f ds = COk ds.
Proof.
  intros old f.
  assert (A : forall d, (forall x, within x [d] -> d_includes x = None) -> exists n, forall k, n <= k -> match d_block d with None => True | Some b => perform k old f b = COk b end).
  { intros d. induction d as [d IH] using dir_ind'. intros H. destruct (d_block d) as [b|] eqn:B; [|exists 0; auto]. cbn [opt_list] in IH.
    assert (H' : forall x, within x b -> d_includes x = None) by (intros x X; apply H, within_one; eauto). clear H B. induction IH as [|e b D F IHb].
    - exists 1. intros [|k] L; [lia|reflexivity].
    - assert (H1 : forall x, within x [e] -> d_includes x = None) by (intros x X; apply H'; change (e :: b) with ([e] ++ b)%list; apply within_app; auto).
      assert (H2 : forall x, within x b -> d_includes x = None) by (intros x X; apply H'; change (e :: b) with ([e] ++ b)%list; apply within_app; auto).
      destruct (D H1) as [n1 D']. destruct (IHb H2) as [n2 E].
      exists (S (n1 + n2)). intros [|k] L; [lia|]. rewrite perform_cons. specialize (D' k ltac:(lia)). specialize (E (S k) ltac:(lia)). rewrite E.
      assert (NI : d_includes e = None) by (apply H1, within_one; auto).
      assert (II : is_include e = false) by (unfold is_include; rewrite NI; apply andb_false_r).
      destruct (d_block e) as [be|] eqn:BE.
      + rewrite D'. change (is_include (with_block e be)) with (is_include e). rewrite II. cbn [negb cadd app]. destruct e. cbn in *. now subst.
      + rewrite II. reflexivity. }
  intros ds H. destruct (A (mkd "" 0 [] (Some ds))) as [n N].
  - intros x X. apply within_one in X as [->|(b & B & W)]; [reflexivity|]. inversion B; subst. auto.
  - exists n. exact N.
Qed.
Lemma round_parse : forall pr ok o f text header ds, ascii_right pr -> forallb (writable pr ok) ds = true -> Forall (legal o []) ds ->
  o_lexers o = [] -> o_open o f = inl text -> lex [] text = flat (forest_of header ds) -> Forall wf_stmt (forest_of header ds) ->
  exists n, forall k, n <= k -> parse_main k o f = ROk (ok_payload f (round_tree (o_comments o) header (config_label o f) ds)).
Proof.
  intros pr ok o f text header ds AR W LG NL OP LX WF.
  assert (C : forall k, exists h', collect (S k) o f = FDone (set_pay (set_heap (set_cur (log_use (log_open (set_queue (init_state f) []) f) f (Slice 0 0)) (Cfg f "ok" [] [])) h') (ok_payload f (round_tree (o_comments o) header (config_label o f) ds)))).
  { intros k. unfold collect. cbn [run_files init_state p_queue]. unfold parse_file. rewrite OP, NL, LX.
    match goal with |- context [parse o ?dir ?fu ?c ?t ?s] => destruct (round_eval pr ok o dir f header ds s AR W LG eq_refl eq_refl) as [h' E]; pose proof (eval_parse o dir (forest_of header ds) c s fu WF ltac:(lia)) as P end.
    rewrite E in P. rewrite P. exists h'. cbn. destruct k; reflexivity. }
  assert (HC : has_cycle [f] [] [(f, 0%Z)] = false).
  { unfold has_cycle. cbn. unfold get_z. cbn. rewrite String.eqb_refl. reflexivity. }
  set (T := round_tree (o_comments o) header (config_label o f) ds) in *. destruct (o_combine o) eqn:CO.
  - destruct (perform_same (pl_config (ok_payload f T)) f T) as [n N]; [intros d X; eapply round_includes; eauto|].
    exists (S n). intros [|k] L; [lia|]. unfold parse_main. destruct (C k) as [h' E]. rewrite E. unfold finish. cbn -[has_cycle perform]. rewrite HC, CO. unfold combined. cbn -[perform]. cbn [pl_config ok_payload] in N. rewrite N by lia. reflexivity.
  - exists 1. intros [|k] L; [lia|]. unfold parse_main. destruct (C k) as [h' E]. rewrite E. unfold finish. cbn -[has_cycle]. rewrite HC, CO. reflexivity.
Qed.

(** C09 *)
Lemma round_bare : forall pr ok keep header lab ds, forallb (writable pr ok) ds = true ->
  map bare (round_tree keep header lab ds) = map bare (expected keep header ds).
Proof.
  intros pr ok keep header lab ds W. assert (F : Forall (fun d => forall m line, map bare (reread keep lab m line d) = map bare (kept_tree keep [d])) ds).
  { rewrite forallb_forall in W. apply Forall_forall. intros d I m line. eapply reread_bare. eauto. }
  unfold round_tree, expected. destruct header.
  - rewrite map_app, place_each by auto. destruct keep; [rewrite map_app|]; reflexivity.
  - rewrite place_each by auto. now destruct keep.
Qed.
Lemma round_trip : forall bo o f ds, ascii_right (b_print bo) -> b_ext bo = [] -> (0 <= b_indent bo)%Z -> o_lexers o = [] ->
  writables (b_print bo) not_note ds = true -> Forall (legal o []) ds ->
  exists text, build bo ds = Some text /\ (o_open o f = inl text ->
    exists n, forall k, n <= k -> parse_main k o f = ROk (ok_payload f (round_tree (o_comments o) (b_header bo) (config_label o f) ds))).
Proof.
  intros bo o f ds AR NE IN NL W LG. destruct (built_text bo ds AR NE IN W) as (text & B & LX & WF). exists text. split; auto. intros OP.
  unfold writables in W. apply andb_true_iff in W as [_ W]. eapply round_parse; eauto.
Qed.
Lemma round_trip_bare : forall bo o f ds, ascii_right (b_print bo) -> b_ext bo = [] -> (0 <= b_indent bo)%Z -> o_lexers o = [] ->
  writables (b_print bo) not_note ds = true -> Forall (legal o []) ds ->
  exists text, build bo ds = Some text /\ (o_open o f = inl text ->
    exists n ds', (forall k, n <= k -> parse_main k o f = ROk (Pay "ok" [] [Cfg f "ok" [] ds'])) /\
      map bare ds' = map bare (expected (o_comments o) (b_header bo) ds)).
Proof.
  intros bo o f ds AR NE IN NL W LG. destruct (round_trip bo o f ds AR NE IN NL W LG) as (text & B & P). exists text. split; auto. intros OP. destruct (P OP) as [n N].
  exists n. eexists. split; [exact N|]. unfold writables in W. apply andb_true_iff in W as [_ W]. eapply round_bare; eauto.
Qed.

(** ** Building again *)
Lemma pend_ge : forall ds, Forall (fun d => forall line, (line <= bottom line d)%Z) ds -> forall m inc la line, (0 <= m)%Z -> (0 <= inc)%Z -> (line <= pend bottom m inc la line ds)%Z.
Proof.
  intros ds F. induction F as [|d ds D F IH]; intros m inc la line M I; [cbn; lia|]. cbn [pend]. destruct (_ && _)%bool.
  - specialize (IH 0%Z 1%Z la (line + m)%Z ltac:(lia) ltac:(lia)). lia.
  - specialize (IH 0%Z 1%Z (d_line d) (bottom (line + inc)%Z d) ltac:(lia) ltac:(lia)). specialize (D (line + inc)%Z). lia.
Qed.
Lemma bottom_block : forall d line, (line <= bottom line d)%Z /\ (spot_of d = AfterBlock -> (line < bottom line d)%Z) /\ (spot_of d = AfterSimple -> bottom line d = line).
Proof.
  intros d. induction d as [d IH] using dir_ind'. intros line. destruct d as [nm ln args file inc blk cm mp]. unfold spot_of. cbn [bottom d_block d_line] in *. destruct (is_comment _); [repeat split; intros; try lia; discriminate|].
  destruct blk as [b|]; [|repeat split; intros; try lia; discriminate]. cbn [opt_list] in IH.
  assert (F : Forall (fun d => forall line, (line <= bottom line d)%Z) b) by (eapply Forall_impl; [|exact IH]; cbv beta; intros a H l; apply H).
  pose proof (pend_ge b F 0 1 ln line ltac:(lia) ltac:(lia)) as P. repeat split; intros; try lia; try discriminate.
Qed.

Section Rebuild.
Variables (bo : bopts) (NE : b_ext bo = []) (pr : N -> bool) (lab : string).
Lemma no_ext : forall s, assoc (enquote (b_print bo) s) (b_ext bo) = None.
Proof. intros s. now rewrite NE. Qed.
Lemma comment_again : forall line c, is_comment (comment_dir lab line c) = true /\ d_line (comment_dir lab line c) = line /\ comment_text (comment_dir lab line c) = c.
Proof. intros. repeat split. Qed.
Lemma reread_note : forall m line d, is_comment d = true -> reread true lab m line d = [comment_dir lab line (comment_text d)].
Proof. intros m line d C. destruct d. cbn [reread]. now rewrite C. Qed.
Definition again (keep m : bool) (line : Z) (d : directive) : directive := Dir (d_name d) line (d_args d) lab None
  (match d_block d with None => None | Some b => Some (List.concat (place (reread keep lab (mapb (d_name d))) bottom 0 1 (d_line d) line b)) end) None m.
Lemma reread_stmt : forall keep m line d, is_comment d = false -> reread keep lab m line d = [again keep m line d].
Proof. intros keep m line d C. destruct d. cbn [reread]. now rewrite C. Qed.
Lemma again_not : forall keep m line d, is_comment (again keep m line d) = false.
Proof. intros. unfold is_comment. cbn. apply andb_false_r. Qed.

Definition rows_same (d : directive) : Prop := forall k mp line, is_comment d = false -> rows bo k (again true mp line d) = rows bo k d.
Lemma rows_cons_note : forall k L d r, is_comment d = true -> rows_loop bo (rows bo k) k L (d :: r) =
  if Z.eqb (d_line d) L then More (" #" ++ comment_text d) :: rows_loop bo (rows bo k) k L r else (Row k ("#" ++ comment_text d) :: rows_loop bo (rows bo k) k (d_line d) r).
Proof. intros k L d r C. cbn [rows_loop]. rewrite C, andb_true_r, no_ext. destruct (Z.eqb _ _); auto. destruct d. cbn [rows]. rewrite C. reflexivity. Qed.
Lemma rows_cons_stmt : forall k L d r, is_comment d = false -> rows_loop bo (rows bo k) k L (d :: r) = (rows bo k d ++ rows_loop bo (rows bo k) k (d_line d) r)%list.
Proof. intros k L d r C. cbn [rows_loop]. now rewrite C, andb_false_r, no_ext. Qed.
Lemma rows_again : forall k ds, Forall rows_same ds -> forall mp s m inc L L' line, apart on_line L s ds = true -> (0 <= m)%Z -> (0 <= inc)%Z ->
  (on_line s = true -> L' = line /\ m = 0%Z) -> (L' < line + inc)%Z ->
  rows_loop bo (rows bo k) k L' (List.concat (place (reread true lab mp) bottom m inc L line ds)) = rows_loop bo (rows bo k) k L ds.
Proof.
  intros k ds F. induction F as [|d ds D F IH]; intros mp s m inc L L' line A M I S T; [reflexivity|]. cbn [apart] in A. cbn [place]. destruct (is_comment d) eqn:C.
  - rewrite andb_true_r in *. rewrite rows_cons_note by auto. destruct (Z.eqb (d_line d) L) eqn:E; cbn [List.concat]; rewrite reread_note by auto; cbn [app]; rewrite rows_cons_note by apply comment_again.
    + apply andb_true_iff in A as [A1 A2]. destruct (S A1) as [-> ->]. rewrite Z.add_0_r. cbn [d_line comment_dir]. rewrite Z.eqb_refl. f_equal. eapply IH; eauto; try lia; try discriminate.
    + cbn [d_line comment_dir]. replace (line + inc =? L')%Z with false by (symmetry; apply Z.eqb_neq; lia). f_equal. unfold spot_of in A. rewrite C in A. pose proof (proj1 (bottom_block d (line + inc)%Z)). eapply IH; eauto; try lia; try discriminate.
  - rewrite andb_false_r in *. rewrite rows_cons_stmt by auto. cbn [List.concat]. rewrite reread_stmt by auto. cbn [app]. rewrite rows_cons_stmt by apply again_not. rewrite D by auto. f_equal.
    cbn [d_line again]. destruct (bottom_block d (line + inc)%Z) as (B1 & B2 & B3). eapply IH; eauto; try lia. unfold spot_of in *. rewrite C in *. destruct (d_block d); [discriminate|]. intros _. split; auto. symmetry. auto.
Qed.
Lemma rows_same_all : forall d, writable pr on_line d = true -> rows_same d.
Proof.
  intros d. induction d as [d IH] using dir_ind'. intros W k mp line C. destruct d as [nm ln args file inc blk cm mp0]. cbn [writable] in W. rewrite C in W.
  cbn [rows again]. unfold again. cbn [d_name d_args d_block d_line d_comment rows] in *. rewrite C. change (is_comment _) with false || idtac. unfold is_comment at 1. cbn [d_name d_comment]. rewrite andb_false_r. rewrite !andb_true_iff in W. destruct W as [_ W].
  destruct blk as [b|]; [|reflexivity]. apply andb_true_iff in W as [A W]. cbn [opt_list] in IH. unfold head_text. cbn [d_name d_args]. f_equal. f_equal.
  eapply rows_again; eauto; try lia. rewrite forallb_forall in W. rewrite Forall_forall in *. auto.
Qed.

(** Without comments: the lines do not matter. *)
Fixpoint silent (d : directive) : bool := (negb (is_comment d) && match d_block d with None => true | Some b => forallb silent b end)%bool.
Lemma silent_not : forall d, silent d = true -> is_comment d = false.
Proof. intros d S. destruct d as [nm ln args file inc blk cm mp]. cbn [silent] in S. apply andb_true_iff in S as [S _]. now apply negb_true_iff. Qed.
Lemma silent_apart : forall ok ds L s, forallb silent ds = true -> apart ok L s ds = true.
Proof. intros ok ds. induction ds as [|d ds IH]; intros L s S; auto. cbn [forallb] in S. apply andb_true_iff in S as [S1 S2]. cbn [apart]. rewrite (silent_not d S1), andb_false_r. auto. Qed.
Lemma concat_silent : forall ds, Forall (fun d => forall mp line, forallb silent (reread false lab mp line d) = true) ds -> forall mp m inc L line,
  forallb silent (List.concat (place (reread false lab mp) bottom m inc L line ds)) = true.
Proof. intros ds F. induction F as [|d ds D F IH]; intros mp m inc L line; auto. cbn [place]. destruct (_ && _)%bool; cbn [List.concat]; now rewrite forallb_app, D, IH. Qed.
Lemma reread_silent : forall d mp line, forallb silent (reread false lab mp line d) = true.
Proof.
  intros d. induction d as [d IH] using dir_ind'. intros mp line. destruct (is_comment d) eqn:C; [destruct d; cbn [reread]; now rewrite C|]. rewrite reread_stmt by auto. cbn [forallb]. rewrite andb_true_r. unfold again. cbn [silent d_block]. unfold is_comment. cbn [d_name d_comment]. rewrite andb_false_r. cbn [negb andb].
  destruct (d_block d) as [b|]; auto. apply concat_silent. exact IH.
Qed.
Lemma quiet_stmt : forall d, is_comment d = false -> quiet d = [Dir (d_name d) (d_line d) (d_args d) (d_file d) (d_includes d)
            (match d_block d with Some b => Some (flat_map quiet b) | None => None end) (d_comment d) (d_ismap d)].
Proof. intros d C. destruct d. cbn [quiet]. now rewrite C. Qed.
Definition quiet_same (d : directive) : Prop := forall k L L' r r' mp line, (forall l l', rows_loop bo (rows bo k) k l r = rows_loop bo (rows bo k) k l' r') ->
  rows_loop bo (rows bo k) k L (reread false lab mp line d ++ r) = rows_loop bo (rows bo k) k L' (quiet d ++ r').
Lemma quiet_loop : forall k ds, Forall quiet_same ds -> forall mp m inc La line L L',
  rows_loop bo (rows bo k) k L (List.concat (place (reread false lab mp) bottom m inc La line ds)) = rows_loop bo (rows bo k) k L' (flat_map quiet ds).
Proof.
  intros k ds F. induction F as [|d ds D F IH]; intros mp m inc La line L L'; [reflexivity|]. cbn [place flat_map]. destruct (_ && _)%bool; cbn [List.concat]; apply D; intros; apply IH.
Qed.
Lemma quiet_all : forall d, quiet_same d.
Proof.
  intros d. induction d as [d IH] using dir_ind'. intros k L L' r r' mp line H. destruct (is_comment d) eqn:C.
  - assert (R : reread false lab mp line d = []) by (destruct d; cbn [reread]; now rewrite C). assert (Q : quiet d = []) by (destruct d; cbn [quiet]; now rewrite C). rewrite R, Q. apply H.
  - rewrite reread_stmt, quiet_stmt by auto. cbn [app]. rewrite rows_cons_stmt by apply again_not. rewrite rows_cons_stmt by (revert C; now destruct d).
    rewrite (H _ (d_line d)). cbn [d_line]. f_equal. unfold again. cbn [rows d_name d_args d_block d_line d_comment]. unfold is_comment at 1. cbn [d_name d_comment]. rewrite andb_false_r.
    assert (C' : is_comment (Dir (d_name d) (d_line d) (d_args d) (d_file d) (d_includes d) (match d_block d with Some b => Some (flat_map quiet b) | None => None end) (d_comment d) (d_ismap d)) = false) by (revert C; now destruct d).
    rewrite C'. unfold head_text. cbn [d_name d_args]. destruct (d_block d) as [b|]; [|reflexivity]. cbn [opt_list] in IH. f_equal. f_equal. apply quiet_loop. exact IH.
Qed.

(** ** The tree read back is in the class, with its comments in place. *)
Definition settles (d : directive) : Prop := forall mp line keep, forallb (writable pr on_line) (reread keep lab mp line d) = true.
Lemma spot_again : forall keep m line d, is_comment d = false -> spot_of (again keep m line d) = spot_of d.
Proof. intros keep m line d C. unfold spot_of. rewrite again_not, C. cbn [d_block again]. now destruct (d_block d). Qed.
Lemma apart_again : forall ds mp s m inc L L' line, apart not_note L s ds = true -> (0 <= m)%Z -> (0 <= inc)%Z ->
  (on_line s = true -> L' = line /\ m = 0%Z) -> (on_line s = false -> s <> AfterNote -> (L' < line + m)%Z) -> (L' < line + inc)%Z ->
  apart on_line L' s (List.concat (place (reread true lab mp) bottom m inc L line ds)) = true.
Proof.
  induction ds as [|d ds IH]; intros mp s m inc L L' line A M I S T U; [reflexivity|]. cbn [apart] in A. cbn [place]. destruct (is_comment d) eqn:C.
  - rewrite andb_true_r in *. destruct (Z.eqb (d_line d) L) eqn:E; cbn [List.concat]; rewrite reread_note by auto; cbn [app apart]; change (is_comment (comment_dir _ _ _)) with true; rewrite andb_true_r; cbn [d_line comment_dir].
    + apply andb_true_iff in A as [A1 A2]. destruct (on_line s) eqn:O.
      * destruct (S eq_refl) as [-> ->]. rewrite Z.add_0_r, Z.eqb_refl. cbn [andb]. eapply IH; eauto; try lia; congruence.
      * assert (X : s <> AfterNote) by (intros ->; discriminate). specialize (T eq_refl X). replace (line + m =? L')%Z with false by (symmetry; apply Z.eqb_neq; lia).
        change (spot_of (comment_dir lab (line + m) (comment_text d))) with AfterNote. eapply IH; eauto; try lia; try congruence; try discriminate.
    + replace (line + inc =? L')%Z with false by (symmetry; apply Z.eqb_neq; lia). change (spot_of (comment_dir lab (line + inc) (comment_text d))) with AfterNote. unfold spot_of in A. rewrite C in A.
      pose proof (proj1 (bottom_block d (line + inc)%Z)). eapply IH; eauto; try lia; try congruence; try discriminate.
  - rewrite andb_false_r in *. cbn [List.concat]. rewrite reread_stmt by auto. cbn [app apart]. rewrite again_not, andb_false_r, spot_again by auto. cbn [d_line again].
    destruct (bottom_block d (line + inc)%Z) as (B1 & B2 & B3). eapply IH; eauto; try lia; unfold spot_of in *; rewrite C in *; destruct (d_block d); try discriminate.
    + intros _. split; auto. symmetry. auto.
    + intros _ _. specialize (B2 eq_refl). lia.
Qed.
Lemma settles_all : forall d, writable pr not_note d = true -> settles d.
Proof.
  intros d. induction d as [d IH] using dir_ind'. intros W mp line keep. destruct (is_comment d) eqn:C.
  - destruct keep; [|destruct d; cbn [reread]; now rewrite C]. rewrite reread_note by auto.
    assert (N : forall c, writable pr on_line (comment_dir lab line c) = note_ok c) by (intros c; unfold comment_dir; cbn [writable d_args d_block]; now rewrite !andb_true_r).
    cbn [forallb]. rewrite N, andb_true_r. destruct d as [nm ln args file inc blk cm mp0]. cbn [writable] in W. rewrite C in W. rewrite !andb_true_iff in W. tauto.
  - rewrite reread_stmt by auto. cbn [forallb]. rewrite andb_true_r. destruct d as [nm ln args file inc blk cm mp0]. cbn [writable] in W. rewrite C in W. unfold again. cbn [writable]. unfold is_comment. cbn [d_name d_args d_block d_comment d_line] in *. rewrite andb_false_r.
    rewrite !andb_true_iff in *. destruct W as [[[[_ K1] K2] K3] K4]. repeat split; auto. destruct blk as [b|]; auto. apply andb_true_iff in K4 as [K4 K5]. cbn [opt_list] in IH. apply andb_true_iff. rewrite forallb_forall in K5. split.
    + destruct keep; [apply apart_again; auto; try lia; discriminate|apply silent_apart, concat_silent, Forall_forall; intros; apply reread_silent].
    + assert (F : Forall settles b) by (rewrite Forall_forall in *; auto). clear - F. generalize 0%Z as m, 1%Z as i, ln as L, line as l. induction F as [|d b D F IHb]; intros m i L l; auto. cbn [place]. destruct (_ && _)%bool; cbn [List.concat]; now rewrite forallb_app, D, IHb.
Qed.
End Rebuild.
Lemma legal_place : forall o keep lab path ds, Forall (fun d => forall mp line, Forall (legal o path) (reread keep lab mp line d)) ds -> forall mp m inc L line,
  Forall (legal o path) (List.concat (place (reread keep lab mp) bottom m inc L line ds)).
Proof. intros o keep lab path ds F. induction F as [|d ds D F IH]; intros mp m inc L line; [constructor|]. cbn [place]. destruct (_ && _)%bool; cbn [List.concat]; apply Forall_app; auto. Qed.
Lemma legal_again : forall o keep lab d path mp line, legal o path d -> Forall (legal o path) (reread keep lab mp line d).
Proof.
  intros o keep lab d. induction d as [d IH] using dir_ind'. intros path mp line LG. destruct (is_comment d) eqn:C.
  - destruct d. cbn [reread]. rewrite C. destruct keep; repeat constructor.
  - rewrite (reread_stmt lab keep mp line d C). constructor; [|constructor]. pose proof (again_not lab keep mp line d) as C2.
    destruct LG as [path d C'|path m d C' MB NI NB FA|path d C' NM NIG INC ACC BLK]; [congruence| |].
    + apply lg_entry; auto. cbn [again d_block]. now rewrite NB.
    + apply lg_stmt; auto.
      * unfold term_of, written in *. cbn [again d_name d_args d_block] in *. now destruct (d_block d).
      * intros b B. cbn [again d_name d_block] in *. destruct (d_block d) as [b0|] eqn:B0; [|discriminate]. inversion B; subst. destruct (BLK b0 eq_refl) as [P F]. split; auto.
        apply legal_place. cbn [opt_list] in IH. rewrite Forall_forall in *. intros d' I mp' line'. apply IH; auto.
Qed.

Lemma tree_of_rows : forall bo ds ds', (0 <= b_indent bo)%Z -> all_rows bo ds = all_rows bo ds' -> build bo ds = build bo ds'.
Proof. intros bo ds ds' I E. rewrite !build_rows by auto. now rewrite E. Qed.
Lemma round_rows : forall bo pr keep header lab ds, b_ext bo = [] -> (header && keep)%bool = false ->
  writables pr (if keep then on_line else not_note) ds = true ->
  all_rows bo (round_tree keep header lab ds) = all_rows bo (kept_tree keep ds).
Proof.
  intros bo pr keep header lab ds NE HK W. unfold writables in W. apply andb_true_iff in W as [A W]. unfold all_rows, kept_tree, round_tree. destruct keep.
  - destruct header; [discriminate|]. eapply rows_again; eauto; try lia; try discriminate. rewrite forallb_forall in W. apply Forall_forall. intros d I. eapply rows_same_all; eauto.
  - destruct header; cbn [head_dirs app]; apply quiet_loop; auto; apply Forall_forall; intros; now apply quiet_all.
Qed.
Lemma on_not : forall s, on_line s = true -> not_note s = true.
Proof. now intros []. Qed.
Lemma writables_weak : forall pr (ok : spot -> bool) ds, (forall s, ok s = true -> not_note s = true) -> writables pr ok ds = true -> writables pr not_note ds = true.
Proof.
  intros pr ok ds H W. unfold writables in *. apply andb_true_iff in W as [A W]. destruct (wr_weak pr ok not_note H) as [X Y]. apply andb_true_iff. split; auto. rewrite forallb_forall in *. auto.
Qed.
(** C10 *)
Lemma build_again : forall bo o f ds, ascii_right (b_print bo) -> b_ext bo = [] -> (0 <= b_indent bo)%Z -> o_lexers o = [] ->
  (b_header bo && o_comments o)%bool = false ->
  writables (b_print bo) (if o_comments o then on_line else not_note) ds = true -> Forall (legal o []) ds ->
  exists text, build bo ds = Some text /\ (o_open o f = inl text ->
    exists n ds', (forall k, n <= k -> parse_main k o f = ROk (Pay "ok" [] [Cfg f "ok" [] ds'])) /\
      build bo ds' = if o_comments o then Some text else build bo (flat_map quiet ds)).
Proof.
  intros bo o f ds AR NE IN NL HK W LG.
  assert (W' : writables (b_print bo) not_note ds = true).
  { revert W. apply writables_weak. destruct (o_comments o); auto. apply on_not. }
  destruct (round_trip bo o f ds AR NE IN NL W' LG) as (text & B & P). exists text. split; auto. intros OP. destruct (P OP) as [n N].
  exists n. eexists. split; [exact N|]. rewrite (tree_of_rows bo _ (kept_tree (o_comments o) ds) IN).
  - unfold kept_tree. now destruct (o_comments o).
  - eapply round_rows; eauto.
Qed.
Lemma round_settles : forall pr keep header lab ds, (header && keep)%bool = false -> writables pr not_note ds = true ->
  writables pr on_line (round_tree keep header lab ds) = true.
Proof.
  intros pr keep header lab ds HK W. unfold writables in *. apply andb_true_iff in W as [A W]. rewrite forallb_forall in W.
  assert (S : forall m inc L line, forallb (writable pr on_line) (List.concat (place (reread keep lab false) bottom m inc L line ds)) = true).
  { assert (F : Forall (settles pr lab) ds) by (apply Forall_forall; intros d I; apply settles_all; auto). clear - F. induction F as [|d b D F IHb]; intros m i L l; auto. cbn [place]. destruct (_ && _)%bool; cbn [List.concat]; now rewrite forallb_app, D, IHb. }
  assert (Q : keep = false -> forall m inc L line s, apart on_line 0 s (List.concat (place (reread keep lab false) bottom m inc L line ds)) = true).
  { intros -> m inc L line s. apply silent_apart, concat_silent, Forall_forall. intros. apply reread_silent. }
  apply andb_true_iff. unfold round_tree. destruct header.
  - destruct keep; [discriminate|]. cbn [head_dirs app]. split; auto.
  - split; auto. destruct keep; auto. eapply apart_again; eauto; lia || discriminate.
Qed.
Lemma second_round : forall bo o f f2 ds, ascii_right (b_print bo) -> b_ext bo = [] -> (0 <= b_indent bo)%Z -> o_lexers o = [] ->
  (b_header bo && o_comments o)%bool = false -> writables (b_print bo) not_note ds = true -> Forall (legal o []) ds ->
  exists text, build bo ds = Some text /\ (o_open o f = inl text ->
    exists n ds' text', (forall k, n <= k -> parse_main k o f = ROk (Pay "ok" [] [Cfg f "ok" [] ds'])) /\ build bo ds' = Some text' /\
      (o_open o f2 = inl text' -> exists n ds'', (forall k, n <= k -> parse_main k o f2 = ROk (Pay "ok" [] [Cfg f2 "ok" [] ds''])) /\ build bo ds'' = Some text')).
Proof.
  intros bo o f f2 ds AR NE IN NL HK W LG. destruct (round_trip bo o f ds AR NE IN NL W LG) as (text & B & P). exists text. split; auto. intros OP. destruct (P OP) as [n N].
  set (T := round_tree (o_comments o) (b_header bo) (config_label o f) ds) in *.
  pose proof (round_settles (b_print bo) (o_comments o) (b_header bo) (config_label o f) ds HK W) as WT. fold T in WT.
  assert (LT : Forall (legal o []) T).
  { unfold T, round_tree. assert (X : forall m inc L line, Forall (legal o []) (List.concat (place (reread (o_comments o) (config_label o f) false) bottom m inc L line ds))).
    { intros. apply legal_place. rewrite Forall_forall in *. intros d I mp l. apply legal_again. auto. }
    destruct (b_header bo); auto. apply Forall_app. split; auto. unfold head_dirs. destruct (o_comments o); repeat constructor. }
  assert (WT' : writables (b_print bo) not_note T = true) by (revert WT; apply writables_weak, on_not).
  destruct (round_trip bo o f2 T AR NE IN NL WT' LT) as (text' & B' & P'). exists n, T, text'. split; [exact N|]. split; auto. intros OP'. destruct (P' OP') as [n' N'].
  exists n'. eexists. split; [exact N'|]. rewrite (tree_of_rows bo _ T IN); auto.
  set (T2 := round_tree (o_comments o) (b_header bo) (config_label o f2) T).
  assert (R : all_rows bo T2 = all_rows bo (kept_tree (o_comments o) T)).
  { unfold T2. apply (round_rows bo (b_print bo)); auto. destruct (o_comments o); auto. }
  rewrite R. unfold kept_tree. destruct (o_comments o) eqn:K; auto.
  assert (S : forallb silent T = true).
  { unfold T, round_tree. destruct (b_header bo); cbn [head_dirs app]; apply concat_silent, Forall_forall; intros; apply reread_silent. }
  assert (QQ : forall d, silent d = true -> quiet d = [d]).
  { clear. intros d. induction d as [d IH] using dir_ind'. intros S. pose proof (silent_not d S) as C. rewrite quiet_stmt by auto. destruct d as [nm ln args file inc blk cm mp]. cbn [silent d_name d_line d_args d_file d_includes d_block d_comment d_ismap opt_list] in *.
    destruct blk as [b|]; auto. apply andb_true_iff in S as [_ S]. do 3 f_equal. induction b as [|e b IHb]; auto. cbn [forallb] in S. apply andb_true_iff in S as [S1 S2]. inversion IH; subst. cbn [flat_map]. rewrite H1 by auto. cbn [app]. f_equal. auto. }
  assert (E : flat_map quiet T = T); [|now rewrite E]. clear - S QQ. induction T as [|d T IH]; auto. cbn [forallb] in S. apply andb_true_iff in S as [S1 S2]. cbn [flat_map]. rewrite QQ by auto. cbn [app]. f_equal. auto.
Qed.
