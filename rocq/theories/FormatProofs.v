(** C64: formatting in place. *)
From Verif Require Export BuildIO.
From Verif Require Export ReadProofs RoundProofs.
From Verif Require Export SpecFormat.
From Verif Require QuoteProofs FilesProofs TableProofs.
Local Open Scope string_scope.

Lemma accepts_open : forall o op path d t, accepts o path d t -> accepts (with_open o op) path d t.
Proof.
  intros o op path d t H. destruct H as [U S|ms K P|ms K C S|ms mask b K P I C F].
  - apply acc_unknown; auto.
  - apply (acc_path _ _ _ _ ms); auto.
  - apply (acc_unchecked _ _ _ _ ms); auto.
  - apply (acc_mask _ _ _ _ ms mask b); auto.
Qed.
Lemma parens_expr : forall pr args, forallb (SpecRound.kept pr) args = true -> if_ok args = true -> paren_expr (parens args) /\ 1 <= List.length (parens args).
Proof.
  intros pr args K I. destruct args as [|a args]; [discriminate|]. cbn [forallb] in K. apply andb_true_iff in K as [K1 K2]. cbn [if_ok] in I. apply andb_true_iff in I as [N I]. apply negb_true_iff in N.
  unfold SpecRound.kept in K1. rewrite N in K1. apply andb_true_iff in K1 as [B _]. apply bare_start in B as [NE SB]. destruct args as [|b args].
  - cbn [parens]. split; [|cbn; lia]. repeat split; cbn [hd last].
    + eauto.
    + exists ("(" ++ a). now rewrite app_assoc_s.
    + discriminate.
    + intros X. injection X as X. destruct a as [|c a]; [congruence|]. destruct a; discriminate.
    + discriminate.
  - destruct (exists_last (l := b :: args)) as (r & l & E); [discriminate|]. change (parens (a :: b :: args)) with (("(" ++ a) :: close (b :: args)). rewrite E, close_snoc.
    split; [|cbn; lia]. repeat split; cbn [hd].
    + eauto.
    + destruct (needs_quote l); [exists ""|exists l].
      * rewrite app_comm_cons. change [l; ")"] with ([l] ++ [")"])%list. rewrite app_assoc. apply last_last.
      * rewrite app_comm_cons. apply last_last.
    + discriminate.
    + destruct r; destruct (needs_quote l); discriminate.
    + intros X. injection X as X _. congruence.
Qed.
Lemma accepts_if : forall pr o path d d0 term, loose_if o -> d_name d = "if" -> d_name d0 = "if" -> forallb (SpecRound.kept pr) (d_args d) = true -> if_ok (d_args d) = true ->
  accepts o path d0 term -> accepts o path (written d) term.
Proof.
  intros pr o path d d0 term LI N N0 K I H. assert (NW : d_name (written d) = "if") by exact N.
  assert (AW : d_args (written d) = parens (d_args d)) by (unfold written; rewrite N; reflexivity).
  destruct H as [U S|ms KN P|ms KN C S|ms mask b KN P IN C F].
  - apply acc_unknown; auto. now rewrite NW, <- N0.
  - apply (acc_path _ _ _ _ ms); auto. now rewrite NW, <- N0.
  - apply (acc_unchecked _ _ _ _ ms); auto. now rewrite NW, <- N0.
  - apply (acc_mask _ _ _ _ ms mask b); auto; [now rewrite NW, <- N0|]. destruct F as [F|F]; [now left|]. destruct LI as [LI|LI]; [now left|]. right.
    rewrite N0 in KN. specialize (LI ms mask KN IN). destruct F as (_ & F2 & F3 & _). destruct (parens_expr pr (d_args d) K I) as [P1 P2].
    split; [|split; [auto|split; [auto|]]]; rewrite AW; [auto|]. now apply fit_1more.
Qed.
Lemma hash_word : forall t, ~ hash t -> word t = true.
Proof.
  intros [v l q e] H. unfold word. cbn [t_val t_quoted]. destruct v as [|c v]; auto. destruct q; [now destruct c as [[] [] [] [] [] [] [] []]|].
  destruct (Ascii.eqb_spec c "#"%char) as [->|NC]; [destruct H; split; auto; now exists v|]. destruct c as [[] [] [] [] [] [] [] []]; try reflexivity. congruence.
Qed.
Lemma planted_words : forall A line, like_items A -> words (map (fun gx => atok line (snd gx)) A) = map (fun gx : item_ => lexeme_val (snd gx)) A /\ remarks (map (fun gx => atok line (snd gx)) A) [].
Proof.
  intros A line L. pose proof (like_plain A line L) as F. unfold words. induction A as [|[g x] A IH]; [split; [reflexivity|constructor]|]. inversion L; subst. cbn [map] in F. inversion F as [|? ? (_ & _ & NH) F']; subst.
  cbn [map filter snd] in *. rewrite (hash_word _ NH). cbn [map]. destruct IH as [I1 I2]; auto. rewrite I1. split; auto. now constructor.
Qed.
Lemma place_step : forall d ds m inc last line, exists l' m' inc' last' line', forall A (stm : Z -> directive -> A),
  RoundLayout.place stm bottom m inc last line (d :: ds) = stm l' d :: RoundLayout.place stm bottom m' inc' last' line' ds.
Proof. intros. cbn [RoundLayout.place]. destruct (_ && _)%bool; repeat eexists. Qed.

(** ** What Build looks at *)
Fixpoint lined (d : directive) : directive :=
  Dir (d_name d) (d_line d) (d_args d) "" None (match d_block d with Some b => Some (map lined b) | None => None end) (d_comment d) false.
Lemma lined_comment : forall d, is_comment (lined d) = is_comment d /\ comment_text (lined d) = comment_text d.
Proof. intros []. split; reflexivity. Qed.
Definition line_blind (bo : bopts) : Prop := forall n bl d, assoc n (b_ext bo) = Some bl -> bl (lined d) = bl d.
Lemma no_ext_blind : forall bo, b_ext bo = [] -> line_blind bo.
Proof. intros bo E n bl d A. rewrite E in A. discriminate. Qed.
Lemma rows_loop_lined : forall bo k ds, line_blind bo -> Forall (fun d => forall k, rows bo k (lined d) = rows bo k d) ds -> forall L, rows_loop bo (rows bo k) k L (map lined ds) = rows_loop bo (rows bo k) k L ds.
Proof.
  intros bo k ds B F. induction F as [|d ds D F IH]; intros L; [reflexivity|]. cbn [map rows_loop]. destruct (lined_comment d) as [-> ->].
  assert (E : d_line (lined d) = d_line d /\ d_name (lined d) = d_name d /\ d_args (lined d) = d_args d) by (destruct d; repeat split). destruct E as (E1 & E2 & E3). rewrite E1, E2, D.
  destruct (_ && _)%bool; [now rewrite IH|]. destruct (assoc _ (b_ext bo)) as [bl|] eqn:A; [rewrite (B _ _ d A)|]; now rewrite IH.
Qed.
Lemma rows_lined : forall bo, line_blind bo -> forall d k, rows bo k (lined d) = rows bo k d.
Proof.
  intros bo B d. induction d as [d IH] using dir_ind'. intros k. destruct d as [nm ln args file inc blk cm mp]. cbn [lined rows d_name d_line d_args d_block d_comment]. change (is_comment _) with (is_comment (Dir nm ln args file inc blk cm mp)) at 1.
  destruct (is_comment _); [reflexivity|]. destruct blk as [b|]; [|reflexivity]. cbn [opt_list] in IH. unfold head_text. cbn [d_name d_args]. f_equal. f_equal. now apply rows_loop_lined.
Qed.
Lemma build_lined : forall bo ds ds', line_blind bo -> (0 <= b_indent bo)%Z -> map lined ds = map lined ds' -> build bo ds = build bo ds'.
Proof.
  intros bo ds ds' B I E. apply tree_of_rows; auto. unfold all_rows. rewrite <- (rows_loop_lined bo 0 ds), <- (rows_loop_lined bo 0 ds'), E; auto; apply Forall_forall; intros d _ k; now apply rows_lined.
Qed.
Lemma lined_place : forall keep lab lab' ds, Forall (fun d => forall mp mp' line, map lined (reread keep lab mp line d) = map lined (reread keep lab' mp' line d)) ds ->
  forall mp mp' m inc last line, map lined (List.concat (RoundLayout.place (reread keep lab mp) bottom m inc last line ds)) = map lined (List.concat (RoundLayout.place (reread keep lab' mp') bottom m inc last line ds)).
Proof.
  intros keep lab lab' ds F. induction F as [|d ds D F IH]; intros mp mp' m inc last line; [reflexivity|]. cbn [RoundLayout.place]. destruct (_ && _)%bool; cbn [List.concat]; rewrite !map_app; f_equal; auto.
Qed.
Lemma lined_any : forall keep lab lab' d mp mp' line, map lined (reread keep lab mp line d) = map lined (reread keep lab' mp' line d).
Proof.
  intros keep lab lab' d. induction d as [d IH] using dir_ind'. intros mp mp' line. destruct (is_comment d) eqn:C; [destruct d; cbn [reread]; rewrite C; destruct keep; reflexivity|].
  rewrite !reread_stmt by auto. unfold again. cbn [map lined d_name d_line d_args d_block d_comment]. destruct (d_block d) as [b|]; [|reflexivity]. cbn [opt_list] in IH. do 3 f_equal. now apply lined_place.
Qed.
Lemma lined_any_place : forall keep lab lab' ds mp mp' m inc last line,
  map lined (List.concat (RoundLayout.place (reread keep lab mp) bottom m inc last line ds)) = map lined (List.concat (RoundLayout.place (reread keep lab' mp') bottom m inc last line ds)).
Proof. intros. apply lined_place, Forall_forall. intros d _ mp0 mp1 l. apply lined_any. Qed.

Section Replant.
Variables (pr : N -> bool) (AR : ascii_right pr) (ok : spot -> bool) (o : popts) (op : string -> string + string).
Hypothesis (SAME : forall f c, o_open o f = inl c -> exists c', op f = inl c').
Hypothesis (LI : loose_if o).
Notation o' := (with_open o op).
Notation spread := (RoundLayout.place plant bottom).
Lemma targets_open : forall dir arg fs, targets o dir arg fs -> magic (path_of dir arg) \/ fs <> [] -> targets o' dir arg fs.
Proof.
  intros dir arg fs T M. destruct T as [l fs MG G P S|c NM E|m NM E].
  - apply (tg_glob _ _ _ l); auto.
  - destruct (SAME _ _ E) as [c' E']. apply (tg_file _ _ _ c'); auto.
  - destruct M as [M|M]; congruence.
Qed.
Definition comes_back (dir f : string) (path : list string) (K : known) (ds : list directive) (ls : list string) (K' : known) : Prop :=
  forall m inc last line, exists ds', reads o' dir f path K (spread m inc last line ds) ds' [] ls K' /\ map unlined ds' = map unlined ds /\
    map lined ds' = map lined (List.concat (RoundLayout.place (reread (o_comments o) "" false) bottom m inc last line ds)).
Lemma notes_back : forall dir f path K ds ls K' ln cs, o_comments o = true -> comes_back dir f path K ds ls K' ->
  comes_back dir f path K (map (note (label_of o f) ln) cs ++ ds) ls K'.
Proof.
  intros dir f path K ds ls K' ln cs C B. induction cs as [|c cs IH]; [exact B|]. intros m inc last line. cbn [map app].
  destruct (place_step (note (label_of o f) ln c) (map (note (label_of o f) ln) cs ++ ds) m inc last line) as (l' & m' & inc' & last' & line' & ST). rewrite !ST.
  destruct (IH m' inc' last' line') as (ds' & R & E & E'). exists ([note (label_of o f) l' c] ++ ds')%list. split.
  - change (plant l' (note (label_of o f) ln c)) with (SCom (Tok ("#" ++ c) l' false None)).
    pose proof (rd_comment o' dir f path K (Tok ("#" ++ c) l' false None) c _ _ _ _ _ eq_refl R) as X. change (o_comments o') with (o_comments o) in X. rewrite C in X. exact X.
  - cbn [app map List.concat]. rewrite E. split; [reflexivity|]. rewrite map_app, <- E', C. reflexivity.
Qed.
Lemma notes_all_back : forall dir f path K ds ls K' ln args ns, notes (o_comments o) (label_of o f) ln args ns -> comes_back dir f path K ds ls K' ->
  comes_back dir f path K (ns ++ ds) ls K'.
Proof. intros dir f path K ds ls K' ln args ns (cs & _ & ->) B. destruct (o_comments o) eqn:C; [now apply notes_back|exact B]. Qed.
Lemma no_notes : forall A line f ln, like_items A -> notes (o_comments o') (label_of o' f) ln (map (fun gx => atok line (snd gx)) A) [].
Proof. intros A line f ln L. exists []. split; [now apply planted_words|]. now destruct (o_comments o'). Qed.
Lemma writable_parts : forall d, is_comment d = false -> writable pr ok d = true ->
  forallb (SpecRound.kept pr) (d_args d) = true /\ (d_name d = "if" -> if_ok (d_args d) = true) /\ (forall b, d_block d = Some b -> forallb (writable pr ok) b = true).
Proof.
  intros d C W. destruct d as [nm ln args file inc blk cm mp]. cbn [writable] in W. rewrite C in W. rewrite !andb_true_iff in W. destruct W as [[[_ KA] IF] WB]. cbn [d_args d_name d_block] in *.
  repeat split; auto; [intros ->; exact IF|]. intros b ->. now apply andb_true_iff in WB as [_ WB].
Qed.
Lemma planted_accepts : forall path d d0 l', is_comment d = false -> writable pr ok d = true -> d_name d0 = d_name d -> (d_name d <> "if" -> d_args d0 = d_args d) ->
  accepts o path d0 (term_of d) ->
  accepts o' path (stm_dir (atok l' (arg_lex (d_name d))) (map (fun gx => atok l' (snd gx)) (arg_items d))) (term_of d).
Proof.
  intros path d d0 l' C W N A H. destruct (stmt_args pr ok d AR C W) as (S & t & [A1 _ A3 _] & _). destruct (planted_words _ l' A1) as [PW _]. destruct (writable_parts d C W) as (KA & IF & _).
  apply accepts_open. apply (accepts_ext o path (written d)).
  - cbn. symmetry. apply (as_val _ _ S).
  - cbn [stm_dir d_args]. now rewrite PW, A3.
  - destruct (String.eqb_spec (d_name d) "if") as [E|E].
    + apply (accepts_if pr o path d d0); auto. congruence.
    + apply (accepts_ext o path d0); auto. rewrite (A E). unfold written. apply String.eqb_neq in E. now rewrite E.
Qed.
Lemma planted_final : forall d l', is_comment d = false -> writable pr ok d = true ->
  final_args (d_name d) (words (map (fun gx => atok l' (snd gx)) (arg_items d))) (d_args d).
Proof.
  intros d l' C W. destruct (stmt_args pr ok d AR C W) as (S & t & [A1 _ A3 _] & _). destruct (planted_words _ l' A1) as [PW _]. destruct (writable_parts d C W) as (KA & IF & _).
  rewrite PW, A3. unfold written. cbn [d_args mkd]. split; intros E.
  - rewrite E. change ("if" =? "if") with true. cbv iota. apply prepare_if_result. eapply parens_back; eauto.
  - apply String.eqb_neq in E. now rewrite E.
Qed.
Lemma plant_stm : forall l d, is_comment d = false -> plant l d = SStm (atok l (arg_lex (d_name d))) (map (fun gx => atok l (snd gx)) (arg_items d)) l
  (match d_block d with None => None | Some b => Some (spread 0 1 (d_line d) l b, bottom l d) end)%Z.
Proof. intros l d C. destruct d as [nm ln args file inc blk cm mp]. cbn [plant]. now rewrite C. Qed.
Lemma replant : forall dir f path K F ds es ls K', reads o dir f path K F ds es ls K' -> es = [] ->
  forallb (writable pr ok) ds = true -> forallb no_if_entry ds = true -> comes_back dir f path K ds ls K'.
Proof.
  intros dir f path K F ds es ls K' R. induction R as [path K|path K t c F ds es ls K' T R IH|path K h args l F ds es ls K' M FA R IH|path K h args l body what F ds es ls K' M OB R IH|path K h args l body F ds es ls K' M IG R IH
    |path K h args l body what F ds es ls K' M IG OB UN R IH|path K h args l args' ns F ds es ls K' M IG AC FO FI NO R IH|path K h args l args' b c ns ds1 es1 ls1 K1 F ds es ls K' M IG AC FO FI NO PP R1 IH1 R IH
    |path K h args l arg more fs is ns K1 F ds es ls K' M IG AC FO WD TG MG NU NO R IH|path K h args l arg more m ns F ds es ls K' M IG AC FO WD MG OP NO R IH]; intros ES W NI.
  - intros m inc last line. exists []. split; [constructor|split; reflexivity].
  - destruct (o_comments o) eqn:C.
    + cbn [app] in *. cbn [forallb] in W, NI. apply andb_true_iff in W as [_ W]. apply andb_true_iff in NI as [_ NI].
      apply (notes_back dir f path K ds ls K' (t_line t) [c] C). now apply IH.
    + now apply IH.
  - cbn [forallb] in W, NI. apply andb_true_iff in W as [W1 W]. apply andb_true_iff in NI as [NI1 NI]. specialize (IH ES W NI). intros m inc last line.
    set (d := Dir (t_val h) (t_line h) (words args) (label_of o f) None None None true) in *.
    destruct (place_step d ds m inc last line) as (l' & m' & inc' & last' & line' & ST). rewrite !ST. destruct (IH m' inc' last' line') as (ds' & R' & E & E').
    assert (C : is_comment d = false) by (unfold is_comment, d; cbn; apply andb_false_r).
    assert (NN : d_name d <> "if"). { cbn [no_if_entry d d_ismap d_name d_block] in NI1. rewrite andb_true_r in NI1. apply negb_true_iff in NI1. cbn [andb] in NI1. now apply String.eqb_neq. }
    destruct (stmt_args pr ok d AR C W1) as (S & tx & [A1 _ A3 _] & _). destruct (planted_words _ l' A1) as [PW _].
    assert (WA : words (map (fun gx => atok l' (snd gx)) (arg_items d)) = words args) by (rewrite PW, A3; unfold written; apply String.eqb_neq in NN; rewrite NN; reflexivity).
    rewrite (plant_stm l' d C). eexists. split.
    + cbn [d_block d]. eapply (rd_entry o' dir f path K); [exact M| |exact R']. rewrite WA. unfold atok. cbn [t_val]. rewrite (as_val _ _ S). exact FA.
    + cbn [map List.concat]. rewrite E, WA. unfold atok. cbn [t_val t_line unlined d_name d_args d_file d_includes d_block d_comment d_ismap]. rewrite (as_val _ _ S). split; [reflexivity|].
      rewrite map_app, <- E', (reread_stmt _ _ _ _ d C). cbn [map app lined again d_name d_line d_args d_block d_comment d]. reflexivity.
  - discriminate.
  - now apply IH.
  - discriminate.
  - cbn [forallb] in W, NI. apply andb_true_iff in W as [W1 W]. apply andb_true_iff in NI as [NI1 NI]. rewrite forallb_app in W, NI. apply andb_true_iff in W as [_ W]. apply andb_true_iff in NI as [_ NI].
    pose proof (notes_all_back dir f path K ds ls K' _ _ _ NO (IH ES W NI)) as B. intros m inc last line.
    set (d := Dir (t_val h) (t_line h) args' (label_of o f) None None None false) in *.
    destruct (place_step d (ns ++ ds) m inc last line) as (l' & m' & inc' & last' & line' & ST). rewrite !ST. destruct (B m' inc' last' line') as (ds' & R' & E & E').
    assert (C : is_comment d = false) by (unfold is_comment, d; cbn; apply andb_false_r).
    destruct (stmt_args pr ok d AR C W1) as (S & tx & [A1 _ A3 _] & _). pose proof (as_val _ _ S) as VV.
    assert (HV : t_val (atok l' (arg_lex (d_name d))) = t_val h) by exact VV.
    rewrite (plant_stm l' d C). exists (Dir (t_val h) l' args' (label_of o f) None None None false :: [] ++ ds')%list. split; [|split; [cbn [app map]; now rewrite E|rewrite (reread_stmt _ _ _ _ d C); cbn [app map List.concat]; rewrite E'; reflexivity]].
    rewrite <- HV. change l' with (t_line (atok l' (arg_lex (d_name d)))) at 5. cbn [d_block d].
    refine (rd_simple o' dir f path K _ _ l' args' [] _ ds' [] ls K' M _ _ _ _ _ R').
    + now rewrite HV.
    + apply (planted_accepts path d (stm_dir h args)); auto. cbn. intros NIF. symmetry. now apply FI.
    + rewrite HV. exact FO.
    + rewrite HV. apply (planted_final d l' C W1).
    + now apply no_notes.
  - apply app_eq_nil in ES as [ES1 ES]. subst es1 es. cbn [forallb] in W, NI. apply andb_true_iff in W as [W1 W]. apply andb_true_iff in NI as [NI1 NI]. rewrite forallb_app in W, NI. apply andb_true_iff in W as [_ W]. apply andb_true_iff in NI as [_ NI].
    pose proof (notes_all_back dir f path K1 ds ls K' _ _ _ NO (IH eq_refl W NI)) as B. intros m inc last line.
    set (d := Dir (t_val h) (t_line h) args' (label_of o f) None (Some ds1) None false) in *.
    destruct (place_step d (ns ++ ds) m inc last line) as (l' & m' & inc' & last' & line' & ST). rewrite !ST. destruct (B m' inc' last' line') as (ds' & R' & E & E').
    assert (C : is_comment d = false) by (unfold is_comment, d; cbn; apply andb_false_r).
    destruct (stmt_args pr ok d AR C W1) as (S & tx & [A1 _ A3 _] & _). pose proof (as_val _ _ S) as VV.
    destruct (writable_parts d C W1) as (_ & _ & WB). specialize (WB ds1 eq_refl). cbn [no_if_entry d d_block d_ismap d_name andb] in NI1. cbn [negb andb] in NI1.
    destruct (IH1 eq_refl WB NI1 0%Z 1%Z (d_line d) l') as (ds1' & R1' & E1 & E1').
    assert (HV : t_val (atok l' (arg_lex (d_name d))) = t_val h) by exact VV.
    rewrite (plant_stm l' d C). exists (Dir (t_val h) l' args' (label_of o f) None (Some ds1') None false :: [] ++ ds')%list.
    split; [|split; [cbn [app map unlined d_block d_name d_args d_file d_includes d_comment d_ismap d]; now rewrite E, E1|rewrite (reread_stmt _ _ _ _ d C); unfold again; cbn [app map List.concat lined d_name d_line d_args d_block d_comment d];
      rewrite E', E1', (lined_any_place _ _ "" ds1 (mapb (t_val h)) false); reflexivity]].
    change (@nil goerr) with (@nil goerr ++ @nil goerr)%list.
    rewrite <- HV. change l' with (t_line (atok l' (arg_lex (d_name d)))) at 7. cbn [d_block d].
    refine (rd_block o' dir f path K _ _ l' args' _ _ [] ds1' [] ls1 K1 _ ds' [] ls K' M _ _ _ _ _ _ _ R').
    + now rewrite HV.
    + apply (planted_accepts path d (stm_dir h args)); auto. cbn. intros NIF. symmetry. now apply FI.
    + rewrite HV. exact FO.
    + rewrite HV. apply (planted_final d l' C W1).
    + now apply no_notes.
    + rewrite HV. exact PP.
    + rewrite HV. exact R1'.
  - cbn [forallb] in W, NI. apply andb_true_iff in W as [W1 W]. apply andb_true_iff in NI as [NI1 NI]. rewrite forallb_app in W, NI. apply andb_true_iff in W as [_ W]. apply andb_true_iff in NI as [_ NI].
    pose proof (notes_all_back dir f path K1 ds ls K' _ _ _ NO (IH ES W NI)) as B. intros m inc last line.
    set (d := Dir (t_val h) (t_line h) (words args) (label_of o f) (unless_none is) None None false) in *.
    destruct (place_step d (ns ++ ds) m inc last line) as (l' & m' & inc' & last' & line' & ST). rewrite !ST. destruct (B m' inc' last' line') as (ds' & R' & E & E').
    assert (C : is_comment d = false) by (unfold is_comment, d; cbn; apply andb_false_r).
    destruct (stmt_args pr ok d AR C W1) as (S & tx & [A1 _ A3 _] & _). pose proof (as_val _ _ S) as VV. destruct (planted_words _ l' A1) as [PW _].
    assert (HV : t_val (atok l' (arg_lex (d_name d))) = t_val h) by exact VV.
    assert (NN : d_name d <> "if") by (destruct FO as [FO _]; cbn [d_name d]; rewrite FO; discriminate).
    assert (WA : words (map (fun gx => atok l' (snd gx)) (arg_items d)) = words args) by (rewrite PW, A3; unfold written; apply String.eqb_neq in NN; rewrite NN; reflexivity).
    rewrite (plant_stm l' d C). exists (Dir (t_val h) l' (words args) (label_of o f) (unless_none is) None None false :: [] ++ ds')%list. split; [|split; [cbn [app map]; now rewrite E|rewrite (reread_stmt _ _ _ _ d C); cbn [app map List.concat]; rewrite E'; reflexivity]].
    rewrite <- WA, <- HV. change l' with (t_line (atok l' (arg_lex (d_name d)))) at 5. cbn [d_block d].
    refine (rd_include o' dir f path K _ _ l' arg more fs is [] K1 _ ds' [] ls K' M _ _ _ _ _ MG NU _ R').
    + now rewrite HV.
    + apply (planted_accepts path d (stm_dir h args)); auto.
    + rewrite HV. exact FO.
    + now rewrite WA.
    + now apply targets_open.
    + now apply no_notes.
  - discriminate.
Qed.
End Replant.

(** ** The end of the text *)
Definition end_lexeme (d : directive) : lexeme :=
  if is_comment d then Note (arg_pieces (comment_text d)) else match d_block d with None => Sep ";" | Some _ => Sep "}" end.
Lemma items_end : forall mg depth g d prev, lastl prev (items mg depth g d) = Some (end_lexeme d).
Proof.
  intros mg depth g d prev. destruct d as [nm ln args file inc blk cm mp]. unfold end_lexeme. cbn [items]. destruct (is_comment _); [reflexivity|]. cbn [d_block].
  destruct blk as [b|]; [|now rewrite lastl_app]. rewrite lastl_app. cbn [lastl]. now rewrite lastl_app.
Qed.
Lemma iloop_end : forall mg ds d gm g last prev, lastl prev (iloop (items mg 0) (nlg mg 0) gm g last (ds ++ [d])) = Some (end_lexeme d).
Proof.
  intros mg ds d. induction ds as [|e ds IH]; intros gm g last prev; cbn [app iloop].
  - destruct (_ && _)%bool eqn:M; [|now rewrite lastl_app, items_end]. apply andb_true_iff in M as [_ M]. unfold end_lexeme. now rewrite M.
  - destruct (_ && _)%bool; [cbn [lastl]; apply IH|]. rewrite lastl_app. apply IH.
Qed.
Lemma tail_not_blank : forall a b, boundary b -> b <> "" -> ~ ends_blank b -> ~ ends_blank (a ++ b).
Proof.
  intros a b B N H (r & l & E & S). apply H. unfold runes in E. rewrite scan_app_boundary, map_app in E by auto. fold (runes b) in E.
  destruct (exists_last (l := runes b)) as (l' & x & R).
  - unfold runes. intros X. apply N. apply map_eq_nil in X. rewrite <- (unscan_scan b), X. reflexivity.
  - exists x, l'. split; auto. rewrite R, app_assoc in E. apply app_inj_tail in E as [_ ->]. exact S.
Qed.

Lemma end_not_blank : forall pr d, writable pr not_note d = true -> (is_comment d && ends_white (comment_text d))%bool = false -> forall a, ~ ends_blank (a ++ lexeme_src (end_lexeme d)).
Proof.
  intros pr d W E a. unfold end_lexeme. destruct (is_comment d) eqn:C.
  - destruct (note_arg _ (writable_note pr not_note d W C)) as (-> & _). apply tail_not_blank; [apply boundary_ascii; vm_compute; reflexivity|discriminate|]. cbn [andb] in E.
    change ("#" ++ comment_text d) with (String "#" (comment_text d)). intros (r & l & R & S). unfold ends_white in E.
    change (String "#" (comment_text d)) with ("#" ++ comment_text d) in R. rewrite QuoteProofs.runes_app in R by (vm_compute; reflexivity). change (runes "#") with [35%N] in R.
    destruct (rev (runes (comment_text d))) as [|x k] eqn:RV.
    + assert (X : runes (comment_text d) = []) by (rewrite <- (rev_involutive (runes _)), RV; reflexivity). rewrite X in R. change ([35%N] ++ [])%list with ([] ++ [35%N])%list in R. apply app_inj_tail in R as [_ R]. subst r. discriminate.
    + assert (X : runes (comment_text d) = (rev k ++ [x])%list) by (rewrite <- (rev_involutive (runes _)), RV; reflexivity). rewrite X, app_assoc in R. apply app_inj_tail in R as [_ R]. subst r. congruence.
  - destruct (d_block d) as [blk|]; (apply tail_not_blank; [apply boundary_ascii; vm_compute; reflexivity|discriminate|]); intros (r & l & R & S); vm_compute in R;
      (destruct l as [|y l]; [injection R as <-; discriminate|destruct l; discriminate]).
Qed.
Lemma built_end : forall pr o gm g ds, forallb (writable pr not_note) ds = true -> last_kept ds = true -> ds <> [] -> forall a, ~ ends_blank (a ++ rtext (top_items o gm g ds)).
Proof.
  intros pr o gm g ds W K N a. destruct (exists_last N) as (r & d & ->). unfold last_kept in K. rewrite rev_unit in K. apply negb_true_iff in K. rewrite forallb_app in W. apply andb_true_iff in W as [_ W]. cbn [forallb] in W. rewrite andb_true_r in W.
  pose proof (iloop_end (margin_gap o) r d gm g 0 None) as E. fold (top_items o gm g (r ++ [d])) in E. destruct (lastl_split (top_items o gm g (r ++ [d])) None (end_lexeme d)) as (L & g' & ->); auto.
  - intros X. rewrite X in E. discriminate.
  - rewrite rtext_app, rtext_cons. change (rtext []) with "". rewrite app_nil_r_s, <- !app_assoc_s. now apply (end_not_blank pr).
Qed.
Lemma built_stored : forall o ds, ascii_right (b_print o) -> b_ext o = [] -> (0 <= b_indent o)%Z -> formattable (b_print o) ds = true ->
  exists text, build o ds = Some text /\ Forall wf_stmt (forest_of (b_header o) ds) /\ forall c, stored text c -> lex [] c = flat (forest_of (b_header o) ds).
Proof.
  intros o ds AR NE IN FM. unfold formattable in FM. rewrite !andb_true_iff in FM. destruct FM as [[W _] K]. destruct (built_full o ds AR NE IN W) as (text & B & L & F & EM & EN). exists text. split; auto. split; auto.
  intros c [->|(t & T & ->)].
  - specialize (L [] (or_introl eq_refl)). cbn [concat_str] in L. now rewrite app_nil_r_s in L.
  - apply trim_right_iff in T. subst t. destruct ds as [|d ds].
    + rewrite (EM eq_refl). unfold forest_of. destruct (b_header o); vm_compute; reflexivity.
    + destruct EN as (a & gm & g & EN); [discriminate|]. unfold writables in W. apply andb_true_iff in W as [_ W].
      assert (NB : ~ ends_blank text) by (rewrite EN; apply (built_end (b_print o)); auto; discriminate).
      rewrite (proj1 (trim_right_iff text text) (trimmed_r _ NB)). specialize (L [s_nl] (or_intror eq_refl)). exact L.
Qed.

(** ** Files *)
(** What has to be known of trees that are [good]: what is built from one and stored is read as it was, and, for those
    that pass [again], gives the same text again. *)
Definition goes_back (bo : bopts) (o : popts) (op : string -> string + string) (good again : list directive -> Prop) : Prop :=
  forall dir f path K F ds ls K' text c, reads o dir f path K F ds [] ls K' -> good ds -> build bo ds = Some text -> stored text c ->
  exists F2 ds2, lex (o_lexers o) c = flat F2 /\ Forall wf_stmt F2 /\ reads (with_open o op) dir f path K F2 ds2 [] ls K' /\
    map unlined ds2 = (heading (o_comments o) (b_header bo) ++ map unlined ds)%list /\ (again ds -> build bo ds2 = build bo ds).
Definition page_back (bo : bopts) (keep : bool) (again : list directive -> Prop) (g g' : page) : Prop :=
  pg_file g' = pg_file g /\ pg_errors g' = [] /\ pg_links g' = pg_links g /\ map unlined (pg_tree g') = (heading keep (b_header bo) ++ map unlined (pg_tree g))%list /\
  (again (pg_tree g) -> build bo (pg_tree g') = build bo (pg_tree g)).
Lemma head_back : forall o op dir f path K F ds ls K' (header : bool), o_combine o = false -> reads (with_open o op) dir f path K F ds [] ls K' ->
  exists ds', reads (with_open o op) dir f path K ((if header then head_stmts else []) ++ F) ds' [] ls K' /\ map unlined ds' = (heading (o_comments o) header ++ map unlined ds)%list /\
    map lined ds' = (map lined (if header then head_dirs (o_comments o) "" else []) ++ map lined ds)%list.
Proof.
  intros o op dir f path K F ds ls K' header C R. destruct header.
  - unfold head_stmts, header_notes, heading. cbn [app].
    pose proof (rd_comment (with_open o op) dir f path K (Tok ("#" ++ nth 2 header_notes "") 3 false None) (nth 2 header_notes "") _ _ _ _ _ eq_refl R) as R3.
    pose proof (rd_comment (with_open o op) dir f path K (Tok ("#" ++ nth 1 header_notes "") 2 false None) (nth 1 header_notes "") _ _ _ _ _ eq_refl R3) as R2.
    pose proof (rd_comment (with_open o op) dir f path K (Tok ("#" ++ nth 0 header_notes "") 1 false None) (nth 0 header_notes "") _ _ _ _ _ eq_refl R2) as R1.
    eexists. split; [exact R1|]. unfold label_of. change (o_combine (with_open o op)) with (o_combine o). change (o_comments (with_open o op)) with (o_comments o). rewrite C. destruct (o_comments o); split; reflexivity.
  - exists ds. split; [exact R|]. unfold heading. rewrite andb_false_r. split; reflexivity.
Qed.
Lemma forest_head : forall (header : bool) ds, exists m inc line, forest_of header ds = ((if header then head_stmts else []) ++ RoundLayout.place plant bottom m inc 0 line ds)%list /\
  forall keep lab, round_tree keep header lab ds = ((if header then head_dirs keep lab else []) ++ List.concat (RoundLayout.place (reread keep lab false) bottom m inc 0 line ds))%list.
Proof. intros [] ds; unfold forest_of, round_tree; do 3 eexists; split; reflexivity. Qed.
Lemma pages_back : forall bo o op good again, goes_back bo o op good again ->
  forall dir i K l, pages o dir i K l -> Forall (fun g => pg_errors g = [] /\ good (pg_tree g) /\
    exists text c, build bo (pg_tree g) = Some text /\ stored text c /\ op (pg_file g) = inl c) l ->
  exists l', pages (with_open o op) dir i K l' /\ Forall2 (page_back bo (o_comments o) again) l l'.
Proof.
  intros bo o op good again BACK dir i K l P. induction P as [K|i K f path text F ds es ls K' l N OP LX WF PP LEN R P IH|i K f path text es e ls K' l N OP PP LEN B P IH]; intros FA.
  - exists []. split; constructor.
  - inversion FA as [|? ? (E & FM & text' & c & BD & ST & OC) FA']; subst. cbn [pg_errors pg_tree pg_file] in *. subst es. destruct (IH FA') as (l' & P' & F2).
    destruct (BACK dir f path K F ds ls K' text' c R FM BD ST) as (F3 & ds2 & LX2 & WF2 & R2 & E2 & A2).
    exists (Page f ds2 [] ls :: l'). split.
    + apply (pg_whole _ _ i K f path c F3 ds2 [] ls K' l'); auto.
    + constructor; auto. repeat split; auto.
  - inversion FA as [|? ? (E & _) FA']; subst. cbn [pg_errors] in E. destruct es; discriminate.
Qed.
Lemma pages_open : forall o dir i K l, pages o dir i K l -> forall g, In g l -> exists c, o_open o (pg_file g) = inl c.
Proof.
  intros o dir i K l P. induction P as [K|i K f path text F ds es ls K' l N OP LX WF PP LEN R P IH|i K f path text es e ls K' l N OP PP LEN B P IH]; intros g I; [destruct I| |]; (destruct I as [<-|I]; [cbn [pg_file]; eauto|auto]).
Qed.
Lemma leads_back : forall bo k ag l l', Forall2 (page_back bo k ag) l l' -> forall a b, leads l' a b -> leads l a b.
Proof.
  intros bo k ag l l' F a b (g' & I & A & B). induction F as [|g h l l' (H1 & H2 & H3 & H4) F IH]; [destruct I|]. destruct I as [<-|I].
  - exists g. repeat split; [now left|congruence|now rewrite <- H3].
  - destruct (IH I) as (x & X1 & X2). exists x. split; [now right|auto].
Qed.
Lemma loops_back : forall bo k ag l l', Forall2 (page_back bo k ag) l l' -> loops l' -> loops l.
Proof.
  intros bo k ag l l' F (x & X). exists x. revert X. generalize x at 1 3. intros y X. induction X as [y z S|y z w _ I1 _ I2]; [constructor; eapply leads_back; eauto|eapply t_trans; eauto].
Qed.
Lemma back_errors : forall bo k ag l l', Forall2 (page_back bo k ag) l l' -> Forall (fun g => pg_errors g = []) l'.
Proof. intros bo k ag l l' F. induction F as [|g h l l' (H1 & H2 & _) F IH]; constructor; auto. Qed.
Lemma no_errors : forall o l, Forall (fun g => pg_errors g = []) l -> payload_of o l = Pay "ok" [] (map config_of l).
Proof.
  intros o l F. unfold payload_of. assert (A : flat_map pg_errors l = [] /\ flat_map (page_errors o) l = []); [|destruct A as [-> ->]; reflexivity].
  induction F as [|g l G F [I1 I2]]; [split; reflexivity|]. cbn [flat_map]. unfold page_errors at 1. rewrite G, I1, I2. split; reflexivity.
Qed.
Lemma quiet_silent : forall d, silent d = true -> quiet d = [d].
Proof.
  intros d. induction d as [d IH] using dir_ind'. intros S. pose proof (silent_not d S) as C. rewrite quiet_stmt by auto. destruct d as [nm ln args file inc blk cm mp]. cbn [silent d_name d_line d_args d_file d_includes d_block d_comment d_ismap opt_list] in *.
  destruct blk as [b|]; [|reflexivity]. apply andb_true_iff in S as [_ S]. do 3 f_equal. induction b as [|x b IHb]; [reflexivity|]. cbn [forallb] in S. apply andb_true_iff in S as [S1 S2]. inversion IH; subst. cbn [flat_map]. rewrite H1 by auto. cbn [app]. f_equal. auto.
Qed.
Lemma quiet_silents : forall ds, forallb silent ds = true -> flat_map quiet ds = ds.
Proof. induction ds as [|d ds IH]; intros S; [reflexivity|]. cbn [forallb] in S. apply andb_true_iff in S as [S1 S2]. cbn [flat_map]. now rewrite quiet_silent, IH. Qed.
Lemma reads_silent : forall o dir f path K F ds es ls K', o_comments o = false -> reads o dir f path K F ds es ls K' -> forallb silent ds = true.
Proof.
  intros o dir f path K F ds es ls K' C R.
  assert (NN : forall lab ln args ns, notes (o_comments o) lab ln args ns -> ns = []) by (intros lab ln args ns (cs & _ & ->); now rewrite C).
  induction R as [path K|path K t c F ds es ls K' T R IH|path K h args l F ds es ls K' M FA R IH|path K h args l body what F ds es ls K' M OB R IH|path K h args l body F ds es ls K' M IG R IH
    |path K h args l body what F ds es ls K' M IG OB UN R IH|path K h args l args' ns F ds es ls K' M IG AC FO FI NO R IH|path K h args l args' b c ns ds1 es1 ls1 K1 F ds es ls K' M IG AC FO FI NO PP R1 IH1 R IH
    |path K h args l arg more fs is ns K1 F ds es ls K' M IG AC FO WD TG MG NU NO R IH|path K h args l arg more m ns F ds es ls K' M IG AC FO WD MG OP NO R IH]; auto;
    try (apply NN in NO; subst ns); try (rewrite C; exact IH); cbn [forallb silent d_block app]; unfold is_comment; cbn [d_name d_comment]; rewrite ?andb_false_r; cbn [negb andb]; rewrite ?IH1; auto.
Qed.
Lemma plain_back : forall bo o op, ascii_right (b_print bo) -> b_ext bo = [] -> (0 <= b_indent bo)%Z -> o_combine o = false -> o_lexers o = [] -> loose_if o ->
  (forall f c, o_open o f = inl c -> exists c', op f = inl c') ->
  goes_back bo o op (fun ds => formattable (b_print bo) ds = true)
    (fun ds => (b_header bo && o_comments o)%bool = false /\ writables (b_print bo) (if o_comments o then on_line else not_note) ds = true).
Proof.
  intros bo o op AR NE IN CM NL LI SAME dir f path K F ds ls K' text c R FM BD ST.
  destruct (built_stored bo ds AR NE IN FM) as (text0 & BD0 & WF0 & LX0). rewrite BD in BD0. injection BD0 as <-. specialize (LX0 c ST).
  pose proof FM as FM0. unfold formattable, writables in FM0. rewrite !andb_true_iff in FM0. destruct FM0 as [[[_ W] NI] _].
  destruct (forest_head (b_header bo) ds) as (m & inc & line & FH & RT).
  destruct (replant (b_print bo) AR not_note o op SAME LI dir f path K F ds [] ls K' R eq_refl W NI m inc 0%Z line) as (ds1 & R1 & E1 & L1).
  destruct (head_back o op dir f path K _ ds1 ls K' (b_header bo) CM R1) as (ds2 & R2 & E2 & L2). rewrite <- FH in R2. rewrite E1 in E2.
  exists (forest_of (b_header bo) ds), ds2. rewrite NL. split; [exact LX0|]. split; [exact WF0|]. split; [exact R2|]. split; [exact E2|]. intros [HK WR].
  assert (H5 : map lined ds2 = map lined (round_tree (o_comments o) (b_header bo) "" ds)) by now rewrite L2, L1, RT, map_app.
  rewrite (build_lined bo _ _ (no_ext_blind bo NE) IN H5). apply tree_of_rows; auto. rewrite (round_rows bo (b_print bo) (o_comments o) (b_header bo) "" ds NE HK WR).
  unfold kept_tree. destruct (o_comments o) eqn:C; auto. now rewrite quiet_silents by (eapply reads_silent; eauto).
Qed.
Theorem format_core : forall bo o op filename l fuel (good again : list directive -> Prop),
  ((forall f c, o_open o f = inl c -> exists c', op f = inl c') -> goes_back bo o op good again) -> o_combine o = false ->
  book o filename l -> ~ loops l -> (forall g, In g l -> pg_errors g = [] /\ good (pg_tree g)) -> formatted bo o l op -> List.length l <= fuel ->
  exists p p', parse_main fuel o filename = ROk p /\ parse_main fuel (with_open o op) filename = ROk p' /\ pl_status p = "ok" /\ map cf_parsed (pl_config p) = map pg_tree l /\
    same_payload (heading (o_comments o) (b_header bo)) p p' /\
    ((forall g, In g l -> again (pg_tree g)) ->
     map (fun c => (cf_file c, build bo (cf_parsed c))) (pl_config p') = map (fun g => (pg_file g, build bo (pg_tree g))) l).
Proof.
  intros bo o op filename l fuel good again BACK CM BK LP FM [FO1 FO2] LEN.
  assert (ER : Forall (fun g => pg_errors g = []) l) by (apply Forall_forall; intros g I; now apply FM).
  assert (SAME : forall f c, o_open o f = inl c -> exists c', op f = inl c').
  { intros f c E. destruct (in_dec string_dec f (map pg_file l)) as [I|I]; [|rewrite (FO2 f I); eauto]. apply in_map_iff in I as (g & <- & I). destruct (FO1 g I) as (t & c' & _ & _ & X). eauto. }
  destruct (pages_back bo o op good again (BACK SAME) _ _ _ _ BK) as (l' & BK' & F2).
  { apply Forall_forall. intros g I. destruct (FM g I) as [X Y]. destruct (FO1 g I) as (t & c & B). exact (conj X (conj Y (ex_intro _ t (ex_intro _ c B)))). }
  pose proof (back_errors _ _ _ _ _ F2) as ER'. assert (LN : List.length l' = List.length l) by (clear - F2; induction F2; cbn; congruence).
  pose proof (book_pages o filename l fuel BK (or_intror ER) LEN CM LP) as P1.
  pose proof (book_pages (with_open o op) filename l' fuel BK' (or_intror ER') ltac:(lia) CM (fun X => LP (loops_back _ _ _ _ _ F2 X))) as P2.
  rewrite (no_errors _ _ ER) in P1. rewrite (no_errors _ _ ER') in P2. do 2 eexists. split; [exact P1|]. split; [exact P2|]. split; [reflexivity|]. split; [cbn [pl_config]; now rewrite map_map|].
  split.
  - split; [reflexivity|]. split; [reflexivity|]. cbn [pl_config]. clear - F2 ER. induction F2 as [|g h l l' (H1 & H2 & H3 & H4 & H5) F2 IH]; constructor; [|apply IH; now inversion ER].
    inversion ER as [|? ? G _]; subst. unfold same_config, config_of. cbn [cf_file cf_status cf_errors cf_parsed]. rewrite H1, H2, H4, G. repeat split; auto.
  - intros WR. cbn [pl_config]. rewrite map_map. cbn [config_of cf_file cf_parsed].
    clear - F2 WR. induction F2 as [|g h l l' (H1 & H2 & H3 & H4 & H5) F2 IH]; [reflexivity|]. cbn [map]. f_equal; [|apply IH; auto; intros x I; apply WR; now right].
    f_equal; auto. apply H5, WR. now left.
Qed.
Theorem format_parse : forall bo o op filename l fuel, ascii_right (b_print bo) -> b_ext bo = [] -> (0 <= b_indent bo)%Z -> o_combine o = false -> o_lexers o = [] -> loose_if o ->
  book o filename l -> ~ loops l -> (forall g, In g l -> pg_errors g = [] /\ formattable (b_print bo) (pg_tree g) = true) -> formatted bo o l op -> List.length l <= fuel ->
  exists p p', parse_main fuel o filename = ROk p /\ parse_main fuel (with_open o op) filename = ROk p' /\ pl_status p = "ok" /\ map cf_parsed (pl_config p) = map pg_tree l /\
    same_payload (heading (o_comments o) (b_header bo)) p p'.
Proof. intros bo o op filename l fuel A1 A2 A3 A4 A5 A6 A7 A8 A9 A10 A11. destruct (format_core bo o op filename l fuel _ _ (plain_back bo o op A1 A2 A3 A4 A5 A6) A4 A7 A8 A9 A10 A11) as (p & p' & Q1 & Q2 & Q3 & Q4 & Q5 & _). exists p, p'. auto. Qed.
Theorem format_again : forall bo o op filename l fuel, ascii_right (b_print bo) -> b_ext bo = [] -> (0 <= b_indent bo)%Z -> o_combine o = false -> o_lexers o = [] -> loose_if o ->
  book o filename l -> ~ loops l -> (forall g, In g l -> pg_errors g = [] /\ formattable (b_print bo) (pg_tree g) = true) -> formatted bo o l op -> List.length l <= fuel ->
  (b_header bo && o_comments o)%bool = false -> (forall g, In g l -> writables (b_print bo) (if o_comments o then on_line else not_note) (pg_tree g) = true) ->
  exists p', parse_main fuel (with_open o op) filename = ROk p' /\ map (fun c => (cf_file c, build bo (cf_parsed c))) (pl_config p') = map (fun g => (pg_file g, build bo (pg_tree g))) l.
Proof. intros bo o op filename l fuel A1 A2 A3 A4 A5 A6 A7 A8 A9 A10 A11 HK WR. destruct (format_core bo o op filename l fuel _ _ (plain_back bo o op A1 A2 A3 A4 A5 A6) A4 A7 A8 A9 A10 A11) as (p & p' & Q1 & Q2 & Q3 & Q4 & Q5 & Q6). exists p'. auto. Qed.

(** ** BuildFiles *)
Lemma put_other : forall ws f q, ~ In q (map fst ws) -> SpecFiles.put_all ws f q = f q.
Proof.
  induction ws as [|[k v] ws IH]; intros f q N; [reflexivity|]. rewrite FilesProofs.put_cons, IH by (intros I; apply N; now right). unfold SpecFiles.put_all. cbn [fold_left fst snd].
  destruct (String.eqb_spec q k) as [->|X]; auto. destruct N. now left.
Qed.
Lemma put_here : forall ws f q b, NoDup (map fst ws) -> In (q, b) ws -> SpecFiles.put_all ws f q = Some b.
Proof.
  induction ws as [|[k v] ws IH]; intros f q b ND I; [destruct I|]. cbn [map fst] in ND. inversion ND as [|? ? N ND']; subst. rewrite FilesProofs.put_cons. destruct I as [E|I]; [|now apply IH].
  injection E as -> ->. rewrite put_other by auto. unfold SpecFiles.put_all. cbn [fold_left fst snd]. now rewrite String.eqb_refl.
Qed.
Lemma written_same : forall root bo cs ds, map (fun c => (cf_file c, build (plain_opts (build_opts bo)) (cf_parsed c))) cs = map (fun c => (cf_file c, build (plain_opts (build_opts bo)) (cf_parsed c))) ds ->
  map (SpecFiles.written root bo) cs = map (SpecFiles.written root bo) ds.
Proof.
  intros root bo. induction cs as [|c cs IH]; intros [|d ds] E; try discriminate; [reflexivity|]. cbn [map] in *. injection E as E1 E2 E3. f_equal; auto. unfold SpecFiles.written, build_text. now rewrite E1, E2.
Qed.
Lemma put_twice : forall ws f q, NoDup (map fst ws) -> SpecFiles.put_all ws (SpecFiles.put_all ws f) q = SpecFiles.put_all ws f q.
Proof.
  intros ws f q ND. destruct (in_dec string_dec q (map fst ws)) as [I|I]; [|now rewrite !put_other by auto]. apply in_map_iff in I as ([k b] & <- & I). cbn [fst]. now rewrite !(put_here ws _ k b).
Qed.
Lemma put_ext : forall ws f f' q, f q = f' q -> SpecFiles.put_all ws f q = SpecFiles.put_all ws f' q.
Proof.
  induction ws as [|[k v] ws IH]; intros f f' q E; [exact E|]. unfold SpecFiles.put_all in *. cbn [fold_left fst snd]. apply (IH (fun q => if String.eqb q k then Some v else f q) (fun q => if String.eqb q k then Some v else f' q)). now destruct (String.eqb q k).
Qed.
Theorem files_core : forall bo o s missing cwd dir filename l fuel (good again : list directive -> Prop), bo_ext bo = None ->
  (forall op, (forall f c, o_open o f = inl c -> exists c', op f = inl c') -> goes_back (plain_opts (build_opts bo)) o op good again) ->
  (forall ds, good ds -> exists t, build (plain_opts (build_opts bo)) ds = Some t) -> b_header (plain_opts (build_opts bo)) = bo_header bo -> SpecFiles.where_to cwd dir <> None ->
  (forall f, o_open o f = disk s missing f) -> o_combine o = false -> book o filename l -> ~ loops l ->
  (forall g, In g l -> pg_errors g = [] /\ good (pg_tree g) /\ has_prefix (pg_file g) "/" = true) -> List.length l <= fuel ->
  exists p s' p', parse_main fuel o filename = ROk p /\ pl_status p = "ok" /\ build_files cwd p dir bo [] s = (s', BFok) /\
    parse_main fuel (with_open o (disk s' missing)) filename = ROk p' /\ same_payload (heading (o_comments o) (bo_header bo)) p p' /\
    ((forall g, In g l -> again (pg_tree g)) ->
     exists s'', build_files cwd p' dir bo [] s' = (s'', BFok) /\ SpecFiles.same_files (files s'') (files s')).
Proof.
  intros bo o s missing cwd dir filename l fuel good again NE BACK BUILT BH WT DK CM BK LP FM LEN.
  set (b := plain_opts (build_opts bo)) in *.
  assert (ER : Forall (fun g => pg_errors g = []) l) by (apply Forall_forall; intros g I; now apply FM).
  pose proof (book_pages o filename l fuel BK (or_intror ER) LEN CM LP) as P1. rewrite (no_errors _ _ ER) in P1.
  pose proof (inc_distinct _ _ _ (parse_includes_ok _ _ _ _ P1 CM)) as ND. cbn [pl_config] in ND. rewrite map_map in ND. cbn [config_of cf_file] in ND.
  destruct (SpecFiles.where_to cwd dir) as [root|] eqn:RT; [|congruence].
  assert (ST : forall g, In g l -> exists t, build b (pg_tree g) = Some t /\ SpecFiles.written root bo (config_of g) = Some (pg_file g, trim_right is_space_rune t ++ s_nl)).
  { intros g I. destruct (FM g I) as (_ & F & A). destruct (BUILT (pg_tree g) F) as (t & BD). exists t. split; auto.
    unfold SpecFiles.written, build_text. cbn [config_of cf_parsed cf_file]. fold b. rewrite BD. unfold SpecFiles.place. now rewrite A. }
  destruct (build_files cwd (Pay "ok" [] (map config_of l)) dir bo [] s) as [s' r] eqn:BF.
  destruct (FilesProofs.files_all cwd _ dir bo [] s s' r root NE RT BF) as (k & _ & OK & PN & RES). cbn [pl_config] in *.
  assert (R : r = BFok).
  { destruct (RES eq_refl) as [X|X]; auto. destruct (PN X) as (c & N & W). apply nth_error_In, in_map_iff in N as (g & <- & I). destruct (ST g I) as (t & _ & E). congruence. }
  subst r. destruct (OK eq_refl) as (ws & MW & SF).
  assert (KEYS : map fst ws = map pg_file l).
  { clear - MW ST. revert ws MW. induction l as [|g l IH]; intros [|w ws] MW; try discriminate; [reflexivity|]. cbn [map] in MW. injection MW as M1 M2.
    destruct (ST g (or_introl eq_refl)) as (t & _ & E). rewrite E in M1. injection M1 as <-. cbn [map fst]. f_equal. apply IH; auto. intros x I. apply ST. now right. }
  assert (FO : formatted b o l (disk s' missing)).
  { split.
    - intros g I. destruct (ST g I) as (t & BD & W). exists t, (trim_right is_space_rune t ++ s_nl). split; auto. split; [right; exists (trim_right is_space_rune t); split; auto; now apply trim_right_iff|].
      unfold disk. rewrite (SF (pg_file g)). erewrite put_here; [reflexivity|now rewrite KEYS|]. apply (in_map config_of) in I. apply (in_map (SpecFiles.written root bo)) in I. rewrite W, MW in I. apply in_map_iff in I as (w & E & I). injection E as ->. exact I.
    - intros f N. rewrite DK. unfold disk. rewrite (SF f), put_other; [reflexivity|now rewrite KEYS]. }
  destruct (format_core b o (disk s' missing) filename l fuel good again (BACK _) CM BK LP) as (p & p' & Q1 & Q2 & Q3 & _ & Q4 & Q5); auto.
  { intros g I. destruct (FM g I) as (X & Y & _). auto. }
  rewrite P1 in Q1. injection Q1 as <-. rewrite BH in Q4. exists (Pay "ok" [] (map config_of l)), s', p'. split; [exact P1|]. split; [reflexivity|]. split; [exact BF|]. split; [exact Q2|]. split; [exact Q4|]. intros WR. specialize (Q5 WR).
  assert (SW : map (SpecFiles.written root bo) (pl_config p') = map (SpecFiles.written root bo) (map config_of l)).
  { apply written_same. fold b. rewrite Q5, map_map. reflexivity. }
  destruct (build_files cwd p' dir bo [] s') as [s'' r2] eqn:BF2. exists s''.
  destruct (FilesProofs.files_all cwd _ dir bo [] s' s'' r2 root NE RT BF2) as (k2 & _ & OK2 & PN2 & RES2).
  assert (R2 : r2 = BFok).
  { destruct (RES2 eq_refl) as [X|X]; auto. destruct (PN2 X) as (c & N & W). apply nth_error_In in N. apply (in_map (SpecFiles.written root bo)) in N. rewrite SW, MW, W in N. apply in_map_iff in N as (w & E & _). discriminate. }
  subst r2. split; [reflexivity|]. destruct (OK2 eq_refl) as (ws2 & MW2 & SF2). rewrite SW, MW in MW2.
  assert (E : ws2 = ws) by (clear - MW2; revert ws2 MW2; induction ws as [|w ws IH]; intros [|w2 ws2] E; try discriminate; [reflexivity|]; cbn [map] in E; injection E as -> E; f_equal; auto).
  subst ws2. intros q. rewrite (SF2 q), (put_ext ws (files s') (SpecFiles.put_all ws (files s)) q (SF q)), (SF q). apply put_twice. now rewrite KEYS.
Qed.
Lemma opts_plain : forall bo, bo_ext bo = None -> bo_builders bo = [] -> (0 <= bo_indent bo)%Z ->
  let b := plain_opts (build_opts bo) in b_print b = bo_print bo /\ b_ext b = [] /\ b_header b = bo_header bo /\ (0 <= b_indent b)%Z.
Proof.
  intros bo NE NB IN. cbv zeta. unfold build_opts, plain_opts. cbn [bo_ext]. rewrite NE. unfold register_all. cbn [bo_builders]. rewrite NB. cbn [bo_ext bo_print bo_header bo_indent b_print b_ext b_header b_indent]. rewrite ?NE. repeat split; auto. destruct (_ =? _)%Z; lia.
Qed.
Theorem format_files : forall bo o s missing cwd dir filename l fuel, bo_ext bo = None -> bo_builders bo = [] -> (0 <= bo_indent bo)%Z -> ascii_right (bo_print bo) -> SpecFiles.where_to cwd dir <> None ->
  (forall f, o_open o f = disk s missing f) -> o_combine o = false -> o_lexers o = [] -> loose_if o -> book o filename l -> ~ loops l ->
  (forall g, In g l -> pg_errors g = [] /\ formattable (bo_print bo) (pg_tree g) = true /\ has_prefix (pg_file g) "/" = true) -> List.length l <= fuel ->
  exists p s' p', parse_main fuel o filename = ROk p /\ pl_status p = "ok" /\ build_files cwd p dir bo [] s = (s', BFok) /\
    parse_main fuel (with_open o (disk s' missing)) filename = ROk p' /\ same_payload (heading (o_comments o) (bo_header bo)) p p'.
Proof.
  intros bo o s missing cwd dir filename l fuel A1 A2 A3 A4 A5 A6 A7 A8 A9 A10 A11 A12 A13.
  destruct (opts_plain bo A1 A2 A3) as (BP & BE & BH & BI).
  assert (BK : forall op, (forall f c, o_open o f = inl c -> exists c', op f = inl c') -> goes_back (plain_opts (build_opts bo)) o op (fun ds => formattable (bo_print bo) ds = true)
    (fun ds => (bo_header bo && o_comments o)%bool = false /\ writables (bo_print bo) (if o_comments o then on_line else not_note) ds = true)).
  { intros op SAME. rewrite <- BP, <- BH. apply plain_back; auto. now rewrite BP. }
  assert (BT : forall ds, formattable (bo_print bo) ds = true -> exists t, build (plain_opts (build_opts bo)) ds = Some t).
  { intros ds F. rewrite <- BP in F. destruct (built_stored (plain_opts (build_opts bo)) ds ltac:(now rewrite BP) BE BI F) as (t & BD & _). eauto. }
  destruct (files_core bo o s missing cwd dir filename l fuel _ _ A1 BK BT BH A5 A6 A7 A10 A11 A12 A13) as (p & s' & p' & Q1 & Q2 & Q3 & Q4 & Q5 & _).
  exists p, s', p'. exact (conj Q1 (conj Q2 (conj Q3 (conj Q4 Q5)))).
Qed.
Theorem format_files_again : forall bo o s missing cwd dir filename l fuel, bo_ext bo = None -> bo_builders bo = [] -> (0 <= bo_indent bo)%Z -> ascii_right (bo_print bo) -> SpecFiles.where_to cwd dir <> None ->
  (forall f, o_open o f = disk s missing f) -> o_combine o = false -> o_lexers o = [] -> loose_if o -> book o filename l -> ~ loops l ->
  (forall g, In g l -> pg_errors g = [] /\ formattable (bo_print bo) (pg_tree g) = true /\ has_prefix (pg_file g) "/" = true) -> List.length l <= fuel ->
  (bo_header bo && o_comments o)%bool = false -> (forall g, In g l -> writables (bo_print bo) (if o_comments o then on_line else not_note) (pg_tree g) = true) ->
  exists p s' p' s'', parse_main fuel o filename = ROk p /\ build_files cwd p dir bo [] s = (s', BFok) /\
    parse_main fuel (with_open o (disk s' missing)) filename = ROk p' /\ build_files cwd p' dir bo [] s' = (s'', BFok) /\ SpecFiles.same_files (files s'') (files s').
Proof.
  intros bo o s missing cwd dir filename l fuel A1 A2 A3 A4 A5 A6 A7 A8 A9 A10 A11 A12 A13 HK WR.
  destruct (opts_plain bo A1 A2 A3) as (BP & BE & BH & BI).
  assert (BK : forall op, (forall f c, o_open o f = inl c -> exists c', op f = inl c') -> goes_back (plain_opts (build_opts bo)) o op (fun ds => formattable (bo_print bo) ds = true)
    (fun ds => (bo_header bo && o_comments o)%bool = false /\ writables (bo_print bo) (if o_comments o then on_line else not_note) ds = true)).
  { intros op SAME. rewrite <- BP, <- BH. apply plain_back; auto. now rewrite BP. }
  assert (BT : forall ds, formattable (bo_print bo) ds = true -> exists t, build (plain_opts (build_opts bo)) ds = Some t).
  { intros ds F. rewrite <- BP in F. destruct (built_stored (plain_opts (build_opts bo)) ds ltac:(now rewrite BP) BE BI F) as (t & BD & _). eauto. }
  destruct (files_core bo o s missing cwd dir filename l fuel _ _ A1 BK BT BH A5 A6 A7 A10 A11 A12 A13) as (p & s' & p' & Q1 & Q2 & Q3 & Q4 & Q5 & Q6).
  destruct (Q6 (fun g I => conj HK (WR g I))) as (s'' & R1 & R2). exists p, s', p', s''. exact (conj Q1 (conj Q3 (conj Q4 (conj R1 R2)))).
Qed.

(** ** The shipped tables *)
Lemma shipped_if : forallb (fun t => match assoc "if" t with Some ms => forallb (fun m => N.testbit m 12) ms | None => true end) SpecTables.shipped = true.
Proof. vm_compute. reflexivity. Qed.
Lemma shipped_loose : forall o, from_tables o SpecTables.shipped -> loose_if o.
Proof.
  intros o H. right. intros ms m K I. pose proof shipped_if as S. rewrite forallb_forall in S.
  assert (G : forall f l, (f = o_default o /\ o_sources o = [] \/ In f (o_sources o)) -> f "if" = Some l -> In m l -> bit 12 m).
  { intros f l F E J. destruct (H f F) as (t & IT & EQ). specialize (S t IT). rewrite <- (EQ "if"), E in S. rewrite forallb_forall in S. now apply S. }
  destruct K as [[NS D]|(NS & _ & _ & _ & ->)]; [eapply G; eauto|]. apply in_flat_map in I as (f & F & J). destruct (f "if") as [l|] eqn:E; [|destruct J]. eapply G; eauto.
Qed.
