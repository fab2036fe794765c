(** Proofs for C69: formatting files with Lua blocks in place. *)
From Verif Require Export SpecLuaFormat LuaRoundProofs FormatProofs LuaFlatten.
Local Open Scope string_scope.

Lemma lua_blind : forall bo, b_ext bo = lua_builders -> line_blind bo.
Proof.
  intros bo E n bl d A. rewrite E, builders_assoc in A. destruct (mem n lua_names); [|discriminate]. injection A as <-. unfold lua_build. now destruct d.
Qed.
Lemma xplace_step : forall d ds m inc last line, exists l' m' inc' last' line', forall A (stm : Z -> directive -> A),
  xplace stm xbottom m inc last line (d :: ds) = stm l' d :: xplace stm xbottom m' inc' last' line' ds.
Proof. intros. cbn [xplace]. destruct (_ && _)%bool; repeat eexists. Qed.
Lemma xlined_place : forall keep lab lab' ds, Forall (fun d => forall mp mp' line, map lined (xreread keep lab mp line d) = map lined (xreread keep lab' mp' line d)) ds ->
  forall mp mp' m inc last line, map lined (List.concat (xplace (xreread keep lab mp) xbottom m inc last line ds)) = map lined (List.concat (xplace (xreread keep lab' mp') xbottom m inc last line ds)).
Proof.
  intros keep lab lab' ds F. induction F as [|d ds D F IH]; intros mp mp' m inc last line; [reflexivity|]. cbn [xplace]. destruct (_ && _)%bool; cbn [List.concat]; rewrite !map_app; f_equal; auto.
Qed.
Lemma xlined_any : forall keep lab lab' d mp mp' line, map lined (xreread keep lab mp line d) = map lined (xreread keep lab' mp' line d).
Proof.
  intros keep lab lab' d. induction d as [d IH] using dir_ind'. intros mp mp' line. destruct (is_comment d) eqn:C; [destruct d; cbn [xreread]; rewrite C; destruct keep; reflexivity|].
  rewrite !xreread_stmt by auto. unfold xagain. cbn [map lined d_name d_line d_args d_block d_comment]. destruct (d_block d) as [b|]; [|reflexivity]. cbn [opt_list] in IH. do 3 f_equal. now apply xlined_place.
Qed.
Lemma xlined_any_place : forall keep lab lab' ds mp mp' m inc last line,
  map lined (List.concat (xplace (xreread keep lab mp) xbottom m inc last line ds)) = map lined (List.concat (xplace (xreread keep lab' mp') xbottom m inc last line ds)).
Proof. intros. apply xlined_place, Forall_forall. intros d _ mp0 mp1 l. apply xlined_any. Qed.

Section XReplant.
Variables (pr : N -> bool) (AR : ascii_right pr) (ok : spot -> bool) (o : popts) (op : string -> string + string).
Hypothesis (SAME : forall f c, o_open o f = inl c -> exists c', op f = inl c').
Hypothesis (LI : loose_if o).
Notation o' := (with_open o op).
Notation spread := (xplace xplant xbottom).
(** The statement written for a directive: its name, what is to be read as its arguments, no comments inside. *)
Lemma lua_words : forall line d, luab d = true -> words (tl (lua_front line d)) = d_args d /\ remarks (tl (lua_front line d)) [].
Proof.
  intros line d H. unfold luab in H. apply andb_true_iff in H as [_ LA]. unfold lua_front, lua_toks, lua_args in *. destruct (d_name d =? set_by_lua_block).
  - destruct (d_args d) as [|v [|c [|? ?]]]; try discriminate. rewrite !andb_true_iff in LA. destruct LA as [[[_ _] V] _]. apply negb_true_iff in V. cbn [removelast app tl].
    assert (NH : ~ hash (Tok v line false None)) by (intros [_ [r E]]; cbn [t_val] in E; rewrite E in V; destruct r; discriminate).
    assert (NC : forall l, ~ hash (Tok c l true None)) by (intros l [E _]; discriminate).
    unfold words. cbn [filter]. rewrite (hash_word _ NH), (hash_word _ (NC _)). split; [reflexivity|]. apply rm_word; [auto|]. apply rm_word; [auto|]. constructor.
  - destruct (d_args d) as [|c [|? ?]]; try discriminate. cbn [removelast app tl]. assert (NC : forall l, ~ hash (Tok c l true None)) by (intros l [E _]; discriminate).
    unfold words. cbn [filter]. rewrite (hash_word _ (NC _)). split; [reflexivity|]. apply rm_word; [auto|constructor].
Qed.
Lemma xplant_stm : forall l d, is_comment d = false -> lua_writable pr ok d = true -> exists h args tl,
  xplant l d = SStm h args tl (match d_block d with None => None | Some b => Some (spread 0 1 (d_line d) l b, xbottom l d) end)%Z /\
  t_val h = d_name d /\ t_line h = l /\ words args = d_args (written d) /\ remarks args [].
Proof.
  intros l d C W. destruct (lua_dir d) eqn:L.
  - destruct (lw_lua pr ok d W C L) as (LB & NB & _). destruct (lua_words l d LB) as [WA RA]. exists (Tok (d_name d) l false None), (tl (lua_front l d)), (l + newlines (lua_build d))%Z.
    split; [rewrite NB; destruct d; cbn [xplant]; now rewrite C, L|]. split; [reflexivity|]. split; [reflexivity|]. split; [|exact RA]. rewrite WA. unfold written.
    destruct (String.eqb_spec (d_name d) "if") as [E|E]; [|reflexivity]. unfold lua_dir in L. rewrite E in L. vm_compute in L. discriminate.
  - destruct (lw_inv pr ok d W C L) as (WS & _). destruct (stmt_args pr ok (shallow d) AR C WS) as (S & tx & [A1 _ A3 _] & _).
    change (d_name (shallow d)) with (d_name d) in S. change (arg_items (shallow d)) with (arg_items d) in *. change (d_args (written (shallow d))) with (d_args (written d)) in *.
    destruct (planted_words _ l A1) as [PW RM]. do 3 eexists. split; [destruct d; cbn [xplant]; rewrite C, L; reflexivity|]. split; [apply (as_val _ _ S)|]. split; [reflexivity|]. split; [now rewrite PW, A3|exact RM].
Qed.
Lemma xparts : forall d, is_comment d = false -> lua_writable pr ok d = true ->
  (d_name d = "if" -> forallb (SpecRound.kept pr) (d_args d) = true /\ if_ok (d_args d) = true) /\ (forall b, d_block d = Some b -> forallb (lua_writable pr ok) b = true).
Proof.
  intros d C W. destruct (lua_dir d) eqn:L.
  - destruct (lw_lua pr ok d W C L) as (LB & NB & _). split; [|congruence]. intros E. unfold lua_dir in L. rewrite E in L. vm_compute in L. discriminate.
  - destruct (lw_inv pr ok d W C L) as (WS & _ & _ & WB). destruct (writable_parts pr ok (shallow d) C WS) as (KA & IF & _). split; [intros E; split; [exact KA|now apply IF]|]. intros b E. now apply WB.
Qed.
Lemma xplanted_accepts : forall path d d0 h args, is_comment d = false -> lua_writable pr ok d = true -> t_val h = d_name d -> words args = d_args (written d) ->
  d_name d0 = d_name d -> (d_name d <> "if" -> d_args d0 = d_args d) -> accepts o path d0 (term_of d) -> accepts o' path (stm_dir h args) (term_of d).
Proof.
  intros path d d0 h args C W HV WA N A H. apply accepts_open. apply (accepts_ext o path (written d)); [now cbn|now cbn|].
  destruct (String.eqb_spec (d_name d) "if") as [E|E].
  - destruct (proj1 (xparts d C W) E) as [KA IO]. apply (accepts_if pr o path d d0); auto. congruence.
  - apply (accepts_ext o path d0); auto. rewrite (A E). unfold written. apply String.eqb_neq in E. now rewrite E.
Qed.
Lemma xplanted_final : forall d args, is_comment d = false -> lua_writable pr ok d = true -> words args = d_args (written d) -> final_args (d_name d) (words args) (d_args d).
Proof.
  intros d args C W WA. rewrite WA. unfold written. cbn [d_args mkd]. split; intros E.
  - destruct (proj1 (xparts d C W) E) as [KA IO]. rewrite E. change ("if" =? "if") with true. cbv iota. apply prepare_if_result. eapply parens_back; eauto.
  - apply String.eqb_neq in E. now rewrite E.
Qed.
Definition xcomes_back (dir f : string) (path : list string) (K : known) (ds : list directive) (ls : list string) (K' : known) : Prop :=
  forall m inc last line, exists ds', reads o' dir f path K (spread m inc last line ds) ds' [] ls K' /\ map unlined ds' = map unlined ds /\
    map lined ds' = map lined (List.concat (xplace (xreread (o_comments o) "" false) xbottom m inc last line ds)).
Lemma xnotes_back : forall dir f path K ds ls K' ln cs, o_comments o = true -> xcomes_back dir f path K ds ls K' ->
  xcomes_back dir f path K (map (note (label_of o f) ln) cs ++ ds) ls K'.
Proof.
  intros dir f path K ds ls K' ln cs C B. induction cs as [|c cs IH]; [exact B|]. intros m inc last line. cbn [map app].
  destruct (xplace_step (note (label_of o f) ln c) (map (note (label_of o f) ln) cs ++ ds) m inc last line) as (l' & m' & inc' & last' & line' & ST). rewrite !ST.
  destruct (IH m' inc' last' line') as (ds' & R & E & E'). exists ([note (label_of o f) l' c] ++ ds')%list. split.
  - change (xplant l' (note (label_of o f) ln c)) with (SCom (Tok ("#" ++ c) l' false None)).
    pose proof (rd_comment o' dir f path K (Tok ("#" ++ c) l' false None) c _ _ _ _ _ eq_refl R) as X. change (o_comments o') with (o_comments o) in X. rewrite C in X. exact X.
  - cbn [app map List.concat]. rewrite E. split; [reflexivity|]. rewrite map_app, <- E', C. reflexivity.
Qed.
Lemma xnotes_all_back : forall dir f path K ds ls K' ln args ns, notes (o_comments o) (label_of o f) ln args ns -> xcomes_back dir f path K ds ls K' ->
  xcomes_back dir f path K (ns ++ ds) ls K'.
Proof. intros dir f path K ds ls K' ln args ns (cs & _ & ->) B. destruct (o_comments o) eqn:C; [now apply xnotes_back|exact B]. Qed.
Lemma xno_notes : forall args f ln, remarks args [] -> notes (o_comments o') (label_of o' f) ln args [].
Proof. intros args f ln L. exists []. split; [exact L|]. now destruct (o_comments o'). Qed.
Lemma xreplant : forall dir f path K F ds es ls K', reads o dir f path K F ds es ls K' -> es = [] ->
  forallb (lua_writable pr ok) ds = true -> forallb no_if_entry ds = true -> xcomes_back dir f path K ds ls K'.
Proof.
  intros dir f path K F ds es ls K' R. induction R as [path K|path K t c F ds es ls K' T R IH|path K h args l F ds es ls K' M FA R IH|path K h args l body what F ds es ls K' M OB R IH|path K h args l body F ds es ls K' M IG R IH
    |path K h args l body what F ds es ls K' M IG OB UN R IH|path K h args l args' ns F ds es ls K' M IG AC FO FI NO R IH|path K h args l args' b c ns ds1 es1 ls1 K1 F ds es ls K' M IG AC FO FI NO PP R1 IH1 R IH
    |path K h args l arg more fs is ns K1 F ds es ls K' M IG AC FO WD TG MG NU NO R IH|path K h args l arg more m ns F ds es ls K' M IG AC FO WD MG OP NO R IH]; intros ES W NI.
  - intros m inc last line. exists []. split; [constructor|split; reflexivity].
  - destruct (o_comments o) eqn:C.
    + cbn [app] in *. cbn [forallb] in W, NI. apply andb_true_iff in W as [_ W]. apply andb_true_iff in NI as [_ NI].
      apply (xnotes_back dir f path K ds ls K' (t_line t) [c] C). now apply IH.
    + now apply IH.
  - cbn [forallb] in W, NI. apply andb_true_iff in W as [W1 W]. apply andb_true_iff in NI as [NI1 NI]. specialize (IH ES W NI). intros m inc last line.
    set (d := Dir (t_val h) (t_line h) (words args) (label_of o f) None None None true) in *.
    destruct (xplace_step d ds m inc last line) as (l' & m' & inc' & last' & line' & ST). rewrite !ST. destruct (IH m' inc' last' line') as (ds' & R' & E & E').
    assert (C : is_comment d = false) by (unfold is_comment, d; cbn; apply andb_false_r).
    assert (NN : d_name d <> "if"). { cbn [no_if_entry d d_ismap d_name d_block] in NI1. rewrite andb_true_r in NI1. apply negb_true_iff in NI1. cbn [andb] in NI1. now apply String.eqb_neq. }
    destruct (xplant_stm l' d C W1) as (h2 & args2 & tl2 & XP & HV & HL & WA & RM).
    assert (WB : words args2 = words args) by (rewrite WA; unfold written; apply String.eqb_neq in NN; rewrite NN; reflexivity).
    rewrite XP. eexists. split.
    + cbn [d_block d]. eapply (rd_entry o' dir f path K); [exact M| |exact R']. rewrite WB, HV. exact FA.
    + cbn [map List.concat]. rewrite E, WB, HV, HL. cbn [unlined d_name d_args d_file d_includes d_block d_comment d_ismap]. split; [reflexivity|].
      rewrite map_app, <- E', (xreread_stmt _ _ _ _ d C). cbn [map app lined xagain d_name d_line d_args d_block d_comment d]. reflexivity.
  - discriminate.
  - now apply IH.
  - discriminate.
  - cbn [forallb] in W, NI. apply andb_true_iff in W as [W1 W]. apply andb_true_iff in NI as [NI1 NI]. rewrite forallb_app in W, NI. apply andb_true_iff in W as [_ W]. apply andb_true_iff in NI as [_ NI].
    pose proof (xnotes_all_back dir f path K ds ls K' _ _ _ NO (IH ES W NI)) as B. intros m inc last line.
    set (d := Dir (t_val h) (t_line h) args' (label_of o f) None None None false) in *.
    destruct (xplace_step d (ns ++ ds) m inc last line) as (l' & m' & inc' & last' & line' & ST). rewrite !ST. destruct (B m' inc' last' line') as (ds' & R' & E & E').
    assert (C : is_comment d = false) by (unfold is_comment, d; cbn; apply andb_false_r).
    destruct (xplant_stm l' d C W1) as (h2 & args2 & tl2 & XP & HV & HL & WA & RM). change (d_name d) with (t_val h) in HV.
    rewrite XP. exists (Dir (t_val h) l' args' (label_of o f) None None None false :: [] ++ ds')%list. split; [|split; [cbn [app map]; now rewrite E|rewrite (xreread_stmt _ _ _ _ d C); cbn [app map List.concat]; rewrite E'; reflexivity]].
    rewrite <- HV, <- HL. cbn [d_block d].
    refine (rd_simple o' dir f path K h2 args2 tl2 args' [] _ ds' [] ls K' M _ _ _ _ _ R').
    + now rewrite HV.
    + apply (xplanted_accepts path d (stm_dir h args)); auto. cbn. intros NIF. symmetry. now apply FI.
    + rewrite HV. exact FO.
    + rewrite HV. apply (xplanted_final d args2 C W1 WA).
    + now apply xno_notes.
  - apply app_eq_nil in ES as [ES1 ES]. subst es1 es. cbn [forallb] in W, NI. apply andb_true_iff in W as [W1 W]. apply andb_true_iff in NI as [NI1 NI]. rewrite forallb_app in W, NI. apply andb_true_iff in W as [_ W]. apply andb_true_iff in NI as [_ NI].
    pose proof (xnotes_all_back dir f path K1 ds ls K' _ _ _ NO (IH eq_refl W NI)) as B. intros m inc last line.
    set (d := Dir (t_val h) (t_line h) args' (label_of o f) None (Some ds1) None false) in *.
    destruct (xplace_step d (ns ++ ds) m inc last line) as (l' & m' & inc' & last' & line' & ST). rewrite !ST. destruct (B m' inc' last' line') as (ds' & R' & E & E').
    assert (C : is_comment d = false) by (unfold is_comment, d; cbn; apply andb_false_r).
    destruct (xplant_stm l' d C W1) as (h2 & args2 & tl2 & XP & HV & HL & WA & RM). change (d_name d) with (t_val h) in HV.
    destruct (xparts d C W1) as (_ & WB). specialize (WB ds1 eq_refl). cbn [no_if_entry d d_block d_ismap d_name andb] in NI1. cbn [negb andb] in NI1.
    destruct (IH1 eq_refl WB NI1 0%Z 1%Z (d_line d) l') as (ds1' & R1' & E1 & E1').
    rewrite XP. exists (Dir (t_val h) l' args' (label_of o f) None (Some ds1') None false :: [] ++ ds')%list.
    split; [|split; [cbn [app map unlined d_block d_name d_args d_file d_includes d_comment d_ismap d]; now rewrite E, E1|rewrite (xreread_stmt _ _ _ _ d C); unfold xagain; cbn [app map List.concat lined d_name d_line d_args d_block d_comment d];
      rewrite E', E1', (xlined_any_place _ _ "" ds1 (mapb (t_val h)) false); reflexivity]].
    change (@nil goerr) with (@nil goerr ++ @nil goerr)%list.
    rewrite <- HV at 1. cbn [d_block d].
    replace (Dir (t_val h2) l' args' (label_of o f) None (Some ds1') None false) with (Dir (t_val h2) (t_line h2) args' (label_of o f) None (Some ds1') None false) by now rewrite HL.
    refine (rd_block o' dir f path K h2 args2 tl2 args' _ _ [] ds1' [] ls1 K1 _ ds' [] ls K' M _ _ _ _ _ _ _ R').
    + now rewrite HV.
    + apply (xplanted_accepts path d (stm_dir h args)); auto. cbn. intros NIF. symmetry. now apply FI.
    + rewrite HV. exact FO.
    + rewrite HV. apply (xplanted_final d args2 C W1 WA).
    + now apply xno_notes.
    + rewrite HV. exact PP.
    + rewrite HV. exact R1'.
  - cbn [forallb] in W, NI. apply andb_true_iff in W as [W1 W]. apply andb_true_iff in NI as [NI1 NI]. rewrite forallb_app in W, NI. apply andb_true_iff in W as [_ W]. apply andb_true_iff in NI as [_ NI].
    pose proof (xnotes_all_back dir f path K1 ds ls K' _ _ _ NO (IH ES W NI)) as B. intros m inc last line.
    set (d := Dir (t_val h) (t_line h) (words args) (label_of o f) (unless_none is) None None false) in *.
    destruct (xplace_step d (ns ++ ds) m inc last line) as (l' & m' & inc' & last' & line' & ST). rewrite !ST. destruct (B m' inc' last' line') as (ds' & R' & E & E').
    assert (C : is_comment d = false) by (unfold is_comment, d; cbn; apply andb_false_r).
    destruct (xplant_stm l' d C W1) as (h2 & args2 & tl2 & XP & HV & HL & WA & RM). change (d_name d) with (t_val h) in HV.
    assert (NN : d_name d <> "if") by (destruct FO as [FO _]; cbn [d_name d]; rewrite FO; discriminate).
    assert (WB : words args2 = words args) by (rewrite WA; unfold written; apply String.eqb_neq in NN; rewrite NN; reflexivity).
    rewrite XP. exists (Dir (t_val h) l' (words args) (label_of o f) (unless_none is) None None false :: [] ++ ds')%list. split; [|split; [cbn [app map]; now rewrite E|rewrite (xreread_stmt _ _ _ _ d C); cbn [app map List.concat]; rewrite E'; reflexivity]].
    rewrite <- WB, <- HV. replace (Dir (t_val h2) l' (words args2) (label_of o f) (unless_none is) None None false) with (Dir (t_val h2) (t_line h2) (words args2) (label_of o f) (unless_none is) None None false) by now rewrite HL. cbn [d_block d].
    refine (rd_include o' dir f path K h2 args2 tl2 arg more fs is [] K1 _ ds' [] ls K' M _ _ _ _ _ MG NU _ R').
    + now rewrite HV.
    + apply (xplanted_accepts path d (stm_dir h args)); auto.
    + rewrite HV. exact FO.
    + now rewrite WB.
    + apply targets_open; auto.
    + now apply xno_notes.
  - discriminate.
Qed.
End XReplant.

(** ** The end of the text *)
Definition xend (d : directive) : lexeme := if lua_dir d then Sep "}" else end_lexeme d.
Lemma lua_build_end : forall d, luab d = true -> exists u, lua_build d = u ++ "}".
Proof.
  intros d H. unfold luab in H. apply andb_true_iff in H as [_ LA]. unfold lua_args, lua_build in *. destruct (d_name d =? set_by_lua_block).
  - destruct (d_args d) as [|v [|c [|? ?]]]; try discriminate. exists (d_name d ++ " " ++ v ++ " {" ++ c). now rewrite !app_assoc_s.
  - destruct (d_args d) as [|c [|? ?]]; try discriminate. exists (d_name d ++ " {" ++ c). now rewrite !app_assoc_s.
Qed.
Lemma xitems_end : forall pr ok mg depth g d, lua_writable pr ok d = true -> exists a, xtext (xitems mg depth g d) = a ++ lexeme_src (xend d).
Proof.
  intros pr ok mg depth g d W. unfold xend. destruct (is_comment d) eqn:C.
  - rewrite (comment_lua d C). unfold end_lexeme. rewrite C. destruct d as [nm ln args file inc blk cm mp]. cbn [xitems]. rewrite C. cbn [xtext]. rewrite app_nil_r_s. eauto.
  - destruct (lua_dir d) eqn:L.
    + destruct (lw_lua pr ok d W C L) as (LB & _). destruct (lua_build_end d LB) as [u E]. destruct d as [nm ln args file inc blk cm mp]. cbn [xitems]. rewrite C, L. cbn [xtext]. rewrite E, app_nil_r_s. exists (concat_str g ++ u). now rewrite app_assoc_s.
    + unfold end_lexeme. rewrite C. destruct d as [nm ln args file inc blk cm mp]. cbn [xitems]. rewrite C, L. cbn [d_block]. destruct blk as [b|].
      * rewrite !xtext_app. cbn [xtext]. rewrite app_nil_r_s. eexists. rewrite <- !app_assoc_s. reflexivity.
      * rewrite map_app, xtext_app. cbn [map xtext]. rewrite app_nil_r_s. eexists. reflexivity.
Qed.
Lemma xloop_end : forall pr ok mg ds d, lua_writable pr ok d = true -> forall gm g last, exists a, xtext (xloop (xitems mg 0) (nlg mg 0) gm g last (ds ++ [d])) = a ++ lexeme_src (xend d).
Proof.
  intros pr ok mg ds d W. induction ds as [|e ds IH]; intros gm g last; cbn [app xloop].
  - destruct (_ && _)%bool eqn:M.
    + apply andb_true_iff in M as [_ C]. unfold xend. rewrite (comment_lua d C). unfold end_lexeme. rewrite C. cbn [xtext]. rewrite app_nil_r_s. eauto.
    + rewrite app_nil_r. eapply xitems_end; eauto.
  - destruct (_ && _)%bool.
    + match goal with |- context [xloop _ _ ?gm0 ?g0 ?l0 (ds ++ [d])%list] => destruct (IH gm0 g0 l0) as [a E] end. cbn [xtext]. rewrite E, <- !app_assoc_s. eauto.
    + match goal with |- context [xloop _ _ ?gm0 ?g0 ?l0 (ds ++ [d])%list] => destruct (IH gm0 g0 l0) as [a E] end. rewrite xtext_app, E, <- app_assoc_s. eauto.
Qed.
Lemma xend_not_blank : forall pr d, lua_writable pr not_note d = true -> (is_comment d && ends_white (comment_text d))%bool = false -> forall a, ~ ends_blank (a ++ lexeme_src (xend d)).
Proof.
  intros pr d W E a. destruct (is_comment d) eqn:C.
  - unfold xend. rewrite (comment_lua d C). apply (end_not_blank pr).
    + pose proof (lw_note pr not_note d W C) as N. destruct d as [nm ln args file inc blk cm mp]. cbn [lua_writable writable] in *. rewrite C in *. cbn [d_args d_block] in *. exact W.
    + now rewrite C.
  - assert (X : forall c, mem c [";"; "}"] = true -> ~ ends_blank (a ++ lexeme_src (Sep c))).
    { intros c M. apply mem_In in M. destruct M as [<-|[<-|[]]]; (apply tail_not_blank; [apply boundary_ascii; vm_compute; reflexivity|discriminate|]); intros (r & l & R & S); vm_compute in R;
      (destruct l as [|y l]; [injection R as <-; discriminate|destruct l; discriminate]). }
    unfold xend, end_lexeme. rewrite C. destruct (lua_dir d); [now apply X|]. destruct (d_block d); now apply X.
Qed.
Lemma xbuilt_stored : forall o ds, ascii_right (b_print o) -> b_ext o = lua_builders -> (0 <= b_indent o)%Z -> lua_formattable (b_print o) ds = true ->
  exists text, build o ds = Some text /\ Forall wf_stmt (xforest_of (b_header o) ds) /\ forall c, stored text c -> lex lua_lexers c = flat (xforest_of (b_header o) ds).
Proof.
  intros o ds AR NE IN FM. unfold lua_formattable in FM. rewrite !andb_true_iff in FM. destruct FM as [[W _] K]. destruct (xbuilt_full o ds AR NE IN W) as (text & B & L & F & EM & EN). exists text. split; auto. split; auto.
  intros c [->|(t & T & ->)].
  - specialize (L [] (or_introl eq_refl)). cbn [concat_str] in L. now rewrite app_nil_r_s in L.
  - apply trim_right_iff in T. subst t. destruct ds as [|d ds].
    + rewrite (EM eq_refl). unfold xforest_of. destruct (b_header o); vm_compute; reflexivity.
    + destruct EN as (a & gm & g & EN); [discriminate|]. unfold lua_writables in W. apply andb_true_iff in W as [_ W].
      assert (NB : ~ ends_blank text).
      { rewrite EN. destruct (@exists_last _ (d :: ds)) as (r & e & Q); [discriminate|]. rewrite Q in *. unfold last_kept in K. rewrite rev_unit in K. apply negb_true_iff in K. rewrite forallb_app in W. apply andb_true_iff in W as [_ W]. cbn [forallb] in W. rewrite andb_true_r in W.
        destruct (xloop_end (b_print o) not_note (margin_gap o) r e W gm g 0%Z) as [u E]. rewrite E, <- app_assoc_s. now apply (xend_not_blank (b_print o)). }
      rewrite (proj1 (trim_right_iff text text) (trimmed_r _ NB)). specialize (L [s_nl] (or_intror eq_refl)). exact L.
Qed.
Lemma xforest_head : forall (header : bool) ds, exists m inc line, xforest_of header ds = ((if header then head_stmts else []) ++ xplace xplant xbottom m inc 0 line ds)%list /\
  forall keep lab, xround_tree keep header lab ds = ((if header then head_dirs keep lab else []) ++ List.concat (xplace (xreread keep lab false) xbottom m inc 0 line ds))%list.
Proof. intros [] ds; unfold xforest_of, xround_tree; do 3 eexists; split; reflexivity. Qed.
Lemma lua_back : forall bo o op, ascii_right (b_print bo) -> b_ext bo = lua_builders -> (0 <= b_indent bo)%Z -> o_combine o = false -> o_lexers o = lua_lexers -> loose_if o ->
  (forall f c, o_open o f = inl c -> exists c', op f = inl c') ->
  goes_back bo o op (fun ds => lua_formattable (b_print bo) ds = true)
    (fun ds => (b_header bo && o_comments o)%bool = false /\ lua_writables (b_print bo) (if o_comments o then on_line else not_note) ds = true).
Proof.
  intros bo o op AR NE IN CM NL LI SAME dir f path K F ds ls K' text c R FM BD ST.
  destruct (xbuilt_stored bo ds AR NE IN FM) as (text0 & BD0 & WF0 & LX0). rewrite BD in BD0. injection BD0 as <-. specialize (LX0 c ST).
  pose proof FM as FM0. unfold lua_formattable, lua_writables in FM0. rewrite !andb_true_iff in FM0. destruct FM0 as [[[_ W] NI] _].
  destruct (xforest_head (b_header bo) ds) as (m & inc & line & FH & RT).
  destruct (xreplant (b_print bo) AR not_note o op SAME LI dir f path K F ds [] ls K' R eq_refl W NI m inc 0%Z line) as (ds1 & R1 & E1 & L1).
  destruct (head_back o op dir f path K _ ds1 ls K' (b_header bo) CM R1) as (ds2 & R2 & E2 & L2). rewrite <- FH in R2. rewrite E1 in E2.
  exists (xforest_of (b_header bo) ds), ds2. rewrite NL. split; [exact LX0|]. split; [exact WF0|]. split; [exact R2|]. split; [exact E2|]. intros [HK WR].
  assert (H5 : map lined ds2 = map lined (xround_tree (o_comments o) (b_header bo) "" ds)) by now rewrite L2, L1, RT, map_app.
  rewrite (build_lined bo _ _ (lua_blind bo NE) IN H5). apply tree_of_rows; auto. rewrite (xround_rows bo (o_comments o) "" ds AR NE HK WR).
  unfold kept_tree. destruct (o_comments o) eqn:C; auto. now rewrite quiet_silents by (eapply reads_silent; eauto).
Qed.
Theorem lua_format : forall bo o op filename l fuel, ascii_right (b_print bo) -> b_ext bo = apply_builders [(lua_build, lua_names)] -> (0 <= b_indent bo)%Z ->
  o_combine o = false -> o_lexers o = apply_lexers [(lua_lex, lua_names)] -> loose_if o -> book o filename l -> ~ loops l ->
  (forall g, In g l -> pg_errors g = [] /\ lua_formattable (b_print bo) (pg_tree g) = true) -> formatted bo o l op -> List.length l <= fuel ->
  exists p p', parse_main fuel o filename = ROk p /\ parse_main fuel (with_open o op) filename = ROk p' /\ pl_status p = "ok" /\ map cf_parsed (pl_config p) = map pg_tree l /\
    same_payload (heading (o_comments o) (b_header bo)) p p' /\
    ((b_header bo && o_comments o)%bool = false -> (forall g, In g l -> lua_writables (b_print bo) (if o_comments o then on_line else not_note) (pg_tree g) = true) ->
     map (fun c => (cf_file c, build bo (cf_parsed c))) (pl_config p') = map (fun g => (pg_file g, build bo (pg_tree g))) l).
Proof.
  intros bo o op filename l fuel A1 A2 A3 A4 A5 A6 A7 A8 A9 A10 A11. destruct (format_core bo o op filename l fuel _ _ (lua_back bo o op A1 A2 A3 A4 A5 A6) A4 A7 A8 A9 A10 A11) as (p & p' & Q1 & Q2 & Q3 & Q4 & Q5 & Q6).
  exists p, p'. do 5 (split; [assumption|]). intros HK WR. apply Q6. intros g I. split; auto.
Qed.
Lemma opts_lua : forall bo, bo_ext bo = None -> bo_builders bo = [(lua_build, lua_names)] -> (0 <= bo_indent bo)%Z ->
  let b := plain_opts (build_opts bo) in b_print b = bo_print bo /\ b_ext b = lua_builders /\ b_header b = bo_header bo /\ (0 <= b_indent b)%Z.
Proof.
  intros bo NE NB IN. cbv zeta. unfold build_opts, plain_opts. cbn [bo_ext]. rewrite NE. unfold register_all. cbn [bo_builders]. rewrite NB. cbn [bo_ext bo_print bo_header bo_indent b_print b_ext b_header b_indent]. rewrite ?NE. repeat split; auto. destruct (_ =? _)%Z; lia.
Qed.
Theorem lua_format_files : forall bo o s missing cwd dir filename l fuel, bo_ext bo = None -> bo_builders bo = [(lua_build, lua_names)] -> (0 <= bo_indent bo)%Z -> ascii_right (bo_print bo) -> SpecFiles.where_to cwd dir <> None ->
  (forall f, o_open o f = disk s missing f) -> o_combine o = false -> o_lexers o = apply_lexers [(lua_lex, lua_names)] -> loose_if o -> book o filename l -> ~ loops l ->
  (forall g, In g l -> pg_errors g = [] /\ lua_formattable (bo_print bo) (pg_tree g) = true /\ has_prefix (pg_file g) "/" = true) -> List.length l <= fuel ->
  exists p s' p', parse_main fuel o filename = ROk p /\ pl_status p = "ok" /\ build_files cwd p dir bo [] s = (s', BFok) /\
    parse_main fuel (with_open o (disk s' missing)) filename = ROk p' /\ same_payload (heading (o_comments o) (bo_header bo)) p p' /\
    ((bo_header bo && o_comments o)%bool = false -> (forall g, In g l -> lua_writables (bo_print bo) (if o_comments o then on_line else not_note) (pg_tree g) = true) ->
     exists s'', build_files cwd p' dir bo [] s' = (s'', BFok) /\ SpecFiles.same_files (files s'') (files s')).
Proof.
  intros bo o s missing cwd dir filename l fuel A1 A2 A3 A4 A5 A6 A7 A8 A9 A10 A11 A12 A13. destruct (opts_lua bo A1 A2 A3) as (BP & BE & BH & BI).
  assert (BK : forall op, (forall f c, o_open o f = inl c -> exists c', op f = inl c') -> goes_back (plain_opts (build_opts bo)) o op (fun ds => lua_formattable (bo_print bo) ds = true)
    (fun ds => (bo_header bo && o_comments o)%bool = false /\ lua_writables (bo_print bo) (if o_comments o then on_line else not_note) ds = true)).
  { intros op SAME. rewrite <- BP, <- BH. apply lua_back; auto. now rewrite BP. }
  assert (BT : forall ds, lua_formattable (bo_print bo) ds = true -> exists t, build (plain_opts (build_opts bo)) ds = Some t).
  { intros ds F. rewrite <- BP in F. destruct (xbuilt_stored (plain_opts (build_opts bo)) ds ltac:(now rewrite BP) BE BI F) as (t & BD & _). eauto. }
  destruct (files_core bo o s missing cwd dir filename l fuel _ _ A1 BK BT BH A5 A6 A7 A10 A11 A12 A13) as (p & s' & p' & Q1 & Q2 & Q3 & Q4 & Q5 & Q6).
  exists p, s', p'. do 5 (split; [assumption|]). intros HK WR. apply Q6. intros g I. split; auto.
Qed.
