(** C68: built text with Lua blocks as items, and its tokens as a forest. *)
From Verif Require Export LuaLayout.
Local Open Scope string_scope.

(** ** Items *)
Section XLoop.
  Variable items : gap -> directive -> list xitem.
  Variable g' : gap.
  Fixpoint xloop (gm g : gap) (last : Z) (ds : list directive) : list xitem :=
    match ds with
    | [] => []
    | d :: r =>
      if (Z.eqb (d_line d) last && is_comment d)%bool then XI (gm, Note (arg_pieces (comment_text d))) :: xloop one g' last r
      else (items g d ++ xloop one g' (if lua_dir d then last else d_line d) r)%list
    end.
End XLoop.
Section XItems.
  Variable mg : nat -> gap.
  Fixpoint xitems (depth : nat) (g : gap) (d : directive) {struct d} : list xitem :=
    if is_comment d then [XI (g, Note (arg_pieces (comment_text d)))]
    else if lua_dir d then [XL g d]
    else match d_block d with
         | None => map XI (head_items g d ++ [([], Sep ";")])
         | Some b => (map XI (head_items g d ++ [(one, Sep "{")]) ++
                      xloop (xitems (S depth)) (nlg mg (S depth)) one (nlg mg (S depth)) (d_line d) b ++ [XI (nlg mg depth, Sep "}")])%list
         end.
End XItems.

(** ** Forests *)
Section XPlace.
  Variables (A : Type) (stm : Z -> directive -> A) (bot : Z -> directive -> Z).
  Fixpoint xplace (m inc last line : Z) (ds : list directive) : list A :=
    match ds with
    | [] => []
    | d :: r =>
      if (Z.eqb (d_line d) last && is_comment d)%bool then stm (line + m)%Z d :: xplace 0 1 last (line + m) r
      else stm (line + inc)%Z d :: xplace 0 1 (if lua_dir d then last else d_line d) (bot (line + inc)%Z d) r
    end.
  Fixpoint xpend (m inc last line : Z) (ds : list directive) : Z :=
    match ds with
    | [] => line
    | d :: r =>
      if (Z.eqb (d_line d) last && is_comment d)%bool then xpend 0 1 last (line + m) r
      else xpend 0 1 (if lua_dir d then last else d_line d) (bot (line + inc)%Z d) r
    end.
End XPlace.
Arguments xplace {A}.
Fixpoint xbottom (line : Z) (d : directive) {struct d} : Z :=
  if is_comment d then line
  else if lua_dir d then (line + newlines (lua_build d))%Z
  else match d_block d with None => line | Some b => (xpend xbottom 0 1 (d_line d) line b + 1)%Z end.
Definition lua_stmt (line : Z) (d : directive) : stmt :=
  SStm (Tok (d_name d) line false None) (tl (lua_front line d)) (line + newlines (lua_build d)) None.
Fixpoint xplant (line : Z) (d : directive) {struct d} : stmt :=
  if is_comment d then SCom (Tok ("#" ++ comment_text d) line false None)
  else if lua_dir d then lua_stmt line d
  else SStm (atok line (arg_lex (d_name d))) (map (fun gx => atok line (snd gx)) (arg_items d)) line
         (match d_block d with None => None | Some b => Some (xplace xplant xbottom 0 1 (d_line d) line b, xbottom line d) end).
Lemma lua_stmt_toks : forall line d, luab d = true -> lua_toks line d = stmt_toks (lua_stmt line d).
Proof.
  intros line d H. destruct (lua_front_spec line d H) as (pre & code & F & T). rewrite T. unfold lua_stmt. cbn [stmt_toks].
  assert (E : lua_front line d = Tok (d_name d) line false None :: tl (lua_front line d)).
  { unfold lua_front, lua_toks. destruct ((if d_name d =? set_by_lua_block then _ else _) ++ _)%list as [|x y] eqn:Q; [destruct (d_name d =? set_by_lua_block); destruct (d_args d) as [|v [|c l]]; discriminate|reflexivity]. }
  rewrite E at 1. reflexivity.
Qed.

Lemma comment_lua : forall d, is_comment d = true -> lua_dir d = false.
Proof. intros d C. unfold is_comment in C. apply andb_true_iff in C as [E _]. apply String.eqb_eq in E. unfold lua_dir. rewrite E. vm_compute. reflexivity. Qed.

(** ** A statement that is no Lua directive *)
Definition shallow (d : directive) : directive := Dir (d_name d) (d_line d) (d_args d) (d_file d) (d_includes d) None (d_comment d) (d_ismap d).
Section Spec.
Variables (pr : N -> bool) (AR : ascii_right pr).
Lemma lw_inv : forall ok d, lua_writable pr ok d = true -> is_comment d = false -> lua_dir d = false ->
  writable pr ok (shallow d) = true /\ clear (d_name d) = true /\ forallb clear (d_args d) = true /\
  (forall b, d_block d = Some b -> lua_apart ok (d_line d) Opening b = true /\ forallb (lua_writable pr ok) b = true).
Proof.
  intros ok d W C L. destruct d as [nm ln args file inc blk cm mp]. cbn [lua_writable] in W. rewrite C, L in W. cbn [d_comment d_name d_args d_block d_line] in *. rewrite !andb_true_iff in W.
  destruct W as [CM [[[[KN CN] A] IF] B]]. assert (C' : is_comment (Dir nm ln args file inc None cm mp) = false) by exact C.
  assert (KA : forallb (kept pr) args = true /\ forallb clear args = true).
  { rewrite !forallb_forall in *. split; intros x I; specialize (A x I); apply andb_true_iff in A; tauto. }
  split; [|split; [auto|split; [tauto|]]].
  - unfold shallow. cbn [d_name d_line d_args d_file d_includes d_comment d_ismap writable]. rewrite C'. cbn [d_comment d_name d_args d_block]. rewrite CM, KN, (proj1 KA), IF. reflexivity.
  - intros b E. subst blk. apply andb_true_iff in B. tauto.
Qed.
Lemma clear_paren : forall a, clear a = true -> clear (a ++ ")") = true.
Proof.
  intros a H. unfold clear in *. rewrite forallb_forall in *. intros n I. specialize (H n I). apply negb_true_iff in H. apply negb_true_iff. apply not_true_iff_false. intros P.
  apply prefix_iff in P as [x X].
  assert (NP : str_exists (Ascii.eqb ")"%char) n = false).
  { assert (Y : forallb (fun n => negb (str_exists (Ascii.eqb ")"%char) n)) lua_names = true) by (vm_compute; reflexivity). rewrite forallb_forall in Y. now apply negb_true_iff, Y. }
  assert (PF : forall n a x, a ++ ")" = n ++ x -> str_exists (Ascii.eqb ")"%char) n = false -> prefix n a = true).
  { clear. induction n as [|c n IH]; intros a x E N; [now destruct a|]. destruct a as [|k a].
    - cbn [String.append] in E. injection E as <- _. cbn in N. discriminate.
    - cbn [String.append] in E. injection E as -> E. cbn [str_exists] in N. apply orb_false_iff in N as [_ N]. cbn [prefix]. destruct (ascii_dec c c); [|congruence]. eapply IH; eauto. }
  rewrite (PF n a x X NP) in H. discriminate.
Qed.
Lemma clear_first : forall c s, forallb (fun n => match n with String k _ => negb (Ascii.eqb c k) | _ => false end) lua_names = true -> clear (String c s) = true.
Proof.
  intros c s H. unfold clear. rewrite forallb_forall in *. intros n I. specialize (H n I). destruct n as [|k n]; [discriminate|]. apply negb_true_iff in H. apply negb_true_iff. cbn [prefix]. destruct (ascii_dec k c) as [->|]; auto. now rewrite Ascii.eqb_refl in H.
Qed.
Lemma clear_open : forall s, clear (String "("%char s) = true.
Proof. intros s. apply clear_first. vm_compute. reflexivity. Qed.
Lemma clear_note : forall s, clear (String "#"%char s) = true.
Proof. intros s. apply clear_first. vm_compute. reflexivity. Qed.
Lemma parens_clear : forall l, forallb clear l = true -> forallb clear (parens l) = true.
Proof.
  assert (CL : forall l, forallb clear l = true -> forallb clear (close l) = true); [|intros l H; destruct l as [|a [|b r]]; auto; cbn [parens forallb String.append]; rewrite clear_open; cbn [forallb] in H; apply andb_true_iff in H as [_ H]; exact (CL (b :: r) H)].
  induction l as [|a l IH]; intros H; auto. cbn [forallb] in H. apply andb_true_iff in H as [H1 H2]. destruct l as [|b l].
  - cbn [close]. destruct (needs_quote a); cbn [forallb]; rewrite ?H1, ?clear_paren by auto; reflexivity.
  - change (close (a :: b :: l)) with (a :: close (b :: l)). cbn [forallb]. rewrite H1. exact (IH H2).
Qed.
Lemma xhead_chain : forall ok d g prev line, is_comment d = false -> lua_dir d = false -> lua_writable pr ok d = true -> gap_ok g = true -> row_ok prev g ->
  chain prev (head_items g d) = true /\ (exists x, lastl prev (head_items g d) = Some x /\ arglike x) /\
  tokens_of line (head_items g d) = atok (line + newl g) (arg_lex (d_name d)) :: map (fun gx => atok (line + newl g) (snd gx)) (arg_items d) /\
  after line (head_items g d) = (line + newl g)%Z /\ clears (head_items g d) = true.
Proof.
  intros ok d g prev line C LD W G R. destruct (lw_inv ok d W C LD) as (WS & CN & CA & _).
  assert (CS : is_comment (shallow d) = false) by exact C.
  assert (HI : head_items g (shallow d) = head_items g d) by reflexivity.
  destruct (head_chain pr AR ok (shallow d) g prev line CS WS G R) as (H1 & H2 & H3 & H4). rewrite HI in *. split; [auto|]. split; [auto|]. split; [exact H3|]. split; [auto|].
  destruct (stmt_args pr ok (shallow d) AR CS WS) as (S & t & [A1 A2 A3 A4] & _).
  unfold clears, head_items. cbn [forallb snd]. change (d_name d) with (d_name (shallow d)) at 1. rewrite (as_val _ _ S). change (d_name (shallow d)) with (d_name d). rewrite CN. cbn [andb].
  assert (FV : forallb clear (map (fun gx : item_ => lexeme_val (snd gx)) (arg_items d)) = true).
  { change (arg_items d) with (arg_items (shallow d)). rewrite A3. unfold written. cbn [d_args mkd d_name shallow]. change (d_name (shallow d)) with (d_name d). change (d_args (shallow d)) with (d_args d). destruct (d_name d =? "if"); auto. now apply parens_clear. }
  rewrite forallb_forall in *. intros gx I. apply FV. apply in_map_iff. exists gx. auto.
Qed.

(** ** Tokens *)
Variables (mg : nat -> gap) (MG : forall k, gap_ok (mg k) = true /\ newl (mg k) = 0%Z).
Definition xspec (d : directive) : Prop := forall depth g prev line, gap_ok g = true -> row_ok prev g ->
  xchain prev (xitems mg depth g d) = true /\
  (exists x, xlast prev (xitems mg depth g d) = Some x /\ match x with Sep _ => is_comment d = false | Note _ => is_comment d = true | _ => False end) /\
  xtokens line (xitems mg depth g d) = stmt_toks (xplant (line + newl g) d) /\
  xafter line (xitems mg depth g d) = xbottom (line + newl g) d.
Lemma note_clear : forall c, clear (lexeme_val (Note c)) = true.
Proof. intros c. apply clear_note. Qed.
Lemma row_rest : forall prev g, row_ok prev g -> resting prev = true /\ fits prev g (Some (Word [Raw "x"])) = true.
Proof. intros [[ps|q ps|c|ps]|] g H; cbn in *; try contradiction; auto. destruct H as [r ->]. auto. Qed.
Lemma xloop_spec : forall ds depth, Forall xspec ds -> Forall (fun d => is_comment d = true -> note_ok (comment_text d) = true) ds ->
  forall gm g last s prev line, lua_apart not_note last s ds = true -> gap_ok gm = true -> gap_ok g = true ->
  row_ok prev g -> (not_note s = true -> row_ok prev gm) ->
  let L := xloop (xitems mg depth) (nlg mg depth) gm g last ds in
  xchain prev L = true /\ match xlast prev L with Some (Word _) | Some (Quoted _ _) => False | _ => True end /\
  xtokens line L = flat (xplace xplant xbottom (newl gm) (newl g) last line ds) /\
  xafter line L = xpend xbottom (newl gm) (newl g) last line ds.
Proof.
  intros ds depth SP. induction SP as [|d ds S SP IH]; intros NO gm g last s prev line AP GM G R RM.
  - cbn. split; [reflexivity|]. split; [destruct prev as [[| | |]|]; auto|]. split; reflexivity.
  - inversion NO as [|? ? N NO']; subst. specialize (IH NO'). cbv zeta in *. cbn [xloop lua_apart xplace xpend] in *.
    assert (ONE : newl one = 0%Z) by reflexivity. assert (OK1 : gap_ok one = true) by reflexivity. destruct (nlg_ok mg MG depth None) as (GN & NN & _).
    destruct (Z.eqb (d_line d) last && is_comment d)%bool eqn:M.
    + apply andb_true_iff in M as [_ C]. apply andb_true_iff in AP as [S1 AP]. destruct (note_arg _ (N C)) as (E & OK & NL & _).
      cbn [xchain xlast xtokens xafter]. rewrite GM, OK, (row_fits _ _ _ (RM S1)), note_clear.
      destruct (IH one (nlg mg depth) last AfterNote (Some (Note (arg_pieces (comment_text d)))) (line + newl gm)%Z AP OK1 GN) as (I1 & I2 & I3 & I4).
      { now apply nlg_ok. }
      { discriminate. }
      rewrite ONE, NN in I3, I4. fold (newl gm). rewrite E, NL, Z.add_0_r, I3, I4. split; [exact I1|]. split; [exact I2|]. split; [|reflexivity].
      assert (PL : xplant (line + newl gm) d = SCom (Tok ("#" ++ comment_text d) (line + newl gm) false None)) by (destruct d; cbn [xplant]; now rewrite C).
      unfold flat. cbn [flat_map]. rewrite PL. cbn [stmt_toks app]. f_equal. f_equal. exact E.
    + destruct (S depth g prev line G R) as (S1 & (x & S2 & SX) & S3 & S4). rewrite xchain_app, xlast_app, xtokens_app, xafter_app, S1, S2, S3, S4.
      destruct (IH one (nlg mg depth) (if lua_dir d then last else d_line d) (lua_spot d) (Some x) (xbottom (line + newl g) d) AP OK1 GN) as (I1 & I2 & I3 & I4).
      { apply nlg_ok; auto. destruct x; auto. }
      { intros NT. assert (NC : is_comment d = false) by (unfold lua_spot in NT; destruct (lua_dir d) eqn:LD; [destruct (is_comment d) eqn:C; auto; rewrite (comment_lua d C) in LD; discriminate|now apply spot_note]). destruct x; cbn; auto; congruence. }
      rewrite ONE, NN in I3, I4. rewrite I1, I3, I4. split; [reflexivity|]. split; [exact I2|]. split; reflexivity.
Qed.
Lemma lw_note : forall ok d, lua_writable pr ok d = true -> is_comment d = true -> note_ok (comment_text d) = true.
Proof. intros ok d W C. destruct d as [nm ln args file inc blk cm mp]. cbn [lua_writable] in W. rewrite C in W. now rewrite !andb_true_iff in W. Qed.
Lemma lw_lua : forall ok d, lua_writable pr ok d = true -> is_comment d = false -> lua_dir d = true -> luab d = true /\ d_block d = None /\ d_comment d = None.
Proof.
  intros ok d W C L. destruct d as [nm ln args file inc blk cm mp]. cbn [lua_writable] in W. rewrite C, L in W. cbn [d_block d_comment] in *. rewrite !andb_true_iff in W. destruct W as [CM [A B]].
  split; [unfold luab; now rewrite L, A|]. split; [now destruct blk|now destruct cm].
Qed.
Lemma xitems_spec : forall d, lua_writable pr not_note d = true -> xspec d.
Proof.
  intros d. induction d as [d IH] using dir_ind'. intros W depth g prev line G R. destruct (is_comment d) eqn:C; [|destruct (lua_dir d) eqn:LD].
  - destruct (note_arg _ (lw_note _ d W C)) as (E & OK & NL & _). destruct d as [nm ln args file inc blk cm mp]. cbn [xitems xplant xbottom]. rewrite C.
    cbn [xchain xlast xtokens xafter]. rewrite G, OK, (row_fits _ _ _ R), note_clear. rewrite E, NL, Z.add_0_r. fold (newl g). split; [reflexivity|]. split; [eexists; split; [reflexivity|exact eq_refl]|]. split; [|reflexivity].
    cbn [stmt_toks]. match goal with |- context [lexeme_val (Note ?x)] => change (lexeme_val (Note x)) with (lexeme_src (Note x)) end. now rewrite E.
  - destruct (lw_lua _ d W C LD) as (LB & NB & _). destruct (row_rest prev g R) as [RS F].
    assert (XI0 : xitems mg depth g d = [XL g d]) by (destruct d; cbn [xitems]; now rewrite C, LD).
    assert (XP : xplant (line + newl g) d = lua_stmt (line + newl g) d) by (destruct d; cbn [xplant]; now rewrite C, LD).
    assert (XB : xbottom (line + newl g) d = (line + newl g + newlines (lua_build d))%Z) by (destruct d; cbn [xbottom]; now rewrite C, LD).
    rewrite XI0, XP, XB. cbn [xchain xlast xtokens xafter]. rewrite G, RS, F, LB. fold (newl g). split; [reflexivity|]. split; [eexists; split; reflexivity|]. split; [|reflexivity]. rewrite app_nil_r. now apply lua_stmt_toks.
  - destruct (xhead_chain not_note d g prev line C LD W G R) as (H1 & (x & H2 & LX) & H3 & H4 & H5). destruct (lw_inv _ d W C LD) as (_ & _ & _ & WB).
    assert (FS : fits (Some x) [] (Some (Sep ";")) = true) by (destruct x as [ps|q ps|c|ps], LX as (_ & _ & LX); cbn in *; auto; rewrite LX; cbn; now rewrite andb_false_r).
    assert (FB : fits (Some x) one (Some (Sep "{")) = true) by now apply one_fits.
    destruct d as [nm ln args file inc blk cm mp]. cbn [d_block d_line] in *.
    cbn [xitems]. rewrite C, LD. cbn [d_block d_line]. destruct blk as [b|].
    + destruct (WB b eq_refl) as [AP WB']. rewrite forallb_forall in WB'. cbn [opt_list] in IH.
      assert (SP : Forall xspec b) by (rewrite Forall_forall in *; intros e I; apply IH; auto).
      assert (NO : Forall (fun d => is_comment d = true -> note_ok (comment_text d) = true) b) by (rewrite Forall_forall; intros e I; apply (lw_note not_note); auto).
      destruct (nlg_ok mg MG (S depth) (Some (Sep "{"))) as (GN & NN & RN). destruct (nlg_ok mg MG depth None) as (GN0 & NN0 & _).
      rewrite xchain_app, xlast_app, xtokens_app, xafter_app, xchain_items, xlast_items, xtokens_items, xafter_items, chain_app, lastl_app, tokens_app, after_app, H1, H2, H3, H4. cbn [chain lastl tokens_of after]. rewrite FB.
      assert (CL : clears (head_items g (Dir nm ln args file inc (Some b) cm mp) ++ [(one, Sep "{")]) = true) by (unfold clears in *; rewrite forallb_app, H5; reflexivity).
      rewrite CL. change (newlines (concat_str one)) with 0%Z. change (newlines (lexeme_src (Sep "{"))) with 0%Z. rewrite !Z.add_0_r.
      set (L := (line + newl g)%Z) in *.
      destruct (xloop_spec b (S depth) SP NO one (nlg mg (S depth)) ln Opening (Some (Sep "{")) L AP eq_refl GN (RN I) (fun _ => I)) as (I1 & I2 & I3 & I4).
      rewrite NN in I3, I4. change (newl one) with 0%Z in I3, I4.
      rewrite xchain_app, xlast_app, xtokens_app, xafter_app, I1, I3, I4. cbn [xchain xlast xtokens xafter]. rewrite GN0.
      assert (RO : row_ok (xlast (Some (Sep "{")) (xloop (xitems mg (S depth)) (nlg mg (S depth)) one (nlg mg (S depth)) ln b)) (nlg mg depth)) by (now apply nlg_ok).
      rewrite (row_fits _ _ (Sep "}") RO). fold (newl (nlg mg depth)). rewrite NN0. change (newlines (lexeme_src (Sep "}"))) with 0%Z. rewrite Z.add_0_r.
      split; [reflexivity|]. split; [eexists; split; reflexivity|].
      cbn [xplant xbottom]; rewrite C, LD; cbn [d_block d_line]. split; [|reflexivity]. cbn [stmt_toks app]. f_equal. rewrite <- app_assoc. reflexivity.
    + rewrite xchain_items, xlast_items, xtokens_items, xafter_items, chain_app, lastl_app, tokens_app, after_app, H1, H2, H3, H4. cbn [chain lastl tokens_of after]. rewrite FS.
      assert (CL : clears (head_items g (Dir nm ln args file inc None cm mp) ++ [([], Sep ";")]) = true) by (unfold clears in *; rewrite forallb_app, H5; reflexivity).
      rewrite CL. change (newlines (concat_str [])) with 0%Z. change (newlines (lexeme_src (Sep ";"))) with 0%Z. rewrite !Z.add_0_r.
      split; [reflexivity|]. split; [eexists; split; reflexivity|]. cbn [xplant xbottom]; rewrite C, LD; cbn [d_block]. split; reflexivity.
Qed.
End Spec.

(** ** The text *)
Definition lua_builders : list (string * builder) := apply_builders [(lua_build, lua_names)].
Lemma builders_assoc : forall n, assoc n lua_builders = if mem n lua_names then Some lua_build else None.
Proof.
  intros n. destruct (mem n lua_names) eqn:M.
  - apply mem_In in M. unfold lua_names in M. repeat (destruct M as [<- | M]; [reflexivity|]). destruct M.
  - destruct (assoc n lua_builders) as [f|] eqn:A; auto. exfalso. assert (I : In n (map fst lua_builders)) by (apply assoc_in_keys; now rewrite A).
    change (map fst lua_builders) with lua_names in I. apply mem_In in I. congruence.
Qed.
Lemma lua_enquote : forall pr n, In n lua_names -> enquote pr n = n.
Proof.
  intros pr n H. assert (X : forallb (fun n => negb (needs_quote n)) lua_names = true) by (vm_compute; reflexivity). rewrite forallb_forall in X. unfold enquote. now rewrite (X n H).
Qed.
Lemma note_enquote : forall pr, mem (enquote pr "#") lua_names = false.
Proof. intros pr. assert (N : needs_quote "#" = false) by (vm_compute; reflexivity). unfold enquote. rewrite N. vm_compute. reflexivity. Qed.
Lemma other_enquote : forall pr s, arg_spec pr s -> mem s lua_names = false -> mem (enquote pr s) lua_names = false.
Proof.
  intros pr s A M. destruct (needs_quote s) eqn:N; [|unfold enquote; now rewrite N]. rewrite <- (as_src _ _ A). unfold arg_lex. rewrite N. cbn [lexeme_src].
  apply not_true_iff_false. intros I. apply mem_In in I.
  assert (X : forallb (fun n => match n with String k _ => negb (Ascii.eqb k """"%char || Ascii.eqb k "'"%char) | _ => false end) lua_names = true) by (vm_compute; reflexivity).
  rewrite forallb_forall in X. specialize (X _ I). destruct (has_dq s); discriminate.
Qed.
Section Text.
Variables (o : bopts) (pr : N -> bool) (AR : ascii_right pr) (PR : b_print o = pr) (NE : b_ext o = lua_builders).
Variables (ind : Z) (tabs : bool) (mg : nat -> gap) (MT : forall k, concat_str (mg k) = blanks ind tabs k).
Local Notation txt := (RoundTokens.txt ind tabs).
Definition xtext_spec (d : directive) : Prop := forall depth g,
  (if lua_dir d && negb (is_comment d) then xtext (xitems mg depth g d) = concat_str g ++ lua_build d
   else exists t rs, rows o depth d = Row depth t :: rs /\ xtext (xitems mg depth g d) = concat_str g ++ t ++ txt rs)%bool.
Lemma ext_lookup : forall ok d, lua_writable pr ok d = true -> assoc (enquote (b_print o) (d_name d)) (b_ext o) = if lua_dir d then Some lua_build else None.
Proof.
  intros ok d W. rewrite NE, builders_assoc, PR. destruct (is_comment d) eqn:C.
  - rewrite (comment_lua d C). unfold is_comment in C. apply andb_true_iff in C as [E _]. apply String.eqb_eq in E. now rewrite E, note_enquote.
  - destruct (lua_dir d) eqn:L.
    + unfold lua_dir in L. pose proof L as M. apply mem_In in L. rewrite (lua_enquote pr _ L). unfold mem. now rewrite M.
    + destruct (lw_inv pr ok d W C L) as (WS & _). destruct (stmt_args pr ok (shallow d) AR C WS) as (S & _). exact (f_equal (fun b : bool => if b then Some lua_build else None) (other_enquote pr _ S L)).
Qed.
Lemma xloop_text : forall ds depth, Forall xtext_spec ds -> Forall (fun d => exists ok, lua_writable pr ok d = true) ds ->
  forall last, xtext (xloop (xitems mg depth) (nlg mg depth) one (nlg mg depth) last ds) = txt (rows_loop o (rows o depth) depth last ds).
Proof.
  intros ds depth SP. induction SP as [|d ds S SP IH]; intros NO last; [reflexivity|]. inversion NO as [|? ? [ok W] NO']; subst x l. specialize (IH NO'). cbn [xloop rows_loop].
  destruct (Z.eqb (d_line d) last && is_comment d)%bool eqn:M.
  - apply andb_true_iff in M as [_ C]. destruct (note_arg _ (lw_note pr ok d W C)) as (E & _). cbn [xtext]. rewrite E, IH. unfold RoundTokens.txt. cbn [map concat_str row_text]. change (concat_str one) with " ". change " #" with (" " ++ "#"). now rewrite !app_assoc_s.
  - rewrite (ext_lookup ok d W). specialize (S depth (nlg mg depth)). destruct (lua_dir d) eqn:L.
    + assert (C : is_comment d = false) by (destruct (is_comment d) eqn:C; auto; rewrite (comment_lua d C) in L; discriminate). rewrite C in S. cbn [negb andb] in S.
      rewrite xtext_app, S, IH. unfold RoundTokens.txt. cbn [map concat_str row_text]. unfold nlg. cbn [concat_str]. now rewrite MT, !app_assoc_s.
    + cbn [andb] in S. destruct S as (t & rs & R & T). rewrite xtext_app, T, IH, R. rewrite txt_app. unfold RoundTokens.txt at 3. cbn [map concat_str row_text]. fold (RoundTokens.txt ind tabs rs). unfold nlg. cbn [concat_str]. now rewrite MT, !app_assoc_s.
Qed.
Lemma xitems_text : forall ok d, lua_writable pr ok d = true -> xtext_spec d.
Proof.
  intros ok d. induction d as [d IH] using dir_ind'. intros W depth g. destruct (is_comment d) eqn:C; [rewrite (comment_lua d C); cbn [andb]|destruct (lua_dir d) eqn:L; cbn [andb negb]].
  - destruct (note_arg _ (lw_note _ _ d W C)) as (E & _). destruct d as [nm ln args file inc blk cm mp]. cbn [xitems rows]. rewrite C. do 2 eexists.
    split; [reflexivity|]. cbn [xtext]. rewrite E. reflexivity.
  - destruct d as [nm ln args file inc blk cm mp]. cbn [xitems]. rewrite C, L. cbn [xtext]. now rewrite app_nil_r_s.
  - destruct (lw_inv pr ok d W C L) as (WS & _ & _ & WB). destruct (stmt_args pr ok (shallow d) AR C WS) as (S & t & [_ _ _ A4] & BH). specialize (BH o PR).
    assert (HT : rtext (head_items g d) = concat_str g ++ head_text o d) by (change (head_items g d) with (head_items g (shallow d)); change (head_text o d) with (head_text o (shallow d)); unfold head_items; rewrite rtext_cons, (as_src _ _ S), A4, <- BH; reflexivity).
    destruct d as [nm ln args file inc blk cm mp]. cbn [d_block d_line] in *.
    cbn [xitems rows]. rewrite C, L. cbn [d_block d_line]. destruct blk as [b|].
    + destruct (WB b eq_refl) as [AP WB']. rewrite forallb_forall in WB'. cbn [opt_list] in IH.
      assert (SP : Forall xtext_spec b) by (rewrite Forall_forall in *; intros e I; apply IH; auto).
      assert (NO : Forall (fun d => exists ok, lua_writable pr ok d = true) b) by (rewrite Forall_forall; intros e I; exists ok; auto).
      do 2 eexists. split; [reflexivity|]. rewrite xtext_app, xtext_items, rtext_app, HT, rtext_cons, xtext_app, (xloop_text b (Datatypes.S depth) SP NO ln). cbn [xtext]. rewrite txt_app.
      unfold nlg, RoundTokens.txt. cbn [concat_str map row_text lexeme_src rtext render]. rewrite MT. change (concat_str one) with " ". change " {" with (" " ++ "{"). rewrite !app_assoc_s. unfold rtext. cbn [render concat_str]. rewrite ?app_nil_r_s. reflexivity.
    + do 2 eexists. split; [reflexivity|]. rewrite xtext_items, rtext_app, HT, rtext_cons. unfold rtext, RoundTokens.txt. cbn [map concat_str render lexeme_src]. now rewrite !app_assoc_s.
Qed.
Lemma xtop_text : forall ok ds pre, forallb (lua_writable pr ok) ds = true -> ds <> [] ->
  xtext (xloop (xitems mg 0) (nlg mg 0) (pre ++ one)%list pre 0 ds) = concat_str pre ++ rows_text ind tabs (all_rows o ds).
Proof.
  intros ok ds pre W N. destruct ds as [|d ds]; [congruence|]. unfold all_rows. cbn [xloop rows_loop]. cbn [forallb] in W. apply andb_true_iff in W as [W1 W2]. rewrite forallb_forall in W2.
  assert (SP : Forall xtext_spec ds) by (rewrite Forall_forall; intros e I; apply (xitems_text ok); auto).
  assert (NO : Forall (fun d => exists ok, lua_writable pr ok d = true) ds) by (rewrite Forall_forall; intros e I; exists ok; auto).
  assert (B0 : blanks ind tabs 0 = "") by (unfold blanks; now destruct tabs).
  destruct (Z.eqb (d_line d) 0 && is_comment d)%bool eqn:M.
  - apply andb_true_iff in M as [_ C]. destruct (note_arg _ (lw_note pr ok d W1 C)) as (E & _). cbn [xtext]. rewrite E, (xloop_text ds 0 SP NO). unfold rows_text, RoundTokens.txt. cbn [map concat_str row_text].
    rewrite concat_app_s. change (concat_str one) with " ". change " #" with (" " ++ "#"). now rewrite !app_assoc_s.
  - rewrite (ext_lookup ok d W1). pose proof (xitems_text ok d W1 0 pre) as S. destruct (lua_dir d) eqn:L.
    + assert (C : is_comment d = false) by (destruct (is_comment d) eqn:C; auto; rewrite (comment_lua d C) in L; discriminate). rewrite C in S. cbn [negb andb] in S.
      rewrite xtext_app, S, (xloop_text ds 0 SP NO). cbn [rows_text]. fold (RoundTokens.txt ind tabs (rows_loop o (rows o 0) 0 0 ds)). rewrite B0. now rewrite !app_assoc_s.
    + cbn [andb] in S. destruct S as (t & rs & R & T). rewrite xtext_app, T, R, (xloop_text ds 0 SP NO). cbn [app rows_text]. fold (RoundTokens.txt ind tabs (rs ++ rows_loop o (rows o 0) 0 (d_line d) ds)). rewrite txt_app.
      rewrite B0. now rewrite !app_assoc_s.
Qed.
End Text.

(** ** Forests *)
Lemma var_plain : forall v line, mem v separators = false -> SpecForest.plain (Tok v line false None).
Proof. intros v line M. right. intros I. apply not_true_iff_false in M. apply M, mem_In. exact I. Qed.
Lemma lua_wf : forall line d, luab d = true -> wf_stmt (lua_stmt line d).
Proof.
  intros line d H. unfold luab in H. apply andb_true_iff in H as [LD LA]. unfold lua_dir in LD. apply mem_In in LD.
  assert (X : forallb (fun n => (negb (mem n separators) && negb (prefix "#" n))%bool) lua_names = true) by (vm_compute; reflexivity). rewrite forallb_forall in X. specialize (X _ LD). apply andb_true_iff in X as [X1 X2]. apply negb_true_iff in X1. apply negb_true_iff in X2.
  unfold lua_stmt. constructor; [reflexivity|now apply var_plain| |].
  - intros [_ [r E]]. cbn [t_val] in E. rewrite E in X2. destruct r; discriminate.
  - unfold lua_front, lua_toks, lua_args in *. destruct (d_name d =? set_by_lua_block).
    + destruct (d_args d) as [|v [|c [|? ?]]]; try discriminate. rewrite !andb_true_iff in LA. destruct LA as [[[_ V] _] _]. apply negb_true_iff in V. cbn [removelast app tl].
      constructor; [split; [reflexivity|now apply var_plain]|]. constructor; [split; [reflexivity|now left]|constructor].
    + destruct (d_args d) as [|c [|? ?]]; try discriminate. cbn [removelast app tl]. constructor; [split; [reflexivity|now left]|constructor].
Qed.
Lemma xplant_wf : forall pr, ascii_right pr -> forall ok d, lua_writable pr ok d = true -> forall line, wf_stmt (xplant line d).
Proof.
  intros pr AR ok d. induction d as [d IH] using dir_ind'. intros W line. destruct (is_comment d) eqn:C; [|destruct (lua_dir d) eqn:L].
  - destruct d as [nm ln args file inc blk cm mp]. cbn [xplant]. rewrite C. constructor; auto. split; auto. eexists. reflexivity.
  - destruct (lw_lua pr ok d W C L) as (LB & _). assert (E : xplant line d = lua_stmt line d) by (destruct d; cbn [xplant]; now rewrite C, L). rewrite E. now apply lua_wf.
  - destruct (lw_inv pr ok d W C L) as (WS & _ & _ & WB). destruct (stmt_args pr ok (shallow d) AR C WS) as (S & t & [A1 _ _ _] & _). destruct (atok_plain _ line (kept_like pr _ S)) as [P H].
    pose proof (like_plain _ line A1) as F. assert (F' : Forall (fun a => t_err a = None /\ SpecForest.plain a) (map (fun gx => atok line (snd gx)) (arg_items d))) by (eapply Forall_impl; [|exact F]; cbn; tauto).
    destruct d as [nm ln args file inc blk cm mp]. cbn [xplant]. rewrite C, L. cbn [d_block d_line d_name] in *.
    destruct blk as [b|]; constructor; auto. destruct (WB b eq_refl) as [_ WB']. rewrite forallb_forall in WB'. cbn [opt_list] in IH. rewrite Forall_forall in IH.
    assert (G : forall bs m inc last l, (forall e, In e bs -> In e b) -> Forall wf_stmt (xplace xplant xbottom m inc last l bs)).
    { induction bs as [|e bs IHb]; intros m i la l IN; [constructor|]. cbn [xplace]. assert (E : In e b) by (apply IN; now left). destruct (_ && _)%bool; constructor; auto; apply IHb; intros x X; apply IN; now right. }
    now apply G.
Qed.
Lemma xplace_wf : forall pr, ascii_right pr -> forall ok ds, forallb (lua_writable pr ok) ds = true -> forall m inc last l, Forall wf_stmt (xplace xplant xbottom m inc last l ds).
Proof.
  intros pr AR ok ds. induction ds as [|d ds IH]; intros W m inc last l; [constructor|]. cbn [forallb] in W. apply andb_true_iff in W as [W1 W2]. cbn [xplace].
  destruct (_ && _)%bool; constructor; auto; eapply xplant_wf; eauto.
Qed.

(** ** The whole text *)
Lemma xlex_top : forall L last, xchain None L = true -> gap_ok last = true -> fits (xlast None L) last None = true -> proper (xtokens 1 L) ->
  lex lua_lexers (xtext L ++ concat_str last) = xtokens 1 L.
Proof.
  intros L last CH G F P. exact (xlex (List.length L) L (le_n _) None 1 1 "" [] last safe_nil eq_refl CH G F P).
Qed.
Lemma x_no_chomp : forall L prev, L <> [] -> xchain prev L = true -> match xlast prev L with Some (Word _) | Some (Quoted _ _) => False | _ => True end ->
  chomp (xtext L) = xtext L.
Proof.
  intros L prev N C M. destruct (exists_last N) as (a & i & ->). unfold chomp. destruct (has_suffix (xtext (a ++ [i])) s_nl) eqn:H; auto. exfalso. apply suffix_iff in H as [t H].
  rewrite xchain_app in C. apply andb_true_iff in C as [_ C]. rewrite xlast_app in M. destruct i as [[g x]|g d]; rewrite xtext_app in H; cbn [xtext xchain xlast] in *; rewrite app_nil_r_s in H; rewrite <- app_assoc_s in H; apply suffix_right in H as [t' H].
  - apply (f_equal newlines) in H. rewrite newlines_app_s in H. change (newlines s_nl) with 1%Z in H. assert (P : (0 <= newlines t')%Z) by (unfold newlines; lia). rewrite !andb_true_iff in C. destruct C as [[[[_ C] _] _] _].
    assert (Z0 : newlines (lexeme_src x) = 0%Z); [|lia]. destruct x as [ps|q ps|c|ps]; try contradiction; cbn [lexeme_ok lexeme_src] in *.
    + apply mem_In in C. cbn in C. destruct C as [<-|[<-|[<-|[]]]]; reflexivity.
    + rewrite newlines_app_s, one_line_nls; auto; revert C; apply forallb_weaken; intros p X; now apply andb_true_iff in X.
  - rewrite !andb_true_iff in C. destruct C as [[[[_ C] _] _] _]. destruct x as [ps|q ps|c|ps]; try contradiction; cbn [lexeme_ok lexeme_src] in *; [|discriminate]. apply mem_In in C. cbn in C. destruct C as [<-|[<-|[<-|[]]]]; discriminate.
  - rewrite !andb_true_iff in C. assert (LA : lua_args d = true) by (destruct C as [[_ C] _]; unfold luab in C; apply andb_true_iff in C; tauto).
    assert (E : exists u, lua_build d = u ++ "}").
    { unfold lua_args, lua_build in *. destruct (d_name d =? set_by_lua_block).
      - destruct (d_args d) as [|v [|c [|? ?]]]; try discriminate. exists (d_name d ++ " " ++ v ++ " {" ++ c). now rewrite !app_assoc_s.
      - destruct (d_args d) as [|c [|? ?]]; try discriminate. exists (d_name d ++ " {" ++ c). now rewrite !app_assoc_s. }
    destruct E as [u E]. rewrite E in H. clear - H. revert t' H. induction u as [|c u IH]; intros [|k t] H; cbn in H; try discriminate; injection H as _ H; [destruct t; discriminate|destruct u; discriminate|eauto].
  - rewrite !andb_true_iff in C. assert (LD : lua_dir d = true) by (destruct C as [[_ C] _]; unfold luab in C; apply andb_true_iff in C; tauto). assert (NN : d_name d <> "") by (intros E; unfold lua_dir in LD; rewrite E in LD; vm_compute in LD; discriminate).
    unfold lua_build. destruct (d_name d =? set_by_lua_block); destruct (d_args d) as [|? [|? ?]]; destruct (d_name d); congruence || discriminate.
Qed.
Definition xforest_of (header : bool) (ds : list directive) : list stmt :=
  if header then (head_stmts ++ xplace xplant xbottom 2 2 0 3 ds)%list else xplace xplant xbottom 0 0 0 1 ds.
Lemma xbuilt_full : forall o ds, ascii_right (b_print o) -> b_ext o = lua_builders -> (0 <= b_indent o)%Z -> lua_writables (b_print o) not_note ds = true ->
  exists text, build o ds = Some text /\ (forall tl, tl = [] \/ tl = [s_nl] -> lex lua_lexers (text ++ concat_str tl) = flat (xforest_of (b_header o) ds)) /\ Forall wf_stmt (xforest_of (b_header o) ds) /\
    (ds = [] -> text = if b_header o then header else "") /\ (ds <> [] -> exists a gm g, text = a ++ xtext (xloop (xitems (margin_gap o) 0) (nlg (margin_gap o) 0) gm g 0 ds)).
Proof.
  intros o ds AR NE IN W. unfold lua_writables in W. apply andb_true_iff in W as [AP W]. rewrite (build_rows o ds IN). fold (eff_indent o).
  pose proof (fun pre N => xtop_text o (b_print o) AR eq_refl NE (eff_indent o) (b_tabs o) (margin_gap o) (margin_text o) not_note ds pre W N) as TT.
  assert (SP : Forall (xspec (margin_gap o)) ds).
  { rewrite forallb_forall in W. apply Forall_forall. intros d I. apply (xitems_spec (b_print o) AR (margin_gap o) (margin_ok o)). auto. }
  assert (NO : Forall (fun d => is_comment d = true -> note_ok (comment_text d) = true) ds).
  { rewrite forallb_forall in W. apply Forall_forall. intros d I. apply (lw_note (b_print o) not_note). auto. }
  pose proof (xloop_spec (margin_gap o) (margin_ok o) ds 0 SP NO) as LS.
  assert (WF : forall m inc la l, Forall wf_stmt (xplace xplant xbottom m inc la l ds)) by (intros; eapply xplace_wf; eauto).
  assert (CH : chomp (rows_text (eff_indent o) (b_tabs o) (all_rows o ds)) = rows_text (eff_indent o) (b_tabs o) (all_rows o ds)).
  { destruct ds as [|d ds]; [reflexivity|]. specialize (TT [] ltac:(discriminate)). cbn [concat_str String.append app] in TT. rewrite <- TT.
    destruct (LS one [] 0%Z Top None 0%Z AP eq_refl eq_refl I (fun _ => I)) as (C & M & _). apply (x_no_chomp _ None); auto.
    cbn [xloop]. destruct (_ && _)%bool; [discriminate|]. destruct d as [nm ln args file inc blk cm mp]. cbn [xitems]. destruct (is_comment _); [discriminate|]. destruct (lua_dir _); [discriminate|]. cbn [d_block]. destruct blk; discriminate. }
  rewrite CH. eexists. split; [reflexivity|]. destruct head_facts as (H1 & (ps & H2) & H3 & H4 & H5 & H6). unfold xforest_of.
  assert (TG : forall tl, tl = [] \/ tl = [s_nl] -> gap_ok tl = true /\ forall x, match x with Some (Word _) | Some (Quoted _ _) => False | _ => True end -> fits x tl None = true).
  { intros tl [->| ->]; (split; [reflexivity|]); intros [[| | |]|]; (contradiction || reflexivity). }
  assert (LT : forall tl, tl = [] \/ tl = [s_nl] -> forall L, xchain None L = true -> match xlast None L with Some (Word _) | Some (Quoted _ _) => False | _ => True end -> proper (xtokens 1 L) -> lex lua_lexers (xtext L ++ concat_str tl) = xtokens 1 L).
  { intros tl TL L A B C. destruct (TG tl TL) as [TG1 TG2]. now apply xlex_top; auto. }
  destruct (b_header o).
  - assert (FW : Forall wf_stmt (head_stmts ++ xplace xplant xbottom 2 2 0 3 ds)) by (apply Forall_app; auto).
    destruct ds as [|d ds].
    + change (all_rows o []) with (@nil row). cbn [rows_text map concat_str]. rewrite app_nil_r_s. split; [|split; [auto|split; [auto|congruence]]]. intros tl [->| ->]; vm_compute; reflexivity.
    + set (L := xloop (xitems (margin_gap o) 0) (nlg (margin_gap o) 0) ([s_nl; s_nl] ++ one)%list [s_nl; s_nl] 0 (d :: ds)).
      assert (EQ : header ++ rows_text (eff_indent o) (b_tabs o) (all_rows o (d :: ds)) = xtext (map XI head_notes ++ L)).
      { rewrite xtext_app, xtext_items, <- H6. specialize (TT [s_nl; s_nl] ltac:(discriminate)). cbn [concat_str] in TT. rewrite app_nil_r_s in TT. rewrite !app_assoc_s in *. unfold L. rewrite <- TT. reflexivity. }
      split; [|split; [auto|split; [discriminate|intros _; exists (xtext (map XI head_notes)), ([s_nl; s_nl] ++ one)%list, [s_nl; s_nl]; rewrite EQ; apply xtext_app]]]. intros tl TL.
      rewrite EQ. destruct (LS ([s_nl; s_nl] ++ one)%list [s_nl; s_nl] 0%Z Top (Some (Note ps)) 3%Z AP eq_refl eq_refl) as (C & M & T & _).
      { cbn. eauto. }
      { intros _. cbn. eauto. }
      change (newl ([s_nl; s_nl] ++ one)%list) with 2%Z in T. change (newl [s_nl; s_nl]) with 2%Z in T. fold L in C, M, T.
      assert (TK : xtokens 1 (map XI head_notes ++ L) = flat (head_stmts ++ xplace xplant xbottom 2 2 0 3 (d :: ds))).
      { rewrite xtokens_app, xtokens_items, xafter_items, H3, H4, T. unfold flat. now rewrite flat_map_app. }
      rewrite <- TK. assert (HC : clears head_notes = true) by (vm_compute; reflexivity).
      apply (LT tl TL); [rewrite xchain_app, xchain_items, xlast_items, H1, H2, C, HC; reflexivity|rewrite xlast_app, xlast_items, H2; exact M|rewrite TK; now apply flat_proper].
  - change ("" ++ ?x) with x. destruct ds as [|d ds].
    + split; [|split; [auto|split; [auto|congruence]]]. intros tl [->| ->]; vm_compute; reflexivity.
    + specialize (TT [] ltac:(discriminate)). change (concat_str [] ++ ?x) with x in TT. cbn [app] in TT. 
      split; [|split; [auto|split; [discriminate|intros _; exists "", one, []; symmetry; exact TT]]]. intros tl TL. rewrite <- TT.
      destruct (LS one [] 0%Z Top None 1%Z AP eq_refl eq_refl I (fun _ => I)) as (C & M & T & _). change (newl one) with 0%Z in T. change (newl []) with 0%Z in T. rewrite <- T.
      apply (LT tl TL); auto. rewrite T. now apply flat_proper.
Qed.
Lemma xbuilt_text : forall o ds, ascii_right (b_print o) -> b_ext o = lua_builders -> (0 <= b_indent o)%Z -> lua_writables (b_print o) not_note ds = true ->
  exists text, build o ds = Some text /\ lex lua_lexers text = flat (xforest_of (b_header o) ds) /\ Forall wf_stmt (xforest_of (b_header o) ds).
Proof.
  intros o ds AR NE IN W. destruct (xbuilt_full o ds AR NE IN W) as (text & B & L & F & _). exists text. split; auto. split; auto. specialize (L [] (or_introl eq_refl)). cbn [concat_str] in L. now rewrite app_nil_r_s in L.
Qed.
