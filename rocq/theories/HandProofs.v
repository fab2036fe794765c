(** C57: the lexer with external lexers on any text. *)
From Verif Require Export ExtProofs ScanProofs SpecHand.
Local Open Scope string_scope.

(** ** The machine up to a position *)
Definition adv (c : cst) (fr : bool) (u : string) : bool :=
  let f := (fr || is_eol u)%bool in
  match c_mode c with
  | MSkip => if is_space u then f else if String.eqb u "#" then false else if is_quote u then f else if is_special u then true else f
  | MWord w => if is_space u then false else if (has_suffix w "$" && String.eqb u "{")%bool then false else if is_special u then true else f
  | _ => f
  end.
Definition at_pos := option (cst * bool * list token).
Definition emit (ts : list token) (o : at_pos) : at_pos :=
  match ts with
  | [] => o
  | _ => match o with Some (c, f, t) => Some (c, f, ts ++ t)%list | None => None end
  end.
Fixpoint steps (c : cst) (fr : bool) (us : list string) : at_pos :=
  match us with
  | [] => Some (c, fr, [])
  | u :: us => match cstep c u with Halt _ => None | Go c' ts => emit ts (steps c' (adv c fr u) us) end
  end.
Lemma emit_some : forall ts c f t, emit ts (Some (c, f, t)) = Some (c, f, ts ++ t)%list.
Proof. intros [|x ts] c f t; reflexivity. Qed.
Lemma emit_none : forall ts, emit ts None = None.
Proof. intros [|x ts]; reflexivity. Qed.
Lemma emit_emit : forall a b o, emit a (emit b o) = emit (a ++ b) o.
Proof. intros a b [[[c f] t]|]; rewrite ?emit_none, ?emit_some; auto. now rewrite app_assoc. Qed.
Lemma rune_breaks : forall r, rune_text r -> breaks r = is_eol r.
Proof. intros r R. unfold breaks. rewrite newlines_rune by auto. now destruct (is_eol r). Qed.
Lemma piece_breaks : forall p, piece_ok p = true -> breaks (char_of p) = is_eol (src p).
Proof. intros p P. rewrite rune_breaks by now apply piece_text. rewrite src_eol, eol_nl by (auto; now apply piece_text). reflexivity. Qed.

Lemma st_tail : forall z ps var dollar w line start depth fr us, word_tail z var dollar ps = true -> w <> "" ->
  (var = false -> has_suffix w "$" = dollar) ->
  steps (C (if var then MVar w else MWord w) line start false depth) fr (map src ps ++ us) =
  steps (C (if z then MVar (w ++ srcs ps) else MWord (w ++ srcs ps)) (line + nls (map src ps)) start false depth) (word_fresh fr var dollar ps) us.
Proof.
  intros z. induction ps as [|p ps IH]; intros var dollar w line start depth fr us H NW DS.
  - cbn in H. apply eqb_prop in H. subst z. unfold srcs. cbn [map concat_str app word_fresh]. now rewrite app_nil_r_s, Z.add_0_r.
  - cbn [word_tail] in H. apply andb_true_iff in H as [PO H]. pose proof (piece_text p PO) as T.
    cbn [map app steps word_fresh]. rewrite nls_cons, (piece_breaks p PO).
    assert (E1 : w ++ srcs (p :: ps) = (w ++ src p) ++ srcs ps) by (rewrite app_assoc_s; reflexivity). rewrite E1.
    set (line' := if is_eol (src p) then (line + 1)%Z else line).
    replace (line + ((if is_eol (src p) then 1 else 0) + nls (map src ps)))%Z with (line' + nls (map src ps))%Z by (unfold line'; destruct (is_eol (src p)); lia).
    assert (NE : w ++ src p <> "") by now apply app_ne.
    assert (SD : has_suffix (w ++ src p) "$" = String.eqb (char_of p) "$").
    { change "$" with (str1 "$"%char). rewrite suffix1_app by now apply src_unit. apply src_suffix; auto. reflexivity. }
    unfold cstep, adv. destruct var; cbn [c_mode c_line c_start c_dup c_depth]; fold line'.
    + assert (X : (has_suffix (src p) "}" || is_space (src p))%bool = (String.eqb (char_of p) "}" || match p with Raw r => white r | Esc _ => false end)%bool).
      { change "}" with (str1 "}"%char). rewrite src_suffix by (auto; reflexivity). f_equal. destruct p; cbn [src char_of] in *; [now apply white_space|now apply esc_not_space]. }
      rewrite X. destruct (_ || match p with Raw _ => _ | Esc _ => _ end)%bool eqn:CL; cbn [app emit negb].
      * apply (IH false false); auto. intros _. rewrite SD. destruct (String.eqb_spec (char_of p) "$") as [E|]; auto.
        rewrite E in CL. cbn in CL. destruct p; cbn [char_of] in *; [subst; discriminate|discriminate].
      * apply (IH true false); auto. discriminate.
    + rewrite (DS eq_refl). destruct p as [r|r]; cbn [src char_of piece_ok] in *.
      * rewrite (white_space r T). destruct (dollar && (r =? "{"))%bool eqn:DL.
        -- apply andb_true_iff in DL as [_ DL]. apply String.eqb_eq in DL. subst r. cbn. apply (IH true false); auto; discriminate.
        -- rewrite !andb_true_iff, !negb_true_iff in H. destruct H as [[W S] H]. rewrite W.
           assert (SP : is_special r = false). { unfold is_special. unfold mem, separators in S. cbn [existsb] in S. now rewrite orb_false_r, orb_assoc in S. }
           rewrite SP. cbn [app emit]. apply (IH false (r =? "$")); auto.
      * rewrite esc_not_space by auto. assert (NB : String.eqb ("\" ++ r) "{" = false) by reflexivity. rewrite NB, andb_false_r.
        assert (SP : is_special ("\" ++ r) = false) by reflexivity. rewrite SP. cbn [app emit]. apply (IH false (r =? "$")); auto.
Qed.
Lemma st_word : forall z ps line start dup depth fr us, word_is z ps = true ->
  steps (C MSkip line start dup depth) fr (map src ps ++ us) =
  steps (C (if z then MVar (srcs ps) else MWord (srcs ps)) (line + nls (map src ps)) (begins (Word ps) line) false depth) (item_fresh fr (Word ps)) us.
Proof.
  intros z [|p ps] line start dup depth fr us H; [discriminate|]. destruct (first_piece z p ps H) as (U1 & S & N & Q & SP).
  cbn [map app steps]. unfold cstep, adv. cbn [c_mode c_line c_start c_dup c_depth]. rewrite S, N, Q, SP. cbn [app emit].
  cbn [word_is] in H. rewrite !andb_true_iff in H. destruct H as [[F PO] H].
  assert (B : (if is_eol (src p) then (line + 1)%Z else line) = begins (Word (p :: ps)) line).
  { rewrite src_eol by auto. destruct p as [r|r]; cbn [begins char_of src] in *; auto. destruct (is_nl r) eqn:NL; auto. apply String.eqb_eq in NL. subst. discriminate. }
  cbn [item_fresh]. rewrite (piece_breaks p PO). rewrite B, (st_tail z ps false (char_of p =? "$")); auto.
  - rewrite nls_cons. f_equal. f_equal. rewrite <- B. destruct (is_eol (src p)); lia.
  - now apply src_unit.
  - intros _. change "$" with (str1 "$"%char). apply src_suffix; auto. reflexivity.
Qed.
Lemma st_open : forall ps q w line start depth fr us, In q quotes ->
  forallb (fun p => piece_ok p && match p with Raw r => negb (String.eqb r q) | Esc _ => true end)%bool ps = true ->
  steps (C (MStr q w) line start false depth) fr (map src ps ++ us) =
  steps (C (MStr q (w ++ concat_str (map (unquote q) ps))) (line + nls (map src ps)) start false depth) (fr || existsb (fun p => breaks (char_of p)) ps) us.
Proof.
  induction ps as [|p ps IH]; intros q w line start depth fr us Q H.
  - cbn [map app concat_str existsb]. rewrite app_nil_r_s, orb_false_r. change (nls []) with 0%Z. now rewrite Z.add_0_r.
  - cbn [forallb] in H. rewrite !andb_true_iff in H. destruct H as [[PO NQ] H]. cbn [map app steps concat_str existsb]. unfold cstep, adv.
    cbn [c_mode c_line c_start c_dup c_depth].
    assert (QL : slen q = 1) by (cbn in Q; intuition (subst; reflexivity)).
    pose proof (piece_text p PO) as T.
    assert (N1 : String.eqb (src p) q = false).
    { destruct p as [r|r]; cbn [src] in *; [now apply negb_true_iff in NQ|]. apply String.eqb_neq. intros E. rewrite <- E in QL. cbn in QL.
      destruct T as [T _]. destruct r; cbn in *; [now apply T|lia]. }
    rewrite N1. cbn [app emit]. rewrite IH by auto. rewrite nls_cons, (piece_breaks p PO), orb_assoc. f_equal. f_equal.
    + f_equal. rewrite app_assoc_s. f_equal. f_equal. destruct p as [r|r]; cbn [src unquote] in *.
      * assert (E : String.eqb r ("\" ++ q) = false); [|now rewrite E]. apply String.eqb_neq. intros ->. apply rune_ascii in T; [|reflexivity].
        destruct q; [discriminate|discriminate].
      * destruct (String.eqb_spec r q) as [->|N]; [now rewrite String.eqb_refl|].
        assert (E : String.eqb ("\" ++ r) ("\" ++ q) = false); [|now rewrite E]. apply String.eqb_neq. intros E. now apply (app_inv_l_s "\") in E.
    + destruct (is_eol (src p)); lia.
Qed.
Lemma st_quoted : forall q ps line start dup depth fr us, lexeme_ok (Quoted q ps) = true ->
  steps (C MSkip line start dup depth) fr (q :: map src ps ++ us) =
  steps (C (MStr q (lexeme_val (Quoted q ps))) (line + nls (map src ps)) line false depth) (item_fresh fr (Quoted q ps)) us.
Proof.
  intros q ps line start dup depth fr us H. cbn [lexeme_ok] in H. apply andb_true_iff in H as [Q P]. apply mem_In in Q.
  cbn [steps]. unfold cstep, adv. cbn [c_mode c_line c_start c_dup c_depth].
  assert (F : is_eol q = false /\ is_space q = false /\ String.eqb q "#" = false /\ is_quote q = true) by (cbn in Q; intuition (subst; reflexivity)).
  destruct F as (-> & -> & -> & ->). cbn [app emit]. rewrite orb_false_r. now rewrite st_open.
Qed.
Lemma st_note : forall ps line start dup depth fr us, lexeme_ok (Note ps) = true ->
  steps (C MSkip line start dup depth) fr ("#" :: map src ps ++ us) = steps (C (MNote ("#" ++ srcs ps)) line line dup depth) false us.
Proof.
  intros ps line start dup depth fr us H. cbn [lexeme_ok] in H. cbn [steps]. unfold cstep, adv. cbn [c_mode c_line c_start c_dup c_depth].
  change (is_eol "#") with false. change (is_space "#") with false. cbn [String.eqb Ascii.eqb eqb app emit].
  generalize "#" as w. induction ps as [|p ps IH]; intros w.
  - unfold srcs. cbn. now rewrite app_nil_r_s.
  - cbn [forallb] in H. rewrite !andb_true_iff in H. destruct H as [[PO NL] H]. cbn [map app steps]. unfold cstep, adv.
    cbn [c_mode c_line c_start c_dup c_depth]. rewrite src_eol by auto. apply negb_true_iff in NL. rewrite NL. cbn [app emit orb].
    rewrite IH by auto. unfold srcs. cbn [map concat_str]. now rewrite app_assoc_s.
Qed.
Lemma st_gap : forall g line start dup depth fr us, gap_ok g = true ->
  steps (C MSkip line start dup depth) fr (g ++ us) = steps (C MSkip (line + nls g) start dup depth) (fr || existsb breaks g) us.
Proof.
  induction g as [|r g IH]; intros line start dup depth fr us H; [cbn; now rewrite Z.add_0_r, orb_false_r|].
  cbn [gap_ok forallb] in H. rewrite !andb_true_iff in H. destruct H as [[C W] H2]. apply one_char_text in C.
  cbn [app steps existsb]. unfold cstep, adv. cbn [c_mode c_line c_start c_dup c_depth].
  rewrite (white_space r C), W. cbn [app emit]. rewrite IH by auto. rewrite nls_cons, (rune_breaks r C), orb_assoc. f_equal. f_equal. destruct (is_eol r); lia.
Qed.
Lemma st_between : forall c prev line pend dup depth g y fr us, at_item c prev line pend dup depth -> SpecScan.between (option_map fst prev) g y = true ->
  crless (concat_str g) -> g <> [] \/ simple (option_map fst prev) = true ->
  steps c fr (g ++ us) = emit pend (steps (C MSkip (line + newlines (concat_str g)) (c_start c) dup depth) (gap_fresh fr (option_map fst prev) g) us).
Proof.
  intros c prev line pend dup depth g y fr us A B CL NE.
  assert (NG : gap_ok g = true -> newlines (concat_str g) = nls g) by (intros G; rewrite newlines_gap by auto; now rewrite crless_core).
  inversion A; subst; cbn [option_map fst SpecScan.between c_start] in *.
  - rewrite NG, st_gap by auto. reflexivity.
  - assert (G : gap_ok g = true) by (destruct x; auto; discriminate). rewrite NG, st_gap by auto. destruct x; try discriminate; reflexivity.
  - destruct NE as [NE|NE]; [|discriminate]. destruct g as [|r g]; [congruence|]. apply andb_true_iff in B as [G _].
    rewrite NG by auto. cbn [gap_ok forallb] in G. rewrite !andb_true_iff in G. destruct G as [[C1 W] G]. apply one_char_text in C1.
    cbn [app steps gap_fresh]. unfold cstep, adv. cbn [c_mode c_line c_start c_dup c_depth]. rewrite (white_space r C1), W. cbn [app].
    rewrite st_gap by auto. rewrite nls_cons. f_equal. f_equal. f_equal. destruct (is_eol r); lia.
  - destruct NE as [NE|NE]; [|discriminate]. destruct g as [|r g]; [congruence|]. apply andb_true_iff in B as [R G].
    cbn [app steps gap_fresh existsb]. unfold cstep, adv. cbn [c_mode c_line c_start c_dup c_depth concat_str].
    assert (E : is_eol r = true /\ newlines r = 1%Z /\ breaks r = true) by (apply orb_true_iff in R as [R|R]; apply String.eqb_eq in R; subst r; repeat split; reflexivity).
    destruct E as (-> & NL & ->). cbn [app]. cbn [concat_str] in CL. apply crless_app in CL as [_ CL].
    rewrite newlines_app, NL, newlines_gap, crless_core by auto. rewrite st_gap by auto. cbn [orb]. rewrite orb_true_r. cbn [orb]. f_equal. f_equal. f_equal. lia.
Qed.

(** ** Positions of a division *)
Fixpoint track (dup : bool) (depth : Z) (l : list (token * Z)) : option (bool * Z) :=
  match l with
  | [] => Some (dup, depth)
  | (t, _) :: r =>
    if sepb t then
      if (dup && negb (String.eqb (t_val t) "}"))%bool then None
      else
        let depth' := if String.eqb (t_val t) "{" then (depth + 1)%Z else if String.eqb (t_val t) "}" then (depth - 1)%Z else depth in
        if (String.eqb (t_val t) "}" && Z.ltb depth' 0)%bool then None else track true depth' r
    else track (if noteb t then dup else false) depth r
  end.
Lemma orderly_part : forall a b, orderly (a ++ b) -> orderly a.
Proof.
  intros a b [N S]. split.
  - intros x y E. apply (N x (y ++ b)%list). rewrite E. now rewrite app_assoc.
  - intros x t y E. apply (S x t (y ++ b)%list). rewrite E. now rewrite <- app_assoc.
Qed.
Lemma track_orderly : forall l done, orderly (map fst done) ->
  match track (after_sep false (map fst done)) (net (map fst done)) l with
  | Some (d, n) => orderly (map fst (done ++ l)) /\ d = after_sep false (map fst (done ++ l)) /\ n = net (map fst (done ++ l))
  | None => ~ orderly (map fst (done ++ l))
  end.
Proof.
  induction l as [|[t n] l IH]; intros done OD.
  - cbn [track]. rewrite app_nil_r. auto.
  - cbn [track]. assert (ST : forall d n', d = after_sep false (map fst done ++ [t]) -> n' = net (map fst done ++ [t]) -> orderly (map fst done ++ [t]) ->
      match track d n' l with
      | Some (d, k) => orderly (map fst (done ++ (t, n) :: l)) /\ d = after_sep false (map fst (done ++ (t, n) :: l)) /\ k = net (map fst (done ++ (t, n) :: l))
      | None => ~ orderly (map fst (done ++ (t, n) :: l))
      end).
    { intros d n' -> -> O. specialize (IH (done ++ [(t, n)])%list). rewrite map_app in IH. cbn [map fst] in IH. specialize (IH O).
      rewrite <- app_assoc in IH. exact IH. }
    assert (MA : map fst (done ++ (t, n) :: l) = ((map fst done ++ [t]) ++ map fst l)%list) by (rewrite map_app, <- app_assoc; reflexivity).
    destruct (sepb t) eqn:S.
    + destruct (after_sep false (map fst done) && negb (t_val t =? "}"))%bool eqn:D.
      * apply andb_true_iff in D as [D NV]. apply negb_true_iff, String.eqb_neq in NV. intros O. rewrite MA in O. apply orderly_part in O.
        destruct O as [_ O]. apply NV. now apply (O (map fst done) t []).
      * set (depth' := if t_val t =? "{" then _ else _).
        assert (ND : net (map fst done ++ [t]) = depth').
        { rewrite net_app. unfold depth', opensb, closesb. cbn [net]. apply sepb_cases in S as (Q & V). unfold opensb, closesb. rewrite Q.
          destruct V as [V|[V|V]]; rewrite V; cbn; lia. }
        destruct ((t_val t =? "}") && (depth' <? 0)%Z)%bool eqn:CL.
        -- apply andb_true_iff in CL as [V L]. apply Z.ltb_lt in L. intros O. rewrite MA in O. apply orderly_part, orderly_net in O. lia.
        -- apply ST; auto.
           ++ rewrite after_sep_app. cbn [after_sep]. now rewrite (sep_noteb t S), S.
           ++ apply orderly_snoc; auto.
              ** rewrite ND. pose proof (orderly_net _ OD) as P. unfold depth' in *. destruct (t_val t =? "{"); [lia|]. destruct (t_val t =? "}"); auto.
                 cbn [andb] in CL. now apply Z.ltb_ge in CL.
              ** intros _ AF. rewrite AF in D. cbn in D. now apply negb_false_iff, String.eqb_eq in D.
    + assert (NN : net (map fst done ++ [t]) = net (map fst done)).
      { rewrite net_app. cbn [net]. unfold sepb, opensb, closesb in *. destruct (t_quoted t); cbn [negb andb existsb] in *; [lia|].
        rewrite !orb_false_iff in S. destruct S as (-> & -> & _). lia. }
      apply ST; auto.
      * rewrite after_sep_app. cbn [after_sep]. destruct (noteb t); auto.
      * apply orderly_snoc; auto; [rewrite NN; now apply orderly_net|congruence].
Qed.
Definition settled (c : cst) (o : option lexeme) : Prop :=
  match o with
  | None => c_mode c = MSkip
  | Some (Word ps) => c_mode c = MWord (srcs ps) \/ c_mode c = MVar (srcs ps)
  | Some (Note ps) => c_mode c = MNote ("#" ++ srcs ps)
  | Some (Quoted q ps) => c_mode c = MStr q (lexeme_val (Quoted q ps))
  | Some (Sep _) => False
  end.
Definition meets (o : at_pos) (dn : option (bool * Z)) (fr : bool) (toks : list token) (line start : Z) (x : option lexeme) : Prop :=
  match dn with
  | None => o = None
  | Some (d, n) => exists c ts, o = Some (c, fr, ts) /\ (ts ++ cpending c = toks)%list /\ c_line c = line /\ c_start c = start /\ c_depth c = n /\ settled c x /\
      ((forall y, x = Some y -> lexeme_val y <> "") -> c_dup c = d)
  end.
Lemma meets_emit : forall pre o dn fr toks line start x, meets o dn fr toks line start x -> meets (emit pre o) dn fr (pre ++ toks) line start x.
Proof.
  intros pre o [[d n]|] fr toks line start x H; cbn [meets] in *; [|subst; apply emit_none].
  destruct H as (c & ts & -> & <- & H). exists c, (pre ++ ts)%list. rewrite emit_some. split; auto. split; [symmetry; apply app_assoc|auto].
Qed.
Lemma meets_sep : forall c pre line start dup depth fr us l fr' toks fin shown x, In c separators ->
  (forall depth', meets (steps (C MSkip line start true depth') fr us) (track true depth' l) fr' toks fin shown x) ->
  meets (match csep pre line start dup depth c with Halt _ => None | Go c' ts => emit ts (steps c' fr us) end)
    (track dup depth ((Tok c start false None, line) :: l)) fr' (pre ++ Tok c start false None :: toks) fin shown x.
Proof.
  intros c pre line start dup depth fr us l fr' toks fin shown x I H. unfold csep. cbn [track].
  assert (S : sepb (Tok c start false None) = true) by (cbn in I; intuition (subst; reflexivity)). rewrite S. cbn [t_val t_line].
  destruct (dup && negb (c =? "}"))%bool; [reflexivity|]. cbv zeta. destruct (_ && _)%bool; [reflexivity|].
  change (pre ++ Tok c start false None :: toks)%list with (pre ++ [Tok c start false None] ++ toks)%list. rewrite app_assoc. now apply meets_emit.
Qed.
Lemma track_word : forall w m n dup depth l, word_like w -> track dup depth ((Tok w m false None, n) :: l) = track false depth l.
Proof. intros w m n dup depth l H. destruct (word_notsep w m false None H) as (S & N & _). cbn [track]. now rewrite S, N. Qed.
Lemma word_nonempty : forall z ps, word_is z ps = true -> srcs ps <> "".
Proof. intros z ps I E. apply is_like in I. rewrite E in I. inversion I as [u r U1]. destruct u; [now destruct U1 as [(? & _)|(? & ? & _)]|discriminate]. Qed.
Lemma st_all : forall e b, b = "" \/ b = "\" -> forall L c prev line pend dup depth fr, at_item c prev line pend dup depth ->
  divided (option_map fst prev) L e = true -> crless (text_of L e) ->
  meets (steps c fr (U (text_of L e ++ b))) (track dup depth (entries line prev L e)) (fresh_after fr (option_map fst prev) L e)
    (pend ++ map fst (entries line prev L e)) (line + newlines (text_of L e)) (last_shown line prev L e) (unfinished (option_map fst prev) L e).
Proof.
  intros e b Hb. induction L as [|[g x] L IH]; intros c prev line pend dup depth fr A D CL.
  - cbn [divided text_of last_shown entries fresh_after unfinished] in *. destruct e as [g|g x].
    + rewrite (U_between (option_map fst prev) g None), U_end by auto. destruct (at_start _ _ _ _ _ _ A) as (S1 & S2 & S3 & S4). cbn [map].
      assert (GO : g <> [] \/ simple (option_map fst prev) = true -> unfinished (option_map fst prev) [] (Blank g) = None ->
        meets (steps c fr (g ++ [])) (track dup depth []) (gap_fresh fr (option_map fst prev) g) (pend ++ []) (line + newlines (concat_str g)) match prev with Some (_, shown) => shown | None => 1%Z end None).
      { intros NE _. rewrite (st_between c prev line pend dup depth g None) by auto. apply meets_emit. cbn [steps track meets]. eexists _, _. split; [reflexivity|]. cbn. rewrite S1. repeat split; auto. }
      destruct (simple (option_map fst prev)) eqn:SM; [|destruct g as [|r g]].
      * assert (UN : unfinished (option_map fst prev) [] (Blank g) = None) by (destruct g, prev as [[[] ?]|]; auto; discriminate).
        cbn [unfinished] in UN. rewrite UN. apply GO; auto.
      * cbn [app steps track concat_str meets]. change (newlines "") with 0%Z. rewrite Z.add_0_r, app_nil_r. eexists _, _.
        assert (GF : gap_fresh fr (option_map fst prev) [] = fr) by (destruct prev as [[[] ?]|]; cbn; now rewrite ?orb_false_r). rewrite GF. split; [reflexivity|].
        rewrite S1, S2, S3, S4. repeat split; auto; [|]; inversion A; subst; try discriminate; cbn; auto; destruct x; discriminate.
      * apply GO; [left; discriminate|reflexivity].
    + apply andb_true_iff in D as [B I]. apply crless_app in CL as [CG CX]. rewrite app_assoc_s, (U_between (option_map fst prev) g (Some x)) by auto.
      assert (NS : forall c, x <> Sep c) by (intros c0 ->; discriminate).
      rewrite (st_between c prev line pend dup depth g (Some x)) by (eauto using gap_simple). apply meets_emit. rewrite newlines_app.
      destruct x as [ps|q ps|c0|ps]; cbn [item_ok negb andb] in I; try discriminate.
      * cbn [item_src lexeme_src]. rewrite U_pieces by (eapply is_pieces; eauto). rewrite U_end by auto. rewrite (st_word true) by auto. cbn [steps lexeme_val lexeme_quoted].
        rewrite newlines_srcs by (eapply is_pieces; eauto).
        assert (NE : String.eqb (srcs ps) "" = false) by (apply String.eqb_neq; eapply word_nonempty; eauto).
        rewrite NE. rewrite track_word by (eapply is_like; eauto). cbn [track meets]. eexists _, _. split; [reflexivity|]. rewrite Z.add_assoc. cbn. repeat split; auto.
      * assert (P : forallb piece_ok ps = true) by (cbn [lexeme_ok] in I; apply andb_true_iff in I as [_ I]; eapply forallb_weaken; [|exact I]; intros y Y; now apply andb_true_iff in Y).
        assert (Q : In q quotes) by (cbn [lexeme_ok] in I; apply andb_true_iff in I as [I _]; now apply mem_In).
        cbn [item_src]. rewrite app_nil_r_s, app_assoc_s.
        assert (E : U (q ++ srcs ps ++ b) = q :: map src ps).
        { rewrite <- (app_nil_r (map src ps)), <- (U_end b Hb), <- U_pieces by auto. apply (U_piece (Raw q)). cbn in Q. intuition (subst; reflexivity). }
        rewrite E, <- (app_nil_r (map src ps)), st_quoted by auto. cbn [steps]. rewrite newlines_app, newlines_srcs by auto.
        assert (NQ : newlines q = 0%Z) by (cbn in Q; intuition (subst; reflexivity)). rewrite NQ, Z.add_0_l, Z.add_assoc. cbn [begins lexeme_quoted].
        destruct (String.eqb (lexeme_val (Quoted q ps)) "") eqn:V.
        -- cbn [track meets]. eexists _, _. split; [reflexivity|]. unfold cpending. cbn [c_mode c_start c_line c_depth c_dup settled]. rewrite V. cbn [app map]. repeat split; auto.
           intros Z. apply String.eqb_eq in V. now elim (Z _ eq_refl).
        -- cbn [track meets]. change (sepb (Tok (lexeme_val (Quoted q ps)) _ true None)) with false. change (noteb (Tok (lexeme_val (Quoted q ps)) _ true None)) with false. cbv iota.
           eexists _, _. split; [reflexivity|]. unfold cpending. cbn [c_mode c_start c_line c_depth c_dup settled]. rewrite V. cbn [app map]. repeat split; auto.
  - cbn [divided text_of last_shown entries fresh_after unfinished] in *. rewrite !andb_true_iff in D. destruct D as [[B I] D].
    apply crless_app in CL as [CG CX]. apply crless_app in CX as [CX CT]. rewrite !app_assoc_s, (U_between (option_map fst prev) g (Some x)), U_item by auto.
    rewrite !newlines_app, !Z.add_assoc, item_newlines by auto.
    assert (T : (exists ps n c0, prev = Some (Word ps, n) /\ g = [] /\ x = Sep c0) \/ (g <> [] \/ simple (option_map fst prev) = true) /\ shows prev g x (line + newlines (concat_str g)) = begins x (line + newlines (concat_str g))).
    { destruct x as [ps|q ps|c0|ps]; try (right; split; [apply (gap_simple _ g _ B); discriminate|destruct prev as [[[] ?]|]; destruct g; reflexivity]).
      destruct prev as [[[ps|q ps|c1|ps] n]|]; try (right; split; [now right|reflexivity]).
      - destruct g as [|r g]; [left; eauto 8|right; split; [left; discriminate|reflexivity]].
      - cbn [option_map fst SpecScan.between] in B. destruct g; [discriminate|]. right. split; [left; discriminate|reflexivity]. }
    destruct T as [(ps & n & c0 & -> & -> & ->)|[NE SH]].
    + inversion A; subst; [discriminate|]. cbn [concat_str app lexeme_units steps shows begins lexeme_val lexeme_quoted map fst]. change (newlines "") with 0%Z. rewrite Z.add_0_r.
      cbn [option_map fst SpecScan.between gap_ok forallb andb] in B. apply negb_true_iff in B. cbn [item_ok negb andb lexeme_ok] in I. apply mem_In in I.
      assert (CS : is_eol c0 = false /\ is_space c0 = false /\ is_special c0 = true) by (cbn in I; intuition (subst; reflexivity)). destruct CS as (C1 & C2 & C3).
      unfold cstep, adv. cbn [c_mode c_line c_start c_dup c_depth]. rewrite C1, C2, C3.
      assert (DL : has_suffix (srcs ps) "$" = ends_dollar ps) by (apply dollar_suffix; [eapply is_pieces; eauto|intros ->; discriminate]).
      rewrite DL, B. apply (meets_sep c0 [Tok (srcs ps) n false None]); auto. intros depth'.
      rewrite nls_cons, C1. change (nls []) with 0%Z. rewrite !Z.add_0_r.
      apply (IH _ (Some (Sep c0, n)) line [] true depth' true); auto. now constructor.
    + rewrite (st_between c prev line pend dup depth g (Some x)) by auto. apply meets_emit. set (ln := (line + newlines (concat_str g))%Z) in *. rewrite SH. cbn [map fst].
      set (fg := gap_fresh fr (option_map fst prev) g).
      destruct x as [ps|q ps|c0|ps]; cbn [item_ok negb andb] in I; cbn [lexeme_units lexeme_val lexeme_quoted].
      * rewrite (st_word false) by auto. rewrite track_word by (eapply is_like; eauto).
        exact (IH _ (Some (Word ps, begins (Word ps) ln)) (ln + nls (map src ps))%Z _ false depth (item_fresh fg (Word ps)) (ai_word _ _ _ _ I) D CT).
      * cbn [app]. rewrite <- app_assoc, st_quoted by auto. cbn [app steps]. unfold cstep, adv. cbn [c_mode c_line c_start c_dup c_depth].
        rewrite String.eqb_refl. cbn [track begins]. change (sepb (Tok (concat_str (map (unquote q) ps)) ln true None)) with false. change (noteb (Tok (concat_str (map (unquote q) ps)) ln true None)) with false. cbv iota.
        assert (Q : is_eol q = false) by (cbn [lexeme_ok] in I; apply andb_true_iff in I as [I _]; apply mem_In in I; cbn in I; intuition (subst; reflexivity)). rewrite Q, orb_false_r.
        assert (NQ : nls (q :: map src ps ++ [q]) = nls (map src ps)).
        { assert (NA : forall a b, nls (a ++ b) = (nls a + nls b)%Z) by (induction a as [|u a IHa]; intros b'; auto; cbn [app]; rewrite !nls_cons, IHa; lia).
          rewrite nls_cons, NA, nls_cons, Q. change (nls []) with 0%Z. lia. }
        rewrite NQ. apply (meets_emit [_]). apply (IH _ (Some (Quoted q ps, ln)) (ln + nls (map src ps))%Z [] false depth (item_fresh fg (Quoted q ps))); auto. now constructor.
      * cbn [app steps]. cbn [lexeme_ok] in I. apply mem_In in I.
        assert (CS : is_eol c0 = false /\ is_space c0 = false /\ is_special c0 = true /\ String.eqb c0 "#" = false /\ is_quote c0 = false) by (cbn in I; intuition (subst; reflexivity)).
        destruct CS as (C1 & C2 & C3 & C4 & C5). unfold cstep, adv. cbn [c_mode c_line c_start c_dup c_depth]. rewrite C1, C2, C3, C4, C5. cbn [begins].
        apply (meets_sep c0 []); auto. intros depth'. rewrite nls_cons, C1. change (nls []) with 0%Z. rewrite !Z.add_0_r.
        apply (IH _ (Some (Sep c0, ln)) ln [] true depth' true); auto. now constructor.
      * cbn [app]. rewrite st_note by auto. cbn [begins track]. change (sepb (Tok ("#" ++ srcs ps) ln false None)) with false. change (noteb (Tok ("#" ++ srcs ps) ln false None)) with true. cbv iota.
        assert (NN : nls ("#" :: map src ps) = 0%Z) by (rewrite nls_cons, note_nls by auto; reflexivity). rewrite NN, !Z.add_0_r.
        exact (IH _ (Some (Note ps, ln)) ln _ dup depth false (ai_note _ _ _ _ _) D CT).
Qed.

(** ** The start of a run *)
Definition here (shown : Z) : option (lexeme * Z) := Some (Sep ";", shown).
Lemma here_divided : forall L e, divided (Some (Sep ";")) L e = divided None L e.
Proof. intros [|[g x] L] [g'|g' x']; reflexivity. Qed.
Lemma here_entries : forall n line L e, entries line (here n) L e = entries line None L e.
Proof. intros n line [|[g x] L] [g'|g' x']; reflexivity. Qed.
Lemma here_fresh : forall fr L e, fresh_after fr (Some (Sep ";")) L e = fresh_after fr None L e.
Proof. intros fr [|[g x] L] [g'|g' x']; reflexivity. Qed.
Lemma here_unfinished : forall L e, unfinished (Some (Sep ";")) L e = unfinished None L e.
Proof. intros [|[g x] L] [g'|g' x']; try reflexivity. Qed.
Lemma here_shown : forall n line L e, last_shown line (here n) L e = match L, e with [], Blank _ => n | _, _ => last_shown line None L e end.
Proof. intros n line [|[g x] L] [g'|g' x']; reflexivity. Qed.

(** ** Characters and units *)
Fixpoint escaf (esc : bool) (rs : list string) : bool :=
  match rs with
  | [] => esc
  | r :: rs => if String.eqb r s_cr then escaf esc rs else if (String.eqb r "\" && negb esc)%bool then escaf true rs else escaf false rs
  end.
Lemma units_app : forall a b esc, units esc (a ++ b) = (units esc a ++ units (escaf esc a) b)%list.
Proof.
  induction a as [|r a IH]; intros b esc; auto. cbn [app units escaf]. destruct (r =? s_cr); auto. destruct (_ && _)%bool; auto. cbn [app]. now rewrite IH.
Qed.
Lemma escaf_app : forall a b esc, escaf esc (a ++ b) = escaf (escaf esc a) b.
Proof. induction a as [|r a IH]; intros b esc; auto. cbn [app escaf]. destruct (r =? s_cr); auto. destruct (_ && _)%bool; auto. Qed.
Lemma units_count : forall rs esc, length (units esc rs) + (if escaf esc rs then 1 else 0) <= length rs + (if esc then 1 else 0).
Proof.
  induction rs as [|r rs IH]; intros esc; [cbn; lia|]. cbn [units escaf]. change (length (r :: rs)) with (S (length rs)).
  destruct (r =? s_cr); [specialize (IH esc); destruct (escaf esc rs), esc; lia|].
  destruct (_ && _)%bool eqn:B.
  - specialize (IH true). apply andb_true_iff in B as [_ B]. destruct esc; [discriminate|]. destruct (escaf true rs); lia.
  - specialize (IH false). match goal with |- length (?x :: ?l) + _ <= _ => change (length (x :: l)) with (S (length l)) end. destruct (escaf false rs), esc; lia.
Qed.
Lemma scan_concat : forall rs, Forall rune_text rs -> scan_runes (concat_str rs) = rs /\ valid_utf8 (concat_str rs) = true.
Proof.
  induction 1 as [|r rs R F [E V]]; [split; reflexivity|]. cbn [concat_str]. pose proof (rune_valid r R) as VR. split.
  - rewrite scan_runes_app_valid, E, rune_scan_runes by auto. reflexivity.
  - now rewrite valid_utf8_app.
Qed.
Lemma units_no_cr : forall rs esc, Forall rune_text rs -> units esc (scan_runes (no_cr (concat_str rs))) = units esc rs.
Proof.
  intros rs esc F. revert esc. induction F as [|r rs R F IH]; intros esc; auto. cbn [concat_str units]. rewrite no_cr_app.
  destruct (String.eqb_spec r s_cr) as [->|N]; [apply IH|].
  assert (NI : no_cr r = r). { apply no_cr_id. intros I. apply N. now apply (rune_byte r _ R I). }
  rewrite NI, scan_runes_app_valid, rune_scan_runes by (auto; now apply rune_valid). cbn [app units]. apply String.eqb_neq in N. rewrite N. destruct (_ && _)%bool; now rewrite IH.
Qed.
Lemma text_units : forall L e prev, divided prev L e = true -> crless (text_of L e) -> exists X, forall s, U (text_of L e ++ s) = (X ++ U s)%list.
Proof.
  induction L as [|[g x] L IH]; intros e prev D CL; cbn [divided text_of] in *.
  - destruct e as [g|g x].
    + exists g. intros s. eapply U_between; eauto.
    + apply andb_true_iff in D as [B I]. apply crless_app in CL as [CG CX].
      assert (X : exists X, forall s, U (item_src true x ++ s) = (X ++ U s)%list).
      { destruct x as [ps|q ps|c0|ps]; cbn [item_ok negb andb] in I; try discriminate; cbn [item_src lexeme_src].
        - exists (map src ps). intros s. apply U_pieces. eapply is_pieces; eauto.
        - cbn [lexeme_ok] in I. apply andb_true_iff in I as [Q I]. apply mem_In in Q. exists (q :: map src ps). intros s. rewrite app_nil_r_s, app_assoc_s.
          assert (PP : forallb piece_ok ps = true) by (eapply forallb_weaken; [|exact I]; intros y Y; now apply andb_true_iff in Y).
          cbn [app]. rewrite <- U_pieces by auto. apply (U_piece (Raw q)). cbn in Q. intuition (subst; reflexivity). }
      destruct X as [X HX]. exists (g ++ X)%list. intros s. rewrite app_assoc_s, (U_between prev g (Some x)), HX by auto. apply app_assoc.
  - rewrite !andb_true_iff in D. destruct D as [[B I] D]. apply crless_app in CL as [CG CX]. apply crless_app in CX as [CX CT].
    destruct (IH e (Some x) D CT) as [X HX]. exists (g ++ lexeme_units x ++ X)%list. intros s. rewrite !app_assoc_s, (U_between prev g (Some x)), U_item, HX by auto. now rewrite <- !app_assoc.
Qed.
Lemma cut_units : forall P L e b, Forall rune_text P -> cut P L e b ->
  crless (text_of L e) /\ units false P = U (text_of L e ++ b) /\ (b = "" /\ escaf false P = false \/ b = "\" /\ escaf false P = true).
Proof.
  intros P L e b F (T & B & D). assert (CL : crless (text_of L e)). { pose proof (no_cr_free (concat_str P)) as C. rewrite T in C. now apply crless_app in C. }
  split; auto. assert (E0 : units false P = U (text_of L e ++ b)) by (unfold U; rewrite <- T; now rewrite units_no_cr). split; auto.
  destruct (text_units L e None D CL) as [X HX].
  assert (E1 : units false (P ++ ["a"]) = (X ++ U (b ++ "a"))%list).
  { assert (FA : Forall rune_text (P ++ ["a"])) by (apply Forall_app; split; auto; constructor; [split; [discriminate|eexists; reflexivity]|constructor]).
    rewrite <- (units_no_cr _ false FA), ScanProofs.concat_app, no_cr_app, T. change (no_cr (concat_str ["a"])) with "a". rewrite app_assoc_s. apply HX. }
  assert (U0 : U b = []) by now apply U_end. rewrite HX, U0, app_nil_r in E0. rewrite units_app, E0 in E1. apply app_inv_head in E1.
  destruct B as [-> | ->], (escaf false P); auto; vm_compute in E1; discriminate.
Qed.
Lemma cut_some : forall P, Forall rune_text P -> exists L e b, cut P L e b.
Proof.
  intros P F. destruct (no_cr_runes P F) as (rs & E & F' & N).
  destruct (cut_pieces rs F' N) as [(ps & b & E2 & PP & B) _]. destruct (divides (S (length ps)) ps None) as [[L e] [D T]]; auto.
  exists L, e, b. cbn [fst snd] in *. repeat split; auto. now rewrite E, E2, T.
Qed.

Section Ext.
  Variable ext : ext_lexers.
  Definition pname (m : mode) : string := match m with MSkip => "" | MWord w | MNote w | MVar w | MStr _ w => w end.
  Definition trig (c : cst) (fr : bool) (la : string) : option ext_lexer :=
    if (str_nonempty (pname (c_mode c)) && (fr || is_eol la))%bool then assoc (pname (c_mode c)) ext else None.
  Definition eye (la : string) (esc : bool) : Prop := is_cr la = false /\ (la = "\" -> esc = true).
  Lemma rel_name : forall s c, rel s c -> l_tok s = pname (c_mode c).
  Proof. intros s c (_ & _ & _ & _ & _ & M). destruct (c_mode c); cbn [pname]; tauto. Qed.
  Lemma read_ntd : forall s la, l_ntd (lex_read s la) = (l_ntd s || is_eol la)%bool.
  Proof. intros s la. unfold lex_read. destruct (is_eol la); cbn; now rewrite ?orb_true_r, ?orb_false_r. Qed.
  Lemma step_quiet : forall s la rest, (l_st s = SkipSpace -> l_tok s = "") ->
    (if (str_nonempty (l_tok s) && (l_ntd s || is_eol la))%bool then assoc (l_tok s) ext else None) = None ->
    lex_step ext s la rest = (step0 s la, 0).
  Proof.
    intros s la rest SK Q. unfold step0, lex_step.
    assert (B : lex_body ext (lex_read s la) la rest = lex_body [] (lex_read s la) la []).
    { unfold lex_body. destruct ((la =? s_cr) || (la =? "\" ++ s_cr))%bool; auto. destruct (_ && negb (l_esc (lex_read s la)))%bool; auto. cbn [l_tok l_ntd set_esc].
      rewrite read_tok, read_ntd, Q. cbn [assoc]. now destruct (str_nonempty _ && _)%bool. }
    rewrite B. pose proof (body_n (lex_read s la) la []) as Z. pose proof (body_reeval (lex_read s la) la) as BR.
    assert (RE : forall la', r_ctl (fst (lex_body [] (lex_read s la) la [])) = ReEval la' -> l_st s = SkipSpace).
    { clear. intros la' H. unfold lex_body in H. destruct ((la =? s_cr) || (la =? "\" ++ s_cr))%bool; [discriminate|]. destruct (_ && negb (l_esc (lex_read s la)))%bool; [discriminate|]. cbn [assoc] in H.
      assert (H' : r_ctl (lex_switch (set_esc (lex_read s la) false) (if l_esc (lex_read s la) then "\" ++ la else la)) = ReEval la') by (destruct (_ && _)%bool; exact H).
      pose proof (switch_ctl (set_esc (lex_read s la) false) (if l_esc (lex_read s la) then "\" ++ la else la)) as SC. rewrite H' in SC. destruct SC as (_ & SC & _).
      cbn [l_st set_esc] in SC. unfold lex_read in SC. destruct (is_eol la); exact SC. }
    destruct (lex_body [] (lex_read s la) la []) as [r n]. cbn [snd fst] in *. subst n.
    destruct (r_ctl r) as [|la'|] eqn:RC; auto. specialize (RE la' eq_refl). specialize (BR la' eq_refl). rewrite read_tok, (SK RE) in BR.
    rewrite (body_plain ext) by auto. pose proof (body_n (r_st r) la' []) as Z. destruct (lex_body [] (r_st r) la' []) as [r' n']. cbn [snd] in Z. now subst n'.
  Qed.
  Lemma rel_esc : forall s c, rel s c -> rel (set_esc s false) c.
  Proof. intros s c R. exact R. Qed.
  Lemma quiet_step : forall s c r rest, rel s c -> rune_text r -> eye r (l_esc s) -> trig c (l_ntd s) r = None ->
    lex_step ext s r rest = (ustep (set_esc s false) (if l_esc s then "\" ++ r else r), 0).
  Proof.
    intros s c r rest R T [CR BS] Q. rewrite step_quiet.
    - f_equal. unfold step0. apply String.eqb_neq in CR. destruct (rune_like_text r T) as [NE NR]. destruct (l_esc s) eqn:E.
      + now rewrite step_esc.
      + rewrite step_unit; auto; [cbn [fst]; now rewrite esc_id|split; auto|]. intros ->. now specialize (BS eq_refl).
    - intros S. destruct R as (_ & _ & _ & _ & _ & M). destruct (c_mode c); destruct M as [M M']; try (rewrite S in M; discriminate). exact M'.
    - rewrite (rel_name s c R). exact Q.
  Qed.
  Lemma run_bs : forall s rs, l_esc s = false -> lex_run ext 0 s ("\" :: rs) = lex_run ext 0 (set_esc s true) rs.
  Proof.
    intros s rs NE. assert (X : lex_step ext s "\" rs = (LRes (set_esc s true) [] Next, 0)) by (unfold lex_step, lex_read; rewrite eol_bs; unfold lex_body; rewrite NE; reflexivity).
    cbn [lex_run]. rewrite X. reflexivity.
  Qed.
  Lemma special_ntd : forall s u, r_ctl (lex_special s u) = Next -> l_ntd (r_st (lex_special s u)) = true.
  Proof.
    intros s u H. unfold lex_special in *. revert H. cbv zeta. destruct (_ && negb _)%bool; [discriminate|]. destruct (_ && (_ <? 0)%Z)%bool; [discriminate|]. reflexivity.
  Qed.
  Lemma step_ntd : forall s c u c' ts, rel s c -> u <> "" -> cstep c u = Go c' ts -> l_ntd (r_st (ustep s u)) = adv c (l_ntd s) u.
  Proof.
    intros s c u c' ts R NU G. unfold ustep, cstep, adv in *. rewrite <- (read_ntd s u) in *. set (line := if is_eol u then (c_line c + 1)%Z else c_line c) in *.
    assert (R' : l_line (lex_read s u) = line /\ l_start (lex_read s u) = c_start c /\ l_dup (lex_read s u) = c_dup c /\
      l_depth (lex_read s u) = c_depth c /\ l_new (lex_read s u) = false /\ l_st (lex_read s u) = l_st s /\
      l_tok (lex_read s u) = l_tok s /\ l_quote (lex_read s u) = l_quote s).
    { destruct R as (A & B & D & E & F & _). unfold lex_read, line. rewrite <- A. destruct (is_eol u); cbn; auto 10. }
    destruct R as (_ & _ & _ & _ & _ & M). destruct R' as (RL & RS & RD & RK & RN & RT & RW & RQ).
    set (s1 := lex_read s u) in *. clearbody s1. clearbody line.
    destruct s1 as [tok line' start' st new dup' esc depth' quote ntd].
    cbn [l_line l_start l_dup l_depth l_new l_st l_tok l_quote l_ntd] in *. subst line' start' dup' depth' new.
    unfold usw. destruct (c_mode c) as [|w|w|w|q w]; destruct M as [ST M]; rewrite ST in RT.
    - subst st. rewrite M in RW. subst tok. unfold lex_switch. cbn [l_st]. destruct (is_space u) eqn:SP; [reflexivity|]. cbn [r_ctl r_st set_start set_new set_st l_st l_new andb l_tok l_line l_dup l_esc l_depth l_quote l_ntd].
      destruct (u =? "#") eqn:H1; [reflexivity|]. rewrite SP. cbn [str_nonempty String.eqb negb andb].
      unfold is_quote in *. destruct ((u =? s_dq) || (u =? s_sq))%bool eqn:H2; [reflexivity|]. destruct (is_special u) eqn:H3; [|reflexivity].
      match goal with |- context [lex_special ?x u] => pose proof (special_rel x line line (c_dup c) (c_depth c) "" u eq_refl eq_refl eq_refl eq_refl eq_refl eq_refl) as SR; pose proof (special_ntd x u) as SN end.
      cbn [str_nonempty String.eqb negb] in SR. rewrite G in SR. destruct SR as [SR _]. apply SN. exact SR.
    - destruct M as [M NW]. subst st. rewrite M in RW. subst tok. pose proof (proj2 (nonempty_iff w) NW) as NB.
      unfold lex_switch. cbn [l_st l_new andb set_new l_tok l_line l_dup l_esc l_depth l_quote l_ntd l_start].
      destruct (is_space u) eqn:SP; [reflexivity|]. rewrite NB. cbn [andb].
      destruct (has_suffix w "$" && (u =? "{"))%bool; [reflexivity|].
      destruct (u =? s_dq) eqn:Q1; [apply String.eqb_eq in Q1; subst u; reflexivity|].
      destruct (u =? s_sq) eqn:Q2; [apply String.eqb_eq in Q2; subst u; reflexivity|]. cbn [orb].
      destruct (is_special u) eqn:H3; [|reflexivity]. 
      match goal with |- context [lex_special ?x u] => pose proof (special_rel x line (c_start c) (c_dup c) (c_depth c) w u eq_refl eq_refl eq_refl eq_refl eq_refl eq_refl) as SR; pose proof (special_ntd x u) as SN end.
      rewrite NB, G in SR. destruct SR as [SR _]. rewrite SR. apply SN. exact SR.
    - destruct M as [M NW]. subst st. unfold lex_switch. cbn [l_st]. destruct (is_eol u); reflexivity.
    - destruct M as [M NW]. subst st. unfold lex_switch. cbn [l_st]. cbv zeta. destruct (_ && _)%bool; reflexivity.
    - destruct M as [M Q]. subst st. unfold lex_switch. cbn [l_st]. destruct (u =? l_quote _); reflexivity.
  Qed.
  (** ** The first hand-over *)
  Definition fires (c : cst) (fr esc : bool) (rs P : list string) (la : string) (rest : list string) (c' : cst) (fr' : bool) (ts : list token) (f : ext_lexer) : Prop :=
    rs = (P ++ la :: rest)%list /\ steps c fr (units esc P) = Some (c', fr', ts) /\ eye la (escaf esc P) /\ trig c' fr' la = Some f.
  Lemma steps_cons : forall c fr u us c' ts, cstep c u = Go c' ts -> steps c fr (u :: us) = emit ts (steps c' (adv c fr u) us).
  Proof. intros c fr u us c' ts H. cbn [steps]. now rewrite H. Qed.
  Lemma emit_inv : forall ts o c f t, emit ts o = Some (c, f, t) -> exists t', o = Some (c, f, t') /\ t = (ts ++ t')%list.
  Proof. intros ts [[[c0 f0] t0]|] c f t H; [|rewrite emit_none in H; discriminate]. rewrite emit_some in H. inversion H; subst. eauto. Qed.
  Lemma walk : forall rs s c, rel s c -> Forall rune_text rs ->
    (exists P la rest c' fr' ts f s', fires c (l_ntd s) (l_esc s) rs P la rest c' fr' ts f /\
       (forall P2 la2 rest2 c2 fr2 ts2 f2, fires c (l_ntd s) (l_esc s) rs P2 la2 rest2 c2 fr2 ts2 f2 -> List.length P <= List.length P2) /\
       rel s' c' /\ l_ntd s' = fr' /\ l_esc s' = escaf (l_esc s) P /\ lex_run ext 0 s rs = (ts ++ lex_run ext 0 s' (la :: rest))%list)
    \/ ((forall P2 la2 rest2 c2 fr2 ts2 f2, ~ fires c (l_ntd s) (l_esc s) rs P2 la2 rest2 c2 fr2 ts2 f2) /\ lex_run ext 0 s rs = crun c (units (l_esc s) rs)).
  Proof.
    induction rs as [|r rs IH]; intros s c R F.
    - right. split; [intros [|] la2 rest2 c2 fr2 ts2 f2 [E _]; discriminate|]. cbn [lex_run units crun]. now apply finish_rel.
    - inversion F as [|r' rs' T F']; subst r' rs'.
      (** the same position one character later *)
      assert (LATER : forall s1 c1 ts1, rel s1 c1 -> lex_run ext 0 s (r :: rs) = (ts1 ++ lex_run ext 0 s1 rs)%list ->
        (forall P, steps c (l_ntd s) (units (l_esc s) (r :: P)) = emit ts1 (steps c1 (l_ntd s1) (units (l_esc s1) P)) /\ escaf (l_esc s) (r :: P) = escaf (l_esc s1) P) ->
        (forall us, crun c (units (l_esc s) (r :: rs)) = (ts1 ++ crun c1 (units (l_esc s1) rs))%list \/ us = [r]) ->
        (eye r (l_esc s) -> trig c (l_ntd s) r = None) ->
        (exists P la rest c' fr' ts f s', fires c (l_ntd s) (l_esc s) (r :: rs) P la rest c' fr' ts f /\
       (forall P2 la2 rest2 c2 fr2 ts2 f2, fires c (l_ntd s) (l_esc s) (r :: rs) P2 la2 rest2 c2 fr2 ts2 f2 -> List.length P <= List.length P2) /\
       rel s' c' /\ l_ntd s' = fr' /\ l_esc s' = escaf (l_esc s) P /\ lex_run ext 0 s (r :: rs) = (ts ++ lex_run ext 0 s' (la :: rest))%list)
    \/ ((forall P2 la2 rest2 c2 fr2 ts2 f2, ~ fires c (l_ntd s) (l_esc s) (r :: rs) P2 la2 rest2 c2 fr2 ts2 f2) /\ lex_run ext 0 s (r :: rs) = crun c (units (l_esc s) (r :: rs)))).
      { intros s1 c1 ts1 R1 RUN ST CR NT.
        assert (DOWN : forall P2 la2 rest2 c2 fr2 ts2 f2, fires c (l_ntd s) (l_esc s) (r :: rs) P2 la2 rest2 c2 fr2 ts2 f2 ->
          exists P3 ts3, P2 = r :: P3 /\ fires c1 (l_ntd s1) (l_esc s1) rs P3 la2 rest2 c2 fr2 ts3 f2).
        { intros [|r3 P3] la2 rest2 c2 fr2 ts2 f2 (E & S2 & Y & TR); cbn [app] in E; inversion E; subst.
          - exfalso. cbn [units steps] in S2. inversion S2; subst. cbn [escaf] in Y. rewrite (NT Y) in TR. discriminate.
          - destruct (ST P3) as [S3 E3]. rewrite S3 in S2. apply emit_inv in S2 as (t' & S2 & _). rewrite E3 in Y. exists P3, t'. split; auto. split; auto. }
        destruct (IH s1 c1 R1 F') as [(P & la & rest & c' & fr' & ts & f & s' & (E & S2 & Y & TR) & MIN & R' & N' & E' & RUN')|[NO RUN']].
        - left. exists (r :: P), la, rest, c', fr', (ts1 ++ ts)%list, f, s'. destruct (ST P) as [S3 E3]. split; [|split; [|split; [|split; [|split]]]]; auto.
          + split; [cbn [app]; now rewrite E|]. split; [rewrite S3, S2; apply emit_some|]. rewrite E3. auto.
          + intros P2 la2 rest2 c2 fr2 ts2 f2 FI. apply DOWN in FI as (P3 & ts3 & -> & FI). apply MIN in FI. change (S (List.length P) <= S (List.length P3)). lia.
          + now rewrite E3.
          + rewrite RUN, RUN'. apply app_assoc.
        - right. split.
          + intros P2 la2 rest2 c2 fr2 ts2 f2 FI. apply DOWN in FI as (P3 & ts3 & -> & FI). eapply NO; eauto.
          + rewrite RUN, RUN'. destruct (CR []) as [->|]; [reflexivity|discriminate]. }
      destruct (String.eqb_spec r s_cr) as [->|NC].
      { assert (X : lex_step ext s s_cr rs = (LRes s [] Next, 0)) by (unfold lex_step, lex_read; rewrite eol_cr; unfold lex_body; rewrite String.eqb_refl; reflexivity).
        apply (LATER s c []).
        - exact R.
        - cbn [lex_run]. rewrite X. reflexivity.
        - intros P. split; reflexivity.
        - intros us. left. reflexivity.
        - intros [Y _]. discriminate. }
      destruct (String.eqb r "\" && negb (l_esc s))%bool eqn:BS.
      { apply andb_true_iff in BS as [B NE]. apply String.eqb_eq in B. apply negb_true_iff in NE. subst r. apply (LATER (set_esc s true) c []).
        - exact R.
        - assert (X : lex_step ext s "\" rs = (LRes (set_esc s true) [] Next, 0)) by (unfold lex_step, lex_read; rewrite eol_bs; unfold lex_body; rewrite NE; reflexivity).
          cbn [lex_run]. rewrite X. reflexivity.
        - intros P. cbn [units escaf]. rewrite NE. split; reflexivity.
        - intros us. left. cbn [units]. rewrite NE. reflexivity.
        - intros [_ X]. rewrite NE in X. now specialize (X eq_refl). }
      assert (Y : eye r (l_esc s)).
      { split; [now apply String.eqb_neq|]. intros E. rewrite E, String.eqb_refl in BS. cbn [andb] in BS. now apply negb_false_iff in BS. }
      destruct (trig c (l_ntd s) r) as [f|] eqn:TR.
      { left. exists [], r, rs, c, (l_ntd s), [], f, s. split; [|split; [|split; [|split; [|split]]]]; auto.
        - repeat split; auto; apply Y.
        - intros. apply Nat.le_0_l. }
      set (u := if l_esc s then "\" ++ r else r).
      assert (NU : u <> "") by (unfold u; destruct (l_esc s); [discriminate|apply T]).
      assert (UN : forall P, units (l_esc s) (r :: P) = u :: units false P).
      { intros P. cbn [units]. apply String.eqb_neq in NC. rewrite NC, BS. reflexivity. }
      assert (EC : forall P, escaf (l_esc s) (r :: P) = escaf false P).
      { intros P. cbn [escaf]. apply String.eqb_neq in NC. rewrite NC, BS. reflexivity. }
      pose proof (step_rel (set_esc s false) c u (rel_esc s c R) NU) as SR.
      assert (RUN : lex_run ext 0 s (r :: rs) = match r_ctl (ustep (set_esc s false) u) with Stop => r_toks (ustep (set_esc s false) u) | _ => r_toks (ustep (set_esc s false) u) ++ lex_run ext 0 (r_st (ustep (set_esc s false) u)) rs end%list).
      { cbn [lex_run]. rewrite (quiet_step s c r rs R T Y TR). fold u. destruct (r_ctl _); reflexivity. }
      destruct (cstep c u) as [c1 ts1|ts1] eqn:CS; cbn [res_rel] in SR.
      + destruct SR as (C1 & C2 & R1). rewrite C1, C2 in RUN.
        assert (E1 : l_esc (r_st (ustep (set_esc s false) u)) = false) by now apply ustep_esc.
        pose proof (step_ntd (set_esc s false) c u c1 ts1 (rel_esc s c R) NU CS) as NT. cbn [l_ntd set_esc] in NT.
        apply (LATER (r_st (ustep (set_esc s false) u)) c1 ts1); auto.
        * intros P. rewrite UN, EC, E1, (steps_cons _ _ _ _ _ _ CS), NT. auto.
        * intros us. left. rewrite UN, E1. cbn [crun]. now rewrite CS.
      + destruct SR as (C1 & C2). rewrite C1, C2 in RUN. right. split.
        * intros [|r3 P3] la2 rest2 c2 fr2 ts2 f2 (E & S2 & Y2 & TR2); cbn [app] in E; inversion E; subst.
          -- cbn [units steps] in S2. inversion S2; subst. rewrite TR in TR2. discriminate.
          -- rewrite UN in S2. cbn [steps] in S2. rewrite CS in S2. discriminate.
        * rewrite RUN, UN. cbn [crun]. now rewrite CS.
  Qed.

  (** ** The hand-over *)
  Definition shut (m : mode) (u : string) : bool := match m with MStr q _ => String.eqb u q | _ => false end.
  Definition escd (esc : bool) (la : string) : string := if esc then "\" ++ la else la.
  Lemma run_back : forall s1 esc la line start dup depth rr, rel s1 (C MSkip line start dup depth) -> l_ntd s1 = true -> l_esc s1 = false -> rune_text la -> eye la esc ->
    lex_run ext 0 (set_line s1 (line - (if is_eol la then 1 else 0))%Z) ((if esc then ["\"; la] else [la]) ++ rr) =
    match r_ctl (usw s1 (escd esc la)) with Stop => r_toks (usw s1 (escd esc la)) | _ => r_toks (usw s1 (escd esc la)) ++ lex_run ext 0 (r_st (usw s1 (escd esc la))) rr end%list.
  Proof.
    intros s1 esc la line start dup depth rr R1 N1 E1 T [CR BS]. set (s2 := set_line s1 _).
    assert (R2 : rel s2 (C MSkip (line - (if is_eol la then 1 else 0))%Z start dup depth)).
    { destruct R1 as (A & B & D & E & N & M). split; [reflexivity|]. auto. }
    assert (LE : la <> "") by apply T.
    assert (RD : lex_read s2 (escd esc la) = s1).
    { assert (EU : is_eol (escd esc la) = is_eol la) by (unfold escd; destruct esc; auto; now apply is_eol_app). unfold lex_read. rewrite EU. unfold s2.
      destruct R1 as (A & _). cbn [c_line] in A. destruct s1 as [a1 b1 c1 d1 e1 f1 g1 h1 i1 j1]. cbn [l_ntd l_line] in *. subst j1 b1.
      unfold set_ntd, set_line. cbn [l_tok l_line l_start l_st l_new l_dup l_esc l_depth l_quote l_ntd].
      destruct (is_eol la); f_equal; lia. }
    assert (N2 : l_ntd s2 = true) by exact N1. assert (E2 : l_esc s2 = false) by exact E1. clearbody s2.
    unfold escd in *. destruct esc.
    - change (["\"; la] ++ rr)%list with ("\" :: la :: rr)%list. rewrite run_bs by auto. cbn [lex_run].
      assert (YE : eye la (l_esc (set_esc s2 true))) by (split; [auto|reflexivity]).
      rewrite (quiet_step (set_esc s2 true) _ la rr R2 T YE eq_refl).
      assert (SE : set_esc (set_esc s2 true) false = s2) by (destruct s2; cbn in *; now subst). rewrite SE. cbn [l_esc set_esc]. unfold ustep. rewrite RD. destruct (r_ctl _); reflexivity.
    - change ([la] ++ rr)%list with (la :: rr)%list. cbn [lex_run].
      assert (YE : eye la (l_esc s2)) by (split; [auto|intros E; now specialize (BS E)]).
      rewrite (quiet_step s2 _ la rr R2 T YE eq_refl). rewrite (esc_id s2 E2), E2. unfold ustep. rewrite RD. destruct (r_ctl _); reflexivity.
  Qed.
  Lemma hand_step : forall s c la rest f, rel s c -> rune_text la -> eye la (l_esc s) -> trig c (l_ntd s) la = Some f ->
    let line1 := (if is_eol la then c_line c + 1 else c_line c)%Z in
    let et := f (pname (c_mode c)) line1 rest in
    let line2 := (line1 + count_eol (firstn (snd et) rest))%Z in
    exists s2, rel s2 (C MSkip (if shut (c_mode c) (escd (l_esc s) la) then line2 else line2 - (if is_eol la then 1 else 0))%Z (c_start c) (c_dup c) (c_depth c)) /\
      l_ntd s2 = true /\ l_esc s2 = false /\
      lex_run ext 0 s (la :: rest) = (cpending c ++ fst et ++ lex_run ext 0 s2
        ((if shut (c_mode c) (escd (l_esc s) la) then [] else if l_esc s then ["\"; la] else [la]) ++ skipn (snd et) rest))%list.
  Proof.
    intros s c la rest f R T Y TR line1 et line2. destruct Y as [CR BS]. pose proof (rel_name s c R) as NM.
    unfold trig in TR. rewrite <- NM in TR. destruct (str_nonempty (l_tok s) && (l_ntd s || is_eol la))%bool eqn:ON; [|discriminate].
    pose proof ON as ON'. apply andb_true_iff in ON as [NE NT].
    destruct (rune_like_text la T) as [LE LR]. apply String.eqb_neq in CR.
    assert (LINE : l_line (lex_read s la) = line1).
    { destruct R as (A & _). unfold lex_read, line1. rewrite <- A. now destruct (is_eol la). }
    set (s0 := set_esc (lex_read s la) false).
    set (s1 := set_line (emit_st s0) line2).
    assert (KEEP : l_start (lex_read s la) = l_start s /\ l_dup (lex_read s la) = l_dup s /\ l_depth (lex_read s la) = l_depth s /\ l_new (lex_read s la) = l_new s /\ l_st (lex_read s la) = l_st s /\ l_quote (lex_read s la) = l_quote s /\ l_esc (lex_read s la) = l_esc s).
    { unfold lex_read. destruct (is_eol la); auto 10. }
    destruct KEEP as (K1 & K2 & K3 & K4 & K5 & K6 & K7).
    assert (R1 : rel s1 (C MSkip line2 (c_start c) (c_dup c) (c_depth c))).
    { destruct R as (A & B & D & E & N & _). repeat split; cbn; congruence. }
    assert (N1 : l_ntd s1 = true) by (cbn; now rewrite read_ntd).
    assert (PEND : cpending c = [emit_tok s0 (l_start s0) (lex_state_eqb (l_st s0) InQuote) None]).
    { assert (X : emit_tok s0 (l_start s0) (lex_state_eqb (l_st s0) InQuote) None = Tok (l_tok s) (l_start s) (lex_state_eqb (l_st s) InQuote) None).
      { unfold emit_tok. cbn [s0 set_esc l_tok l_start l_st]. now rewrite read_tok, K1, K5. }
      rewrite X. unfold cpending. destruct R as (_ & B & _ & _ & _ & M). rewrite <- B. destruct (c_mode c) as [|w|w|w|q w]; cbn [pname] in NM.
      - rewrite NM in NE. discriminate.
      - destruct M as (-> & -> & _). reflexivity.
      - destruct M as (-> & -> & _). reflexivity.
      - destruct M as (-> & -> & _). reflexivity.
      - destruct M as (-> & -> & _). rewrite NM in NE. apply nonempty_iff, String.eqb_neq in NE. now rewrite NE. }
    assert (SH : (lex_state_eqb (l_st s0) InQuote && String.eqb (escd (l_esc s) la) (l_quote s1))%bool = shut (c_mode c) (escd (l_esc s) la)).
    { cbn [s0 s1 set_esc set_line emit_st set_st set_tok l_st l_quote]. rewrite K5, K6. destruct R as (_ & _ & _ & _ & _ & M). unfold shut. destruct (c_mode c) as [|w|w|w|q w]; destruct M as (-> & M); auto.
      destruct M as [_ ->]. reflexivity. }
    assert (BODY : lex_body ext (lex_read s la) la rest =
      if shut (c_mode c) (escd (l_esc s) la) then (LRes s1 (cpending c ++ fst et) Next, snd et)
      else let r := lex_switch s1 (escd (l_esc s) la) in (LRes (r_st r) (cpending c ++ fst et ++ r_toks r) (r_ctl r), snd et)).
    { unfold lex_body. rewrite (proj2 (String.eqb_neq _ _) CR), (proj2 (String.eqb_neq _ _) LR). cbn [orb]. rewrite K7.
      assert (B1 : ((la =? "\") && negb (l_esc s))%bool = false).
      { destruct (String.eqb_spec la "\") as [E|]; auto. now rewrite (BS E). }
      rewrite B1. fold s0. assert (TK : l_tok s0 = l_tok s) by (cbn; apply read_tok). assert (ND : l_ntd s0 = (l_ntd s || is_eol la)%bool) by (cbn; apply read_ntd).
      rewrite TK, ND, ON', TR. assert (LN : l_line s0 = line1) by exact LINE. rewrite LN, NM. fold et. clearbody et. destruct et as [etoks n]. cbn [fst snd] in *. fold line2. fold s1.
      unfold escd in SH |- *. rewrite SH, PEND. destruct (shut _ _); reflexivity. }
    destruct (shut (c_mode c) (escd (l_esc s) la)).
    - exists s1. split; auto. split; auto. split; [reflexivity|]. cbn [lex_run]. unfold lex_step. rewrite BODY. cbn [r_ctl r_toks r_st app]. rewrite run_skip. now rewrite <- app_assoc.
    - exists (set_line s1 (line2 - (if is_eol la then 1 else 0))%Z).
      assert (E1 : l_esc s1 = false) by reflexivity. clearbody s1.
      split; [destruct R1 as (A & B & D & E & N & M); split; [reflexivity|]; auto|]. split; [exact N1|]. split; [exact E1|].
      set (u := escd (l_esc s) la) in *.
      pose proof (run_back s1 (l_esc s) la line2 (c_start c) (c_dup c) (c_depth c) (skipn (snd et) rest) R1 N1 E1 T (conj (proj2 (String.eqb_neq _ _) CR) BS)) as BACK. fold u in BACK.
      rewrite BACK. cbn [lex_run]. unfold lex_step. rewrite BODY. fold u. cbv zeta. unfold usw.
      pose proof (switch_ctl s1 u) as SC. destruct (r_ctl (lex_switch s1 u)) as [|la'|] eqn:RC; cbn [r_ctl r_toks r_st].
      + rewrite RC, run_skip, <- !app_assoc. reflexivity.
      + destruct SC as (-> & ST & SP & NO). rewrite NO. cbn [app].
        assert (TK : l_tok (r_st (lex_switch s1 u)) = "") by (rewrite (proj1 (switch_reeval _ _ u RC)); apply R1).
        rewrite (body_plain ext) by auto. rewrite body_switch.
        * cbn [r_ctl r_toks r_st]. rewrite Nat.add_0_r, app_nil_r. destruct (r_ctl (lex_switch (r_st (lex_switch s1 u)) u)); rewrite ?(run_skip ext (snd et)), <- ?app_assoc; reflexivity.
        * rewrite switch_esc. exact E1.
        * unfold u, escd. destruct (l_esc s); [discriminate|auto].
        * unfold u, escd. destruct (l_esc s); [|auto]. intros H. apply (app_inv_l_s "\") in H. auto.
        * unfold u, escd. destruct (l_esc s) eqn:ES; [intros H; apply (app_inv_l_s "\" _ "") in H; auto|]. intros E. now specialize (BS E).
      + rewrite RC. reflexivity.
  Qed.

  (** ** Hand-overs of the text and of the machine *)
  Definition begun (line shown : Z) (sent : list (token * Z)) : cst := C MSkip line shown (after_sep false (map fst sent)) (net (map fst sent)).
  Lemma cut_meets : forall fresh line shown sent P L e b, Forall rune_text P -> cut P L e b ->
    meets (steps (begun line shown sent) fresh (units false P)) (track (after_sep false (map fst sent)) (net (map fst sent)) (entries line None L e)) (fresh_after fresh None L e)
      (map fst (entries line None L e)) (line + newlines (text_of L e)) (match L, e with [], Blank _ => shown | _, _ => last_shown line None L e end) (unfinished None L e).
  Proof.
    intros fresh line shown sent P L e b F K. pose proof K as (_ & B & D). destruct (cut_units P L e b F K) as (CL & -> & _).
    pose proof (st_all e b B L (begun line shown sent) (here shown) line [] (after_sep false (map fst sent)) (net (map fst sent)) fresh) as M.
    cbn [option_map fst here] in M. rewrite here_divided, here_fresh, here_unfinished in M. fold (here shown) in M. rewrite here_entries, here_shown in M.
    apply M; auto. unfold begun. now constructor.
  Qed.
  Lemma settled_name : forall c x, settled c (Some x) -> pname (c_mode c) = lexeme_val x.
  Proof. intros c [ps|q ps|s|ps] H; cbn [settled] in H; try contradiction; try (rewrite H; reflexivity). destruct H as [H|H]; rewrite H; reflexivity. Qed.
  Lemma settled_shut : forall c x u, settled c (Some x) -> shut (c_mode c) u = match x with Quoted q _ => String.eqb u q | _ => false end.
  Proof. intros c [ps|q ps|s|ps] u H; cbn [settled] in H; try contradiction; try (rewrite H; reflexivity). destruct H as [H|H]; rewrite H; reflexivity. Qed.
  Lemma open_shown : forall line shown L e x, unfinished None L e = Some x -> (match L, e with [], Blank _ => shown | _, _ => last_shown line None L e end) = last_shown line None L e.
  Proof. intros line shown [|[g y] L] [[|r g']|g' x'] x H; auto; discriminate. Qed.
  Lemma eye_char : forall P L e b la, Forall rune_text P -> cut P L e b -> (eye la (escaf false P) <-> is_cr la = false /\ (la = "\" -> b = "\")).
  Proof.
    intros P L e b la F K. destruct (cut_units P L e b F K) as (_ & _ & [[-> ->]|[-> ->]]); unfold eye; split; intros [A B]; split; auto; intros E; specialize (B E); congruence.
  Qed.
  Definition onward (line shown : Z) (sent : list (token * Z)) (L : list (gap * lexeme)) (e : ending) (x : lexeme) (c : cst) (ts : list token) : Prop :=
    settled c (Some x) /\ (ts ++ cpending c)%list = map fst (entries line None L e) /\ c_line c = (line + newlines (text_of L e))%Z /\
    c_start c = last_shown line None L e /\ c_dup c = after_sep false (map fst (sent ++ entries line None L e)) /\ c_depth c = net (map fst (sent ++ entries line None L e)).
  Lemma hands_fires : forall fresh line shown sent P la rest L e b x f, Forall rune_text (P ++ la :: rest) -> orderly (map fst sent) ->
    hands ext fresh line sent P la L e b x f ->
    exists c ts, fires (begun line shown sent) fresh false (P ++ la :: rest) P la rest c (fresh_after fresh None L e) ts f /\ onward line shown sent L e x c ts.
  Proof.
    intros fresh line shown sent P la rest L e b x f F O [K CH UN [NE AS] PL OR]. apply Forall_app in F as [FP FR]. inversion FR as [|r' rs' T FR']; subst.
    pose proof (cut_meets fresh line shown sent P L e b FP K) as M. pose proof (track_orderly (entries line None L e) sent O) as TO.
    destruct (track _ _ (entries line None L e)) as [[d n]|]; [|contradiction]. destruct TO as (_ & -> & ->). cbn [meets] in M.
    destruct M as (c & ts & S & TS & CL & CS & CD & ST & DU). rewrite UN in ST, DU. exists c, ts. split.
    - split; auto. split; auto. split; [now apply (eye_char P L e b)|]. unfold trig. rewrite (settled_name c x ST), (proj2 (nonempty_iff _) NE).
      rewrite (rune_breaks la T) in PL. rewrite PL. exact AS.
    - rewrite (open_shown line shown L e x UN) in CS. repeat split; auto. apply DU. intros y Y. inversion Y; subst. exact NE.
  Qed.
  Lemma fires_hands : forall fresh line shown sent rs P la rest c fr ts f, Forall rune_text rs -> orderly (map fst sent) ->
    fires (begun line shown sent) fresh false rs P la rest c fr ts f ->
    exists L e b x, hands ext fresh line sent P la L e b x f.
  Proof.
    intros fresh line shown sent rs P la rest c fr ts f F O (E & S & Y & TR). subst rs. apply Forall_app in F as [FP FR]. inversion FR as [|r' rs' T FR']; subst.
    destruct (cut_some P FP) as (L & e & b & K). exists L, e, b.
    pose proof (cut_meets fresh line shown sent P L e b FP K) as M. pose proof (track_orderly (entries line None L e) sent O) as TO.
    destruct (track _ _ (entries line None L e)) as [[d n]|]; cbn [meets] in M; [|congruence]. destruct TO as (OR & _ & _).
    destruct M as (c1 & ts1 & S1 & TS & CL & CS & CD & ST & DU). rewrite S in S1. inversion S1; subst c1 fr ts1. clear S1.
    unfold trig in TR. destruct (str_nonempty (pname (c_mode c)) && (fresh_after fresh None L e || is_eol la))%bool eqn:ON; [|discriminate]. apply andb_true_iff in ON as [NE PL].
    destruct (unfinished None L e) as [x|] eqn:UN; [|cbn [settled] in ST; rewrite ST in NE; discriminate].
    exists x. rewrite (settled_name c x ST) in NE, TR. split; auto.
    - now apply (eye_char P L e b).
    - split; auto. now apply nonempty_iff.
    - now rewrite (rune_breaks la T).
  Qed.
  Lemma fires_one : forall c fr esc rs P la rest c1 fr1 ts1 f1 P' la' rest' c2 fr2 ts2 f2,
    fires c fr esc rs P la rest c1 fr1 ts1 f1 -> fires c fr esc rs P' la' rest' c2 fr2 ts2 f2 -> List.length P = List.length P' ->
    P' = P /\ la' = la /\ rest' = rest /\ c2 = c1 /\ fr2 = fr1 /\ ts2 = ts1 /\ f2 = f1.
  Proof.
    intros c fr esc rs P la rest c1 fr1 ts1 f1 P' la' rest' c2 fr2 ts2 f2 (E & S & _ & T) (E' & S' & _ & T') L.
    assert (X : P = P' /\ la :: rest = la' :: rest'). { rewrite E in E'. clear - E' L. revert P' L E'. induction P as [|a P IH]; intros [|a' P'] L E'; cbn in L; try lia; auto.
      cbn [app] in E'. inversion E'; subst. destruct (IH P') as [-> ->]; auto. }
    destruct X as [<- X]. inversion X; subst. rewrite S in S'. inversion S'; subst. rewrite T in T'. inversion T'; subst. repeat split; auto.
  Qed.
  Lemma fires_shorter : forall line shown sent fr rs P la rest c fr' ts f n, Forall rune_text rs ->
    fires (begun line shown sent) fr false rs P la rest c fr' ts f ->
    List.length ((if escaf false P then ["\"; la] else [la]) ++ skipn n rest) < List.length rs.
  Proof.
    intros line shown sent fr rs P la rest c fr' ts f n F (-> & S & _ & T). pose proof (units_count P false) as U1. rewrite !app_length. change (List.length (la :: rest)) with (Datatypes.S (List.length rest)).
    assert (NE : units false P <> []). { intros E. rewrite E in S. cbn [steps] in S. inversion S; subst. discriminate. }
    assert (LU : 1 <= List.length (units false P)) by (destruct (units false P); [congruence|cbn; lia]).
    pose proof (skipn_length n rest) as SL. rewrite SL. unfold slen in *. destruct (escaf false P); cbn [List.length]; lia.
  Qed.
  Lemma rune_bs : rune_text "\".
  Proof. split; [discriminate|]. eexists. reflexivity. Qed.
  Lemma concat_nls : forall rs, Forall rune_text rs -> newlines (concat_str rs) = count_eol rs.
  Proof. intros rs F. destruct (scan_concat rs F) as [E _]. rewrite <- count_scan. now rewrite E. Qed.
  Lemma hand_all : forall k rs s fresh line shown sent, List.length rs < k -> Forall rune_text rs -> orderly (map fst sent) ->
    rel s (begun line shown sent) -> l_ntd s = fresh -> l_esc s = false ->
    forall toks, lexing ext fresh line shown sent rs toks <-> toks = lex_run ext 0 s rs.
  Proof.
    induction k as [|k IH]; intros rs s fresh line shown sent LT F O R NT NE toks; [lia|]. subst fresh.
    (** one hand-over *)
    assert (ONE : forall P la rest L e b x f c fr ts s', hands ext (l_ntd s) line sent P la L e b x f -> rs = (P ++ la :: rest)%list ->
      fires (begun line shown sent) (l_ntd s) false rs P la rest c fr ts f -> onward line shown sent L e x c ts ->
      rel s' c -> l_ntd s' = fr -> l_esc s' = escaf false P -> lex_run ext 0 s rs = (ts ++ lex_run ext 0 s' (la :: rest))%list ->
      let here := (line + newlines (text_of L e) + newlines la)%Z in
      let etoks := fst (f (lexeme_val x) here rest) in
      let n := snd (f (lexeme_val x) here rest) in
      let there := (here + newlines (concat_str (firstn n rest)))%Z in
      let closing := match x with Quoted q _ => String.eqb (b ++ la) q | _ => false end in
      exists tail, lex_run ext 0 s rs = (map fst (entries line None L e) ++ etoks ++ tail)%list /\
        forall toks, lexing ext true (if closing then there else there - newlines la)%Z (last_shown line None L e) (sent ++ entries line None L e)
          ((if closing then [] else if String.eqb b "" then [la] else [b; la]) ++ skipn n rest)%list toks <-> toks = tail).
    { intros P la rest L e b x f c fr ts s' H E FI (ST & TS & CL & CS & CD & CN) R' N' E' RUN. pose proof FI as (_ & S & Y & TR).
      subst rs. pose proof F as FF. apply Forall_app in FF as [FP FR]. inversion FR as [|r' rs' T FR']; subst r' rs'.
      rewrite <- E' in Y. rewrite <- N' in TR. pose proof (hand_step s' c la rest f R' T Y TR) as HS. cbv zeta in HS. cbv zeta.
      rewrite (settled_name c x ST), (settled_shut c x _ ST) in HS. rewrite E' in HS.
      assert (HL : (if is_eol la then c_line c + 1 else c_line c)%Z = (line + newlines (text_of L e) + newlines la)%Z).
      { rewrite CL, (newlines_rune la T). destruct (is_eol la); lia. }
      rewrite HL in HS. set (et := f (lexeme_val x) _ rest) in *.
      assert (FC : Forall rune_text (firstn (snd et) rest) /\ Forall rune_text (skipn (snd et) rest)) by (apply Forall_app; now rewrite firstn_skipn).
      destruct FC as [FC FS]. rewrite (concat_nls _ FC).
      assert (EB : escd (escaf false P) la = b ++ la /\ (if escaf false P then ["\"; la] else [la]) = (if String.eqb b "" then [la] else [b; la])).
      { destruct H as [K _ _ _ _ _]. destruct (cut_units P L e b FP K) as (_ & _ & [[-> ->]|[-> ->]]); split; reflexivity. }
      destruct EB as [EB1 EB2]. rewrite EB1 in HS.
      rewrite (newlines_rune la T) in *. set (closing := match x with Quoted q _ => _ | _ => _ end) in *.
      destruct HS as (s2 & R2 & N2 & E2 & RUN2).
      exists (lex_run ext 0 s2 ((if closing then [] else if String.eqb b "" then [la] else [b; la]) ++ skipn (snd et) rest)). split.
      - rewrite RUN, RUN2, <- TS, EB2. now rewrite <- app_assoc.
      - apply IH; auto.
        + rewrite <- EB2. pose proof (fires_shorter line shown sent (l_ntd s) _ P la rest c fr ts f (snd et) F FI) as SH. rewrite !app_length in *.
          destruct closing; [|lia]. cbn [List.length] in *. destruct (escaf false P); cbn [List.length] in SH; lia.
        + apply Forall_app. split; auto. destruct closing; [constructor|]. rewrite <- EB2. destruct (escaf false P); [constructor; [apply rune_bs|]|]; (constructor; [exact T|constructor]).
        + apply H.
        + rewrite CS, CD, CN in R2. exact R2. }
    pose proof (walk rs s (begun line shown sent) R F) as W. rewrite NE in W.
    destruct W as [(P & la & rest & c & fr & ts & f & s' & FI & MIN & R' & N' & E' & RUN)|[NO RUN]].
    - assert (SAME : forall P2 la2 rest2 L e b x f2, rs = (P2 ++ la2 :: rest2)%list -> hands ext (l_ntd s) line sent P2 la2 L e b x f2 -> List.length P2 <= List.length P ->
        P2 = P /\ la2 = la /\ rest2 = rest /\ f2 = f /\ onward line shown sent L e x c ts).
      { intros P2 la2 rest2 L e b x f2 E H LE. assert (F2 := F). rewrite E in F2. destruct (hands_fires _ line shown sent P2 la2 rest2 L e b x f2 F2 O H) as (c2 & ts2 & FI2 & ON).
        rewrite <- E in FI2. pose proof (MIN _ _ _ _ _ _ _ FI2) as GE. destruct (fires_one _ _ _ _ _ _ _ _ _ _ _ _ _ _ _ _ _ _ FI FI2) as (-> & -> & -> & -> & _ & -> & ->); [lia|]. auto. }
      pose proof FI as (E & _). split.
      + intros LX. inversion LX as [fr0 ln0 sh0 se0 rs0 L e b tk0 K NH OC|fr0 ln0 sh0 se0 P2 la2 rest2 L e b x f2 H FST here etoks n there closing toks' LX']; subst fr0 ln0 sh0 se0.
        * exfalso. subst rs0. destruct (fires_hands _ line shown sent rs P la rest c fr ts f F O FI) as (L' & e' & b' & x' & H). exact (NH P la rest L' e' b' x' f E H).
        * destruct (fires_hands _ line shown sent rs P la rest c fr ts f F O FI) as (L' & e' & b' & x' & H').
          assert (E2 : rs = (P2 ++ la2 :: rest2)%list) by auto.
          assert (LE : List.length P2 <= List.length P). { apply (FST P la rest L' e' b' x' f); auto. congruence. }
          destruct (SAME P2 la2 rest2 L e b x f2 E2 H LE) as (-> & -> & -> & -> & ON).
          destruct (ONE P la rest L e b x f c fr ts s' H E FI ON R' N' E' RUN) as (tail & RN & TL). rewrite <- ?E2, RN. apply TL in LX'. now rewrite LX'.
      + intros ->. destruct (fires_hands _ line shown sent rs P la rest c fr ts f F O FI) as (L & e & b & x & H).
        destruct (SAME P la rest L e b x f E H (le_n _)) as (_ & _ & _ & _ & ON).
        destruct (ONE P la rest L e b x f c fr ts s' H E FI ON R' N' E' RUN) as (tail & RN & TL). rewrite RN. rewrite E.
        apply (lx_hand ext (l_ntd s) line shown sent P la rest L e b x f H).
        * intros P2 la2 rest2 L2 e2 b2 x2 f2 E2 H2. destruct (Nat.le_gt_cases (List.length P) (List.length P2)); auto.
          destruct (SAME P2 la2 rest2 L2 e2 b2 x2 f2) as (-> & _); auto; [congruence|lia].
        * now apply TL.
    - assert (NH : forall P la rest L e b x f, rs = (P ++ la :: rest)%list -> ~ hands ext (l_ntd s) line sent P la L e b x f).
      { intros P la rest L e b x f E H. assert (F2 := F). rewrite E in F2. destruct (hands_fires _ line shown sent P la rest L e b x f F2 O H) as (c2 & ts2 & FI2 & _). rewrite <- E in FI2. eapply NO; eauto. }
      assert (OUT : forall L e b, cut rs L e b -> outcome (match L, e with [], Blank _ => shown | _, _ => last_shown line None L e end)
        (line + newlines (text_of L e)) (sent ++ entries line None L e) (map fst sent ++ lex_run ext 0 s rs)).
      { intros L e b K. pose proof K as (_ & B & D). destruct (cut_units rs L e b F K) as (CL & UE & _). rewrite RUN, UE.
        pose proof (run_all e b B L (begun line shown sent) (here shown) line [] (after_sep false (map fst sent)) (net (map fst sent))) as RA.
        cbn [option_map fst here] in RA. rewrite here_divided in RA. fold (here shown) in RA. rewrite here_entries, here_shown in RA. rewrite RA; auto; [|unfold begun; now constructor].
        cbn [app]. now apply judge_outcome. }
      split.
      + intros LX. inversion LX as [fr0 ln0 sh0 se0 rs0 L e b tk0 K _ OC|fr0 ln0 sh0 se0 P2 la2 rest2 L e b x f2 H FST here etoks n there closing toks' LX']; subst fr0 ln0 sh0 se0.
        * pose proof (outcome_one _ _ _ _ _ OC (OUT L e b K)) as EQ. now apply app_inv_head in EQ.
        * exfalso. eapply NH; eauto.
      + intros ->. destruct (cut_some rs F) as (L & e & b & K). apply (lx_end ext (l_ntd s) line shown sent rs L e b); [exact K|exact NH|exact (OUT L e b K)].
  Qed.
End Ext.
Theorem hand_exact : forall ext s toks, lexing ext true 1 1 [] (scan_runes s) toks <-> toks = lex ext s.
Proof.
  intros ext s toks. unfold lex, lex_runes. apply (hand_all ext (S (List.length (scan_runes s)))); auto.
  - apply scan_texts.
  - split; [intros [|x a] y H; [cbn; lia|discriminate]|intros [|x a] y l H; discriminate].
  - repeat split.
Qed.
