(** C54: the lexer on any text. *)
From Verif Require Export LayoutProofs SpecScan.
Local Open Scope string_scope.

(** ** The text that is read *)
Lemma bad_width : forall c s n w, decode_rune (String c s) = (n, w, false) -> w = 1.
Proof.
  intros c s n w H. unfold decode_rune in H. destruct s as [|c1 [|c2 [|c3 s]]]; dec_cases; inversion H; subst; auto.
Qed.
Lemma repaired_runes : forall s t, repaired s t -> scan_runes s = scan_runes t /\ valid_utf8 t = true.
Proof.
  induction 1 as [|r n s t NE D H [E V]|c s n w t D H [E V]].
  - split; reflexivity.
  - assert (R : rune_text r) by (split; eauto). pose proof (rune_valid r R) as VR.
    rewrite !scan_runes_app_valid, E by auto. split; auto. now rewrite valid_utf8_app.
  - pose proof (bad_width _ _ _ _ D) as ->. pose proof (rune_valid _ error_text) as VR.
    rewrite scan_runes_app_valid, (rune_scan_runes _ error_text) by auto. split; [|now rewrite valid_utf8_app].
    unfold scan_runes in *. rewrite (scan_eq (String c s) ltac:(discriminate) _ _ _ D). cbn [map drop]. rewrite E. reflexivity.
Qed.
Lemma repaired_some : forall s, exists t, repaired s t.
Proof.
  induction s as [s IH] using str_len_ind. destruct s as [|c s]; [exists ""; constructor|].
  assert (NS : String c s <> "") by discriminate.
  destruct (decode_rune (String c s)) as [[n w] ok] eqn:D. pose proof (dec_width _ _ _ _ NS D) as W.
  destruct ok.
  - pose proof (take_rune _ _ _ NS D) as [NE [m R]].
    destruct (IH (drop w (String c s))) as [t T]; [rewrite slen_drop; lia|].
    exists (take w (String c s) ++ t). rewrite <- (take_drop w (String c s)) at 1. eapply rp_char; eauto.
  - destruct (IH s) as [t T]; [cbn; lia|]. exists (error_rune_text ++ t). eapply rp_byte; eauto.
Qed.
Lemma lex_repaired : forall s t, repaired s t -> lex [] s = crun cinit (U (no_cr t)).
Proof.
  intros s t H. apply repaired_runes in H as [E V]. unfold U. rewrite <- lex_crun, lex_no_cr by auto. unfold lex. now rewrite E.
Qed.

(** ** Judging a list of items *)
Fixpoint judge (dup : bool) (depth shown line : Z) (l : list (token * Z)) : list token :=
  match l with
  | [] => if Z.ltb 0 depth then [bad_tok line shown expecting] else []
  | (t, n) :: r =>
    if sepb t then
      if (dup && negb (String.eqb (t_val t) "}"))%bool then [bad_tok n (t_line t) (unexpected (t_val t))]
      else
        let depth' := if String.eqb (t_val t) "{" then (depth + 1)%Z else if String.eqb (t_val t) "}" then (depth - 1)%Z else depth in
        if (String.eqb (t_val t) "}" && Z.ltb depth' 0)%bool then [bad_tok n (t_line t) (unexpected "}")]
        else t :: judge true depth' shown line r
    else t :: judge (if noteb t then dup else false) depth shown line r
  end.
Lemma orderly_snoc : forall ts t, orderly ts -> (0 <= net (ts ++ [t]))%Z ->
  (sepb t = true -> after_sep false ts = true -> t_val t = "}") -> orderly (ts ++ [t]).
Proof.
  intros ts t (B & C) N S. split.
  - intros a b H. destruct (snoc_cases _ b) as [->|(d & z & ->)].
    + rewrite app_nil_r in H. now subst.
    + rewrite app_assoc in H. apply app_inj_tail in H as [-> _]. eapply B. reflexivity.
  - intros a u b H SU AF. apply snoc_split in H as [(-> & -> & ->)|(d & -> & ->)]; auto. eapply C; eauto.
Qed.
Lemma orderly_net : forall ts, orderly ts -> (0 <= net ts)%Z.
Proof. intros ts [N _]. apply (N ts []). now rewrite app_nil_r. Qed.
Lemma sepb_cases : forall t, sepb t = true -> t_quoted t = false /\ (t_val t = "{" \/ t_val t = "}" \/ t_val t = ";").
Proof.
  intros t H. unfold sepb in H. apply andb_true_iff in H as [Q E]. apply negb_true_iff in Q. split; auto.
  cbn [existsb] in E. rewrite !orb_true_iff, !String.eqb_eq in E. intuition discriminate.
Qed.
Lemma sep_noteb : forall t, sepb t = true -> noteb t = false.
Proof. intros t H. apply sepb_cases in H as (Q & [E|[E|E]]); unfold noteb; rewrite Q, E; reflexivity. Qed.
Lemma judge_outcome : forall shown line l done, orderly (map fst done) ->
  outcome shown line (done ++ l) (map fst done ++ judge (after_sep false (map fst done)) (net (map fst done)) shown line l).
Proof.
  intros shown line. induction l as [|[t n] l IH]; intros done OD.
  - cbn [judge]. rewrite app_nil_r. destruct (Z.ltb_spec 0 (net (map fst done))) as [P|P].
    + now apply oc_open.
    + rewrite app_nil_r. apply oc_good; auto. pose proof (orderly_net _ OD). lia.
  - cbn [judge]. assert (ST : forall d n', d = after_sep false (map fst done ++ [t]) -> n' = net (map fst done ++ [t]) -> orderly (map fst done ++ [t]) ->
      outcome shown line (done ++ (t, n) :: l) (map fst done ++ t :: judge d n' shown line l)).
    { intros d n' -> -> O. specialize (IH (done ++ [(t, n)])%list). rewrite map_app in IH. cbn [map fst] in IH. specialize (IH O).
      rewrite <- !app_assoc in IH. exact IH. }
    destruct (sepb t) eqn:S.
    + destruct (after_sep false (map fst done) && negb (t_val t =? "}"))%bool eqn:D.
      * apply andb_true_iff in D as [D NV]. apply negb_true_iff, String.eqb_neq in NV. now apply (oc_twice shown line done t n l).
      * set (depth' := if t_val t =? "{" then _ else _).
        assert (ND : net (map fst done ++ [t]) = depth').
        { rewrite net_app. unfold depth', opensb, closesb. cbn [net]. apply sepb_cases in S as (Q & V). unfold opensb, closesb. rewrite Q.
          destruct V as [V|[V|V]]; rewrite V; cbn; lia. }
        destruct ((t_val t =? "}") && (depth' <? 0)%Z)%bool eqn:CL.
        -- apply andb_true_iff in CL as [V L]. apply String.eqb_eq in V. apply Z.ltb_lt in L.
           apply (oc_close shown line done t n l); auto.
           ++ apply sepb_cases in S as [Q _]. unfold closesb. now rewrite Q, V.
           ++ pose proof (orderly_net _ OD). unfold depth' in L. rewrite V in L. cbn in L. lia.
        -- apply ST; auto.
           ++ rewrite after_sep_app. cbn [after_sep]. now rewrite (sep_noteb t S), S.
           ++ apply orderly_snoc; auto.
              ** rewrite ND. pose proof (orderly_net _ OD) as P. unfold depth' in *. destruct (t_val t =? "{"); [lia|]. destruct (t_val t =? "}"); auto.
                 cbn [andb] in CL. now apply Z.ltb_ge in CL.
              ** intros _ AF. rewrite AF in D. cbn in D. now apply negb_false_iff, String.eqb_eq in D.
    + assert (NN : net (map fst done ++ [t]) = net (map fst done)).
      { rewrite net_app. cbn [net]. unfold sepb, opensb, closesb in *. destruct (t_quoted t); cbn [negb andb existsb] in *; [lia|].
        rewrite !orb_false_iff in S. destruct S as (-> & -> & _). lia. }
      apply ST; auto.
      * rewrite after_sep_app. cbn [after_sep]. destruct (noteb t); auto.
      * apply orderly_snoc; auto; [rewrite NN; now apply orderly_net|congruence].
Qed.
Lemma outcome_one : forall shown line l x y, outcome shown line l x -> outcome shown line l y -> x = y.
Proof.
  assert (J : forall shown line l x, outcome shown line l x -> x = judge false 0 shown line l).
  { intros shown line.
    assert (PF : forall a done b, orderly (map fst (done ++ a)) -> judge (after_sep false (map fst done)) (net (map fst done)) shown line (a ++ b) =
      (map fst a ++ judge (after_sep false (map fst (done ++ a))) (net (map fst (done ++ a))) shown line b)%list).
    { induction a as [|[t n] a IH]; intros done b O; [now rewrite app_nil_r|]. cbn [app map fst judge].
      assert (IH' := IH (done ++ [(t, n)])%list b). rewrite <- app_assoc in IH'. specialize (IH' O). cbn [app] in IH'. rewrite map_app in IH'. cbn [map fst] in IH'.
      assert (SP : sepb t = true -> after_sep false (map fst done) = true -> t_val t = "}").
      { destruct O as [_ SP]. apply (SP (map fst done) t (map fst a)). now rewrite map_app. }
      assert (NN : (0 <= net (map fst done ++ [t]))%Z).
      { destruct O as [NS _]. apply (NS _ (map fst a)). rewrite map_app. cbn [map fst]. now rewrite <- app_assoc. }
      assert (ST : forall d n', d = after_sep false (map fst done ++ [t]) -> n' = net (map fst done ++ [t]) ->
        t :: judge d n' shown line (a ++ b) = t :: (map fst a ++ judge (after_sep false (map fst (done ++ (t, n) :: a))) (net (map fst (done ++ (t, n) :: a))) shown line b)%list).
      { intros d n' -> ->. now rewrite <- IH'. }
      destruct (sepb t) eqn:S.
      - destruct (after_sep false (map fst done) && negb (t_val t =? "}"))%bool eqn:D.
        { apply andb_true_iff in D as [D NV]. rewrite (SP eq_refl D) in NV. discriminate. }
        set (depth' := if t_val t =? "{" then _ else _).
        assert (ND : net (map fst done ++ [t]) = depth').
        { rewrite net_app. unfold depth', opensb, closesb. cbn [net]. apply sepb_cases in S as (Q & V). unfold opensb, closesb. rewrite Q.
          destruct V as [V|[V|V]]; rewrite V; cbn; lia. }
        rewrite ND in NN. rewrite (proj2 (Z.ltb_ge _ _) NN), andb_false_r. apply ST; auto. rewrite after_sep_app. cbn [after_sep]. now rewrite (sep_noteb t S), S.
      - apply ST.
        + rewrite after_sep_app. cbn [after_sep]. destruct (noteb t); auto.
        + rewrite net_app. cbn [net]. unfold sepb, opensb, closesb in *. destruct (t_quoted t); cbn [negb andb existsb] in *; [lia|].
          rewrite !orb_false_iff in S. destruct S as (-> & -> & _). lia. }
    assert (PF0 : forall a b, orderly (map fst a) -> judge false 0 shown line (a ++ b) = (map fst a ++ judge (after_sep false (map fst a)) (net (map fst a)) shown line b)%list).
    { intros a b O. exact (PF a [] b O). }
    intros l x H. destruct H as [l O N|a t n b O S V A|a t n b O CL N|l O N].
    - rewrite <- (app_nil_r l) at 2. rewrite PF0 by auto. cbn [judge]. rewrite N. cbn. now rewrite app_nil_r.
    - rewrite PF0 by auto. cbn [judge]. rewrite S, A. apply String.eqb_neq in V. rewrite V. reflexivity.
    - rewrite PF0 by auto. cbn [judge]. unfold closesb in CL. apply andb_true_iff in CL as [Q V]. apply String.eqb_eq in V. apply negb_true_iff in Q.
      assert (S : sepb t = true) by (unfold sepb; now rewrite Q, V). rewrite S, V, N. cbn. now rewrite andb_false_r.
    - rewrite <- (app_nil_r l) at 2. rewrite PF0 by auto. cbn [judge]. apply Z.ltb_lt in N. now rewrite N. }
  intros shown line l x y X Y. apply J in X, Y. congruence.
Qed.

(** ** The machine on items *)
Lemma tail_pieces : forall z ps v d, word_tail z v d ps = true -> forallb piece_ok ps = true.
Proof.
  intros z. induction ps as [|p ps IH]; intros v d H; auto. cbn [word_tail forallb] in *. apply andb_true_iff in H as [-> H]. cbn [andb].
  destruct v.
  - destruct (_ || _)%bool; eauto.
  - destruct p; eauto. destruct (_ && _)%bool; eauto. apply andb_true_iff in H as [_ H]. eauto.
Qed.
Lemma is_pieces : forall z ps, word_is z ps = true -> forallb piece_ok ps = true.
Proof.
  intros z [|p ps] H; auto. cbn [word_is forallb] in *. rewrite !andb_true_iff in H. destruct H as [[_ ->] H]. cbn [andb]. eapply tail_pieces; eauto.
Qed.
Lemma run_tail : forall z ps var dollar w line start depth us, word_tail z var dollar ps = true -> w <> "" ->
  (var = false -> has_suffix w "$" = dollar) ->
  crun (C (if var then MVar w else MWord w) line start false depth) (map src ps ++ us) =
  crun (C (if z then MVar (w ++ srcs ps) else MWord (w ++ srcs ps)) (line + nls (map src ps)) start false depth) us.
Proof.
  intros z. induction ps as [|p ps IH]; intros var dollar w line start depth us H NW DS.
  - cbn in H. apply eqb_prop in H. subst z. unfold srcs. cbn [map concat_str app]. now rewrite app_nil_r_s, Z.add_0_r.
  - cbn [word_tail] in H. apply andb_true_iff in H as [PO H]. pose proof (piece_text p PO) as T.
    cbn [map app crun]. rewrite nls_cons.
    assert (E1 : w ++ srcs (p :: ps) = (w ++ src p) ++ srcs ps) by (rewrite app_assoc_s; reflexivity). rewrite E1.
    set (line' := if is_eol (src p) then (line + 1)%Z else line).
    replace (line + ((if is_eol (src p) then 1 else 0) + nls (map src ps)))%Z with (line' + nls (map src ps))%Z by (unfold line'; destruct (is_eol (src p)); lia).
    assert (NE : w ++ src p <> "") by now apply app_ne.
    assert (SD : has_suffix (w ++ src p) "$" = String.eqb (char_of p) "$").
    { change "$" with (str1 "$"%char). rewrite suffix1_app by now apply src_unit. apply src_suffix; auto. reflexivity. }
    unfold cstep. destruct var; cbn [c_mode c_line c_start c_dup c_depth]; fold line'.
    + assert (X : (has_suffix (src p) "}" || is_space (src p))%bool = (String.eqb (char_of p) "}" || match p with Raw r => white r | Esc _ => false end)%bool).
      { change "}" with (str1 "}"%char). rewrite src_suffix by (auto; reflexivity). f_equal. destruct p; cbn [src char_of] in *; [now apply white_space|now apply esc_not_space]. }
      rewrite X. destruct (_ || _)%bool eqn:CL; cbn [app].
      * apply (IH false false); auto. intros _. rewrite SD. destruct (String.eqb_spec (char_of p) "$") as [E|]; auto.
        rewrite E in CL. cbn in CL. destruct p; cbn [char_of] in *; [subst; discriminate|discriminate].
      * apply (IH true false); auto. discriminate.
    + rewrite (DS eq_refl). destruct p as [r|r]; cbn [src char_of piece_ok] in *.
      * rewrite (white_space r T). destruct (dollar && (r =? "{"))%bool eqn:DL.
        -- apply andb_true_iff in DL as [_ DL]. apply String.eqb_eq in DL. subst r. cbn. apply (IH true false); auto; discriminate.
        -- rewrite !andb_true_iff, !negb_true_iff in H. destruct H as [[W S] H]. rewrite W.
           assert (SP : is_special r = false). { unfold is_special. unfold mem, separators in S. cbn [existsb] in S. now rewrite orb_false_r, orb_assoc in S. }
           rewrite SP. cbn [app]. apply (IH false (r =? "$")); auto.
      * rewrite esc_not_space by auto. assert (NB : String.eqb ("\" ++ r) "{" = false) by reflexivity. rewrite NB, andb_false_r.
        assert (SP : is_special ("\" ++ r) = false) by reflexivity. rewrite SP. cbn [app]. apply (IH false (r =? "$")); auto.
Qed.
Lemma first_piece : forall z p ps, word_is z (p :: ps) = true ->
  unit_ok (src p) /\ is_space (src p) = false /\ String.eqb (src p) "#" = false /\ is_quote (src p) = false /\ is_special (src p) = false.
Proof.
  intros z p ps H. cbn [word_is] in H. rewrite !andb_true_iff in H. destruct H as [[F PO] _]. pose proof (piece_text p PO) as T.
  destruct p as [r|r]; cbn [src char_of piece_ok] in *.
  - rewrite !andb_true_iff, !negb_true_iff in *. destruct F as [W M]. destruct PO as [[_ CR] BS]. apply String.eqb_neq in CR, BS.
    split; [left; auto|]. rewrite (white_space r T). split; auto. cbn [mem existsb separators quotes app] in M. rewrite !orb_false_iff in M.
    unfold is_quote, is_special. destruct M as (-> & -> & -> & -> & -> & -> & _). auto.
  - apply andb_true_iff in PO as [_ CR]. apply negb_true_iff, String.eqb_neq in CR. rewrite esc_not_space by auto.
    repeat split; auto. right. exists r. auto.
Qed.
Lemma is_like : forall z ps, word_is z ps = true -> word_like (srcs ps).
Proof.
  intros z [|p ps] H; [discriminate|]. destruct (first_piece z p ps H) as (U1 & S & N & Q & SP). unfold srcs. cbn [map concat_str].
  constructor; auto. now apply String.eqb_neq.
Qed.
Lemma run_word_item : forall z ps line start dup depth us, word_is z ps = true ->
  crun (C MSkip line start dup depth) (map src ps ++ us) =
  crun (C (if z then MVar (srcs ps) else MWord (srcs ps)) (line + nls (map src ps)) (begins (Word ps) line) false depth) us.
Proof.
  intros z [|p ps] line start dup depth us H; [discriminate|]. destruct (first_piece z p ps H) as (U1 & S & N & Q & SP).
  cbn [map app crun]. unfold cstep. cbn [c_mode c_line c_start c_dup c_depth]. rewrite S, N, Q, SP. cbn [app].
  cbn [word_is] in H. rewrite !andb_true_iff in H. destruct H as [[F PO] H].
  assert (B : (if is_eol (src p) then (line + 1)%Z else line) = begins (Word (p :: ps)) line).
  { rewrite src_eol by auto. destruct p as [r|r]; cbn [begins char_of src] in *; auto. destruct (is_nl r) eqn:NL; auto. apply String.eqb_eq in NL. subst. discriminate. }
  rewrite B, (run_tail z ps false (char_of p =? "$")); auto.
  - rewrite nls_cons. f_equal. f_equal. rewrite <- B. destruct (is_eol (src p)); lia.
  - now apply src_unit.
  - intros _. change "$" with (str1 "$"%char). apply src_suffix; auto. reflexivity.
Qed.
Lemma run_open : forall ps q w line start depth us, In q quotes ->
  forallb (fun p => piece_ok p && match p with Raw r => negb (String.eqb r q) | Esc _ => true end)%bool ps = true ->
  crun (C (MStr q w) line start false depth) (map src ps ++ us) =
  crun (C (MStr q (w ++ concat_str (map (unquote q) ps))) (line + nls (map src ps)) start false depth) us.
Proof.
  induction ps as [|p ps IH]; intros q w line start depth us Q H.
  - cbn [map app concat_str]. rewrite app_nil_r_s. change (nls []) with 0%Z. now rewrite Z.add_0_r.
  - cbn [forallb] in H. rewrite !andb_true_iff in H. destruct H as [[PO NQ] H]. cbn [map app crun concat_str]. unfold cstep.
    cbn [c_mode c_line c_start c_dup c_depth].
    assert (QL : slen q = 1) by (cbn in Q; intuition (subst; reflexivity)).
    pose proof (piece_text p PO) as T.
    assert (N1 : String.eqb (src p) q = false).
    { destruct p as [r|r]; cbn [src] in *; [now apply negb_true_iff in NQ|]. apply String.eqb_neq. intros E. rewrite <- E in QL. cbn in QL.
      destruct T as [T _]. destruct r; cbn in *; [now apply T|lia]. }
    rewrite N1. cbn [app]. rewrite IH by auto. rewrite nls_cons. f_equal. f_equal.
    + f_equal. rewrite app_assoc_s. f_equal. f_equal. destruct p as [r|r]; cbn [src unquote] in *.
      * assert (E : String.eqb r ("\" ++ q) = false); [|now rewrite E]. apply String.eqb_neq. intros ->. apply rune_ascii in T; [|reflexivity].
        destruct q; [discriminate|discriminate].
      * destruct (String.eqb_spec r q) as [->|N]; [now rewrite String.eqb_refl|].
        assert (E : String.eqb ("\" ++ r) ("\" ++ q) = false); [|now rewrite E]. apply String.eqb_neq. intros E. now apply (app_inv_l_s "\") in E.
    + destruct (is_eol (src p)); lia.
Qed.
Lemma open_item : forall q ps line start dup depth us, lexeme_ok (Quoted q ps) = true ->
  crun (C MSkip line start dup depth) (q :: map src ps ++ us) =
  crun (C (MStr q (lexeme_val (Quoted q ps))) (line + nls (map src ps)) line false depth) us.
Proof.
  intros q ps line start dup depth us H. cbn [lexeme_ok] in H. apply andb_true_iff in H as [Q P]. apply mem_In in Q.
  cbn [crun]. unfold cstep. cbn [c_mode c_line c_start c_dup c_depth].
  assert (F : is_eol q = false /\ is_space q = false /\ String.eqb q "#" = false /\ is_quote q = true) by (cbn in Q; intuition (subst; reflexivity)).
  destruct F as (-> & -> & -> & ->). cbn [app]. now rewrite run_open.
Qed.
Lemma note_item : forall ps line start dup depth us, lexeme_ok (Note ps) = true ->
  crun (C MSkip line start dup depth) ("#" :: map src ps ++ us) = crun (C (MNote ("#" ++ srcs ps)) line line dup depth) us.
Proof.
  intros ps line start dup depth us H. cbn [lexeme_ok] in H. cbn [crun]. unfold cstep. cbn [c_mode c_line c_start c_dup c_depth].
  change (is_eol "#") with false. change (is_space "#") with false. cbn [String.eqb Ascii.eqb eqb app]. now rewrite run_note.
Qed.
(** A separator, with the tokens before it. *)
Lemma judge_sep : forall c pre line start dup depth us shown fin l, In c separators ->
  (forall depth', crun (C MSkip line start true depth') us = judge true depth' shown fin l) ->
  match csep pre line start dup depth c with Halt ts => ts | Go c' ts => (ts ++ crun c' us)%list end =
  (pre ++ judge dup depth shown fin ((Tok c start false None, line) :: l))%list.
Proof.
  intros c pre line start dup depth us shown fin l I H. unfold csep. cbn [judge].
  assert (S : sepb (Tok c start false None) = true) by (cbn in I; intuition (subst; reflexivity)). rewrite S. cbn [t_val t_line].
  destruct (dup && negb (c =? "}"))%bool; auto. cbv zeta. destruct (_ && _)%bool; auto. rewrite H, <- app_assoc. reflexivity.
Qed.

(** ** Whole texts *)
Inductive at_item : cst -> option (lexeme * Z) -> Z -> list token -> bool -> Z -> Prop :=
| ai_start : forall dup depth, at_item (C MSkip 1 1 dup depth) None 1 [] dup depth
| ai_closed : forall x line start dup depth, simple (Some x) = true ->
    at_item (C MSkip line start dup depth) (Some (x, start)) line [] dup depth
| ai_word : forall ps line start depth, word_is false ps = true ->
    at_item (C (MWord (srcs ps)) line start false depth) (Some (Word ps, start)) line [Tok (srcs ps) start false None] false depth
| ai_note : forall ps line start dup depth,
    at_item (C (MNote ("#" ++ srcs ps)) line start dup depth) (Some (Note ps, start)) line [Tok ("#" ++ srcs ps) start false None] dup depth.
Definition crless (s : string) : Prop := ~ in_str "013"%char s.
Lemma crless_app : forall a b, crless (a ++ b) <-> crless a /\ crless b.
Proof. intros. unfold crless. rewrite in_str_app. tauto. Qed.
Lemma crless_core : forall g, crless (concat_str g) -> core g = g.
Proof.
  induction g as [|r g IH]; intros H; auto. cbn [concat_str] in H. apply crless_app in H as [A B]. cbn [core filter]. unfold is_cr.
  destruct (String.eqb_spec r s_cr) as [->|N]; cbn [negb]; [exfalso; apply A; now left|]. f_equal. now apply IH.
Qed.
Lemma gap_step : forall c prev line pend dup depth g y us, at_item c prev line pend dup depth -> between (option_map fst prev) g y = true ->
  crless (concat_str g) -> g <> [] \/ simple (option_map fst prev) = true ->
  crun c (g ++ us) = (pend ++ crun (C MSkip (line + newlines (concat_str g)) (c_start c) dup depth) us)%list.
Proof.
  intros c prev line pend dup depth g y us A B CL NE. inversion A; subst; cbn [option_map fst between c_start] in *.
  - rewrite newlines_gap by auto. rewrite <- (crless_core g CL) at 1. now rewrite skip_gap.
  - assert (G : gap_ok g = true) by (destruct x; auto; discriminate). rewrite newlines_gap by auto. rewrite <- (crless_core g CL) at 1. now rewrite skip_gap.
  - destruct NE as [NE|NE]; [|discriminate]. destruct g as [|r g]; [congruence|]. apply andb_true_iff in B as [G _].
    rewrite newlines_gap, (crless_core _ CL) by auto. cbn [gap_ok forallb] in G. rewrite !andb_true_iff in G. destruct G as [[C1 W] G]. apply one_char_text in C1.
    cbn [app crun]. unfold cstep. cbn [c_mode c_line c_start c_dup c_depth]. rewrite (white_space r C1), W. cbn [app].
    cbn [concat_str] in CL. apply crless_app in CL as [_ CL]. rewrite <- (crless_core g CL) at 1. rewrite skip_gap by auto. rewrite (crless_core g CL), nls_cons. f_equal. f_equal. f_equal. destruct (is_eol r); lia.
  - destruct NE as [NE|NE]; [|discriminate]. destruct g as [|r g]; [congruence|]. apply andb_true_iff in B as [R G].
    cbn [app crun]. unfold cstep. cbn [c_mode c_line c_start c_dup c_depth concat_str].
    assert (E : is_eol r = true /\ newlines r = 1%Z) by (apply orb_true_iff in R as [R|R]; apply String.eqb_eq in R; subst r; split; reflexivity).
    destruct E as [-> NL]. cbn [app]. cbn [concat_str] in CL. apply crless_app in CL as [_ CL].
    rewrite newlines_app, NL, newlines_gap by auto. rewrite <- (crless_core g CL) at 1. rewrite skip_gap by auto. rewrite (crless_core g CL). f_equal. f_equal. f_equal. lia.
Qed.
Lemma U_between : forall x g y s, between x g y = true -> crless (concat_str g) -> U (concat_str g ++ s) = (g ++ U s)%list.
Proof.
  intros x g y s B CL. assert (G : gap_ok g = true -> U (concat_str g ++ s) = (g ++ U s)%list).
  { intros G. rewrite U_gap by auto. now rewrite crless_core. }
  destruct x as [[ps|q ps|c|ps]|]; cbn [between] in B; auto.
  - apply andb_true_iff in B as [B _]. auto.
  - destruct g as [|r g]; auto. apply andb_true_iff in B as [R B]. cbn [concat_str]. rewrite app_assoc_s.
    cbn [concat_str] in CL. apply crless_app in CL as [_ CL].
    assert (E : U (r ++ concat_str g ++ s) = r :: U (concat_str g ++ s)).
    { apply orb_true_iff in R as [R|R]; apply String.eqb_eq in R; subst r; [apply (U_piece (Raw s_nl))|apply (U_piece (Esc s_nl))]; reflexivity. }
    rewrite E, U_gap, crless_core by auto. reflexivity.
Qed.
Lemma item_lexeme : forall x, item_ok false x = true -> match x with Word ps => word_is false ps = true | _ => lexeme_ok x = true end.
Proof. intros [ps|q ps|c|ps] H; cbn [item_ok negb andb] in H; auto. Qed.
Lemma U_item : forall x s, item_ok false x = true -> U (lexeme_src x ++ s) = (lexeme_units x ++ U s)%list.
Proof.
  intros x s H. apply item_lexeme in H. destruct x as [ps|q ps|c|ps]; try now apply U_lexeme.
  cbn [lexeme_src lexeme_units]. apply U_pieces. eapply is_pieces; eauto.
Qed.
Lemma item_newlines : forall x, item_ok false x = true -> newlines (lexeme_src x) = nls (lexeme_units x).
Proof.
  intros x H. apply item_lexeme in H. destruct x as [ps|q ps|c|ps]; cbn [lexeme_src lexeme_units lexeme_ok] in *.
  - apply newlines_srcs. eapply is_pieces; eauto.
  - apply andb_true_iff in H as [Q P]. apply mem_In in Q.
    rewrite !newlines_app, newlines_srcs by (eapply forallb_weaken; [|exact P]; intros y Y; now apply andb_true_iff in Y).
    assert (NA : forall a b, nls (a ++ b) = (nls a + nls b)%Z) by (induction a as [|u a IH]; intros b; auto; cbn [app]; rewrite !nls_cons, IH; lia).
    rewrite nls_cons, NA, nls_cons. cbn in Q. intuition (subst; cbn; lia).
  - apply mem_In in H. cbn in H. intuition (subst; reflexivity).
  - assert (P : forallb piece_ok ps = true) by (eapply forallb_weaken; [|exact H]; intros y Y; now apply andb_true_iff in Y).
    rewrite newlines_app, newlines_srcs, nls_cons by auto. reflexivity.
Qed.
Lemma U_end : forall b, b = "" \/ b = "\" -> U b = [].
Proof. intros b [->| ->]; reflexivity. Qed.
Lemma plain_judge : forall w n dup depth shown fin l, word_like w -> judge dup depth shown fin ((Tok w n false None, n) :: l) = Tok w n false None :: judge false depth shown fin l.
Proof. intros w n dup depth shown fin l H. destruct (word_notsep w n false None H) as (S & N & _). cbn [judge]. now rewrite S, N. Qed.
Lemma plain_judge' : forall w m n dup depth shown fin l, word_like w -> judge dup depth shown fin ((Tok w m false None, n) :: l) = Tok w m false None :: judge false depth shown fin l.
Proof. intros w m n dup depth shown fin l H. destruct (word_notsep w m false None H) as (S & N & _). cbn [judge]. now rewrite S, N. Qed.
Lemma quoted_judge : forall w m n dup depth shown fin l, judge dup depth shown fin ((Tok w m true None, n) :: l) = Tok w m true None :: judge false depth shown fin l.
Proof. intros. cbn [judge]. assert (S : sepb (Tok w m true None) = false) by reflexivity. assert (N : noteb (Tok w m true None) = false) by reflexivity. now rewrite S, N. Qed.
Lemma note_judge : forall w m n dup depth shown fin l, judge dup depth shown fin ((Tok ("#" ++ w) m false None, n) :: l) = Tok ("#" ++ w) m false None :: judge dup depth shown fin l.
Proof. intros. cbn [judge]. assert (S : sepb (Tok ("#" ++ w) m false None) = false) by reflexivity. assert (N : noteb (Tok ("#" ++ w) m false None) = true) by reflexivity. now rewrite S, N. Qed.
Lemma at_start : forall c prev line pend dup depth, at_item c prev line pend dup depth ->
  c_start c = match prev with Some (_, n) => n | None => 1%Z end /\ c_line c = line /\ c_depth c = depth /\ cpending c = pend.
Proof. intros c prev line pend dup depth A. inversion A; subst; cbn; auto. Qed.
Lemma gap_simple : forall prev g y, between prev g (Some y) = true -> (forall c, y <> Sep c) -> g <> [] \/ simple prev = true.
Proof.
  intros prev g y B N. destruct g as [|r g]; [right|left; discriminate]. destruct prev as [[ps|q ps|c|ps]|]; auto; cbn in B; try discriminate.
  destruct y; try discriminate. now elim (N c).
Qed.
Lemma concat_app : forall a b, concat_str (a ++ b) = concat_str a ++ concat_str b.
Proof. induction a as [|x a IH]; intros b; cbn; auto. rewrite IH. now rewrite app_assoc_s. Qed.
Lemma dollar_suffix : forall ps, forallb piece_ok ps = true -> ps <> [] -> has_suffix (srcs ps) "$" = ends_dollar ps.
Proof.
  intros ps P NE. destruct (snoc_cases _ ps) as [->|(ps' & p & ->)]; [congruence|].
  rewrite forallb_app in P. apply andb_true_iff in P as [_ P]. cbn [forallb] in P. rewrite andb_true_r in P.
  unfold srcs. rewrite map_app, concat_app. cbn [map concat_str]. rewrite app_nil_r_s. change "$" with (str1 "$"%char). rewrite suffix1_app by now apply src_unit.
  rewrite src_suffix by (auto; reflexivity). unfold ends_dollar. rewrite rev_app_distr. reflexivity.
Qed.
Lemma run_all : forall e b, b = "" \/ b = "\" -> forall L c prev line pend dup depth, at_item c prev line pend dup depth ->
  divided (option_map fst prev) L e = true -> crless (text_of L e) ->
  crun c (U (text_of L e ++ b)) = (pend ++ judge dup depth (last_shown line prev L e) (line + newlines (text_of L e)) (entries line prev L e))%list.
Proof.
  intros e b Hb. induction L as [|[g x] L IH]; intros c prev line pend dup depth A D CL.
  - cbn [divided text_of last_shown entries] in *. destruct e as [g|g x].
    + rewrite (U_between (option_map fst prev) g None), U_end by auto. destruct (at_start _ _ _ _ _ _ A) as (S1 & S2 & S3 & S4).
      destruct (simple (option_map fst prev)) eqn:SM; [|destruct g as [|r g]].
      * rewrite (gap_step c prev line pend dup depth g None) by auto. cbn [crun judge]. unfold cfinish, cpending. cbn [c_mode c_start c_line c_depth app]. now rewrite S1.
      * cbn [app crun judge concat_str]. unfold cfinish. rewrite S1, S2, S3, S4. change (newlines "") with 0%Z. now rewrite Z.add_0_r.
      * rewrite (gap_step c prev line pend dup depth (r :: g) None) by (auto; left; discriminate). cbn [crun judge]. unfold cfinish, cpending. cbn [c_mode c_start c_line c_depth app]. now rewrite S1.
    + apply andb_true_iff in D as [B I]. apply crless_app in CL as [CG CX]. rewrite app_assoc_s, (U_between (option_map fst prev) g (Some x)) by auto.
      assert (NS : forall c, x <> Sep c) by (intros c0 ->; discriminate).
      rewrite (gap_step c prev line pend dup depth g (Some x)) by (eauto using gap_simple). f_equal. rewrite newlines_app.
      destruct x as [ps|q ps|c0|ps]; cbn [item_ok negb andb] in I; try discriminate.
      * cbn [item_src lexeme_src]. rewrite U_pieces by (eapply is_pieces; eauto). rewrite U_end by auto. rewrite (run_word_item true) by auto. cbn [crun lexeme_val lexeme_quoted].
        rewrite newlines_srcs by (eapply is_pieces; eauto).
        assert (NE : String.eqb (srcs ps) "" = false) by (apply String.eqb_neq; intros E; apply is_like in I; rewrite E in I; inversion I as [u r U1]; destruct u; [now destruct U1 as [(? & _)|(? & ? & _)]|discriminate]).
        rewrite NE, plain_judge' by (eapply is_like; eauto). unfold cfinish, cpending. cbn [c_mode c_line c_start c_depth app judge]. rewrite Z.add_assoc. reflexivity.
      * assert (P : forallb piece_ok ps = true) by (cbn [lexeme_ok] in I; apply andb_true_iff in I as [_ I]; eapply forallb_weaken; [|exact I]; intros y Y; now apply andb_true_iff in Y).
        assert (Q : In q quotes) by (cbn [lexeme_ok] in I; apply andb_true_iff in I as [I _]; now apply mem_In).
        cbn [item_src]. rewrite app_nil_r_s, app_assoc_s.
        assert (E : U (q ++ srcs ps ++ b) = q :: map src ps).
        { rewrite <- (app_nil_r (map src ps)), <- (U_end b Hb), <- U_pieces by auto. apply (U_piece (Raw q)). cbn in Q. intuition (subst; reflexivity). }
        rewrite E, <- (app_nil_r (map src ps)), open_item by auto. cbn [crun]. rewrite newlines_app, newlines_srcs by auto.
        assert (NQ : newlines q = 0%Z) by (cbn in Q; intuition (subst; reflexivity)). rewrite NQ, Z.add_0_l, Z.add_assoc. cbn [begins lexeme_quoted].
        unfold cfinish, cpending. cbn [c_mode c_line c_start c_depth]. destruct (String.eqb (lexeme_val (Quoted q ps)) "").
        -- cbn [app judge]. reflexivity.
        -- rewrite quoted_judge. cbn [app judge]. reflexivity.
  - cbn [divided text_of last_shown entries] in *. rewrite !andb_true_iff in D. destruct D as [[B I] D].
    apply crless_app in CL as [CG CX]. apply crless_app in CX as [CX CT]. rewrite !app_assoc_s, (U_between (option_map fst prev) g (Some x)), U_item by auto.
    rewrite !newlines_app, !Z.add_assoc, item_newlines by auto.
    assert (T : (exists ps n c0, prev = Some (Word ps, n) /\ g = [] /\ x = Sep c0) \/ (g <> [] \/ simple (option_map fst prev) = true) /\ shows prev g x (line + newlines (concat_str g)) = begins x (line + newlines (concat_str g))).
    { destruct x as [ps|q ps|c0|ps]; try (right; split; [apply (gap_simple _ g _ B); discriminate|destruct prev as [[[] ?]|]; destruct g; reflexivity]).
      destruct prev as [[[ps|q ps|c1|ps] n]|]; try (right; split; [now right|reflexivity]).
      - destruct g as [|r g]; [left; eauto 8|right; split; [left; discriminate|reflexivity]].
      - cbn [option_map fst between] in B. destruct g; [discriminate|]. right. split; [left; discriminate|reflexivity]. }
    destruct T as [(ps & n & c0 & -> & -> & ->)|[NE SH]].
    + inversion A; subst; [discriminate|]. cbn [concat_str app lexeme_units crun shows begins lexeme_val lexeme_quoted]. change (newlines "") with 0%Z. rewrite Z.add_0_r.
      cbn [option_map fst between gap_ok forallb andb] in B. apply negb_true_iff in B. cbn [item_ok negb andb lexeme_ok] in I. apply mem_In in I.
      assert (CS : is_eol c0 = false /\ is_space c0 = false /\ is_special c0 = true) by (cbn in I; intuition (subst; reflexivity)). destruct CS as (C1 & C2 & C3).
      unfold cstep. cbn [c_mode c_line c_start c_dup c_depth]. rewrite C1, C2, C3.
      assert (DL : has_suffix (srcs ps) "$" = ends_dollar ps) by (apply dollar_suffix; [eapply is_pieces; eauto|intros ->; discriminate]).
      rewrite DL, B. apply (judge_sep c0 [Tok (srcs ps) n false None]); auto. intros depth'.
      rewrite nls_cons, C1. change (nls []) with 0%Z. rewrite !Z.add_0_r.
      rewrite (IH _ (Some (Sep c0, n)) line [] true depth'); auto. now constructor.
    + rewrite (gap_step c prev line pend dup depth g (Some x)) by auto. f_equal. set (ln := (line + newlines (concat_str g))%Z) in *. rewrite SH.
      destruct x as [ps|q ps|c0|ps]; cbn [item_ok negb andb] in I; cbn [lexeme_units lexeme_val lexeme_quoted].
      * rewrite (run_word_item false) by auto. rewrite plain_judge' by (eapply is_like; eauto).
        rewrite (IH _ (Some (Word ps, begins (Word ps) ln)) (ln + nls (map src ps))%Z _ false depth (ai_word _ _ _ _ I)); auto.
      * cbn [app]. rewrite <- app_assoc, open_item by auto. cbn [app crun]. unfold cstep. cbn [c_mode c_line c_start c_dup c_depth].
        rewrite String.eqb_refl. rewrite quoted_judge. cbn [app begins]. f_equal.
        assert (Q : is_eol q = false) by (cbn [lexeme_ok] in I; apply andb_true_iff in I as [I _]; apply mem_In in I; cbn in I; intuition (subst; reflexivity)). rewrite Q.
        assert (NQ : nls (q :: map src ps ++ [q]) = nls (map src ps)).
        { assert (NA : forall a b, nls (a ++ b) = (nls a + nls b)%Z) by (induction a as [|u a IHa]; intros b'; auto; cbn [app]; rewrite !nls_cons, IHa; lia).
          rewrite nls_cons, NA, nls_cons, Q. change (nls []) with 0%Z. lia. }
        rewrite NQ. rewrite (IH _ (Some (Quoted q ps, ln)) (ln + nls (map src ps))%Z [] false depth); auto. now constructor.
      * cbn [app crun]. cbn [lexeme_ok] in I. apply mem_In in I.
        assert (CS : is_eol c0 = false /\ is_space c0 = false /\ is_special c0 = true /\ String.eqb c0 "#" = false /\ is_quote c0 = false) by (cbn in I; intuition (subst; reflexivity)).
        destruct CS as (C1 & C2 & C3 & C4 & C5). unfold cstep. cbn [c_mode c_line c_start c_dup c_depth]. rewrite C1, C2, C3, C4, C5. cbn [begins].
        apply (judge_sep c0 []); auto. intros depth'. rewrite nls_cons, C1. change (nls []) with 0%Z. rewrite !Z.add_0_r.
        rewrite (IH _ (Some (Sep c0, ln)) ln [] true depth'); auto. now constructor.
      * cbn [app]. rewrite note_item by auto. cbn [begins]. rewrite note_judge.
        assert (NN : nls ("#" :: map src ps) = 0%Z) by (rewrite nls_cons, note_nls by auto; reflexivity). rewrite NN, !Z.add_0_r.
        rewrite (IH _ (Some (Note ps, ln)) ln _ dup depth (ai_note _ _ _ _ _)); auto.
Qed.
Lemma no_cr_free : forall s, crless (no_cr s).
Proof.
  unfold crless. induction s as [|c s IH]; cbn [no_cr]; [intros []|]. destruct (Ascii.eqb_spec c "013"%char) as [->|N]; auto. cbn [in_str]. intros [E|E]; auto.
Qed.
Theorem scan_sound : forall s L e, division s L e -> read_as L e (lex [] s).
Proof.
  intros s L e (t & b & R & Hb & T & D). rewrite (lex_repaired s t R), T. unfold read_as.
  assert (CL : crless (text_of L e)). { pose proof (no_cr_free t) as C. rewrite T in C. now apply crless_app in C. }
  rewrite (run_all e b Hb L cinit None 1 [] false 0); auto; [|constructor]. cbn [app].
  apply (judge_outcome _ _ _ []). split; [intros [|x a] y H; [cbn; lia|discriminate]|intros [|x a] y l H; discriminate].
Qed.

(** ** Every text divides *)
Lemma no_cr_runes : forall rs, Forall rune_text rs -> exists rs', no_cr (concat_str rs) = concat_str rs' /\ Forall rune_text rs' /\ Forall (fun r => is_cr r = false) rs'.
Proof.
  induction 1 as [|r rs R H (rs' & E & F & N)]; [exists []; auto|]. cbn [concat_str]. rewrite no_cr_app, E. destruct (is_cr r) eqn:C.
  - exists rs'. apply String.eqb_eq in C. subst r. auto.
  - exists (r :: rs'). rewrite no_cr_id; auto. intros I. apply (rune_byte r "013"%char R) in I; [|reflexivity]. subst. discriminate.
Qed.
Lemma text_piece : forall r, rune_text r -> one_char r = true.
Proof. intros r [N [n D]]. unfold one_char. rewrite D. apply String.eqb_neq in N. now rewrite N, Nat.eqb_refl. Qed.
Lemma cut_pieces : forall rs, Forall rune_text rs -> Forall (fun r => is_cr r = false) rs ->
  (exists ps b, concat_str rs = srcs ps ++ b /\ forallb piece_ok ps = true /\ (b = "" \/ b = "\")) /\
  (exists ps b, "\" ++ concat_str rs = srcs ps ++ b /\ forallb piece_ok ps = true /\ (b = "" \/ b = "\")).
Proof.
  induction rs as [|r rs IH]; intros F N.
  - split; [exists [], ""|exists [], "\"]; auto.
  - inversion F as [|r' rs' R F']; inversion N as [|r'' rs'' C N']; subst. destruct (IH F' N') as [(ps & b & E & P & B) (ps2 & b2 & E2 & P2 & B2)]. cbn [concat_str].
    pose proof (text_piece r R) as T. split.
    + destruct (String.eqb_spec r "\") as [->|NB]; [exists ps2, b2; auto|]. exists (Raw r :: ps), b. unfold srcs. cbn [map src concat_str forallb piece_ok].
      apply String.eqb_neq in NB. rewrite E, app_assoc_s, T, C, NB, P. auto.
    + exists (Esc r :: ps), b. unfold srcs. cbn [map src concat_str forallb piece_ok]. rewrite E, !app_assoc_s, T, C, P. auto.
Qed.
Definition parts := (list (gap * lexeme) * ending)%type.
Definition pushed (r : string) (d : parts) : parts :=
  match d with
  | ((g, x) :: L, e) => ((r :: g, x) :: L, e)
  | ([], Blank g) => ([], Blank (r :: g))
  | ([], Unclosed g x) => ([], Unclosed (r :: g) x)
  end.
Definition reads (prev : option lexeme) (d : parts) (ps : list piece) : Prop := divided prev (fst d) (snd d) = true /\ text_of (fst d) (snd d) = srcs ps.
Lemma pushed_text : forall r d, text_of (fst (pushed r d)) (snd (pushed r d)) = r ++ text_of (fst d) (snd d).
Proof. intros r [[|[g x] L] [g'|g' x']]; cbn; now rewrite ?app_assoc_s. Qed.
Lemma between_simple : forall prev g y, simple prev = true -> between prev g y = gap_ok g.
Proof. intros [[]|] g y H; auto; discriminate. Qed.
Lemma pushed_reads : forall prev prev' r d p ps, simple prev = true -> reads prev d ps -> src p = r ->
  (forall g y, gap_ok g = true -> between prev' (r :: g) y = true) -> reads prev' (pushed r d) (p :: ps).
Proof.
  intros prev prev' r d p ps S [D T] E B. split; [|rewrite pushed_text, T; unfold srcs; cbn [map concat_str]; now rewrite E].
  destruct d as [[|[g x] L] [g'|g' x']]; cbn [pushed fst snd divided] in *; rewrite ?andb_true_iff in *; rewrite between_simple in D by auto; intuition auto.
Qed.
Definition runs_dollar (d : bool) (ps : list piece) : bool := fold_left (fun _ p => String.eqb (char_of p) "$") ps d.
Lemma runs_ends : forall ps p, runs_dollar (String.eqb (char_of p) "$") ps = ends_dollar (p :: ps).
Proof.
  intros ps p. destruct (snoc_cases _ ps) as [->|(ps' & x & ->)]; [reflexivity|]. unfold runs_dollar, ends_dollar. rewrite fold_left_app. cbn [fold_left].
  change (p :: ps' ++ [x])%list with ((p :: ps') ++ [x])%list. now rewrite rev_app_distr.
Qed.
Lemma tail_var : forall z d d' ps, word_tail z true d ps = word_tail z true d' ps.
Proof. intros z d d' [|p ps]; reflexivity. Qed.
Lemma scan_word : forall ps var dollar, forallb piece_ok ps = true -> exists ws rest z, ps = (ws ++ rest)%list /\ word_tail z var dollar ws = true /\
  (rest = [] \/ z = false /\ exists r rest', rest = Raw r :: rest' /\ (white r = true \/ In r separators /\ (runs_dollar dollar ws && String.eqb r "{")%bool = false)).
Proof.
  induction ps as [|p ps IH]; intros var dollar P.
  - exists [], [], var. split; auto. split; auto. cbn. apply eqb_reflx.
  - cbn [forallb] in P. apply andb_true_iff in P as [PO P]. pose proof (piece_text p PO) as TX.
    assert (GO : forall v', (forall z ws, word_tail z v' (String.eqb (char_of p) "$") ws = true -> word_tail z var dollar (p :: ws) = true) ->
      exists ws rest z, (p :: ps)%list = (ws ++ rest)%list /\ word_tail z var dollar ws = true /\
      (rest = [] \/ z = false /\ exists r rest', rest = Raw r :: rest' /\ (white r = true \/ In r separators /\ (runs_dollar dollar ws && String.eqb r "{")%bool = false))).
    { intros v' H. destruct (IH v' (String.eqb (char_of p) "$") P) as (ws & rest & z & E & W & R). exists (p :: ws), rest, z. rewrite E. auto. }
    destruct var.
    + destruct (String.eqb (char_of p) "}" || match p with Raw r => white r | Esc _ => false end)%bool eqn:CL.
      * apply (GO false). intros z ws H. cbn [word_tail]. rewrite PO, CL. cbn [andb].
        destruct (String.eqb_spec (char_of p) "$") as [E|]; auto. rewrite E in CL. cbn in CL. destruct p; cbn [char_of] in *; [subst; discriminate|discriminate].
      * apply (GO true). intros z ws H. cbn [word_tail]. rewrite PO, CL. cbn [andb]. now rewrite (tail_var z false (char_of p =? "$")).
    + destruct p as [r|r].
      * destruct (dollar && String.eqb r "{")%bool eqn:DL.
        -- apply (GO true). intros z ws H. cbn [word_tail]. rewrite PO, DL. cbn [andb]. now rewrite (tail_var z false (char_of (Raw r) =? "$")).
        -- destruct (white r) eqn:W; [|destruct (mem r separators) eqn:M].
           ++ exists [], (Raw r :: ps), false. split; auto. split; auto. right. split; auto. exists r, ps. auto.
           ++ exists [], (Raw r :: ps), false. split; auto. split; auto. right. split; auto. exists r, ps. split; auto. right. split; [now apply mem_In|exact DL].
           ++ apply (GO false). intros z ws H. cbn [word_tail]. rewrite PO, DL, W, M. exact H.
      * apply (GO false). intros z ws H. cbn [word_tail]. rewrite PO. exact H.
Qed.
Lemma scan_until : forall (f : piece -> bool) ps, exists ws rest, ps = (ws ++ rest)%list /\ forallb f ws = true /\ (rest = [] \/ exists p rest', rest = p :: rest' /\ f p = false).
Proof.
  intros f. induction ps as [|p ps (ws & rest & E & F & R)].
  - exists [], []. auto.
  - destruct (f p) eqn:FP.
    + exists (p :: ws), rest. rewrite E. cbn [forallb]. rewrite FP. auto.
    + exists [], (p :: ps). split; auto. split; auto. right. eauto.
Qed.
Lemma srcs_app : forall a b, srcs (a ++ b) = srcs a ++ srcs b.
Proof. intros. unfold srcs. now rewrite map_app, concat_app. Qed.
Lemma reads_item : forall prev x d ps qs, between prev [] (Some x) = true -> item_ok false x = true -> reads (Some x) d qs -> srcs ps = lexeme_src x ++ srcs qs ->
  reads prev (([], x) :: fst d, snd d) ps.
Proof. intros prev x [L e] ps qs B I [D T] E. split; cbn [fst snd divided text_of] in *; [now rewrite B, I, D|]. now rewrite T, E. Qed.
Lemma divides : forall n ps prev, length ps < n -> forallb piece_ok ps = true -> simple prev = true -> exists d, reads prev d ps.
Proof.
  induction n as [|n IH]; intros ps prev LT P S; [lia|].
  assert (B0 : forall y, between prev [] y = true) by (intros; now rewrite between_simple).
  destruct ps as [|p ps]; [exists ([], Blank []); split; auto; now rewrite <- (B0 None)|].
  assert (WORD : match p with Raw r => negb (white r) && negb (mem r (separators ++ quotes ++ ["#"])%list) | Esc _ => true end%bool = true -> exists d, reads prev d (p :: ps)).
  { intros F. cbn [forallb] in P. apply andb_true_iff in P as [PO P]. destruct (scan_word ps false (String.eqb (char_of p) "$") P) as (ws & rest & z & E & W & R).
    assert (WI : word_is z (p :: ws) = true) by (cbn [word_is]; now rewrite F, PO, W).
    subst ps. cbn [length] in LT. rewrite app_length in LT. rewrite forallb_app in P. apply andb_true_iff in P as [_ P].
    destruct R as [->|(-> & r & rest' & -> & R)].
    - rewrite app_nil_r. destruct z.
      + exists ([], Unclosed [] (Word (p :: ws))). split; cbn [fst snd divided text_of item_ok]; auto. now rewrite B0, WI.
      + exists ([([], Word (p :: ws))], Blank []). split; cbn [fst snd divided text_of item_ok]; [now rewrite B0, WI|]. cbn [concat_str lexeme_src]. apply app_nil_r_s.
    - cbn [forallb length] in P, LT. apply andb_true_iff in P as [PR P].
      assert (SR : srcs (p :: (ws ++ Raw r :: rest')%list) = lexeme_src (Word (p :: ws)) ++ srcs (Raw r :: rest')) by (cbn [lexeme_src]; now rewrite <- srcs_app).
      destruct R as [R|[R ND]].
      + destruct (IH rest' (Some (Sep ";"))) as [d D]; [lia|auto|reflexivity|].
        assert (D' : reads (Some (Word (p :: ws))) (pushed r d) (Raw r :: rest')).
        { apply (pushed_reads (Some (Sep ";"))); auto. intros g y G. cbn [between gap_ok forallb]. cbn [piece_ok] in PR. rewrite !andb_true_iff in PR. destruct PR as [[O _] _].
          rewrite O, R. cbn [andb]. fold (gap_ok g). now rewrite G. }
        eexists. eapply (reads_item prev (Word (p :: ws))); [apply B0|exact WI|exact D'|exact SR].
      + destruct (IH rest' (Some (Sep r))) as [d D]; [lia|auto|reflexivity|].
        assert (D' : reads (Some (Word (p :: ws))) (([], Sep r) :: fst d, snd d) (Raw r :: rest')).
        { eapply (reads_item _ (Sep r)); [| |exact D|reflexivity].
          - cbn [between gap_ok forallb andb]. rewrite <- runs_ends. now rewrite ND.
          - cbn [item_ok negb andb lexeme_ok]. now apply mem_In. }
        eexists. eapply (reads_item prev (Word (p :: ws))); [apply B0|exact WI|exact D'|exact SR]. }
  destruct p as [r|r]; [|now apply WORD].
  destruct (white r) eqn:WH.
  { cbn [forallb length] in P, LT. apply andb_true_iff in P as [PO P]. destruct (IH ps prev) as [d D]; [lia|auto|auto|].
    exists (pushed r d). apply (pushed_reads prev); auto. intros g y G. rewrite between_simple by auto. cbn [gap_ok forallb]. cbn [piece_ok] in PO. rewrite !andb_true_iff in PO. destruct PO as [[O _] _].
    rewrite O, WH. exact G. }
  destruct (mem r (separators ++ quotes ++ ["#"])%list) eqn:M; [|apply WORD; cbv beta iota; now rewrite ?WH, ?M].
  apply mem_In in M. rewrite !in_app_iff in M. clear WORD. cbn [forallb length] in P, LT. apply andb_true_iff in P as [PO P].
  destruct M as [M|[M|[<-|[]]]].
  - destruct (IH ps (Some (Sep r))) as [d D]; [lia|auto|reflexivity|]. eexists. eapply (reads_item _ (Sep r)); [apply B0| |exact D|reflexivity]. cbn [item_ok negb andb lexeme_ok]. now apply mem_In.
  - destruct (scan_until (fun p => piece_ok p && match p with Raw c => negb (String.eqb c r) | Esc _ => true end)%bool ps) as (ws & rest & -> & F & R).
    assert (LO : lexeme_ok (Quoted r ws) = true) by (cbn [lexeme_ok]; rewrite F, andb_true_r; now apply mem_In).
    rewrite app_length in LT. rewrite forallb_app in P. apply andb_true_iff in P as [_ P]. destruct R as [->|(p & rest' & -> & FP)].
    + exists ([], Unclosed [] (Quoted r ws)). split; cbn [fst snd divided text_of item_ok concat_str item_src]; [now rewrite B0, LO|]. rewrite app_nil_r, app_nil_r_s. reflexivity.
    + cbn [forallb length] in P, LT. apply andb_true_iff in P as [PP P]. rewrite PP in FP. destruct p as [c|c]; [|discriminate]. cbn [andb] in FP. apply negb_false_iff, String.eqb_eq in FP. subst c.
      destruct (IH rest' (Some (Quoted r ws))) as [d D]; [lia|auto|reflexivity|]. eexists. eapply (reads_item _ (Quoted r ws)); [apply B0| |exact D|]; [exact LO|].
      change (Raw r :: (ws ++ Raw r :: rest'))%list with ((Raw r :: ws) ++ Raw r :: rest')%list. rewrite srcs_app. unfold srcs. cbn [map concat_str src lexeme_src]. fold (srcs ws). now rewrite !app_assoc_s.
  - destruct (scan_until (fun p => piece_ok p && negb (is_nl (char_of p)))%bool ps) as (ws & rest & -> & F & R).
    rewrite app_length in LT. rewrite forallb_app in P. apply andb_true_iff in P as [_ P]. destruct R as [->|(p & rest' & -> & FP)].
    + exists ([([], Note ws)], Blank []). split; cbn [fst snd divided text_of item_ok concat_str lexeme_src lexeme_ok negb andb]; [now rewrite B0, F|]. rewrite app_nil_r, app_nil_r_s. reflexivity.
    + cbn [forallb length] in P, LT. apply andb_true_iff in P as [PP P]. rewrite PP in FP. cbn [andb] in FP. apply negb_false_iff in FP.
      destruct (IH rest' (Some (Sep ";"))) as [d D]; [lia|auto|reflexivity|].
      assert (D' : reads (Some (Note ws)) (pushed (src p) d) (p :: rest')).
      { apply (pushed_reads (Some (Sep ";"))); auto. intros g y G. cbn [between]. rewrite G, andb_true_r. destruct p as [c|c]; cbn [char_of src] in *; [now rewrite FP|].
        apply String.eqb_eq in FP. subst c. reflexivity. }
      eexists. eapply (reads_item _ (Note ws)); [apply B0| |exact D'|]; [exact F|].
      change (Raw "#" :: (ws ++ p :: rest'))%list with ((Raw "#" :: ws) ++ p :: rest')%list. now rewrite srcs_app.
Qed.
Theorem scan_total : forall s, exists L e, division s L e.
Proof.
  intros s. destruct (repaired_some s) as [t R]. pose proof (repaired_runes s t R) as [_ V].
  assert (TX : concat_str (scan_runes t) = t).
  { unfold valid_utf8 in V. rewrite <- (unscan_scan t) at 2. unfold scan_runes. clear R. induction (scan t) as [|i l IH]; auto. cbn [forallb] in V. apply andb_true_iff in V as [V1 V2].
    cbn [map concat_str unscan]. rewrite IH by auto. unfold it_text. now rewrite V1. }
  destruct (no_cr_runes (scan_runes t) (scan_texts t)) as (rs & E & F & N). rewrite TX in E.
  destruct (cut_pieces rs F N) as [(ps & b & E2 & P & B) _]. destruct (divides (S (length ps)) ps None) as [[L e] [D T]]; auto.
  exists L, e, t, b. cbn [fst snd] in *. repeat split; auto. now rewrite E, E2, T.
Qed.
Lemma repaired_valid : forall s, valid_utf8 s = true -> repaired s s.
Proof.
  intros s V. destruct (repaired_some s) as [t R]. assert (E : t = s); [|now rewrite E in R]. induction R as [|r n s t NE D H IH|c s n w t D H IH]; auto.
  - f_equal. apply IH. rewrite valid_utf8_app in V; auto. apply rune_valid. split; eauto.
  - exfalso. assert (NS : String c s <> "") by discriminate. rewrite (valid_utf8_step _ _ _ _ NS D) in V. discriminate.
Qed.
Theorem scan_exact : forall s L e toks, division s L e -> (read_as L e toks <-> toks = lex [] s).
Proof.
  intros s L e toks D. pose proof (scan_sound s L e D) as R. split; [|intros ->; auto]. intros R'. eapply outcome_one; eauto.
Qed.
