(** C03, C04, C06: the tokens of any input. *)
From Verif Require Export LexMachine SpecLex.
Local Open Scope string_scope.

(** ** Units *)
Definition unit_ok (u : string) : Prop :=
  (rune_text u /\ u <> s_cr /\ u <> "\") \/ exists r, u = "\" ++ r /\ rune_text r /\ r <> s_cr.
Lemma units_ok : forall rs esc, Forall rune_text rs -> Forall unit_ok (units esc rs).
Proof.
  induction rs as [|r rs IH]; intros esc F; cbn [units]; [constructor|]. inversion F; subst.
  destruct (String.eqb_spec r s_cr); auto. destruct (String.eqb_spec r "\") as [->|N]; cbn [andb].
  - destruct esc; cbn [negb]; auto. constructor; auto. right. eauto.
  - constructor; auto. destruct esc; [right; eauto|left; auto].
Qed.
Lemma unit_nonempty : forall u, unit_ok u -> u <> "".
Proof. intros u [[[N _] _]|(r & -> & _)]; [auto|discriminate]. Qed.

Lemma crun_inv : forall (I : list string -> cst -> list token -> Prop) (Q : list string -> list token -> Prop),
  (forall pre c done u, unit_ok u -> I pre c done ->
   match cstep c u with
   | Go c' ts => I (pre ++ [u])%list c' (done ++ ts)%list
   | Halt ts => forall us, Q (pre ++ u :: us)%list (done ++ ts)%list
   end) ->
  (forall us c done, I us c done -> Q us (done ++ cfinish c)%list) ->
  forall us pre c done, Forall unit_ok us -> I pre c done -> Q (pre ++ us)%list (done ++ crun c us)%list.
Proof.
  intros I Q ST FN. induction us as [|u us IH]; intros pre c done U H.
  - rewrite app_nil_r. now apply FN.
  - cbn [crun]. inversion U as [|? ? U1 U2]; subst. specialize (ST pre c done u U1 H).
    destruct (cstep c u) as [c' ts|ts]; auto.
    replace (pre ++ u :: us)%list with ((pre ++ [u]) ++ us)%list by now rewrite <- app_assoc.
    rewrite app_assoc. apply IH; auto.
Qed.

(** ** Words *)
Inductive word_like : string -> Prop :=
| wl : forall u r, unit_ok u -> is_space u = false -> u <> "#" -> is_quote u = false -> is_special u = false ->
    word_like (u ++ r).
Lemma word_like_app : forall w u, word_like w -> word_like (w ++ u).
Proof. intros w u H. inversion H; subst. rewrite app_assoc_s. now constructor. Qed.

(** ** Rune texts *)
Fixpoint in_str (c : ascii) (s : string) : Prop := match s with EmptyString => False | String d r => d = c \/ in_str c r end.
Lemma in_str_app : forall c a b, in_str c (a ++ b) <-> in_str c a \/ in_str c b.
Proof. induction a as [|d a IH]; intros b; cbn; [tauto|rewrite IH; tauto]. Qed.
Lemma dec_high : forall s n w, decode_rune s = (n, w, true) -> (1 < w)%nat ->
  forall c, in_str c (take w s) -> (128 <= bval c)%N.
Proof.
  intros s n w H L c I.
  assert (CT : forall x, is_cont x = true -> (128 <= x)%N) by (intros x X; unfold is_cont in X; apply in_rng_iff in X; lia).
  assert (RG : forall lo hi x, (128 <= lo)%N -> in_rng lo hi x = true -> (128 <= x)%N) by (intros lo hi x X Y; apply in_rng_iff in Y; lia).
  unfold decode_rune in H.
  destruct s as [|c0 [|c1 [|c2 [|c3 s]]]]; try discriminate; dec_cases; inversion H; subst; try lia; cbn [take in_str] in I;
    repeat match goal with
    | X : (_ && _)%bool = true |- _ => apply andb_true_iff in X as [? ?]
    | X : is_cont _ = true |- _ => apply CT in X
    | X : N.ltb _ _ = false |- _ => apply N.ltb_ge in X
    | X : in_rng ?lo _ _ = true |- _ => apply (RG lo) in X; [|lia]
    end; intuition (subst; auto).
Qed.
Lemma rune_byte : forall r c, rune_text r -> in_str c r -> (bval c < 128)%N -> r = str1 c.
Proof.
  intros r c [NE [n D]] I B. destruct (Nat.le_gt_cases (slen r) 1) as [L|L].
  - destruct r as [|d [|e r]]; [congruence| |cbn in L; lia]. cbn in I. destruct I as [->|[]]. reflexivity.
  - pose proof (dec_high _ _ _ D L c) as X. rewrite take_all in X by lia. specialize (X I). lia.
Qed.
Lemma rune_valid : forall r, rune_text r -> valid_utf8 r = true.
Proof.
  intros r [NE [n D]]. rewrite (valid_utf8_step _ _ _ _ NE D).
  assert (Z : drop (slen r) r = "") by (apply slen_0; rewrite slen_drop; lia). now rewrite Z.
Qed.
Lemma rune_scan : forall r n, r <> "" -> decode_rune r = (n, slen r, true) -> scan r = [Item n r true].
Proof. intros r n NE D. apply (scan_good (Item n r true)). split; auto. Qed.
Lemma rune_space : forall r n, r <> "" -> decode_rune r = (n, slen r, true) -> is_space r = is_space_rune n.
Proof.
  intros r n NE D. unfold is_space, trim_space, trim_left. rewrite (rune_scan r n NE D). cbn [drop_while it_rune].
  destruct (is_space_rune n) eqn:E; [reflexivity|].
  unfold trim_right, unscan. cbn [map concat_str it_raw]. rewrite app_nil_r_s, (rune_scan r n NE D). cbn [rev app drop_while it_rune].
  rewrite E. cbn [rev app map concat_str it_raw]. rewrite app_nil_r_s. destruct r; [congruence|reflexivity].
Qed.
Lemma unit_valid : forall u, unit_ok u -> valid_utf8 u = true.
Proof.
  intros u [[R _]|(r & -> & R & _)]; [now apply rune_valid|]. rewrite valid_utf8_app by reflexivity. now apply rune_valid.
Qed.
Lemma unit_byte : forall u c, unit_ok u -> in_str c u -> (bval c < 128)%N -> c <> "\"%char -> u = str1 c \/ u = "\" ++ str1 c.
Proof.
  intros u c [[R _]|(r & -> & R & _)] I B N; [left; now apply rune_byte|].
  rewrite in_str_app in I. destruct I as [[I|[]]|I]; [congruence|]. right. now rewrite (rune_byte r c R I B).
Qed.
Lemma unit_nl : forall u, unit_ok u -> is_eol u = false -> ~ in_str "010"%char u.
Proof.
  intros u U E I. destruct (unit_byte u _ U I ltac:(reflexivity) ltac:(discriminate)); subst u; discriminate.
Qed.
Lemma no_newline_iff : forall s, no_newline s <-> ~ in_str "010"%char s.
Proof.
  unfold no_newline, str_exists. induction s as [|c s IH]; cbn [list_of_str existsb in_str]; [tauto|].
  rewrite orb_false_iff, IH, Ascii.eqb_neq. split; intros H; [intros [?|?]; [subst; tauto|tauto]|split; intros X; apply H; [left; congruence|right; auto]].
Qed.
Lemma word_first : forall w, word_like w -> exists n k, decode_rune w = (n, k, true) /\ is_space_rune n = false /\ ~ In n odd_first.
Proof.
  intros w H. inversion H as [u r U SP NH Q S]; subst. destruct U as [[[NE [n D]] [N1 N2]]|(x & -> & _)].
  - exists n, (slen u). split; [now apply dec_app|]. rewrite <- (rune_space u n NE D). split; auto.
    pose proof (dec_encode _ _ _ D) as E. rewrite take_all in E by lia.
    unfold odd_first, is_quote, is_special in *. cbn [In]. intros X.
    repeat (destruct X as [<-|X]; [rewrite <- E in *; try discriminate; now apply NH|]). exact X.
  - exists 92%N, 1. repeat split; auto. cbn. intuition discriminate.
Qed.
Lemma word_notsep : forall w l q e, word_like w -> sepb (Tok w l q e) = false /\ noteb (Tok w l q e) = false /\
  opensb (Tok w l q e) = false /\ closesb (Tok w l q e) = false.
Proof.
  intros w l q e H. apply word_first in H as (n & k & D & _ & O). unfold sepb, noteb, opensb, closesb. cbn [t_quoted t_val].
  destruct q; cbn [negb andb]; auto.
  assert (X : forall c r, w = String c r -> (bval c < 128)%N -> n = bval c).
  { intros c r -> B. unfold decode_rune in D. apply N.ltb_lt in B. rewrite B in D. now inversion D. }
  unfold odd_first in O. cbn [In] in O.
  assert (A : forall c r, In c ["{"; "}"; ";"; "#"]%char -> w <> String c r).
  { intros c r IC E. apply X in E; [|cbn in IC; intuition (subst; reflexivity)].
    cbn in IC. apply O. rewrite E. intuition (subst c; cbn; auto). }
  assert (P : forall s c r, s = String c r -> In c ["{"; "}"; ";"; "#"]%char -> String.eqb w s = false).
  { intros s c r -> IC. apply String.eqb_neq. now apply A. }
  cbn [existsb]. rewrite (P "{" "{"%char ""), (P "}" "}"%char ""), (P ";" ";"%char "") by (auto; cbn; auto). cbn. repeat split.
  destruct w as [|c r]; auto. destruct (Ascii.eqb_spec c "#"%char) as [->|N]; [exfalso; eapply (A "#"%char r); cbn; auto|].
  destruct c as [[] [] [] [] [] [] [] []]; auto; congruence.
Qed.
Lemma note_notsep : forall r l e, sepb (Tok ("#" ++ r) l false e) = false /\ noteb (Tok ("#" ++ r) l false e) = true /\
  opensb (Tok ("#" ++ r) l false e) = false /\ closesb (Tok ("#" ++ r) l false e) = false.
Proof. intros. cbn. auto. Qed.
Lemma quoted_notsep : forall w l e, sepb (Tok w l true e) = false /\ noteb (Tok w l true e) = false /\
  opensb (Tok w l true e) = false /\ closesb (Tok w l true e) = false.
Proof. intros. cbn. auto. Qed.

(** ** C03: braces and separators *)
Lemma net_app : forall a b, net (a ++ b) = (net a + net b)%Z.
Proof. induction a as [|t a IH]; intros b; cbn [net app]; auto. rewrite IH. destruct (opensb t), (closesb t); lia. Qed.
Lemma after_sep_app : forall a x b, after_sep x (a ++ b) = after_sep (after_sep x a) b.
Proof. induction a as [|t a IH]; intros x b; cbn [after_sep app]; auto. Qed.
Lemma snoc_cases : forall A (l : list A), l = [] \/ exists d z, l = (d ++ [z])%list.
Proof. intros A l. destruct l as [|a l]; auto. right. destruct (exists_last (l := a :: l)) as (d & z & E); [discriminate|]. eauto. Qed.
Lemma snoc_split : forall A (a b : list A) x y c, (a ++ [x] = b ++ y :: c)%list -> (b = a /\ y = x /\ c = []) \/ exists d, c = (d ++ [x])%list /\ a = (b ++ y :: d)%list.
Proof.
  intros A a b x y c H. destruct (snoc_cases _ c) as [->|(d & z & ->)].
  - apply app_inj_tail in H as [-> ->]. auto.
  - right. rewrite app_comm_cons, app_assoc in H. apply app_inj_tail in H as [-> ->]. eauto.
Qed.

Definition safe (toks : list token) : Prop := no_errors toks /\ nested toks /\ spaced toks.
Lemma safe_nil : safe [].
Proof.
  repeat split; [constructor| |].
  - intros a b H. destruct a; [cbn; lia|discriminate].
  - intros a t b H. destruct a; discriminate.
Qed.
Lemma safe_snoc : forall ts t, safe ts -> t_err t = None -> (0 <= net (ts ++ [t]))%Z ->
  (sepb t = true -> after_sep false ts = true -> t_val t = "}") -> safe (ts ++ [t]).
Proof.
  intros ts t (A & B & C) E N S. repeat split.
  - apply Forall_app. auto.
  - intros a b H. destruct (snoc_cases _ b) as [->|(d & z & ->)].
    + rewrite app_nil_r in H. now subst.
    + rewrite app_assoc in H. apply app_inj_tail in H as [-> _]. eapply B. reflexivity.
  - intros a u b H SU AF. apply snoc_split in H as [(-> & -> & ->)|(d & -> & ->)]; auto. eapply C; eauto.
Qed.
Definition plain (t : token) : Prop := t_err t = None /\ sepb t = false /\ opensb t = false /\ closesb t = false.
Lemma plain_snoc : forall ts t, safe ts -> plain t -> safe (ts ++ [t]) /\ net (ts ++ [t]) = net ts.
Proof.
  intros ts t S (E & P & O & C). assert (N : net (ts ++ [t]) = net ts) by (rewrite net_app; cbn [net]; rewrite O, C; lia).
  split; auto. apply safe_snoc; auto.
  - rewrite N. destruct S as (_ & B & _). apply (B ts []). now rewrite app_nil_r.
  - congruence.
Qed.
Lemma after_plain : forall ts t, sepb t = false -> noteb t = false -> after_sep false (ts ++ [t]) = false.
Proof. intros ts t S N. rewrite after_sep_app. cbn [after_sep]. now rewrite N. Qed.
Lemma after_note : forall ts t, noteb t = true -> after_sep false (ts ++ [t]) = after_sep false ts.
Proof. intros ts t N. rewrite after_sep_app. cbn [after_sep]. now rewrite N. Qed.

Definition inv3 (c : cst) (done : list token) : Prop :=
  safe done /\ net done = c_depth c /\
  match c_mode c with
  | MSkip => c_dup c = after_sep false done
  | MNote w => c_dup c = after_sep false done /\ exists r, w = "#" ++ r
  | MWord w | MVar w => c_dup c = false /\ word_like w
  | MStr _ _ => c_dup c = false
  end.
Lemma safe_verdict_bad : forall pre t, safe pre -> breach pre t -> t_val t = "" -> t_quoted t = false -> verdict (pre ++ [t])%list.
Proof. intros pre t (A & B & C) BR V Q. eapply vd_bad; eauto. Qed.
Lemma special_cases : forall u, is_special u = true -> u = "{" \/ u = "}" \/ u = ";".
Proof. intros u H. unfold is_special in H. rewrite !orb_true_iff, !String.eqb_eq in H. tauto. Qed.
Lemma csep_inv3 : forall done pre line start dup depth u, is_special u = true ->
  safe (done ++ pre) -> net (done ++ pre) = depth -> dup = after_sep false (done ++ pre) ->
  match csep pre line start dup depth u with
  | Go c' ts => inv3 c' (done ++ ts)
  | Halt ts => verdict (done ++ ts)
  end.
Proof.
  intros done pre line start dup depth u SP SF NE DU. unfold csep.
  assert (NN : (0 <= depth)%Z).
  { rewrite <- NE. destruct SF as (_ & B & _). apply (B (done ++ pre)%list []). now rewrite app_nil_r. }
  destruct (dup && negb (u =? "}"))%bool eqn:E1.
  - rewrite app_assoc. apply andb_true_iff in E1 as [E1 E2]. apply safe_verdict_bad; auto.
    apply (br_sep _ _ u line); [|congruence|reflexivity].
    apply special_cases in SP as [->|[->| ->]]; cbn; auto. discriminate.
  - set (depth' := if u =? "{" then (depth + 1)%Z else if u =? "}" then (depth - 1)%Z else depth).
    destruct ((u =? "}") && (depth' <? 0)%Z)%bool eqn:E2.
    + rewrite app_assoc. apply andb_true_iff in E2 as [E2 E3]. apply String.eqb_eq in E2. subst u. cbn in depth'.
      apply Z.ltb_lt in E3. apply safe_verdict_bad; auto. apply (br_close _ _ line); [unfold depth' in E3; lia|reflexivity].
    + rewrite app_assoc.
      assert (ND : net ((done ++ pre) ++ [Tok u start false None]) = depth').
      { rewrite net_app, NE. unfold depth', opensb, closesb. cbn [net t_quoted t_val negb andb].
        apply special_cases in SP as [->|[->| ->]]; cbn; lia. }
      assert (D0 : (0 <= depth')%Z).
      { unfold depth'. apply special_cases in SP as [->|[->| ->]]; cbn in *; auto; try lia; try (apply Z.ltb_ge in E2; lia). }
      split; [|split].
      * apply safe_snoc; auto. -- rewrite ND; auto.
        -- intros _ AF. cbn [t_val]. rewrite <- DU in AF. subst dup. rewrite AF in E1. cbn in E1. now apply negb_false_iff, String.eqb_eq in E1.
      * exact ND.
      * cbn [c_mode c_dup]. rewrite after_sep_app. cbn [after_sep]. unfold noteb, sepb. cbn [t_quoted t_val negb andb existsb].
        apply special_cases in SP as [->|[->| ->]]; reflexivity.
Qed.
Lemma word_plain : forall w l, word_like w -> plain (Tok w l false None) /\ noteb (Tok w l false None) = false.
Proof. intros w l H. destruct (word_notsep w l false None H) as (A & B & C & D). repeat split; auto. Qed.
Lemma note_plain : forall r l, plain (Tok ("#" ++ r) l false None) /\ noteb (Tok ("#" ++ r) l false None) = true.
Proof. intros. cbn. repeat split. Qed.
Lemma quoted_plain : forall w l, plain (Tok w l true None) /\ noteb (Tok w l true None) = false.
Proof. intros. cbn. repeat split. Qed.
Ltac sp3 := split; [assumption|split; [cbn [c_depth]; congruence|cbn [c_mode c_dup]]].
Lemma inv3_step : forall (pre : list string) c done u, unit_ok u -> inv3 c done ->
  match cstep c u with
  | Go c' ts => inv3 c' (done ++ ts)%list
  | Halt ts => forall us : list string, verdict (done ++ ts)%list
  end.
Proof.
  intros _ c done u U (SF & NE & M). unfold cstep. set (line := if is_eol u then _ else _). clearbody line.
  destruct (c_mode c) as [|w|w|w|q w].
  - destruct (is_space u) eqn:SP; [rewrite app_nil_r; sp3; auto|].
    destruct (u =? "#") eqn:NH; [apply String.eqb_eq in NH; subst u; rewrite app_nil_r; sp3; split; auto; exists ""; reflexivity|].
    destruct (is_quote u) eqn:Q; [rewrite app_nil_r; sp3; auto|].
    destruct (is_special u) eqn:S.
    + pose proof (csep_inv3 done [] line line (c_dup c) (c_depth c) u S) as X. rewrite app_nil_r in X.
      specialize (X SF NE M). destruct (csep _ _ _ _ _ _); auto.
    + rewrite app_nil_r. sp3. split; auto. rewrite <- (app_nil_r_s u). constructor; auto. now apply String.eqb_neq.
  - destruct M as [DU WL]. destruct (word_plain w (c_start c) WL) as [PL NT].
    destruct (plain_snoc done _ SF PL) as [SF' NE']. assert (AS : after_sep false (done ++ [Tok w (c_start c) false None]) = false) by (apply after_plain; [apply PL|auto]).
    destruct (is_space u) eqn:SP; [sp3; congruence|].
    destruct (has_suffix w "$" && (u =? "{"))%bool; [rewrite app_nil_r; sp3; split; auto; now apply word_like_app|].
    destruct (is_special u) eqn:S.
    + pose proof (csep_inv3 done [Tok w (c_start c) false None] line (c_start c) (c_dup c) (c_depth c) u S SF' ltac:(congruence) ltac:(congruence)) as X.
      destruct (csep _ _ _ _ _ _); auto.
    + rewrite app_nil_r; sp3; split; auto; now apply word_like_app.
  - destruct M as [DU [r ->]]. destruct (note_plain r (c_start c)) as [PL NT].
    destruct (plain_snoc done _ SF PL) as [SF' NE']. destruct (is_eol u).
    + sp3. rewrite after_note by auto. auto.
    + rewrite app_nil_r. sp3. split; auto. exists (r ++ u). reflexivity.
  - destruct M as [DU WL]. rewrite app_nil_r. sp3.
    destruct (has_suffix u "}" || is_space u)%bool; split; auto; now apply word_like_app.
  - destruct (quoted_plain w (c_start c)) as [PL NT]. destruct (plain_snoc done _ SF PL) as [SF' NE'].
    destruct (u =? q).
    + sp3. rewrite after_plain; auto; apply PL.
    + rewrite app_nil_r. sp3; auto.
Qed.
Lemma inv3_finish : forall (us : list string) c done, inv3 c done -> verdict (done ++ cfinish c)%list.
Proof.
  intros _ c done (SF & NE & M). unfold cfinish.
  assert (X : safe (done ++ cpending c) /\ net (done ++ cpending c) = c_depth c).
  { unfold cpending. destruct (c_mode c) as [|w|w|w|q w].
    - rewrite app_nil_r. auto.
    - destruct M as [_ WL]. destruct (word_plain w (c_start c) WL) as [PL _]. destruct (plain_snoc done _ SF PL). split; congruence || auto.
    - destruct M as [_ [r ->]]. destruct (note_plain r (c_start c)) as [PL _]. destruct (plain_snoc done _ SF PL). split; congruence || auto.
    - destruct M as [_ WL]. destruct (word_plain w (c_start c) WL) as [PL _]. destruct (plain_snoc done _ SF PL). split; congruence || auto.
    - destruct (w =? ""); [rewrite app_nil_r; auto|]. destruct (quoted_plain w (c_start c)) as [PL _]. destruct (plain_snoc done _ SF PL). split; congruence || auto. }
  destruct X as [SF' NE']. rewrite app_assoc. destruct (0 <? c_depth c)%Z eqn:D.
  - apply Z.ltb_lt in D. apply safe_verdict_bad; auto. eapply br_open; [rewrite NE'; exact D|reflexivity].
  - apply Z.ltb_ge in D. rewrite app_nil_r. destruct SF' as (A & B & C'). apply vd_good; auto.
    specialize (B (done ++ cpending c)%list [] (eq_sym (app_nil_r _))). lia.
Qed.
Lemma lex_verdict : forall s, verdict (lex [] s).
Proof.
  intros s. rewrite lex_crun.
  apply (crun_inv (fun _ => inv3) (fun _ => verdict) inv3_step inv3_finish (units false (scan_runes s)) [] cinit []).
  - apply units_ok, scan_texts.
  - repeat split; try apply safe_nil.
Qed.

(** ** C06: token shapes *)
Definition shape_ok (t : token) : Prop := valid_utf8 (t_val t) = true /\ (t_err t = None -> token_shape t).
Definition inv6 (c : cst) (done : list token) : Prop :=
  Forall shape_ok done /\
  match c_mode c with
  | MSkip => True
  | MNote w => valid_utf8 w = true /\ exists r, w = "#" ++ r /\ ~ in_str "010"%char r
  | MWord w | MVar w => valid_utf8 w = true /\ word_like w
  | MStr q w => valid_utf8 w = true /\ (q = s_dq \/ q = s_sq)
  end.
Lemma word_shape : forall w l, valid_utf8 w = true -> word_like w -> shape_ok (Tok w l false None).
Proof. intros w l V H. split; auto. intros _. apply word_first in H as (n & k & D & S & O). eapply sh_word; eauto. Qed.
Lemma note_shape : forall r l, valid_utf8 ("#" ++ r) = true -> ~ in_str "010"%char r -> shape_ok (Tok ("#" ++ r) l false None).
Proof. intros r l V N. split; auto. intros _. eapply sh_note; [reflexivity|]. now apply no_newline_iff. Qed.
Lemma bad_shape : forall a b w, shape_ok (bad_tok a b w).
Proof. intros. split; [reflexivity|discriminate]. Qed.
Lemma valid_app : forall a b, valid_utf8 a = true -> valid_utf8 b = true -> valid_utf8 (a ++ b) = true.
Proof. intros. now rewrite valid_utf8_app. Qed.
Lemma csep_inv6 : forall pre line start dup depth u, is_special u = true -> Forall shape_ok pre ->
  match csep pre line start dup depth u with
  | Go c' ts => c_mode c' = MSkip /\ Forall shape_ok ts
  | Halt ts => Forall shape_ok ts
  end.
Proof.
  intros pre line start dup depth u S F. unfold csep. destruct (_ && _)%bool; [apply Forall_app; split; auto; constructor; auto; apply bad_shape|].
  cbv zeta. destruct (_ && _)%bool; [apply Forall_app; split; auto; constructor; auto; apply bad_shape|].
  split; auto. apply Forall_app; split; auto. constructor; auto. split.
  - apply special_cases in S as [->|[->| ->]]; reflexivity.
  - intros _. apply sh_sep. cbn [t_val]. apply special_cases in S as [->|[->| ->]]; cbn; auto.
Qed.
Lemma inv6_step : forall (pre : list string) c done u, unit_ok u -> inv6 c done ->
  match cstep c u with
  | Go c' ts => inv6 c' (done ++ ts)%list
  | Halt ts => forall us : list string, Forall shape_ok (done ++ ts)%list
  end.
Proof.
  intros _ c done u U (F & M). unfold cstep. set (line := if is_eol u then _ else _). clearbody line.
  pose proof (unit_valid u U) as VU.
  assert (CS : forall pre start, is_special u = true -> Forall shape_ok pre ->
    match csep pre line start (c_dup c) (c_depth c) u with
    | Go c' ts => inv6 c' (done ++ ts)%list
    | Halt ts => forall us : list string, Forall shape_ok (done ++ ts)%list
    end).
  { intros pre start S FP. pose proof (csep_inv6 pre line start (c_dup c) (c_depth c) u S FP) as X.
    destruct (csep _ _ _ _ _ _) as [c' ts|ts].
    - destruct X as [X Y]. split; [now apply Forall_app|]. now rewrite X.
    - intros _. now apply Forall_app. }
  destruct (c_mode c) as [|w|w|w|q w].
  - destruct (is_space u) eqn:SP; [rewrite app_nil_r; split; cbn [c_mode]; auto|].
    destruct (u =? "#") eqn:NH; [apply String.eqb_eq in NH; subst u; rewrite app_nil_r; split; cbn [c_mode]; auto; split; auto; exists ""; split; auto|].
    destruct (is_quote u) eqn:Q; [rewrite app_nil_r; split; cbn [c_mode]; auto; cbn [c_mode]; split; auto; unfold is_quote in Q; apply orb_true_iff in Q; rewrite !String.eqb_eq in Q; exact Q|].
    destruct (is_special u) eqn:S; [apply CS; auto|].
    rewrite app_nil_r. split; auto. split; auto. rewrite <- (app_nil_r_s u). constructor; auto. now apply String.eqb_neq.
  - destruct M as [V WL].
    assert (F' : Forall shape_ok (done ++ [Tok w (c_start c) false None])) by (apply Forall_app; split; auto; constructor; auto; now apply word_shape).
    destruct (is_space u) eqn:SP; [split; cbn [c_mode]; auto|].
    destruct (has_suffix w "$" && (u =? "{"))%bool; [rewrite app_nil_r; split; cbn [c_mode]; auto; split; [now apply valid_app|now apply word_like_app]|].
    destruct (is_special u) eqn:S.
    + apply CS; auto. apply Forall_app in F'. apply F'.
    + rewrite app_nil_r; split; cbn [c_mode]; auto; split; [now apply valid_app|now apply word_like_app].
  - destruct M as [V (r & -> & NL)]. destruct (is_eol u) eqn:E.
    + split; cbn [c_mode]; auto. apply Forall_app; split; auto. constructor; auto. now apply note_shape.
    + rewrite app_nil_r. split; auto. split; [now apply valid_app|]. exists (r ++ u). split; auto. rewrite in_str_app. intros [X|X]; auto. now apply (unit_nl u) in X.
  - destruct M as [V WL]. rewrite app_nil_r. split; auto. cbn [c_mode].
    destruct (has_suffix u "}" || is_space u)%bool; (split; [now apply valid_app|now apply word_like_app]).
  - destruct M as [V Q]. destruct (u =? q).
    + split; cbn [c_mode]; auto. apply Forall_app; split; auto. constructor; auto. split; auto. intros _. now apply sh_quoted.
    + rewrite app_nil_r. split; auto. cbn [c_mode]. split; auto. apply valid_app; auto.
      destruct (u =? "\" ++ q); auto. destruct Q as [-> | ->]; reflexivity.
Qed.
Lemma inv6_finish : forall (us : list string) c done, inv6 c done -> Forall shape_ok (done ++ cfinish c)%list.
Proof.
  intros _ c done (F & M). unfold cfinish. apply Forall_app. split; auto. apply Forall_app. split.
  - unfold cpending. destruct (c_mode c) as [|w|w|w|q w]; auto.
    + constructor; auto. now apply word_shape.
    + destruct M as [V (r & -> & NL)]. constructor; auto. now apply note_shape.
    + constructor; auto. now apply word_shape.
    + destruct (w =? ""); auto. constructor; auto. split; [apply M|]. intros _. now apply sh_quoted.
  - destruct (0 <? c_depth c)%Z; auto. constructor; auto. apply bad_shape.
Qed.
Lemma lex_shape : forall s, Forall shape_ok (lex [] s).
Proof.
  intros s. rewrite lex_crun.
  apply (crun_inv (fun _ => inv6) (fun _ => Forall shape_ok) inv6_step inv6_finish (units false (scan_runes s)) [] cinit []).
  - apply units_ok, scan_texts.
  - split; constructor.
Qed.
Lemma lex_shapes : forall s t, In t (lex [] s) ->
  valid_utf8 (t_val t) = true /\ (t_err t = None -> token_shape t /\ (t_quoted t = false -> t_val t <> "")).
Proof.
  intros s t I. pose proof (lex_shape s) as F. rewrite Forall_forall in F. destruct (F t I) as [V S]. split; auto.
  intros E. specialize (S E). split; auto. intros Q Z. destruct S as [Q'|X|r X _|n w X _ _]; [congruence| | |]; rewrite Z in X.
  - cbn in X. intuition discriminate.
  - discriminate.
  - discriminate.
Qed.

(** ** C04: lines *)
Lemma count_eol_app : forall a b, count_eol (a ++ b) = (count_eol a + count_eol b)%Z.
Proof. unfold count_eol. induction a as [|x a IH]; intros b; cbn; auto. rewrite IH. destruct (is_eol x); lia. Qed.
Lemma count_eol_nonneg : forall a, (0 <= count_eol a)%Z.
Proof. unfold count_eol. induction a as [|x a IH]; cbn; [lia|]. destruct (is_eol x); lia. Qed.
Lemma asc_le : forall lo hi ts, ascending lo hi ts -> (lo <= hi)%Z.
Proof. induction 1; lia. Qed.
Lemma asc_hi : forall lo hi hi' ts, ascending lo hi ts -> (hi <= hi')%Z -> ascending lo hi' ts.
Proof. induction 1; intros L; constructor; auto; lia. Qed.
Lemma asc_snoc : forall lo hi hi' ts t, ascending lo hi ts -> (hi <= t_line t)%Z -> (t_line t <= hi')%Z -> ascending lo hi' (ts ++ [t]).
Proof. induction 1; intros A B; cbn; constructor; auto; try lia. now constructor. Qed.
Definition inv4 (pre : list string) (c : cst) (done : list token) : Prop :=
  ascending 1 (c_start c) done /\ (c_start c <= c_line c)%Z /\ c_line c = (1 + count_eol pre)%Z.
Definition lined (us : list string) (ts : list token) : Prop := ascending 1 (1 + count_eol us) ts.
Lemma inv4_step : forall pre c done u, unit_ok u -> inv4 pre c done ->
  match cstep c u with
  | Go c' ts => inv4 (pre ++ [u])%list c' (done ++ ts)%list
  | Halt ts => forall us : list string, lined (pre ++ u :: us)%list (done ++ ts)%list
  end.
Proof.
  intros pre c done u U (A & B & D). unfold cstep. set (line := if is_eol u then _ else _).
  assert (L : line = (1 + count_eol (pre ++ [u]))%Z /\ (c_line c <= line)%Z).
  { unfold line. rewrite count_eol_app. unfold count_eol at 2. cbn [fold_right]. destruct (is_eol u); lia. }
  clearbody line. destruct L as [L LL].
  assert (K : forall ls, (line <= 1 + count_eol (pre ++ u :: ls))%Z).
  { intros ls. replace (pre ++ u :: ls)%list with ((pre ++ [u]) ++ ls)%list by now rewrite <- app_assoc.
    rewrite count_eol_app. pose proof (count_eol_nonneg ls). lia. }
  assert (TK : forall w q e, ascending 1 (c_start c) (done ++ [Tok w (c_start c) q e])) by (intros; eapply asc_snoc; eauto; cbn [t_line bad_tok]; lia).
  assert (CS : forall p start, (start = c_start c \/ start = line) -> ascending 1 start (done ++ p) ->
    match csep p line start (c_dup c) (c_depth c) u with
    | Go c' ts => inv4 (pre ++ [u])%list c' (done ++ ts)%list
    | Halt ts => forall us : list string, lined (pre ++ u :: us)%list (done ++ ts)%list
    end).
  { intros p start ST AS. unfold csep.
    assert (H : forall e us, lined (pre ++ u :: us) (done ++ p ++ [bad_tok line start e])).
    { intros e us. unfold lined. rewrite app_assoc. specialize (K us). eapply asc_snoc; eauto; cbn [t_line bad_tok]; lia. }
    destruct (_ && _)%bool; auto. cbv zeta. destruct (_ && _)%bool; auto.
    unfold inv4. cbn [c_start c_line]. repeat split; try lia. rewrite app_assoc. eapply asc_snoc; eauto; cbn [t_line bad_tok]; lia. }
  destruct (c_mode c) as [|w|w|w|q w]; unfold inv4.
  - destruct (is_space u); [rewrite app_nil_r; cbn [c_start c_line]; repeat split; auto; lia|].
    assert (A' : ascending 1 line done) by (eapply asc_hi; eauto; lia).
    destruct (u =? "#"); [rewrite app_nil_r; cbn [c_start c_line]; repeat split; auto; lia|].
    destruct (is_quote u); [rewrite app_nil_r; cbn [c_start c_line]; repeat split; auto; lia|].
    destruct (is_special u); [apply CS; auto; now rewrite app_nil_r|].
    rewrite app_nil_r; cbn [c_start c_line]; repeat split; auto; lia.
  - destruct (is_space u); [cbn [c_start c_line]; repeat split; auto; lia|].
    destruct (_ && _)%bool; [rewrite app_nil_r; cbn [c_start c_line]; repeat split; auto; lia|].
    destruct (is_special u); [apply CS; auto|].
    rewrite app_nil_r; cbn [c_start c_line]; repeat split; auto; lia.
  - destruct (is_eol u); [cbn [c_start c_line]; repeat split; auto; lia|].
    rewrite app_nil_r; cbn [c_start c_line]; repeat split; auto; lia.
  - rewrite app_nil_r; cbn [c_start c_line]; repeat split; auto; lia.
  - destruct (u =? q); [cbn [c_start c_line]; repeat split; auto; lia|].
    rewrite app_nil_r; cbn [c_start c_line]; repeat split; auto; lia.
Qed.
Lemma inv4_finish : forall us c done, inv4 us c done -> lined us (done ++ cfinish c)%list.
Proof.
  intros us c done (A & B & D). unfold cfinish, lined. rewrite app_assoc.
  assert (X : ascending 1 (c_start c) (done ++ cpending c)).
  { unfold cpending. destruct (c_mode c) as [|w|w|w|q w]; rewrite ?app_nil_r; auto; try (eapply asc_snoc; eauto; cbn [t_line bad_tok]; lia).
    destruct (w =? ""); rewrite ?app_nil_r; auto; eapply asc_snoc; eauto; cbn [t_line bad_tok]; lia. }
  destruct (0 <? c_depth c)%Z; [eapply asc_snoc; eauto; cbn [t_line bad_tok]; lia|]. rewrite app_nil_r. eapply asc_hi; eauto. lia.
Qed.
Lemma eol_rune : forall r, rune_text r -> is_eol r = true <-> r = s_nl.
Proof.
  intros r R. split; [|intros ->; reflexivity]. intros E. apply has_suffix_iff in E as [x E]. rewrite E.
  apply (rune_byte r "010"%char) in R; [subst r; destruct x as [|c x]; [reflexivity|now destruct x]| |reflexivity].
  rewrite E, in_str_app. right. now left.
Qed.
Lemma count_units : forall rs esc, Forall rune_text rs -> count_eol (units esc rs) = count_eol rs.
Proof.
  induction rs as [|r rs IH]; intros esc F; cbn [units]; auto. inversion F; subst.
  assert (X : forall x l, count_eol (x :: l) = (if is_eol x then count_eol l + 1 else count_eol l)%Z) by reflexivity.
  rewrite X. destruct (String.eqb_spec r s_cr) as [->|N]; [rewrite IH by auto; reflexivity|].
  destruct (String.eqb_spec r "\") as [->|NB]; cbn [andb].
  - destruct esc; cbn [negb]; rewrite ?X, IH by auto; reflexivity.
  - rewrite X, IH by auto. destruct esc; auto. rewrite is_eol_app by apply H1. auto.
Qed.
Lemma newlines_app : forall a b, newlines (a ++ b) = (newlines a + newlines b)%Z.
Proof.
  unfold newlines. induction a as [|c a IH]; intros b; cbn [list_of_str filter String.append]; auto. destruct (Ascii.eqb "010" c); cbn [List.length]; specialize (IH b); lia.
Qed.
Lemma newlines_none : forall s, ~ in_str "010"%char s -> newlines s = 0%Z.
Proof.
  unfold newlines. induction s as [|c s IH]; cbn [list_of_str filter in_str]; auto. intros H.
  destruct (Ascii.eqb_spec "010" c) as [E|N]; [exfalso; auto|]. apply IH. tauto.
Qed.
Lemma count_scan : forall s, count_eol (scan_runes s) = newlines s.
Proof.
  induction s as [|s r w ok N E W IH] using scan_ind; [reflexivity|].
  unfold scan_runes in *. rewrite (scan_eq _ N _ _ _ E). cbn [map]. unfold count_eol in *. cbn [fold_right]. rewrite IH.
  assert (TD : newlines s = (newlines (take w s) + newlines (drop w s))%Z) by (rewrite <- newlines_app, take_drop; auto). rewrite TD.
  assert (I : In (Item r (take w s) ok) (scan s)) by (rewrite (scan_eq _ N _ _ _ E); now left).
  pose proof (scan_texts s) as F. unfold scan_runes in F. rewrite Forall_map, Forall_forall in F. specialize (F _ I).
  unfold it_text in *. cbn [it_ok it_raw] in *. destruct ok.
  - destruct (is_eol (take w s)) eqn:EL.
    + apply eol_rune in EL; auto. rewrite EL. change (newlines s_nl) with 1%Z. lia.
    + rewrite (newlines_none (take w s)); [lia|]. intros X. apply (rune_byte _ _ F) in X; [|reflexivity]. rewrite X in EL. discriminate.
  - change (is_eol error_rune_text) with false. cbv iota. rewrite (newlines_none (take w s)); [lia|]. destruct (dec_bad_width _ _ _ N E) as [-> ->].
    destruct s as [|c s]; [congruence|]. cbn. intros [X|[]]. subst c. discriminate E.
Qed.
Lemma lex_lines : forall s, ascending 1 (1 + newlines s) (lex [] s).
Proof.
  intros s. rewrite lex_crun.
  pose proof (crun_inv inv4 lined inv4_step inv4_finish (units false (scan_runes s)) [] cinit []) as X. cbn [app] in X.
  rewrite <- count_scan, <- (count_units _ false) by apply scan_texts. apply X.
  - apply units_ok, scan_texts.
  - repeat split; cbn; try lia. constructor; lia.
Qed.

(** ** C02: carriage returns *)
Definition keep (r : string) : bool := negb (String.eqb r s_cr).
Lemma units_filter : forall rs esc, units esc (filter keep rs) = units esc rs.
Proof.
  induction rs as [|r rs IH]; intros esc; auto. cbn [filter units]. unfold keep at 1.
  destruct (String.eqb_spec r s_cr) as [->|N]; cbn [negb units]; auto.
  apply String.eqb_neq in N. rewrite N. destruct (_ && _)%bool; auto. now rewrite IH.
Qed.
Lemma lex_runes_cr : forall rs, Forall rune_like rs -> lex_runes [] (filter keep rs) = lex_runes [] rs.
Proof.
  intros rs F. rewrite !lex_runes_crun, units_filter; auto. apply Forall_forall. intros x I. apply filter_In in I as [I _].
  rewrite Forall_forall in F. auto.
Qed.
Lemma no_cr_app : forall a b, no_cr (a ++ b) = no_cr a ++ no_cr b.
Proof. induction a as [|c a IH]; intros b; cbn; auto. destruct (Ascii.eqb c "013"); rewrite IH; auto. Qed.
Lemma no_cr_id : forall s, ~ in_str "013"%char s -> no_cr s = s.
Proof.
  induction s as [|c s IH]; cbn; auto. intros H. destruct (Ascii.eqb_spec c "013") as [->|N]; [exfalso; auto|]. now rewrite IH by tauto.
Qed.
Lemma scan_runes_app_valid : forall a b, valid_utf8 a = true -> scan_runes (a ++ b) = (scan_runes a ++ scan_runes b)%list.
Proof. intros a b V. unfold scan_runes. now rewrite scan_app_valid, map_app. Qed.
Lemma rune_scan_runes : forall r, rune_text r -> scan_runes r = [r].
Proof. intros r [NE [n D]]. unfold scan_runes. rewrite (rune_scan r n NE D). reflexivity. Qed.
Lemma take_rune : forall s r w, s <> "" -> decode_rune s = (r, w, true) -> rune_text (take w s).
Proof.
  intros s r w N E. pose proof (dec_width _ _ _ _ N E) as W. pose proof (dec_take _ _ _ E) as D.
  assert (L : slen (take w s) = w) by (rewrite slen_take; lia). split; [|exists r; congruence].
  intros Z. rewrite Z in L. cbn in L. lia.
Qed.
Lemma scan_no_cr : forall s, valid_utf8 s = true -> scan_runes (no_cr s) = filter keep (scan_runes s).
Proof.
  induction s as [|s r w ok N E W IH] using scan_ind; [reflexivity|]. intros V.
  rewrite (valid_utf8_step _ _ _ _ N E) in V. apply andb_true_iff in V as [-> V].
  pose proof (take_rune _ _ _ N E) as R. rewrite <- (take_drop w s) at 1 2. rewrite no_cr_app.
  rewrite (scan_runes_app_valid (take w s)) by now apply rune_valid. rewrite filter_app, <- IH by auto.
  rewrite (rune_scan_runes _ R). cbn [filter]. unfold keep. destruct (String.eqb_spec (take w s) s_cr) as [->|NC]; [reflexivity|].
  rewrite no_cr_id.
  - rewrite scan_runes_app_valid by now apply rune_valid. now rewrite rune_scan_runes.
  - intros X. apply NC. now apply (rune_byte _ _ R) in X.
Qed.
Lemma lex_no_cr : forall s, valid_utf8 s = true -> lex [] (no_cr s) = lex [] s.
Proof.
  intros s V. unfold lex. rewrite scan_no_cr by auto. apply lex_runes_cr, scan_rune_like.
Qed.

(** A check of [nested] and [spaced] for concrete streams. *)
Fixpoint checks (depth : Z) (after : bool) (toks : list token) : bool :=
  match toks with
  | [] => true
  | t :: r =>
    let depth' := (if opensb t then depth + 1 else if closesb t then depth - 1 else depth)%Z in
    (Z.leb 0 depth' && (negb (sepb t) || negb after || String.eqb (t_val t) "}") &&
     checks depth' (if noteb t then after else sepb t) r)%bool
  end.
Lemma checks_sound : forall toks, checks 0 false toks = true -> nested toks /\ spaced toks.
Proof.
  assert (G : forall toks pre, nested pre -> spaced pre -> checks (net pre) (after_sep false pre) toks = true ->
    nested (pre ++ toks) /\ spaced (pre ++ toks)).
  { induction toks as [|t r IH]; intros pre N S H; [now rewrite app_nil_r|]. cbn [checks] in H.
    rewrite !andb_true_iff in H. destruct H as [[D P] H].
    assert (E : net (pre ++ [t]) = (if opensb t then net pre + 1 else if closesb t then net pre - 1 else net pre)%Z).
    { rewrite net_app. cbn [net]. destruct (opensb t), (closesb t); lia. }
    replace (pre ++ t :: r)%list with ((pre ++ [t]) ++ r)%list by now rewrite <- app_assoc. apply IH.
    - intros a b X. destruct (snoc_cases _ b) as [->|(d & z & ->)].
      + rewrite app_nil_r in X. subst a. rewrite E. apply Z.leb_le. exact D.
      + rewrite app_assoc in X. apply app_inj_tail in X as [-> _]. eapply N. reflexivity.
    - intros a u b X SU AF. apply snoc_split in X as [(-> & -> & ->)|(d & -> & ->)]; [|eapply S; eauto].
      rewrite SU, AF in P. cbn in P. now apply String.eqb_eq.
    - rewrite E, after_sep_app. cbn [after_sep]. exact H. }
  intros toks H. apply (G toks []); auto.
  - intros a b X. destruct a; [cbn; lia|discriminate].
  - intros a t b X. destruct a; discriminate.
Qed.
