(** C63: flags, configuration, program. *)
From Verif Require Export SpecCmd.
From Verif Require Import Util LibProofs JsonProofs JsonTextProofs GenProofs.
Local Open Scope string_scope.

(** ** Words *)
Lemma dash_split : forall w, (exists r, w = String "-" r) \/ (forall r, w <> "-" ++ r).
Proof. intros [|c r]; [right; discriminate|]. destruct (ascii_dec c "-") as [->|N1]; [left; eauto|]. right. intros q E. injection E as ->. congruence. Qed.
Lemma named_word : forall n, n <> "" -> (forall r, n <> "-" ++ r) -> (forall r, n <> "=" ++ r) ->
  match n with
  | "" => WBad
  | String d _ => if (Ascii.eqb d "-" || Ascii.eqb d "=")%bool then WBad
                  else match cut "=" n with Some (a, v) => WFlag a (Some v) | None => WFlag n None end
  end = match cut "=" n with Some (a, v) => WFlag a (Some v) | None => WFlag n None end.
Proof.
  intros [|d n] N0 N1 N2; [congruence|]. destruct (Ascii.eqb_spec d "-") as [->|]; [now elim (N1 n)|]. destruct (Ascii.eqb_spec d "=") as [->|]; [now elim (N2 n)|]. reflexivity.
Qed.
Lemma word_cases : forall w, match word_of w with WEnd => ends_flags w | WBad => misspelt w | WFlag n v => flag_word w n v end.
Proof.
  intros w. destruct (dash_split w) as [(r & ->)|N].
  2: { replace (word_of w) with WEnd; [right; now right|]. destruct w as [|c w]; auto. destruct (ascii_dec c "-") as [->|NE]; [now elim (N w)|]. each_char c; try reflexivity. congruence. }
  destruct r as [|c r]; [left; reflexivity|].
  assert (K : exists dash n, In dash ["-"; "--"] /\ String "-" (String c r) = dash ++ n /\ (forall r, dash = "-" -> n <> "-" ++ r) /\
    (String "-" (String c r) = "--" \/ String "-" (String c r) <> "--" /\ n <> "" /\ word_of (String "-" (String c r)) =
      match n with
      | "" => WBad
      | String d _ => if (Ascii.eqb d "-" || Ascii.eqb d "=")%bool then WBad
                      else match cut "=" n with Some (a, v) => WFlag a (Some v) | None => WFlag n None end
      end)).
  { destruct (ascii_dec c "-") as [->|NE].
    - exists "--", r. split; [cbn; auto|]. split; [reflexivity|]. split; [discriminate|]. destruct r as [|d r]; [now left|]. right. split; [discriminate|]. split; [discriminate|]. reflexivity.
    - exists "-", (String c r). split; [cbn; auto|]. split; [reflexivity|]. split; [intros q _ E; injection E; congruence|]. right. split; [intros E; injection E; congruence|]. split; [discriminate|].
      unfold word_of. destruct (String.eqb_spec (String "-" (String c r)) "--") as [E|_]; [injection E; congruence|]. cbv zeta. rewrite (proj2 (Ascii.eqb_neq c "-") NE). cbv iota. rewrite ?(proj2 (Ascii.eqb_neq c "-") NE). reflexivity. }
  destruct K as (dash & n & I & E & ND & [D|(D & N0 & W)]); [rewrite D; right; left; reflexivity|]. rewrite W. clear W. destruct n as [|d n]; [congruence|].
  destruct (Ascii.eqb_spec d "-") as [->|N1].
  { cbn [orb]. rewrite E. destruct I as [<-|[<-|[]]]; [now elim (ND n eq_refl)|]. exists n. left. reflexivity. }
  destruct (Ascii.eqb_spec d "=") as [->|N2].
  { cbn [orb]. rewrite E. destruct I as [<-|[<-|[]]]; exists n; [right; left; reflexivity|right; right; reflexivity]. }
  cbn [orb]. destruct (cut "=" (String d n)) as [[a v]|] eqn:C; apply cut_exact in C; cbn in C.
  - destruct C as [C1 C2]. rewrite E, C1. apply fw_value; auto. split; [intros ->; injection C1; congruence|]. split; auto. intros r' ->. injection C1; congruence.
  - rewrite E. apply fw_bare; auto. split; [discriminate|]. split; auto. intros r' Q. injection Q; congruence.
Qed.
Lemma word_name : forall dash n, In dash ["-"; "--"] -> n <> "" -> (forall r, n <> "-" ++ r) -> (forall r, n <> "=" ++ r) ->
  word_of (dash ++ n) = match cut "=" n with Some (a, v) => WFlag a (Some v) | None => WFlag n None end.
Proof.
  intros dash n I N0 N1 N2. rewrite <- named_word by auto. destruct n as [|d n]; [congruence|]. destruct I as [<-|[<-|[]]].
  - cbn [String.append]. unfold word_of. destruct (String.eqb_spec (String "-" (String d n)) "--") as [E|_]; [injection E as -> ->; now elim (N1 "")|]. assert (ND : d <> "-"%char) by (intros ->; now elim (N1 n)). cbv zeta. rewrite (proj2 (Ascii.eqb_neq d "-") ND). cbv iota. rewrite ?(proj2 (Ascii.eqb_neq d "-") ND). reflexivity.
  - reflexivity.
Qed.
Lemma word_flag : forall w n v, flag_word w n v -> word_of w = WFlag n v.
Proof.
  intros w n v F. destruct F as [dash n I (N0 & N1 & N2)|dash n v I (N0 & N1 & N2)].
  - assert (C : cut "=" n = None) by (apply cut_exact; exact N2). rewrite word_name; auto; [now rewrite C|]. intros r ->. apply N2. exists "", r. reflexivity.
  - assert (C : cut "=" (n ++ "=" ++ v) = Some (n, v)) by (apply cut_exact; cbn; auto). destruct n as [|d n]; [congruence|]. rewrite word_name; auto; [now rewrite C|discriminate| |].
    + intros r E. injection E as -> _. now elim (N1 n).
    + intros r E. injection E as -> _. apply N2. exists "", n. reflexivity.
Qed.
Lemma word_bad : forall w, misspelt w -> word_of w = WBad.
Proof. intros w (r & [->|[->| ->]]); reflexivity. Qed.
Lemma word_end : forall w, ends_flags w -> word_of w = WEnd.
Proof. intros w [->|[->|N1]]; try reflexivity. destruct w as [|c w]; auto. destruct (ascii_dec c "-") as [->|NE]; [now elim (N1 w)|]. each_char c; try reflexivity. congruence. Qed.

(** ** All flags *)
Fixpoint set_all (fs : list (string * string)) (f : settings) : settings + halt :=
  match fs with [] => inl f | (n, v) :: r => match set_flag n v f with inl f => set_all r f | inr e => inr e end end.
Lemma known_iff : forall n, flag_known n = true <-> In n flag_names.
Proof. intros n. apply mem_str_iff. Qed.
Lemma unknown_iff : forall n, flag_known n = false <-> ~ In n flag_names.
Proof. intros n. rewrite <- known_iff. destruct (flag_known n); split; congruence. Qed.
Lemma set_fails : forall n v f e, In n flag_names -> set_flag n v f = inr e <-> n = "override" /\ ~ spelt v /\ e = StopValue v.
Proof.
  intros n v [a b c d e flt ovr] x I. cbn in I. destruct I as [<-|[<-|[<-|[<-|[<-|[<-|[<-|[]]]]]]]]; cbn [set_flag String.eqb Ascii.eqb Bool.eqb]; try (split; [discriminate|intros (Q & _); discriminate Q]).
  destruct (read_override v) as [[dir ms]|g] eqn:R.
  - split; [discriminate|]. intros (_ & N1 & _). elim N1. exists dir, ms. now apply read_override_iff.
  - split; [|intros (_ & _ & ->); reflexivity]. intros E. injection E as <-. split; auto. split; auto. intros (dir & ms & S1). apply read_override_iff in S1. congruence.
Qed.
Lemma flags_ok : forall args f f', parse_flags args f = inl f' <-> exists fs rest, given args fs rest /\ over rest /\ set_all fs f = inl f'.
Proof.
  intros args. remember (List.length args) as k eqn:K. assert (L : List.length args <= k) by lia. clear K. revert args L. induction k as [|k IH]; intros args L f f'.
  - destruct args; [|cbn in L; lia]. cbn [parse_flags]. split.
    + intros E. exists [], []. split; [apply gv_none|]. split; [now left|exact E].
    + intros (fs & rest & G & _ & S1). inversion G; subst. exact S1.
  - destruct args as [|w r].
    { cbn [parse_flags]. split.
      + intros E. exists [], []. split; [apply gv_none|]. split; [now left|exact E].
      + intros (fs & rest & G & _ & S1). inversion G; subst. exact S1. }
    cbn [parse_flags]. pose proof (word_cases w) as W. destruct (word_of w) as [| |n v] eqn:WO.
    + split.
      * intros E. exists [], (w :: r). split; [apply gv_none|]. split; [right; eauto|exact E].
      * intros (fs & rest & G & O & S1). inversion G as [|w' n v r' fs' z F I G' E1 E2 E3|w' n v r' fs' z F I G' E1 E2 E3]; subst; [exact S1| |]; apply word_flag in F; congruence.
    + split; [discriminate|]. intros (fs & rest & G & O & S1). inversion G as [|w' n v r' fs' z F I G' E1 E2 E3|w' n v r' fs' z F I G' E1 E2 E3]; subst; [| |]; try (apply word_flag in F; congruence).
      destruct O as [O|(w2 & r2 & O & EF)]; [discriminate|]. injection O as <- <-. apply word_end in EF. congruence.
    + destruct (flag_known n) eqn:KN; cbn [negb].
      2: { split; [discriminate|]. apply unknown_iff in KN. intros (fs & rest & G & O & S1). inversion G as [|w' n' v' r' fs' z F I G' E1 E2 E3|w' n' v' r' fs' z F I G' E1 E2 E3]; subst.
           - destruct O as [O|(w2 & r2 & O & EF)]; [discriminate|]. injection O as <- <-. apply word_end in EF. congruence.
           - apply word_flag in F. rewrite WO in F. injection F as -> ->. contradiction.
           - apply word_flag in F. rewrite WO in F. injection F as -> ->. contradiction. }
      apply known_iff in KN. destruct v as [v|].
      * split.
        -- destruct (set_flag n v f) as [f1|e] eqn:SF; [|discriminate]. intros E. apply IH in E as (fs & rest & G & O & S1); [|cbn in L; lia]. exists ((n, v) :: fs), rest. split; [now apply (gv_same w)|]. split; auto. cbn [set_all]. now rewrite SF.
        -- intros (fs & rest & G & O & S1). inversion G as [|w' n' v' r' fs' z F I G' E1 E2 E3|w' n' v' r' fs' z F I G' E1 E2 E3]; subst.
           ++ destruct O as [O|(w2 & r2 & O & EF)]; [discriminate|]. injection O as <- <-. apply word_end in EF. congruence.
           ++ apply word_flag in F. rewrite WO in F. injection F as <- <-. cbn [set_all] in S1. destruct (set_flag n v f) as [f1|e] eqn:SF; [|discriminate]. apply IH; [cbn in L; lia|]. eauto.
           ++ apply word_flag in F. congruence.
      * split.
        -- destruct r as [|v r]; [discriminate|]. destruct (set_flag n v f) as [f1|e] eqn:SF; [|discriminate]. intros E. apply IH in E as (fs & rest & G & O & S1); [|cbn in L; lia]. exists ((n, v) :: fs), rest. split; [now apply (gv_next w)|]. split; auto. cbn [set_all]. now rewrite SF.
        -- intros (fs & rest & G & O & S1). inversion G as [|w' n' v' r' fs' z F I G' E1 E2 E3|w' n' v' r' fs' z F I G' E1 E2 E3]; subst.
           ++ destruct O as [O|(w2 & r2 & O & EF)]; [discriminate|]. injection O as <- <-. apply word_end in EF. congruence.
           ++ apply word_flag in F. congruence.
           ++ apply word_flag in F. rewrite WO in F. injection F as <-. cbn [set_all] in S1. destruct (set_flag n v' f) as [f1|e] eqn:SF; [|discriminate]. apply IH; [cbn in L; lia|]. eauto.
Qed.
Lemma fails_word : forall w r e, fails (w :: r) e -> (word_of w = WBad /\ e = StopSyntax w) \/ exists n v, word_of w = WFlag n v /\
  ((In n ["help"; "h"] /\ e = StopHelp) \/ (~ In n flag_names /\ ~ In n ["help"; "h"] /\ e = StopUnknown n) \/ (In n flag_names /\ v = None /\ r = [] /\ e = StopNoValue n) \/
   (n = "override" /\ exists x, ~ spelt x /\ e = StopValue x /\ (v = Some x \/ v = None /\ exists q, r = x :: q))).
Proof.
  intros w r e F. remember (w :: r) as l eqn:E. destruct F as [w' r' M|w' n v r' F I|w' n v r' F N1 N2|w' n F I|w' v r' F N1|w' v r' F N1]; injection E as -> <-.
  - left. split; [now apply word_bad|reflexivity].
  - right. exists n, v. split; [now apply word_flag|]. auto.
  - right. exists n, v. split; [now apply word_flag|]. auto.
  - right. exists n, None. split; [now apply word_flag|]. right. right. left. repeat split; auto.
  - right. exists "override", (Some v). split; [now apply word_flag|]. right. right. right. split; auto. exists v. auto.
  - right. exists "override", None. split; [now apply word_flag|]. right. right. right. split; auto. exists v. eauto 8.
Qed.
Lemma flags_fail : forall args f e, parse_flags args f = inr e <-> exists fs rest f', given args fs rest /\ set_all fs f = inl f' /\ fails rest e.
Proof.
  intros args. remember (List.length args) as k eqn:K. assert (L : List.length args <= k) by lia. clear K. revert args L. induction k as [|k IH]; intros args L f x.
  { destruct args; [|cbn in L; lia]. split; [discriminate|]. intros (fs & rest & f' & G & _ & F). inversion G; subst. inversion F. }
  destruct args as [|w r]. { split; [discriminate|]. intros (fs & rest & f' & G & _ & F). inversion G; subst. inversion F. }
  cbn [parse_flags]. pose proof (word_cases w) as W. destruct (word_of w) as [| |n v] eqn:WO.
  - split; [discriminate|]. intros (fs & rest & f' & G & S1 & F). inversion G as [|w' n v r' fs' z FW I G' E1 E2 E3|w' n v r' fs' z FW I G' E1 E2 E3]; subst; [|apply word_flag in FW; congruence|apply word_flag in FW; congruence].
    apply fails_word in F as [[F _]|(n & v & F & _)]; congruence.
  - split.
    + intros E. injection E as <-. exists [], (w :: r), f. split; [apply gv_none|]. split; auto. now apply fl_syntax.
    + intros (fs & rest & f' & G & S1 & F). inversion G as [|w' n v r' fs' z FW I G' E1 E2 E3|w' n v r' fs' z FW I G' E1 E2 E3]; subst; [|apply word_flag in FW; congruence|apply word_flag in FW; congruence].
      apply fails_word in F as [[_ ->]|(n & v & F & _)]; [reflexivity|congruence].
  - assert (HN : forall n, (String.eqb n "help" || String.eqb n "h")%bool = true <-> In n ["help"; "h"]).
    { intros m. rewrite orb_true_iff, !String.eqb_eq. cbn. intuition. }
    assert (HF : forall m, In m ["help"; "h"] -> ~ In m flag_names) by (intros m [<-|[<-|[]]]; cbn; intuition discriminate).
    destruct (flag_known n) eqn:KN; cbn [negb].
    2: { apply unknown_iff in KN. split.
         - intros E. injection E as <-. exists [], (w :: r), f. split; [apply gv_none|]. split; auto. destruct (String.eqb n "help" || String.eqb n "h")%bool eqn:Q.
           + apply HN in Q. now apply (fl_help w n v).
           + apply (fl_unknown w n v); auto. rewrite <- HN. congruence.
         - intros (fs & rest & f' & G & S1 & F). inversion G as [|w' n' v' r' fs' z FW I G' E1 E2 E3|w' n' v' r' fs' z FW I G' E1 E2 E3]; subst; [|apply word_flag in FW; rewrite WO in FW; injection FW as -> ->; contradiction|apply word_flag in FW; rewrite WO in FW; injection FW as -> ->; contradiction].
           apply fails_word in F as [[F _]|(n' & v' & F & C)]; [congruence|]. rewrite WO in F. injection F as <- <-. destruct C as [[I ->]|[(N1 & N2 & ->)|[(I & _)|(-> & _)]]].
           + apply HN in I. now rewrite I.
           + rewrite <- HN in N2. now destruct (String.eqb n "help" || String.eqb n "h")%bool.
           + contradiction.
           + elim KN. cbn. auto 9. }
    apply known_iff in KN. destruct v as [v|].
    + split.
      * destruct (set_flag n v f) as [f1|e] eqn:SF.
        -- intros E. apply IH in E as (fs & rest & f' & G & S1 & F); [|cbn in L; lia]. exists ((n, v) :: fs), rest, f'. split; [now apply (gv_same w)|]. split; auto. cbn [set_all]. now rewrite SF.
        -- intros E. injection E as ->. apply set_fails in SF as (-> & N1 & ->); auto. exists [], (w :: r), f. split; [apply gv_none|]. split; auto. now apply fl_value.
      * intros (fs & rest & f' & G & S1 & F). inversion G as [|w' n' v' r' fs' z FW I G' E1 E2 E3|w' n' v' r' fs' z FW I G' E1 E2 E3]; subst.
        -- apply fails_word in F as [[F _]|(n' & v' & F & C)]; [congruence|]. rewrite WO in F. injection F as <- <-. destruct C as [[I ->]|[(N1 & N2 & ->)|[(I & Q & _)|(-> & y & N1 & -> & [Q|[Q _]])]]]; try discriminate; [now elim (HF n)|contradiction|].
           injection Q as <-. assert (SF : set_flag "override" v f = inr (StopValue v)) by (apply set_fails; auto). now rewrite SF.
        -- apply word_flag in FW. rewrite WO in FW. injection FW as <- <-. cbn [set_all] in S1. destruct (set_flag n v f) as [f1|e] eqn:SF; [|discriminate]. apply IH; [cbn in L; lia|]. eauto 6.
        -- apply word_flag in FW. congruence.
    + split.
      * destruct r as [|v r]; [intros E; injection E as <-; exists [], [w], f; split; [apply gv_none|]; split; auto; now apply fl_no_value|]. destruct (set_flag n v f) as [f1|e] eqn:SF.
        -- intros E. apply IH in E as (fs & rest & f' & G & S1 & F); [|cbn in L; lia]. exists ((n, v) :: fs), rest, f'. split; [now apply (gv_next w)|]. split; auto. cbn [set_all]. now rewrite SF.
        -- intros E. injection E as ->. apply set_fails in SF as (-> & N1 & ->); auto. exists [], (w :: v :: r), f. split; [apply gv_none|]. split; auto. now apply fl_next.
      * intros (fs & rest & f' & G & S1 & F). inversion G as [|w' n' v' r' fs' z FW I G' E1 E2 E3|w' n' v' r' fs' z FW I G' E1 E2 E3]; subst.
        -- apply fails_word in F as [[F _]|(n' & v' & F & C)]; [congruence|]. rewrite WO in F. injection F as <- <-. destruct C as [[I ->]|[(N1 & N2 & ->)|[(I & _ & -> & ->)|(-> & y & N1 & -> & [Q|[_ (q & ->)]])]]]; try discriminate; [now elim (HF n)|contradiction|reflexivity|].
           assert (SF : set_flag "override" y f = inr (StopValue y)) by (apply set_fails; auto). now rewrite SF.
        -- apply word_flag in FW. congruence.
        -- apply word_flag in FW. rewrite WO in FW. injection FW as <-. cbn [set_all] in S1. destruct (set_flag n v' f) as [f1|e] eqn:SF; [|discriminate]. apply IH; [cbn in L; lia|]. eauto 6.
Qed.
Lemma last_cons : forall (A : Type) (x : A) l d, last (x :: l) d = last l x.
Proof. intros A x l. revert x. induction l as [|y l IH]; intros x d; [reflexivity|]. change (last (x :: y :: l) d) with (last (y :: l) d). now rewrite !IH. Qed.
Lemma assoc_app : forall A d (l m : list (string * A)), assoc d (l ++ m) = match assoc d l with Some y => Some y | None => assoc d m end.
Proof. intros A d l m. induction l as [|[k v] l IH]; auto. cbn [app assoc]. destruct (String.eqb d k); auto. Qed.
Definition or_nil {A} (o : option (list A)) : list A := match o with Some l => l | None => [] end.
Lemma set_meaning : forall fs, Forall (fun x => In (fst x) flag_names) fs -> forall f f', set_all fs f = inl f' ->
  overrides_ok fs /\ f_src f' = last (values "src-path" fs) (f_src f) /\ f_config f' = last (values "config-path" fs) (f_config f) /\ f_map f' = last (values "directive-map-name" fs) (f_map f) /\
  f_match f' = last (values "match-func-name" fs) (f_match f) /\ f_comment f' = last (values "match-func-comment" fs) (f_comment f) /\
  f_filter f' = match values "filter" fs with [] => f_filter f | l => Some (or_nil (f_filter f) ++ l)%list end /\
  exists items, Forall2 (fun v i => spells v (fst i) (snd i)) (values "override" fs) items /\
    match values "override" fs with
    | [] => f_override f' = f_override f
    | _ => exists m, f_override f' = Some m /\ forall d, assoc d m = match assoc d (rev items) with Some x => Some x | None => assoc d (or_nil (f_override f)) end
    end.
Proof.
  induction fs as [|[n v] fs IH]; intros F f f' S1.
  - injection S1 as <-. repeat split; auto; [apply Forall_nil|]. exists []. split; [apply Forall2_nil|reflexivity].
  - inversion F as [|? ? I F']; subst. cbn [set_all] in S1. destruct (set_flag n v f) as [f1|e] eqn:SF; [|discriminate]. specialize (IH F' _ _ S1). destruct IH as (O & A1 & A2 & A3 & A4 & A5 & A6 & items & FI & A7). cbn [fst] in I. destruct f as [a b c d e flt ovr]. unfold overrides_ok, values in *.
    cbn in I. destruct I as [<-|[<-|[<-|[<-|[<-|[<-|[<-|[]]]]]]]]; cbn [set_flag String.eqb Ascii.eqb Bool.eqb] in SF; cbn [filter fst String.eqb Ascii.eqb Bool.eqb map snd].
    1, 2, 3, 4, 5: injection SF as <-; cbn [f_src f_config f_map f_match f_comment f_filter f_override] in *; rewrite last_cons; repeat (split; [assumption|]); exists items; split; assumption.
    + injection SF as <-. cbn [f_src f_config f_map f_match f_comment f_filter f_override] in *. repeat (split; [assumption|]). split; [|exists items; split; assumption].
      rewrite A6. destruct (map snd (filter (fun f => String.eqb (fst f) "filter") fs)) as [|x l]; [destruct flt; reflexivity|]. destruct flt as [flt|]; cbn [set_names or_nil]; [now rewrite <- app_assoc|reflexivity].
    + destruct (read_override v) as [[dir ms]|g] eqn:R; [|discriminate]. injection SF as <-. cbn [f_src f_config f_map f_match f_comment f_filter f_override] in *. apply read_override_iff in R.
      split; [apply Forall_cons; [exists dir, ms; exact R|exact O]|]. repeat (split; [assumption|]). exists ((dir, ms) :: items). split; [apply Forall2_cons; auto|].
      assert (X : forall m0 k, match assoc k (rev items) with Some x => Some x | None => assoc k (assoc_set dir ms m0) end = match assoc k (rev ((dir, ms) :: items)) with Some x => Some x | None => assoc k m0 end).
      { intros m0 k. cbn [rev]. rewrite assoc_app. destruct (assoc k (rev items)); auto. rewrite set_exact. cbn [assoc]. now destruct (String.eqb k dir). }
      destruct (map snd (filter (fun f => String.eqb (fst f) "override") fs)) as [|x l].
      * inversion FI; subst. rewrite A7. eexists. split; [reflexivity|]. intros k. rewrite <- X. cbn [rev assoc]. now destruct ovr.
      * destruct A7 as (m & -> & A7). exists m. split; auto. intros k. rewrite A7, <- X. cbn [or_nil]. now destruct ovr.
Qed.
Lemma set_complete : forall fs, Forall (fun x => In (fst x) flag_names) fs -> overrides_ok fs -> forall f, exists f', set_all fs f = inl f'.
Proof.
  induction fs as [|[n v] fs IH]; intros F O f; [eexists; reflexivity|]. inversion F as [|? ? I F']; subst. cbn [fst] in I. cbn [set_all]. destruct (set_flag n v f) as [f1|e] eqn:SF.
  - apply IH; auto. unfold overrides_ok, values in *. cbn [filter fst] in O. destruct (String.eqb n "override"); [|exact O]. cbn [map] in O. now inversion O.
  - apply set_fails in SF as (-> & N1 & _); auto. unfold overrides_ok, values in O. cbn [filter fst map snd String.eqb Ascii.eqb Bool.eqb] in O. inversion O; subst. contradiction.
Qed.
Lemma given_names : forall args fs rest, given args fs rest -> Forall (fun x => In (fst x) flag_names) fs.
Proof. intros args fs rest G. induction G; [apply Forall_nil| |]; apply Forall_cons; auto. Qed.
Lemma settings_iff : forall fs, Forall (fun x => In (fst x) flag_names) fs -> forall f, set_all fs no_settings = inl f -> overrides_ok fs /\ settings_of fs f.
Proof.
  intros fs F f S1. destruct (set_meaning fs F _ _ S1) as (O & A1 & A2 & A3 & A4 & A5 & A6 & items & FI & A7). split; auto. unfold settings_of, value_of, filters_given, overrides_given. repeat (split; [assumption|]). 
  destruct (values "override" fs) as [|x l]; [rewrite A7; reflexivity|]. destruct A7 as (m & -> & A7). split; [discriminate|]. exists items. split; auto. intros d. rewrite A7. now destruct (assoc d (rev items)).
Qed.
Lemma flags_exact : forall args f, parse_flags args no_settings = inl f -> exists fs, accepted args fs /\ settings_of fs f.
Proof.
  intros args f P. apply flags_ok in P as (fs & rest & G & O & S1). apply settings_iff in S1 as [OK ST]; [|eapply given_names; eauto]. exists fs. split; auto. exists rest. auto.
Qed.
Lemma flags_accept : forall args fs, accepted args fs -> exists f, parse_flags args no_settings = inl f /\ settings_of fs f.
Proof.
  intros args fs (rest & G & O & OK). pose proof (given_names _ _ _ G) as F. destruct (set_complete fs F OK no_settings) as (f & S1). exists f. split; [apply flags_ok; eauto|]. now apply settings_iff.
Qed.
Lemma flags_errors : forall args e, parse_flags args no_settings = inr e <-> exists fs rest, given args fs rest /\ overrides_ok fs /\ fails rest e.
Proof.
  intros args e. rewrite flags_fail. split.
  - intros (fs & rest & f & G & S1 & F). exists fs, rest. split; auto. split; auto. eapply settings_iff; eauto. eapply given_names; eauto.
  - intros (fs & rest & G & O & F). destruct (set_complete fs (given_names _ _ _ G) O no_settings) as (f & S1). eauto 6.
Qed.

(** ** The configuration *)
Lemma all_some_iff : forall A B (f : A -> option B) (R : A -> B -> Prop), (forall x y, f x = Some y <-> R x y) -> forall l ys, all_some f l = Some ys <-> Forall2 R l ys.
Proof.
  intros A B f R H. induction l as [|x l IH]; intros ys; cbn [all_some].
  - split; [intros E; injection E as <-; apply Forall2_nil|intros E; now inversion E].
  - split.
    + destruct (f x) as [y|] eqn:E; [|discriminate]. destruct (all_some f l) as [z|] eqn:E2; [|discriminate]. intros Q. injection Q as <-. apply Forall2_cons; [now apply H|now apply IH].
    + intros Q. inversion Q as [|? y ? z Q1 Q2]; subst. apply H in Q1. apply IH in Q2. now rewrite Q1, Q2.
Qed.
Lemma jstring_iff : forall j s, jstring j = Some s <-> text_from j s.
Proof. intros j s. split; [destruct j; intros E; try discriminate; injection E as <-; constructor|intros []; reflexivity]. Qed.
Lemma jstrings_iff : forall j l, jstrings j = Some l <-> texts_from j l.
Proof.
  intros j l. split.
  - destruct j; intros E; try discriminate; [injection E as <-; constructor|]. apply ts_arr. now apply (all_some_iff _ _ _ _ jstring_iff).
  - intros [|l' ts F]; [reflexivity|]. cbn [jstrings]. now apply (all_some_iff _ _ _ _ jstring_iff).
Qed.
Lemma jmasks_iff : forall j l, jmasks j = Some l <-> masks_from j l.
Proof.
  intros j l. split.
  - destruct j; intros E; try discriminate; [injection E as <-; constructor|]. apply mf_arr. now apply (all_some_iff _ _ _ _ jstrings_iff).
  - intros [|l' ts F]; [reflexivity|]. cbn [jmasks]. now apply (all_some_iff _ _ _ _ jstrings_iff).
Qed.
Lemma put_masks_ok : forall l m m', put_masks l m = Some m' -> exists items, table_from (JObj l) items /\ forall d, assoc d m' = match assoc d (rev items) with Some x => Some x | None => assoc d m end.
Proof.
  induction l as [|[k v] l IH]; intros m m' E; cbn [put_masks] in E.
  - injection E as <-. exists []. split; [apply tb_obj; apply Forall2_nil|reflexivity].
  - destruct (jmasks v) as [ms|] eqn:J; [|discriminate]. apply jmasks_iff in J. apply IH in E as (items & T & A). inversion T as [? ? T']; subst. exists ((k, ms) :: items). split; [apply tb_obj; apply Forall2_cons; auto|].
    intros d. rewrite A. cbn [rev]. rewrite assoc_app. destruct (assoc d (rev items)); auto. rewrite set_exact. cbn [assoc]. now destruct (String.eqb d k).
Qed.
Lemma put_masks_complete : forall l items m, table_from (JObj l) items -> exists m', put_masks l m = Some m' /\ forall d, assoc d m' = match assoc d (rev items) with Some x => Some x | None => assoc d m end.
Proof.
  induction l as [|[k v] l IH]; intros items m T; inversion T as [? ? T']; subst; cbn [put_masks].
  - inversion T'; subst. eexists. split; [reflexivity|]. reflexivity.
  - inversion T' as [|? [k' ms] ? its [E M] T2]; subst. cbn [fst snd] in *. subst k'. apply jmasks_iff in M. rewrite M. destruct (IH its (assoc_set k ms m) (tb_obj _ _ T2)) as (m' & P & A). exists m'. split; auto.
    intros d. rewrite A. cbn [rev]. rewrite assoc_app. destruct (assoc d (rev its)); auto. rewrite set_exact. cbn [assoc]. now destruct (String.eqb d k).
Qed.
Fixpoint ov_run (o : option masks_map) (vs : list json) : option (option masks_map) :=
  match vs with
  | [] => Some o
  | JNull :: r => ov_run None r
  | JObj l :: r => match put_masks l (or_nil o) with Some m => ov_run (Some m) r | None => None end
  | _ => None
  end.
Definition plain_value (v : json) : Prop := v = JNull \/ exists s, v = JStr s.
Definition strs (vs : list json) : list string := flat_map (fun v => match v with JStr s => [s] | _ => [] end) vs.
Definition table_value (v : json) : Prop := v = JNull \/ exists items, table_from v items.
Lemma picked_fun : forall tag l vs, picked tag l vs -> forall ws, picked tag l ws -> vs = ws.
Proof.
  intros tag l vs P. induction P as [|k v l vs L P IH|k v l vs L P IH]; intros ws Q.
  - now inversion Q.
  - inversion Q; subst; [f_equal; auto|contradiction].
  - inversion Q; subst; [contradiction|auto].
Qed.
Lemma picked_all : forall tag l vs (P : json -> Prop), picked tag l vs -> (Forall P vs <-> forall k v, In (k, v) l -> lowered k tag -> P v).
Proof.
  intros tag l vs P H. induction H as [|k v l vs L H IH|k v l vs L H IH].
  - split; [intros _ k v []|intros _; apply Forall_nil].
  - split.
    + intros F k' v' [E|I] Q; inversion F; subst; [injection E as <- <-; auto|]. apply (proj1 IH H3 k' v'); auto.
    + intros F. apply Forall_cons; [apply (F k); [now left|auto]|]. apply IH. intros k' v' I Q. apply (F k'); [now right|auto].
  - rewrite IH. split.
    + intros F k' v' [E|I] Q; [injection E as <- <-; contradiction|]. eauto.
    + intros F k' v' I Q. apply (F k'); [now right|auto].
Qed.
(** One step for every field. *)
Definition step_all (l : list (string * json)) (c c' : gconf) : Prop :=
  (exists vs nss, picked "filter" l vs /\ Forall2 texts_from vs nss /\ g_filter c' = match vs with [] => g_filter c | _ => Some (or_nil (g_filter c) ++ concat nss)%list end) /\
  (exists vs, picked "override" l vs /\ Forall table_value vs /\ ov_run (g_override c) vs = Some (g_override c')) /\
  (exists vs, picked "directivemapname" l vs /\ Forall plain_value vs /\ g_map c' = last (strs vs) (g_map c)) /\
  (exists vs, picked "matchfuncname" l vs /\ Forall plain_value vs /\ g_match c' = last (strs vs) (g_match c)) /\
  (exists vs, picked "matchfunccomment" l vs /\ Forall plain_value vs /\ g_comment c' = last (strs vs) (g_comment c)).
Lemma plain_text_step : forall tag k v l (t0 t1 t : string), lowered k tag -> plain_value v -> t1 = match v with JStr s => s | _ => t0 end ->
  (exists vs, picked tag l vs /\ Forall plain_value vs /\ t = last (strs vs) t1) -> exists vs, picked tag ((k, v) :: l) vs /\ Forall plain_value vs /\ t = last (strs vs) t0.
Proof.
  intros tag k v l t0 t1 t L PV -> (vs & P & F & ->). exists (v :: vs). split; [now apply pk_hit|]. split; [now apply Forall_cons|]. destruct PV as [->|(s & ->)]; [reflexivity|]. unfold strs. cbn [flat_map app]. now rewrite last_cons.
Qed.
Lemma miss_ex : forall tag k v l (P : list json -> Prop), ~ lowered k tag -> (exists vs, picked tag l vs /\ P vs) -> exists vs, picked tag ((k, v) :: l) vs /\ P vs.
Proof. intros tag k v l P N1 (vs & A & B). exists vs. split; auto. now apply pk_miss. Qed.
Lemma miss_ex2 : forall tag k v l (P : list json -> list (list string) -> Prop), ~ lowered k tag -> (exists vs nss, picked tag l vs /\ P vs nss) -> exists vs nss, picked tag ((k, v) :: l) vs /\ P vs nss.
Proof. intros tag k v l P N1 (vs & nss & A & B). exists vs, nss. split; auto. now apply pk_miss. Qed.
Lemma put_ok : forall l c c', put_members l c = Some c' -> step_all l c c'.
Proof.
  induction l as [|[k v] l IH]; intros c c' E; cbn [put_members] in E.
  - injection E as <-. unfold step_all. split; [exists [], []; repeat split; [apply pk_end|apply Forall2_nil]|]. split; [exists []; repeat split; [apply pk_end|apply Forall_nil]|].
    split; [|split]; exists []; repeat split; try apply pk_end; apply Forall_nil.
  - destruct (put_member k v c) as [c1|] eqn:PM; [|discriminate]. apply IH in E. unfold step_all in *. destruct E as (A1 & A2 & A3 & A4 & A5). unfold put_member in PM. cbv zeta in PM.
    assert (NL : forall t, to_lower k <> t -> ~ lowered k t) by (intros t N1 Q; apply N1; now apply to_lower_exact).
    destruct (String.eqb_spec (to_lower k) "filter") as [T|N1].
    { assert (NO : forall t, t <> "filter" -> ~ lowered k t) by (intros t D; apply NL; congruence). apply to_lower_exact in T. destruct (jstrings v) as [ns|] eqn:J; [|discriminate]. injection PM as <-. cbn [g_filter g_override g_map g_match g_comment] in *. apply jstrings_iff in J.
      split; [|repeat split; apply miss_ex; auto; apply NO; discriminate]. destruct A1 as (vs & nss & P & F & ->). exists (v :: vs), (ns :: nss). split; [now apply pk_hit|]. split; [now apply Forall2_cons|]. cbn [concat].
      destruct vs as [|v2 vs]; [inversion F; subst; cbn [concat]; rewrite app_nil_r; destruct (g_filter c); reflexivity|]. destruct (g_filter c); cbn [set_names or_nil]; [now rewrite <- app_assoc|reflexivity]. }
    destruct (String.eqb_spec (to_lower k) "override") as [T|N2].
    { assert (NO : forall t, t <> "override" -> ~ lowered k t) by (intros t D; apply NL; congruence). apply to_lower_exact in T. destruct A2 as (vs & P & F & R). destruct v as [| | | | |ol]; try discriminate.
      - injection PM as <-. cbn [g_filter g_override g_map g_match g_comment] in *. split; [apply miss_ex2; auto; apply NO; discriminate|]. split; [|repeat split; apply miss_ex; auto; apply NO; discriminate].
        exists (JNull :: vs). split; [now apply pk_hit|]. split; [apply Forall_cons; [now left|auto]|exact R].
      - destruct (put_masks ol _) as [m|] eqn:PMS; [|discriminate]. injection PM as <-. cbn [g_filter g_override g_map g_match g_comment] in *. split; [apply miss_ex2; auto; apply NO; discriminate|]. split; [|repeat split; apply miss_ex; auto; apply NO; discriminate].
        exists (JObj ol :: vs). split; [now apply pk_hit|]. destruct (put_masks_ok _ _ _ PMS) as (items & TI & _). split; [apply Forall_cons; [right; eauto|auto]|]. cbn [ov_run]. revert PMS. unfold or_nil. destruct (g_override c); intros ->; exact R. }
    destruct (String.eqb_spec (to_lower k) "directivemapname") as [T|N3].
    { assert (NO : forall t, t <> "directivemapname" -> ~ lowered k t) by (intros t D; apply NL; congruence). apply to_lower_exact in T. split; [|split; [|split; [|split]]].
      1: apply miss_ex2; [apply NO; discriminate|]. 2, 4, 5: apply miss_ex; [apply NO; discriminate|].
      1, 2, 3, 4: destruct v; try discriminate; injection PM as <-; cbn [g_filter g_override g_map g_match g_comment] in *; assumption.
      destruct v as [| | |s| |]; try discriminate; injection PM as <-; cbn [g_filter g_override g_map g_match g_comment] in *; (eapply plain_text_step; [exact T| | |exact A3]); cbn; auto; [now left|right; eauto]. }
    destruct (String.eqb_spec (to_lower k) "matchfuncname") as [T|N4].
    { assert (NO : forall t, t <> "matchfuncname" -> ~ lowered k t) by (intros t D; apply NL; congruence). apply to_lower_exact in T. split; [|split; [|split; [|split]]].
      1: apply miss_ex2; [apply NO; discriminate|]. 2, 3, 5: apply miss_ex; [apply NO; discriminate|].
      1, 2, 3, 4: destruct v; try discriminate; injection PM as <-; cbn [g_filter g_override g_map g_match g_comment] in *; assumption.
      destruct v as [| | |s| |]; try discriminate; injection PM as <-; cbn [g_filter g_override g_map g_match g_comment] in *; (eapply plain_text_step; [exact T| | |exact A4]); cbn; auto; [now left|right; eauto]. }
    destruct (String.eqb_spec (to_lower k) "matchfunccomment") as [T|N5].
    { assert (NO : forall t, t <> "matchfunccomment" -> ~ lowered k t) by (intros t D; apply NL; congruence). apply to_lower_exact in T. split; [|split; [|split; [|split]]].
      1: apply miss_ex2; [apply NO; discriminate|]. 2, 3, 4: apply miss_ex; [apply NO; discriminate|].
      1, 2, 3, 4: destruct v; try discriminate; injection PM as <-; cbn [g_filter g_override g_map g_match g_comment] in *; assumption.
      destruct v as [| | |s| |]; try discriminate; injection PM as <-; cbn [g_filter g_override g_map g_match g_comment] in *; (eapply plain_text_step; [exact T| | |exact A5]); cbn; auto; [now left|right; eauto]. }
    injection PM as <-. split; [apply miss_ex2; auto|]. repeat split; apply miss_ex; auto.
Qed.

(** ** The value of override *)
Lemma last_each_app : forall (a b m m' : list (string * list mask)), last_each a m -> (forall d, assoc d m' = match assoc d (rev b) with Some x => Some x | None => assoc d m end) -> last_each (a ++ b) m'.
Proof. intros a b m m' A B d. rewrite B, A, rev_app_distr, assoc_app. reflexivity. Qed.
Lemma ov_tables : forall b o m, Forall table_value b -> ~ In JNull b -> ov_run o b = Some m -> b <> [] -> exists tables m', m = Some m' /\ Forall2 table_from b tables /\ forall d, assoc d m' = match assoc d (rev (concat tables)) with Some x => Some x | None => assoc d (or_nil o) end.
Proof.
  induction b as [|v b IH]; intros o m F NN R NB; [congruence|]. inversion F as [|? ? V F']; subst. destruct V as [->|(items & T)]; [elim NN; now left|]. inversion T as [l its T' E1 E2]; subst. cbn [ov_run] in R. destruct (put_masks l (or_nil o)) as [m1|] eqn:PM; [|discriminate].
  destruct (put_masks_complete l items (or_nil o) T) as (m2 & P2 & A). rewrite PM in P2. injection P2 as <-.
  destruct b as [|v2 b]; [injection R as <-; exists [items], m1; split; auto; split; [apply Forall2_cons; auto|]; intros d; cbn [concat]; rewrite app_nil_r; apply A|].
  destruct (IH (Some m1) m F') as (tables & m' & -> & F2 & A2); auto; [intros I; apply NN; now right|discriminate|]. exists (items :: tables), m'. split; auto. split; [now apply Forall2_cons|].
  intros d. rewrite A2. cbn [concat or_nil]. rewrite rev_app_distr, assoc_app. destruct (assoc d (rev (concat tables))); auto.
Qed.
Lemma ov_complete : forall vs o, Forall table_value vs -> exists m, ov_run o vs = Some m.
Proof.
  induction vs as [|v vs IH]; intros o F; [eexists; reflexivity|]. inversion F as [|? ? V F']; subst. destruct V as [->|(items & T)]; [apply (IH None F')|]. inversion T as [l its T' E1 E2]; subst. cbn [ov_run]. destruct (put_masks_complete l items (or_nil o) T) as (m2 & -> & _). apply IH; auto.
Qed.
Lemma last_null : forall vs : list json, ~ In JNull vs \/ exists a b, vs = (a ++ JNull :: b)%list /\ ~ In JNull b.
Proof.
  induction vs as [|v vs [IH|(a & b & -> & NB)]]; [left; intros []| |].
  - assert (D : v = JNull \/ v <> JNull) by (destruct v; auto; right; discriminate). destruct D as [->|D]; [right; exists [], vs; auto|left; intros [E|I]; auto].
  - right. exists (v :: a), b. auto.
Qed.
Lemma ov_app : forall a b o, ov_run o (a ++ b) = match ov_run o a with Some o' => ov_run o' b | None => None end.
Proof. induction a as [|v a IH]; intros b o; [reflexivity|]. destruct v; cbn [app ov_run]; auto. destruct (put_masks l (or_nil o)); auto. Qed.
Definition override_means (vs : list json) (o : option masks_map) : Prop :=
  match o with
  | None => vs = [] \/ exists a, vs = (a ++ [JNull])%list
  | Some m => exists a b tables, vs = (a ++ b)%list /\ (a = [] \/ exists a', a = (a' ++ [JNull])%list) /\ b <> [] /\ Forall2 table_from b tables /\ last_each (concat tables) m
  end.
Lemma ov_means : forall vs m, Forall table_value vs -> ov_run None vs = Some m -> override_means vs m.
Proof.
  assert (B : forall b m, Forall table_value b -> ~ In JNull b -> ov_run None b = Some m -> b <> [] -> exists tables m', m = Some m' /\ Forall2 table_from b tables /\ last_each (concat tables) m').
  { intros b m F N1 R NB. destruct (ov_tables b None m F N1 R NB) as (ts & m' & -> & F2 & A). exists ts, m'. split; auto. split; auto. intros d. rewrite A. now destruct (assoc d (rev (concat ts))). }
  intros vs m F R. destruct (last_null vs) as [N1|(a & b & -> & NB)].
  - destruct vs as [|v vs]; [injection R as <-; now left|]. destruct (B _ _ F N1 R) as (ts & m' & -> & F2 & A); [discriminate|]. exists [], (v :: vs), ts. split; auto. split; [now left|]. split; [discriminate|auto].
  - rewrite ov_app in R. destruct (ov_run None a) as [o'|]; [|discriminate]. cbn [ov_run] in R. apply Forall_app in F as [_ F]. inversion F as [|? ? _ F']; subst.
    destruct b as [|v b]; [injection R as <-; right; eauto|]. destruct (B _ _ F' NB R) as (ts & m' & -> & F2 & A); [discriminate|]. exists (a ++ [JNull])%list, (v :: b), ts. rewrite <- app_assoc. split; auto. split; [right; eauto|]. split; [discriminate|auto].
Qed.
Lemma table_fun : forall v a, table_from v a -> forall b, table_from v b -> a = b.
Proof.
  intros v a [l items F] b T. assert (G : Forall2 (fun kv i => fst i = fst kv /\ masks_from (snd kv) (snd i)) l b) by (inversion T; assumption). clear T. revert b G. induction F as [|x i l items [E M] F IH]; intros b G; inversion G as [|? j ? its' [E2 M2] G']; subst; auto. f_equal; auto.
  destruct i as [k ms], j as [k2 ms2]. cbn [fst snd] in *. subst. f_equal. apply jmasks_iff in M, M2. congruence.
Qed.
Lemma no_null : forall b ts, Forall2 table_from b ts -> ~ In JNull b.
Proof. intros b ts F. induction F as [|v t b ts T F IH]; [intros []|]. intros [E|I]; [subst; inversion T|auto]. Qed.
Lemma tables_fun : forall b ts, Forall2 table_from b ts -> forall ts', Forall2 table_from b ts' -> ts = ts'.
Proof. intros b ts F. induction F as [|v t b ts T F IH]; intros ts' G; inversion G as [|? t' ? r T' G']; subst; auto. f_equal; auto. eapply table_fun; eauto. Qed.
Lemma exists_last_or : forall l : list json, l = [] \/ exists l' y, l = (l' ++ [y])%list.
Proof. intros l. destruct l as [|x l]; auto. right. destruct (@exists_last _ (x :: l)) as (l' & y & E); [discriminate|eauto]. Qed.
Lemma split_null : forall (a b a2 b2 : list json), (a ++ b = a2 ++ b2)%list -> (a = [] \/ exists x, a = (x ++ [JNull])%list) -> (a2 = [] \/ exists x, a2 = (x ++ [JNull])%list) -> ~ In JNull b -> ~ In JNull b2 -> a = a2 /\ b = b2.
Proof.
  assert (H : forall a b a2 b2 : list json, (a = [] \/ exists x, a = (x ++ [JNull])%list) -> ~ In JNull b2 -> forall l, a = (a2 ++ l)%list -> b2 = (l ++ b)%list -> l = []).
  { intros a b a2 b2 A B2 l E1 E2. destruct (exists_last_or l) as [->|(l' & y & ->)]; auto. destruct A as [->|(x & ->)]; [now destruct a2, l'|]. rewrite app_assoc in E1. apply app_inj_tail in E1 as [_ <-]. elim B2. subst. rewrite <- app_assoc. apply in_or_app. right. now left. }
  intros a b a2 b2 E A1 A2 B1 B2. apply app_eq_app in E as (l & [[E1 E2]|[E1 E2]]).
  - assert (Q : l = []) by exact (H _ _ _ _ A1 B2 l E1 E2). subst l. now rewrite app_nil_r in E1.
  - assert (Q : l = []) by exact (H _ _ _ _ A2 B1 l E1 E2). subst l. rewrite app_nil_r in E1. auto.
Qed.
Lemma means_fun : forall vs o o', override_means vs o -> override_means vs o' -> same_map o o'.
Proof.
  assert (X : forall vs a b ts (m : masks_map), (vs = [] \/ exists a, vs = (a ++ [JNull])%list) -> vs = (a ++ b)%list -> b <> [] -> Forall2 table_from b ts -> False).
  { intros vs a b ts m V E NB F. pose proof (no_null _ _ F) as NN. destruct (exists_last_or b) as [->|(b' & y & ->)]; [congruence|]. destruct V as [->|(x & ->)]; [now destruct a, b'|].
    rewrite app_assoc in E. apply app_inj_tail in E as [_ <-]. apply NN. apply in_or_app. right. now left. }
  intros vs o o' A B. destruct o as [m|], o' as [m'|]; cbn in *; auto.
  - destruct A as (a & b & ts & E & EA & NB & F & L), B as (a2 & b2 & ts2 & E2 & EA2 & NB2 & F2 & L2). rewrite E in E2. apply split_null in E2 as [-> ->]; auto; [|eapply no_null; eauto|eapply no_null; eauto]. rewrite (tables_fun _ _ F _ F2) in L. intros d. now rewrite L, L2.
  - destruct A as (a & b & ts & E & _ & NB & F & _). exact (X _ _ _ _ m B E NB F).
  - destruct B as (a & b & ts & E & _ & NB & F & _). exact (X _ _ _ _ m' A E NB F).
Qed.
Definition well_typed (k : string) (v : json) : Prop :=
  (lowered k "filter" -> exists ns, texts_from v ns) /\ (lowered k "override" -> table_value v) /\
  forall tag, In tag ["directivemapname"; "matchfuncname"; "matchfunccomment"] -> lowered k tag -> plain_value v.
Lemma put_complete : forall l c, (forall k v, In (k, v) l -> well_typed k v) -> exists c', put_members l c = Some c'.
Proof.
  induction l as [|[k v] l IH]; intros c W; [eexists; reflexivity|]. cbn [put_members]. assert (P : exists c1, put_member k v c = Some c1).
  { destruct (W k v (or_introl eq_refl)) as (W1 & W2 & W3). unfold put_member. cbv zeta.
    destruct (String.eqb_spec (to_lower k) "filter") as [T|_]. { apply to_lower_exact in T. destruct (W1 T) as (ns & J). apply jstrings_iff in J. rewrite J. eexists; reflexivity. }
    destruct (String.eqb_spec (to_lower k) "override") as [T|_].
    { apply to_lower_exact in T. destruct (W2 T) as [->|(items & J)]; [eexists; reflexivity|]. inversion J as [ol its F E1 E2]; subst. destruct (put_masks_complete ol items (match g_override c with Some m => m | None => [] end) J) as (m & -> & _). eexists; reflexivity. }
    destruct (String.eqb_spec (to_lower k) "directivemapname") as [T|_]. { apply to_lower_exact in T. destruct (W3 "directivemapname") as [->|(s & ->)]; cbn; auto; eexists; reflexivity. }
    destruct (String.eqb_spec (to_lower k) "matchfuncname") as [T|_]. { apply to_lower_exact in T. destruct (W3 "matchfuncname") as [->|(s & ->)]; cbn; auto; eexists; reflexivity. }
    destruct (String.eqb_spec (to_lower k) "matchfunccomment") as [T|_]. { apply to_lower_exact in T. destruct (W3 "matchfunccomment") as [->|(s & ->)]; cbn; auto; eexists; reflexivity. }
    eexists; reflexivity. }
  destruct P as (c1 & ->). apply IH. intros k' v' I. apply W. now right.
Qed.
Lemma put_described : forall l c, put_members l no_conf = Some c -> described (JObj l) c.
Proof.
  intros l c P. apply put_ok in P as (A1 & (vs & P2 & F2 & R2) & A3 & A4 & A5). right. exists l. split; auto. split; [|split; [|split; [|split]]]; auto.
  exists vs. split; auto. split; [exact F2|]. exact (ov_means _ _ F2 R2).
Qed.
Lemma forall2_ex : forall A B (R : A -> B -> Prop) l m, Forall2 R l m -> Forall (fun x => exists y, R x y) l.
Proof. intros A B R l m F. induction F; [apply Forall_nil|apply Forall_cons; eauto]. Qed.
Lemma described_put : forall l c, described (JObj l) c -> exists c', put_members l no_conf = Some c'.
Proof.
  intros l c [[E _]|(l' & E & (vs1 & ns & P1 & F1 & _) & (vs2 & P2 & F2 & _) & (vs3 & P3 & F3 & _) & (vs4 & P4 & F4 & _) & (vs5 & P5 & F5 & _))]; [discriminate|]. injection E as <-.
  apply put_complete. intros k v I. split; [|split].
  - intros L. apply forall2_ex in F1. exact (proj1 (picked_all _ _ _ _ P1) F1 k v I L).
  - intros L. exact (proj1 (picked_all _ _ _ _ P2) F2 k v I L).
  - intros tag [<-|[<-|[<-|[]]]] L; [exact (proj1 (picked_all _ _ _ _ P3) F3 k v I L)|exact (proj1 (picked_all _ _ _ _ P4) F4 k v I L)|exact (proj1 (picked_all _ _ _ _ P5) F5 k v I L)].
Qed.
Lemma forall2_fun : forall A B (R : A -> B -> Prop), (forall x y z, R x y -> R x z -> y = z) -> forall l m, Forall2 R l m -> forall m', Forall2 R l m' -> m = m'.
Proof. intros A B R H l m F. induction F as [|x y l m Q F IH]; intros m' G; inversion G; subst; auto. f_equal; eauto. Qed.
Lemma texts_fun : forall x y z, texts_from x y -> texts_from x z -> y = z.
Proof. intros x y z A B. apply jstrings_iff in A, B. congruence. Qed.
Lemma text_field_fun : forall tag l t t', text_field tag l t -> text_field tag l t' -> t = t'.
Proof. intros tag l t t' (vs & P & _ & ->) (vs' & P' & _ & ->). now rewrite (picked_fun _ _ _ P _ P'). Qed.
Lemma described_fun : forall j c c', described j c -> described j c' -> same_conf c c'.
Proof.
  intros j c c' [[-> ->]|(l & -> & (vs1 & ns & P1 & F1 & E1) & (vs2 & P2 & F2 & E2) & A3 & A4 & A5)] [[E ->]|(l' & E & (vs1' & ns' & P1' & F1' & E1') & (vs2' & P2' & F2' & E2') & A3' & A4' & A5')]; try discriminate.
  - repeat split.
  - injection E as <-. split; [|split; [|split; [|split]]]; try (eapply text_field_fun; eassumption).
    + rewrite E1, E1'. rewrite <- (picked_fun _ _ _ P1 _ P1') in *. now rewrite (forall2_fun _ _ _ texts_fun _ _ F1 _ F1').
    + rewrite <- (picked_fun _ _ _ P2 _ P2') in *. exact (means_fun _ _ _ E2 E2').
Qed.
Lemma conf_sound : forall t c, conf_of_text t = Some c -> configures t c.
Proof.
  intros t c E. unfold conf_of_text in E. destruct (pval (S (slen t)) max_nesting t) as [[j r]|] eqn:P; [|discriminate]. apply (proj1 (read_sound _)) in P as (w & u & TE & W & V).
  assert (JF : json_first t j r) by (exists w, u; auto). destruct j as [| | | | |l]; try discriminate.
  - injection E as <-. exists JNull, r. split; auto. now left.
  - exists (JObj l), r. split; auto. now apply put_described.
Qed.
Lemma conf_complete : forall t c, configures t c -> exists c', conf_of_text t = Some c' /\ same_conf c c'.
Proof.
  intros t c (j & r & (w & u & -> & W & V) & D). assert (P : pval (S (slen (w ++ u ++ r))) max_nesting (w ++ u ++ r) = Some (j, r)).
  { apply (proj1 read_complete _ _ _ V); auto; [rewrite !app_slen; lia|]. intros raw ->. destruct D as [[D _]|(l & D & _)]; discriminate. }
  unfold conf_of_text. rewrite P. clear P V. destruct D as [[-> ->]|D].
  - exists no_conf. split; [reflexivity|repeat split].
  - assert (E : exists l, j = JObj l) by (destruct D as (l & -> & _); eauto). destruct E as (l & ->). assert (D' : described (JObj l) c) by (right; exact D). destruct (described_put _ _ D') as (c' & P). exists c'. split; auto. eapply described_fun; [exact D'|]. now apply put_described.
Qed.

(** ** The program *)
Lemma fold_ext : forall A B (f g : A -> B -> A) l a, (forall a x, f a x = g a x) -> fold_left f l a = fold_left g l a.
Proof. intros A B f g l. induction l as [|x l IH]; intros a H; [reflexivity|]. cbn [fold_left]. rewrite H. now apply IH. Qed.
Lemma ovr_ext : forall ord es flt a b, (forall d, assoc d a = assoc d b) -> generate_map ord es flt a = generate_map ord es flt b.
Proof. intros ord es flt a b H. unfold generate_map. destruct (get_masks ord es); auto. f_equal. unfold apply_override. apply fold_ext. intros m0 d. now rewrite H. Qed.
Definition conf_at (read : string -> option string) (p : string) : option gconf := if String.eqb p "" then Some no_conf else match read p with Some t => conf_of_text t | None => None end.
Lemma conf_at_sound : forall read fs c, conf_at read (value_of "config-path" fs) = Some c -> config_of read fs c.
Proof.
  intros read fs c E. unfold conf_at in E. destruct (String.eqb_spec (value_of "config-path" fs) "") as [Q|Q]; [injection E as <-; left; auto|]. right. split; auto. destruct (read (value_of "config-path" fs)) as [t|]; [|discriminate]. exists t. split; auto. now apply conf_sound.
Qed.
Lemma conf_at_complete : forall read fs c, config_of read fs c -> exists c', conf_at read (value_of "config-path" fs) = Some c' /\ same_conf c c'.
Proof.
  intros read fs c [[Q ->]|(Q & t & R & C)]; unfold conf_at.
  - rewrite Q. exists no_conf. split; [reflexivity|repeat split].
  - destruct (String.eqb_spec (value_of "config-path" fs) ""); [contradiction|]. rewrite R. now apply conf_complete.
Qed.
Definition masks_of (f : settings) (c : gconf) : masks_map := match or_else (f_override f) (g_override c) with Some m => m | None => [] end.
Definition names_of (f : settings) (c : gconf) : list string := match or_else (f_filter f) (g_filter c) with Some l => l | None => [] end.
Lemma text_named : forall n fs d, or_text (value_of n fs) d = named n fs d.
Proof. intros n fs d. unfold or_text, named. now destruct (value_of n fs). Qed.
Lemma names_used : forall fs f c, settings_of fs f -> filter_used fs c (names_of f c).
Proof. intros fs f c (_ & _ & _ & _ & _ & F & _). unfold filter_used, names_of. rewrite F. destruct (filters_given fs); [reflexivity|]. now destruct (g_filter c). Qed.
Lemma names_fun : forall fs c l l', filter_used fs c l -> filter_used fs c l' -> l = l'.
Proof. intros fs c l l'. unfold filter_used. destruct (filters_given fs), (g_filter c); congruence. Qed.
Lemma masks_used : forall fs f c, settings_of fs f -> override_used fs c (masks_of f c).
Proof.
  intros fs f c (_ & _ & _ & _ & _ & _ & O). unfold override_used, masks_of. destruct (f_override f) as [m|]; cbn [overrides_given or_else] in *.
  - destruct O as [NE O]. destruct (values "override" fs) as [|v l]; [congruence|split; auto].
  - rewrite O. now destruct (g_override c).
Qed.
Lemma items_fun : forall vs items, Forall2 (fun v i => spells v (fst i) (snd i)) vs items -> forall items', Forall2 (fun v i => spells v (fst i) (snd i)) vs items' -> items = items'.
Proof. apply forall2_fun. intros v [d ms] [d' ms'] A B. cbn [fst snd] in *. apply read_override_iff in A, B. congruence. Qed.
Lemma masks_same : forall fs f c c' ovr, settings_of fs f -> same_conf c c' -> override_used fs c ovr -> forall d, assoc d ovr = assoc d (masks_of f c').
Proof.
  intros fs f c c' ovr (_ & _ & _ & _ & _ & _ & O) (_ & SM & _) U d. unfold override_used, masks_of in *. destruct (f_override f) as [m|]; cbn [overrides_given or_else] in *.
  - destruct O as (NE & items & F & L). assert (G : overrides_given fs (Some ovr)) by (unfold overrides_given; destruct (values "override" fs); [congruence|exact U]). destruct G as (_ & items' & F' & L'). rewrite <- (items_fun _ _ F _ F') in L'. now rewrite L, L'.
  - rewrite O in U. destruct (g_override c) as [m|], (g_override c') as [m'|]; cbn in SM; try contradiction; subst; auto.
Qed.
Lemma program_eq : forall read below ord args, program read below ord args =
  match parse_flags args no_settings with
  | inr e => inr e
  | inl f =>
    match conf_at read (f_config f) with
    | None => inr StopConfig
    | Some c =>
      if String.eqb (f_src f) "" then inr StopNoSource
      else if String.eqb (or_text (f_map f) (g_map c)) "" then inr StopNoMap
      else if String.eqb (or_text (f_match f) (g_match c)) "" then inr StopNoFunc
      else match generate_map ord (below (f_src f)) (names_of f c) (masks_of f c) with
           | inr e => inr (StopGen e)
           | inl m => inl (render (or_text (f_map f) (g_map c)) (or_text (f_match f) (g_match c)) (or_text (f_comment f) (g_comment c)) m)
           end
    end
  end.
Proof. reflexivity. Qed.
Lemma program_sound : forall read below ord args, outcome read below ord args (program read below ord args).
Proof.
  intros read below ord args. rewrite program_eq. destruct (parse_flags args no_settings) as [f|e] eqn:P.
  2: { apply flags_errors in P as (fs & rest & G & O & F). eapply oc_flags; eauto. }
  apply flags_exact in P as (fs & A & ST). pose proof ST as (E1 & E2 & E3 & E4 & E5 & _). rewrite E1, E2, E3, E4, E5. destruct (conf_at read (value_of "config-path" fs)) as [c|] eqn:C.
  2: { apply (oc_config _ _ _ _ fs); auto. intros (c & Q). apply conf_at_complete in Q as (c' & Q & _). congruence. }
  apply conf_at_sound in C. rewrite !text_named. destruct (String.eqb_spec (value_of "src-path" fs) "") as [Q1|Q1]; [eapply oc_source; eauto|]. destruct (String.eqb_spec (named "directive-map-name" fs (g_map c)) "") as [Q2|Q2]; [eapply oc_map; eauto|].
  destruct (String.eqb_spec (named "match-func-name" fs (g_match c)) "") as [Q3|Q3]; [eapply oc_func; eauto|]. pose proof (names_used fs f c ST) as NU. pose proof (masks_used fs f c ST) as MU.
  destruct (generate_map ord (below (value_of "src-path" fs)) (names_of f c) (masks_of f c)) as [m|e] eqn:G; [eapply oc_text; eauto|eapply oc_gen; eauto].
Qed.
Lemma program_complete : forall read below ord args o, outcome read below ord args o -> program read below ord args = o.
Proof.
  intros read below ord args o H. rewrite program_eq.
  assert (X : forall fs c, accepted args fs -> config_of read fs c -> exists f c', parse_flags args no_settings = inl f /\ settings_of fs f /\ conf_at read (f_config f) = Some c' /\ same_conf c c').
  { intros fs c A C. apply flags_accept in A as (f & P & ST). apply conf_at_complete in C as (c' & C & SC). exists f, c'. pose proof ST as (_ & -> & _). auto. }
  destruct H as [fs rest e G O F|fs A NC|fs c A C S1|fs c A C S1 S2|fs c A C S1 S2 S3|fs c flt ovr e A C S1 S2 S3 FU OU GM|fs c flt ovr m A C S1 S2 S3 FU OU GM].
  - assert (P : parse_flags args no_settings = inr e) by (apply flags_errors; eauto). now rewrite P.
  - apply flags_accept in A as (f & P & ST). rewrite P. pose proof ST as (_ & -> & _). destruct (conf_at read (value_of "config-path" fs)) as [c|] eqn:C; [|reflexivity]. elim NC. exists c. now apply conf_at_sound.
  - destruct (X _ _ A C) as (f & c' & P & ST & CA & SC). rewrite P, CA. pose proof ST as (-> & _). rewrite S1. reflexivity.
  - destruct (X _ _ A C) as (f & c' & P & ST & CA & SC). rewrite P, CA. pose proof ST as (-> & _ & -> & _). destruct SC as (_ & _ & <- & _). rewrite (proj2 (String.eqb_neq _ _) S1), !text_named, S2. reflexivity.
  - destruct (X _ _ A C) as (f & c' & P & ST & CA & SC). rewrite P, CA. pose proof ST as (-> & _ & -> & -> & _). destruct SC as (_ & _ & <- & <- & _). rewrite (proj2 (String.eqb_neq _ _) S1), !text_named, (proj2 (String.eqb_neq _ _) S2), S3. reflexivity.
  - destruct (X _ _ A C) as (f & c' & P & ST & CA & SC). rewrite P, CA. pose proof ST as (-> & _ & -> & -> & -> & _). rewrite (ovr_ext _ _ _ _ _ (masks_same _ _ _ _ _ ST SC OU)) in GM.
    assert (NF : names_of f c' = flt) by (pose proof SC as (Q & _); eapply names_fun; [apply names_used; exact ST|]; unfold filter_used in *; now rewrite <- Q). destruct SC as (_ & _ & <- & <- & <-). rewrite (proj2 (String.eqb_neq _ _) S1), !text_named, (proj2 (String.eqb_neq _ _) S2), (proj2 (String.eqb_neq _ _) S3), NF, GM. reflexivity.
  - destruct (X _ _ A C) as (f & c' & P & ST & CA & SC). rewrite P, CA. pose proof ST as (-> & _ & -> & -> & -> & _). rewrite (ovr_ext _ _ _ _ _ (masks_same _ _ _ _ _ ST SC OU)) in GM.
    assert (NF : names_of f c' = flt) by (pose proof SC as (Q & _); eapply names_fun; [apply names_used; exact ST|]; unfold filter_used in *; now rewrite <- Q). destruct SC as (_ & _ & <- & <- & <-). rewrite (proj2 (String.eqb_neq _ _) S1), !text_named, (proj2 (String.eqb_neq _ _) S2), (proj2 (String.eqb_neq _ _) S3), NF, GM. reflexivity.
Qed.
Lemma program_iff : forall read below ord args o, program read below ord args = o <-> outcome read below ord args o.
Proof. intros. split; [intros <-; apply program_sound|apply program_complete]. Qed.
