(** C18: ignored statements are skipped as if they were absent. *)
From Verif Require Export ForestFacts Main CtxProofs SpecOpts SpecRun.
Local Open Scope string_scope.


Section Ignore.
Variables (o : popts) (dir : string).
Let o0 := with_ignore o [].
Let ig := o_ignore o.

Lemma decide_is_map : forall ctx d term st, is_map (read_slice (p_heap st) ctx) = true ->
  match decide o dir ctx d term st with
  | DMap _ => term = ";"
  | DSkip eat _ => eat = String.eqb term "{"
  | DErr _ _ => True
  | _ => False
  end.
Proof.
  intros ctx d term st M. unfold decide. unfold is_map in M.
  destruct (read_slice (p_heap st) ctx) as [|c r]; [discriminate|].
  destruct (assoc (last (c :: r) EmptyString) map_bodies) as [mm|] eqn:A; [|discriminate].
  destruct (analyze_map_body _ _ _ _) as [e|] eqn:AM.
  - destruct (o_stop o); auto.
  - unfold analyze_map_body in AM. rewrite A in AM. destruct (String.eqb_spec term ";"); auto. discriminate.
Qed.
Lemma decide_ignored : forall ctx d term st, is_map (read_slice (p_heap st) ctx) = false ->
  mem_str (d_name d) ig = true -> decide o dir ctx d term st = DSkip (String.eqb term "{") st.
Proof.
  intros ctx d term st M I. unfold ig in I. unfold decide. unfold is_map in M.
  destruct (read_slice (p_heap st) ctx) as [|c r]; [now rewrite I|].
  destruct (assoc (last (c :: r) EmptyString) map_bodies) as [mm|]; [discriminate|]. now rewrite I.
Qed.
Lemma decide_other : forall ctx d term st,
  is_map (read_slice (p_heap st) ctx) = true \/ mem_str (d_name d) ig = false ->
  decide o0 dir ctx d term st = decide o dir ctx d term st.
Proof.
  intros ctx d term st H. unfold decide. unfold is_map in H.
  assert (NI : mem_str (d_name d) ig = false ->
    (if mem_str (d_name d) (o_ignore o0) then DSkip (String.eqb term "{") st else
      match analyze o0 (cf_file (p_cur st)) d term (read_slice (p_heap st) ctx) with
      | Some e =>
        if o_stop o0 then DErr (EParse e) st
        else
          let st := handle_error o0 st (EParse e) in
          if has_suffix (pe_what e) not_terminated then
            if negb (String.eqb term "}") then DSkip true st else DBreak st
          else DSkip false st
      | None =>
        match (if String.eqb (d_name d) "if" then prepare_if (d_args d) else Some (d_args d)) with
        | None => DPanic
        | Some args =>
          let d := set_args d args in
          if (negb (o_single o0) && String.eqb (d_name d) "include")%bool
          then do_include o0 dir ctx d st else DKeep d st
        end
      end) =
    (if mem_str (d_name d) (o_ignore o) then DSkip (String.eqb term "{") st else
      match analyze o (cf_file (p_cur st)) d term (read_slice (p_heap st) ctx) with
      | Some e =>
        if o_stop o then DErr (EParse e) st
        else
          let st := handle_error o st (EParse e) in
          if has_suffix (pe_what e) not_terminated then
            if negb (String.eqb term "}") then DSkip true st else DBreak st
          else DSkip false st
      | None =>
        match (if String.eqb (d_name d) "if" then prepare_if (d_args d) else Some (d_args d)) with
        | None => DPanic
        | Some args =>
          let d := set_args d args in
          if (negb (o_single o) && String.eqb (d_name d) "include")%bool
          then do_include o dir ctx d st else DKeep d st
        end
      end)).
  { intros I. fold ig. rewrite I. reflexivity. }
  destruct (read_slice (p_heap st) ctx) as [|c r].
  - destruct H as [H|H]; [discriminate|]. apply NI. exact H.
  - destruct (assoc (last (c :: r) EmptyString) map_bodies) as [mm|].
    + reflexivity.
    + destruct H as [H|H]; [discriminate|]. apply NI. exact H.
Qed.

Definition pruneI (l : list pitem) : list pitem :=
  flat_map (fun i => match i with It s => map It (prune ig s) | Cl c => [Cl c] end) l.
Lemma pruneI_app : forall a b, pruneI (a ++ b) = (pruneI a ++ pruneI b)%list.
Proof. intros. apply flat_map_app. Qed.
Lemma pruneI_it : forall F, pruneI (map It F) = map It (flat_map (prune ig) F).
Proof.
  induction F as [|s F IH]; [reflexivity|]. unfold pruneI in *. cbn [map flat_map]. now rewrite IH, map_app.
Qed.
Lemma prune_wf : forall s, wf_stmt s -> Forall wf_stmt (prune ig s).
Proof.
  intros s. induction s as [t|h args l|h args l b c IH] using stmt_ind2; intros W; cbn [prune].
  - auto.
  - destruct (existsb _ _); auto.
  - destruct (existsb _ _); auto. constructor; auto.
    apply wf_stm_inv in W as (TE & P & NH & FA & FB). apply wf_block; auto.
    clear - IH FB. induction b as [|s b IHb]; cbn; auto. inversion IH; inversion FB; subst.
    apply Forall_app. auto.
Qed.
Lemma pruneI_wf : forall l, wfI l -> wfI (pruneI l).
Proof.
  induction 1 as [|[s|c] l W H IH]; [constructor| |].
  - unfold pruneI. cbn [flat_map]. apply wfI_app. split; auto. apply wfI_it. now apply prune_wf.
  - constructor; auto.
Qed.
Lemma after_close_prune : forall l, after_close (pruneI l) = pruneI (after_close l).
Proof.
  induction l as [|[s|c] l IH]; [reflexivity| |reflexivity].
  unfold pruneI in *. cbn [flat_map after_close]. rewrite <- IH.
  generalize (flat_map (fun i => match i with It s => map It (prune ig s) | Cl c => [Cl c] end) l) as r.
  intros r. induction (prune ig s) as [|x p IHp]; [reflexivity|]. exact IHp.
Qed.

(** Static condition and its form on items. *)
Definition clearI (l : list pitem) : Prop :=
  Forall (fun i => match i with It s => maps_clear ig s | Cl _ => True end) l.
Fixpoint first_level (l : list pitem) : list stmt :=
  match l with It s :: r => s :: first_level r | _ => [] end.
Definition top_clear (l : list pitem) : Prop := Forall (fun s => ~ named ig s) (first_level l).
Lemma after_close_clear : forall l, clearI l -> clearI (after_close l).
Proof. induction 1 as [|[s|c] l W H IH]; cbn; auto. constructor. Qed.
Lemma first_level_app : forall F c r, first_level (map It F ++ Cl c :: r) = F.
Proof. induction F as [|s F IH]; intros c r; [reflexivity|]. cbn. now rewrite IH. Qed.

Definition okI (ctx : slice) (st : pst) (l : list pitem) : Prop :=
  good (p_heap st) ctx /\ wfI l /\ clearI l /\ (is_map (read_slice (p_heap st) ctx) = true -> top_clear l).
Definition prel (r r' : pres) : Prop :=
  match r with
  | POk ds rest st' => exists l, rest = flatI l /\ wfI l /\ clearI l /\ r' = POk ds (flatI (pruneI l)) st'
  | PErr e _ st' => exists rest', r' = PErr e rest' st'
  | _ => r' = r
  end.
Lemma prel_padd : forall ds r r', prel r r' -> prel (padd ds r) (padd ds r').
Proof.
  intros ds [ds' rest st|e rest st| |] r' H; cbn in *; try (subst; reflexivity).
  - destruct H as (l & A & B & C & ->). exists l. auto.
  - destruct H as [rest' ->]. cbn. eauto.
Qed.

(** A statement not deleted: its tokens after pruning. *)
Lemma prune_block_toks : forall t args tl b c l, mem_str (t_val t) ig = false ->
  flatI (pruneI (It (SStm t args tl (Some (b, c))) :: l)) =
  (t :: args ++ Tok "{" tl false None :: flatI (pruneI (map It b ++ Cl c :: l)))%list.
Proof.
  intros t args tl b c l M. unfold pruneI at 1. cbn [flat_map prune]. unfold mem_str in M. rewrite M.
  fold (pruneI l). rewrite pruneI_app, pruneI_it. cbn [map app]. unfold flatI at 1. cbn [flat_map item_toks stmt_toks].
  fold (flatI (pruneI l)). cbn [app]. rewrite <- app_assoc. cbn [app]. rewrite <- app_assoc.
  rewrite flatI_app, flatI_it. reflexivity.
Qed.
Lemma prune_simple_toks : forall t args tl l, mem_str (t_val t) ig = false ->
  flatI (pruneI (It (SStm t args tl None) :: l)) =
  (t :: args ++ Tok ";" tl false None :: flatI (pruneI l))%list.
Proof.
  intros t args tl l M. unfold pruneI at 1. cbn [flat_map prune]. unfold mem_str in M. rewrite M.
  fold (pruneI l). cbn [map app]. unfold flatI at 1. cbn [flat_map item_toks stmt_toks app].
  rewrite <- app_assoc. reflexivity.
Qed.
Lemma prune_gone : forall t args tl b l, mem_str (t_val t) ig = true ->
  pruneI (It (SStm t args tl b) :: l) = pruneI l.
Proof. intros t args tl b l M. unfold pruneI. cbn [flat_map prune]. unfold mem_str in M. now rewrite M. Qed.

Lemma okI_next : forall ctx st st' l l', okI ctx st l -> p_heap st' = p_heap st ->
  wfI l' -> clearI l' -> (is_map (read_slice (p_heap st) ctx) = true -> top_clear l') -> okI ctx st' l'.
Proof. intros ctx st st' l l' (G & _) E W C T. unfold okI. rewrite E. auto. Qed.

(** One statement, given as its tokens; [tail] is what follows its terminator. *)
Lemma stmt_split : forall t r l, (t :: r)%list = flatI l -> wfI l -> starts t ->
  exists args term tl b tail l', l = It (SStm t args tl b) :: l' /\
    Forall (fun a => t_err a = None /\ plain a) args /\ In term ["{"; ";"; "}"] /\
    r = (args ++ Tok term tl false None :: flatI tail)%list /\
    (b = None /\ term = ";" /\ tail = l' \/
     exists ss c, b = Some (ss, c) /\ term = "{" /\ tail = (map It ss ++ Cl c :: l')%list /\ Forall wf_stmt ss).
Proof.
  intros t r l E W (S1 & S2 & S3). destruct (flatI_cons _ _ _ E W) as (TE & [C|[C|[C|C]]]).
  - destruct C as (c & l' & -> & -> & _). discriminate.
  - destruct C as (l' & -> & H & _). apply hash_comment in H. congruence.
  - destruct C as (args & tl & l' & -> & P & NH & FA & ->). exists args, ";", tl, None, l', l'.
    repeat split; auto. cbn; auto.
  - destruct C as (args & tl & b & c & l' & -> & P & NH & FA & FB & ->).
    exists args, "{", tl, (Some (b, c)), (map It b ++ Cl c :: l')%list, l'.
    repeat split; auto; [cbn; auto|]. right. exists b, c. auto.
Qed.
Lemma tail_ok : forall t args tl b tail l' term, wfI (It (SStm t args tl b) :: l') -> clearI (It (SStm t args tl b) :: l') ->
  (b = None /\ term = ";" /\ tail = l' \/
   exists ss c, b = Some (ss, c) /\ term = "{" /\ tail = (map It ss ++ Cl c :: l')%list /\ Forall wf_stmt ss) ->
  wfI tail /\ clearI tail.
Proof.
  intros t args tl b tail l' term W C H. inversion W as [|? ? W1 W2]; subst. inversion C as [|? ? C1 C2]; subst.
  destruct H as [(-> & _ & ->)|(ss & c & -> & _ & -> & F)]; auto. split.
  - apply wfI_app. split; [now apply wfI_it|]. constructor; auto.
  - apply Forall_app. split; [|constructor; auto]. apply Forall_map. now inversion C1.
Qed.

Lemma run_ignore : forall ctx toks st r, Run o dir ctx toks st r ->
  forall l, toks = flatI l -> okI ctx st l ->
  exists r', Run o0 dir ctx (flatI (pruneI l)) st r' /\ prel r r'.
Proof.
  intros ctx toks st r H.
  assert (STMT : forall ctx st t r args cs term rest l, starts t ->
     read_args (o_comments o) r = Some (args, cs, term, rest) -> (t :: r)%list = flatI l -> okI ctx st l ->
     exists atoks tl b tail l', l = It (SStm t atoks tl b) :: l' /\ rest = flatI tail /\ wfI tail /\ clearI tail /\
       args = arg_vals atoks /\ cs = arg_coms (o_comments o) atoks /\
       (b = None /\ term = ";" /\ tail = l' \/
        exists ss c, b = Some (ss, c) /\ term = "{" /\ tail = (map It ss ++ Cl c :: l')%list /\ Forall wf_stmt ss) /\
       (mem_str (t_val t) ig = false ->
        exists r0, flatI (pruneI l) = (t :: r0)%list /\
          read_args (o_comments o0) r0 = Some (args, cs, term, flatI (pruneI tail)))).
  { clear. intros ctx st t r args cs term rest l ST RA E (G & W & C & T).
    destruct (stmt_split _ _ _ E W ST) as (atoks & term' & tl & b & tail & l' & -> & FA & IT & -> & D).
    rewrite read_args_flat in RA by auto. inversion RA; subst term' rest args cs. clear RA.
    exists atoks, tl, b, tail, l'. destruct (tail_ok _ _ _ _ _ _ _ W C D) as [WT CT].
    repeat (split; auto). intros M.
    destruct D as [(-> & -> & ->)|(ss & c & -> & -> & -> & F)].
    - eexists. split; [now rewrite prune_simple_toks by auto|]. now rewrite read_args_flat by auto.
    - eexists. split; [now rewrite prune_block_toks by auto|]. now rewrite read_args_flat by auto. }
  induction H as
    [ctx st|ctx st t r e TE|ctx st t r TE TC|ctx st t r res TE TC TM H IH|ctx st t r ST RA
    |ctx st t r args cs term rest ST RA D|ctx st t r args cs term rest e st' ST RA D
    |ctx st t r args cs term rest st' ST RA D|ctx st t r args cs term rest eat st' res ST RA D H IH
    |ctx st t r args cs term rest d res ST RA D H IH|ctx st t r args cs term rest d st' res ST RA D TB H IH
    |ctx st t r args cs term rest d st' h inner blk rest' st'' res ST RA D TB EB H1 IH1 H2 IH2
    |ctx st t r args cs term rest d st' h inner res ST RA D TB EB H IH FL]; intros l E OK.
  - assert (l = []).
    { destruct l as [|[s|c] l]; auto; [|discriminate]. destruct s as [t|h a tl [[b c]|]]; discriminate. }
    subst l. exists (POk [] [] st). split; [constructor|]. exists []. repeat split; auto; constructor.
  - destruct OK as (G & W & C & T). destruct (flatI_cons _ _ _ E W) as (TN & _). congruence.
  - destruct OK as (G & W & C & T). destruct (flatI_cons _ _ _ E W) as (TN & [X|[X|[X|X]]]).
    + destruct X as (c & l' & -> & -> & ->). exists (POk [] (flatI (pruneI l')) st).
      inversion W; inversion C; subst. split.
      * change (flatI (pruneI (Cl c :: l'))) with (Tok "}" c false None :: flatI (pruneI l')). now constructor.
      * exists l'. auto.
    + destruct X as (l' & -> & HH & _). destruct (hash_not_close _ HH). congruence.
    + destruct X as (args & tl & l' & -> & P & _). destruct (plain_not_open _ P). congruence.
    + destruct X as (args & tl & b & c & l' & -> & P & _). destruct (plain_not_open _ P). congruence.
  - pose proof OK as (G & W & C & T). destruct (flatI_cons _ _ _ E W) as (TN & [X|[X|[X|X]]]).
    + destruct X as (c & l' & -> & -> & ->). discriminate.
    + destruct X as (l' & -> & HH & ->). inversion W; inversion C; subst.
      destruct (IH l' eq_refl) as (r' & R' & P').
      { eapply okI_next; eauto. intros M. specialize (T M). inversion T; auto. }
      eexists. split; [exact (R_comment o0 dir ctx st t _ r' TE TC TM R')|]. apply prel_padd. exact P'.
    + destruct X as (args & tl & l' & -> & P & NH & _). apply not_hash in NH. congruence.
    + destruct X as (args & tl & b & c & l' & -> & P & NH & _). apply not_hash in NH. congruence.
  - exfalso. destruct OK as (G & W & C & T).
    destruct (stmt_split _ _ _ E W ST) as (atoks & term' & tl & b & tail & l' & -> & FA & IT & -> & D).
    rewrite read_args_flat in RA by auto. discriminate.
  - destruct (STMT _ _ _ _ _ _ _ _ _ ST RA E OK) as (at' & tl & b & tail & l' & -> & -> & WT & CT & _ & _ & SH & MM).
    pose proof OK as (G & W & C & T).
    destruct (is_map (read_slice (p_heap st) ctx)) eqn:M.
    { pose proof (decide_is_map _ (fresh o st t args) term _ M) as DM. rewrite D in DM. destruct DM. }
    destruct (mem_str (t_val t) ig) eqn:MI.
    { rewrite (decide_ignored _ (fresh o st t args)) in D by auto. discriminate. }
    destruct (MM eq_refl) as (r0 & FE & RA0). exists PPanic. split; [|reflexivity]. rewrite FE.
    eapply R_panic; eauto. rewrite decide_other; auto.
  - destruct (STMT _ _ _ _ _ _ _ _ _ ST RA E OK) as (at' & tl & b & tail & l' & -> & -> & WT & CT & _ & _ & SH & MM).
    pose proof OK as (G & W & C & T).
    assert (MI : mem_str (t_val t) ig = false).
    { destruct (mem_str (t_val t) ig) eqn:MI; auto. destruct (is_map (read_slice (p_heap st) ctx)) eqn:M.
      - specialize (T eq_refl). inversion T as [|? ? NN _]; subst. exfalso. apply NN. now apply mem_str_iff.
      - rewrite (decide_ignored _ (fresh o st t args)) in D by auto. discriminate. }
    destruct (MM MI) as (r0 & FE & RA0). eexists. split; [|cbn; eauto]. rewrite FE.
    eapply R_err; eauto. rewrite decide_other; eauto.
  - destruct (STMT _ _ _ _ _ _ _ _ _ ST RA E OK) as (at' & tl & b & tail & l' & -> & -> & WT & CT & _ & _ & SH & MM).
    pose proof OK as (G & W & C & T).
    destruct (is_map (read_slice (p_heap st) ctx)) eqn:M.
    { pose proof (decide_is_map _ (fresh o st t args) term _ M) as DM. rewrite D in DM. destruct DM. }
    destruct (mem_str (t_val t) ig) eqn:MI.
    { rewrite (decide_ignored _ (fresh o st t args)) in D by auto. discriminate. }
    destruct (MM eq_refl) as (r0 & FE & RA0). eexists. split; [rewrite FE; eapply R_break; eauto; rewrite decide_other; eauto|].
    exists tail. auto.
  - destruct (STMT _ _ _ _ _ _ _ _ _ ST RA E OK) as (at' & tl & b & tail & l' & -> & -> & WT & CT & _ & _ & SH & MM).
    pose proof OK as (G & W & C & T).
    pose proof (decide_heap o dir ctx (fresh o st t args) term st) as DH. rewrite D in DH. cbn [decision_state] in DH.
    inversion W as [|? ? W1 W2]; subst. inversion C as [|? ? C1 C2]; subst.
    assert (EAT : (if eat then consume 0 (flatI tail) else flatI tail) = flatI (if eat then after_close tail else tail) /\
                  (if eat then consume 0 (flatI (pruneI tail)) else flatI (pruneI tail))
                    = flatI (pruneI (if eat then after_close tail else tail)) /\
                  wfI (if eat then after_close tail else tail) /\ clearI (if eat then after_close tail else tail)).
    { destruct eat.
      - rewrite !consume_items by auto using pruneI_wf. rewrite after_close_prune.
        auto using after_close_wf, after_close_clear.
      - auto. }
    destruct EAT as (EA1 & EA2 & EA3 & EA4).
    destruct (mem_str (t_val t) ig) eqn:MI.
    + (* ignored *)
      destruct (is_map (read_slice (p_heap st) ctx)) eqn:M.
      { specialize (T eq_refl). inversion T as [|? ? NN _]; subst. exfalso. apply NN. now apply mem_str_iff. }
      rewrite (decide_ignored _ (fresh o st t args)) in D by auto. inversion D; subst eat st'. clear D.
      destruct (IH l') as (r' & R' & P').
      * rewrite EA1. f_equal. destruct SH as [(-> & -> & ->)|(ss & c & -> & -> & -> & F)]; [reflexivity|].
        cbn. apply after_close_app.
      * eapply okI_next; eauto. congruence.
      * exists r'. split; auto. rewrite prune_gone; auto.
    + destruct (MM eq_refl) as (r0 & FE & RA0).
      destruct (IH (if eat then after_close tail else tail)) as (r' & R' & P'); auto.
      * eapply okI_next; eauto. intros M.
        pose proof (decide_is_map _ (fresh o st t args) term _ M) as DM. rewrite D in DM. subst eat.
        specialize (T M). inversion T as [|? ? _ T2]; subst.
        destruct SH as [(-> & -> & ->)|(ss & c & -> & -> & -> & F)]; [exact T2|].
        cbn. rewrite after_close_app. exact T2.
      * exists r'. split; auto. rewrite FE. eapply R_skip; eauto; [rewrite decide_other; eauto|]. now rewrite EA2.
  - destruct (STMT _ _ _ _ _ _ _ _ _ ST RA E OK) as (at' & tl & b & tail & l' & -> & -> & WT & CT & _ & _ & SH & MM).
    pose proof OK as (G & W & C & T). inversion W as [|? ? W1 W2]; subst. inversion C as [|? ? C1 C2]; subst.
    destruct (is_map (read_slice (p_heap st) ctx)) eqn:M.
    2:{ exfalso. revert D. unfold decide. unfold is_map in M.
        destruct (read_slice (p_heap st) ctx) as [|c0 r0].
        - destruct (mem_str _ _); [discriminate|]. destruct (analyze _ _ _ _ _).
          + destruct (o_stop o); [discriminate|]. destruct (has_suffix _ _); [destruct (negb _)|]; discriminate.
          + destruct (if String.eqb _ "if" then _ else _); [|discriminate]. destruct (_ && _)%bool; [|discriminate].
            intros D. unfold do_include in D. destruct (d_args _); [discriminate|]. destruct (has_magic _).
            * destruct (o_glob o _); [|discriminate]. destruct (add_includes _ _ _); discriminate.
            * destruct (o_open o _); [destruct (add_includes _ _ _); discriminate|destruct (o_stop o); discriminate].
        - destruct (assoc _ map_bodies); [discriminate|].
          destruct (mem_str _ _); [discriminate|]. destruct (analyze _ _ _ _ _).
          + destruct (o_stop o); [discriminate|]. destruct (has_suffix _ _); [destruct (negb _)|]; discriminate.
          + destruct (if String.eqb _ "if" then _ else _); [|discriminate]. destruct (_ && _)%bool; [|discriminate].
            intros D. unfold do_include in D. destruct (d_args _); [discriminate|]. destruct (has_magic _).
            * destruct (o_glob o _); [|discriminate]. destruct (add_includes _ _ _); discriminate.
            * destruct (o_open o _); [destruct (add_includes _ _ _); discriminate|destruct (o_stop o); discriminate]. }
    specialize (T eq_refl). inversion T as [|? ? NN T2]; subst.
    assert (MI : mem_str (t_val t) ig = false).
    { destruct (mem_str (t_val t) ig) eqn:MI; auto. exfalso. apply NN. now apply mem_str_iff. }
    destruct (MM MI) as (r0 & FE & RA0).
    pose proof (decide_is_map _ (fresh o st t args) term _ M) as DM. rewrite D in DM. subst term.
    destruct SH as [(-> & _ & ->)|(ss & c & _ & X & _)]; [|discriminate].
    destruct (IH l') as (r' & R' & P'); auto.
    { eapply okI_next; eauto. }
    eexists. split; [|apply prel_padd; exact P']. rewrite FE. eapply R_map; eauto. rewrite decide_other; eauto.
  - destruct (STMT _ _ _ _ _ _ _ _ _ ST RA E OK) as (at' & tl & b & tail & l' & -> & -> & WT & CT & _ & _ & SH & MM).
    pose proof OK as (G & W & C & T). inversion W as [|? ? W1 W2]; subst. inversion C as [|? ? C1 C2]; subst.
    pose proof (decide_heap o dir ctx (fresh o st t args) term st) as DH. rewrite D in DH. cbn [decision_state] in DH.
    destruct (is_map (read_slice (p_heap st) ctx)) eqn:M.
    { pose proof (decide_is_map _ (fresh o st t args) term _ M) as DM. rewrite D in DM. destruct DM. }
    destruct (mem_str (t_val t) ig) eqn:MI.
    { rewrite (decide_ignored _ (fresh o st t args)) in D by auto. discriminate. }
    destruct (MM eq_refl) as (r0 & FE & RA0).
    destruct (IH tail) as (r' & R' & P'); auto.
    { eapply okI_next; eauto. congruence. }
    exists (padd (d :: comments_of o st (t_line t) cs) r'). split; [|apply prel_padd; exact P']. rewrite FE.
    refine (R_simple o0 dir ctx st t r0 args cs term _ d st' r' ST RA0 _ TB R').
    rewrite decide_other; eauto.
  - destruct (STMT _ _ _ _ _ _ _ _ _ ST RA E OK) as (at' & tl & b & tail & l' & -> & -> & WT & CT & _ & _ & SH & MM).
    pose proof OK as (G & W & C & T). inversion W as [|? ? W1 W2]; subst. inversion C as [|? ? C1 C2]; subst.
    pose proof (decide_heap o dir ctx (fresh o st t args) term st) as DH. rewrite D in DH. cbn [decision_state] in DH.
    destruct (is_map (read_slice (p_heap st) ctx)) eqn:M.
    { pose proof (decide_is_map _ (fresh o st t args) term _ M) as DM. rewrite D in DM. destruct DM. }
    destruct (mem_str (t_val t) ig) eqn:MI.
    { rewrite (decide_ignored _ (fresh o st t args)) in D by auto. discriminate. }
    destruct (MM eq_refl) as (r0 & FE & RA0).
    assert (GS : good (p_heap st') ctx) by (now rewrite DH).
    destruct (enter_block_spec _ _ _ _ _ GS EB) as (GI & RI & FE1 & CI).
    apply String.eqb_eq in TB. subst term.
    destruct SH as [(_ & X & _)|(ss & c & -> & _ & -> & F)]; [discriminate|].
    destruct (IH1 _ eq_refl) as (r1 & R1 & P1).
    { split; [exact GI|]. split; [exact WT|]. split; [exact CT|]. cbn [p_heap set_heap]. intros MM2.
      rewrite RI in MM2. apply is_map_enter in MM2. apply decide_shape in D as (DN & _). cbn in DN. rewrite DN in MM2.
      unfold top_clear. rewrite first_level_app.
      inversion C1 as [| |? ? ? ? ? MC MB]; subst. auto. }
    destruct P1 as (l1 & -> & WL1 & CL1 & ->).
    pose proof (run_frame _ _ _ _ _ _ H1 GI) as FR. cbn [res_heap p_heap set_heap] in FR.
    assert (FR2 : frame ctx (p_heap st') (p_heap st'')) by (eapply frame_weaken; eauto).
    destruct (IH2 l1 eq_refl) as (r2 & R2 & P2).
    { split; [eapply good_frame; eauto|]. split; [auto|]. split; [auto|].
      rewrite (read_frame _ _ _ FR2), DH. congruence. }
    exists (padd (set_block d blk :: comments_of o st (t_line t) cs) r2).
    split; [|apply prel_padd; exact P2]. rewrite FE.
    refine (R_block o0 dir ctx st t r0 args cs "{" _ d st' h inner blk _ st'' r2 ST RA0 _ eq_refl EB R1 R2).
    rewrite decide_other; eauto.
  - destruct (STMT _ _ _ _ _ _ _ _ _ ST RA E OK) as (at' & tl & b & tail & l' & -> & -> & WT & CT & _ & _ & SH & MM).
    pose proof OK as (G & W & C & T). inversion W as [|? ? W1 W2]; subst. inversion C as [|? ? C1 C2]; subst.
    pose proof (decide_heap o dir ctx (fresh o st t args) term st) as DH. rewrite D in DH. cbn [decision_state] in DH.
    destruct (is_map (read_slice (p_heap st) ctx)) eqn:M.
    { pose proof (decide_is_map _ (fresh o st t args) term _ M) as DM. rewrite D in DM. destruct DM. }
    destruct (mem_str (t_val t) ig) eqn:MI.
    { rewrite (decide_ignored _ (fresh o st t args)) in D by auto. discriminate. }
    destruct (MM eq_refl) as (r0 & FE & RA0).
    assert (GS : good (p_heap st') ctx) by (now rewrite DH).
    destruct (enter_block_spec _ _ _ _ _ GS EB) as (GI & RI & FE1 & CI).
    apply String.eqb_eq in TB. subst term.
    destruct SH as [(_ & X & _)|(ss & c & -> & _ & -> & F)]; [discriminate|].
    destruct (IH _ eq_refl) as (r1 & R1 & P1).
    { split; [exact GI|]. split; [exact WT|]. split; [exact CT|]. cbn [p_heap set_heap]. intros MM2.
      rewrite RI in MM2. apply is_map_enter in MM2. apply decide_shape in D as (DN & _). cbn in DN. rewrite DN in MM2.
      unfold top_clear. rewrite first_level_app.
      inversion C1 as [| |? ? ? ? ? MC MB]; subst. auto. }
    exists r1. split; auto. rewrite FE. eapply (R_blockfail o0 dir ctx st t r0 args cs "{"); eauto.
    + rewrite decide_other; eauto.
    + destruct res; cbn in P1, FL |- *; try (destruct FL; fail).
      * destruct P1 as [rest' ->]. exact I.
      * now rewrite P1.
Qed.
End Ignore.

(** ** From one token list to the whole of Parse. *)

Section Open.
Variables (o : popts) (dir : string) (op : string -> string + string).
Hypothesis SE : same_errors (o_open o) op.
Let o1 := with_open o op.
Lemma decide_open : forall ctx d term st, decide o1 dir ctx d term st = decide o dir ctx d term st.
Proof.
  intros ctx d term st. unfold decide.
  change (o_stop o1) with (o_stop o). change (o_ignore o1) with (o_ignore o). change (o_single o1) with (o_single o).
  change (handle_error o1) with (handle_error o).
  change (analyze o1) with (analyze o).
  assert (DI : forall d, do_include o1 dir ctx d st = do_include o dir ctx d st).
  { intros d0. unfold do_include. destruct (d_args d0) as [|a r]; auto. destruct (has_magic (resolve dir a)); auto.
    change (o_open o1) with op. specialize (SE (resolve dir a)).
    destruct (o_open o (resolve dir a)) as [x|x]; destruct (op (resolve dir a)) as [y|y]; try contradiction; subst; auto. }
  destruct (match read_slice (p_heap st) ctx with [] => None | _ => _ end); auto.
  destruct (mem_str (d_name d) (o_ignore o)); auto.
  destruct (analyze o (cf_file (p_cur st)) d term (read_slice (p_heap st) ctx)); auto.
  destruct (if String.eqb (d_name d) "if" then prepare_if (d_args d) else Some (d_args d)); auto.
  now rewrite DI.
Qed.
Lemma run_open : forall ctx toks st r, Run o dir ctx toks st r -> Run o1 dir ctx toks st r.
Proof.
  intros ctx toks st r H.
  induction H as [ctx st|ctx st t r e TE|ctx st t r TE TC|ctx st t r res TE TC TM H IH|ctx st t r ST RA|ctx st t r args cs term rest ST RA D|ctx st t r args cs term rest e st' ST RA D|ctx st t r args cs term rest st' ST RA D|ctx st t r args cs term rest eat st' res ST RA D H IH|ctx st t r args cs term rest d res ST RA D H IH|ctx st t r args cs term rest d st' res ST RA D TB H IH|ctx st t r args cs term rest d st' h inner blk rest' st'' res ST RA D TB EB H1 IH1 H2 IH2|ctx st t r args cs term rest d st' h inner res ST RA D TB EB H IH FL].
  - exact (R_end o1 dir ctx st).
  - exact (R_tokerr o1 dir ctx st t r e TE).
  - exact (R_close o1 dir ctx st t r TE TC).
  - exact (R_comment o1 dir ctx st t r res TE TC TM IH).
  - exact (R_premature o1 dir ctx st t r ST RA).
  - refine (R_panic o1 dir ctx st t r args cs term rest ST RA _). rewrite decide_open. exact D.
  - refine (R_err o1 dir ctx st t r args cs term rest e st' ST RA _). rewrite decide_open. exact D.
  - refine (R_break o1 dir ctx st t r args cs term rest st' ST RA _). rewrite decide_open. exact D.
  - refine (R_skip o1 dir ctx st t r args cs term rest eat st' res ST RA _ IH). rewrite decide_open. exact D.
  - refine (R_map o1 dir ctx st t r args cs term rest d res ST RA _ IH). rewrite decide_open. exact D.
  - refine (R_simple o1 dir ctx st t r args cs term rest d st' res ST RA _ TB IH). rewrite decide_open. exact D.
  - refine (R_block o1 dir ctx st t r args cs term rest d st' h inner blk rest' st'' res ST RA _ TB EB IH1 IH2). rewrite decide_open. exact D.
  - refine (R_blockfail o1 dir ctx st t r args cs term rest d st' h inner res ST RA _ TB EB IH FL). rewrite decide_open. exact D.
Qed.
End Open.

(** The context of a file, as used. *)
Definition outside_maps (l : list (string * list string)) : Prop := Forall (fun e => is_map (snd e) = false) l.
(** Contents with and without the ignored statements. *)
Lemma pruned_same : forall o op, pruned_files o op -> same_errors (o_open o) op.
Proof.
  intros o op P f. specialize (P f). destruct (o_open o f), (op f); auto.
Qed.

Lemma run_used : forall o dir ctx toks st r, Run o dir ctx toks st r ->
  match r with POk _ _ st' => p_used st' = p_used st | PErr _ _ st' => p_used st' = p_used st | _ => True end.
Proof.
  intros o dir. apply (run_state_rel o dir (fun a b => p_used b = p_used a)); try congruence.
  - intros ctx st st' E.
    assert (A : forall fs st, p_used (fst (add_includes ctx st fs)) = p_used st).
    { clear. induction fs as [|f fs IH]; intros st; cbn [add_includes]; [reflexivity|].
      assert (B : p_used (fst (add_include ctx st f)) = p_used st).
      { unfold add_include. now destruct (assoc f (p_included st)). }
      destruct (add_include ctx st f) as [st1 i]. cbn [fst] in B. specialize (IH st1).
      destruct (add_includes ctx st1 fs) as [st2 is]. cbn [fst] in *. congruence. }
    destruct E; auto; now rewrite A.
  - reflexivity.
Qed.
Lemma file_used : forall o dir path ctx st st', state_of (parse_file o dir path ctx st) = Some st' ->
  p_used st' = (p_used st ++ [(path, read_slice (p_heap st) ctx)])%list.
Proof.
  intros o dir path ctx st st'. unfold parse_file. cbv zeta.
  set (st0 := log_use (log_open st path) path ctx).
  change (p_used st ++ [(path, read_slice (p_heap st) ctx)])%list with (p_used st0).
  destruct (o_open o path) as [content|msg]; [|intros H; now inversion H].
  set (toks := lex (o_lexers o) content). set (st1 := set_cur st0 (Cfg path "ok" [] [])).
  pose proof (run_used _ _ _ _ _ _ (parse_run o dir ctx toks st1)) as R.
  destruct (parse o dir (S (List.length toks)) ctx toks st1) as [ds rest st2|e rest st2| |]; try discriminate.
  - intros H. inversion H; subst. exact R.
  - destruct (o_stop o); intros H; inversion H; subst; exact R.
Qed.
Lemma files_used : forall o dir fuel st st', state_of (run_files fuel o dir st) = Some st' ->
  exists l, p_used st' = (p_used st ++ l)%list.
Proof.
  intros o dir. induction fuel as [|fuel IH]; intros st st'; cbn [run_files].
  - destruct (p_queue st) as [|[path ctx] q]; [|discriminate]. intros H. inversion H; subst.
    exists []. now rewrite app_nil_r.
  - destruct (p_queue st) as [|[path ctx] q].
    + intros H. inversion H; subst. exists []. now rewrite app_nil_r.
    + pose proof (file_used o dir path ctx (set_queue st q)) as U.
      destruct (parse_file o dir path ctx (set_queue st q)) as [st1|e st1| |]; try discriminate.
      * intros H. destruct (IH _ _ H) as [l E]. specialize (U st1 eq_refl). rewrite E, U. cbn.
        rewrite <- app_assoc. eauto.
      * intros H. inversion H; subst. specialize (U st' eq_refl). rewrite U. eauto.
Qed.

Lemma file_ignore : forall o dir op path ctx st, pruned_files o op -> good (p_heap st) ctx ->
  is_map (read_slice (p_heap st) ctx) = false ->
  parse_file (with_open (with_ignore o []) op) dir path ctx st = parse_file o dir path ctx st.
Proof.
  intros o dir op path ctx st P G M. unfold parse_file. cbv zeta.
  set (st0 := log_use (log_open st path) path ctx).
  set (o1 := with_open (with_ignore o []) op).
  change (o_open o1) with op. change (o_stop o1) with (o_stop o). change (o_lexers o1) with (o_lexers o).
  pose proof (pruned_same _ _ P) as SE.
  specialize (P path). destruct (o_open o path) as [c|msg], (op path) as [c'|msg']; try contradiction; [|now subst].
  destruct P as (F & LF & WF & CF & LF'). rewrite LF, LF'.
  set (st1 := set_cur st0 (Cfg path "ok" [] [])).
  pose proof (parse_run o dir ctx (flat F) st1) as R.
  destruct (run_ignore o dir _ _ _ _ R (map It F)) as (r' & R' & PR).
  { unfold flat, flatI. clear. induction F as [|s F IH]; [reflexivity|]. cbn. now rewrite IH. }
  { split; [exact G|]. split; [now apply wfI_it|]. split.
    - unfold clearI. now apply Forall_map.
    - intros A. cbn [p_heap st1 st0 set_cur log_use log_open] in A. congruence. }
  rewrite pruneI_it in R'.
  assert (FI : forall F, flatI (map It F) = flat F).
  { clear. intros F. unfold flat, flatI. induction F as [|s F IH]; [reflexivity|]. cbn. now rewrite IH. }
  rewrite FI in R'. apply (run_open (with_ignore o []) dir op SE) in R'. fold o1 in R'.
  apply (run_parse o1 dir) with (fuel := S (List.length (flat (flat_map (prune (o_ignore o)) F)))) in R'; [|lia].
  rewrite R'.
  destruct (parse o dir (S (List.length (flat F))) ctx (flat F) st1) as [ds rest st2|e rest st2| |]; cbn [prel] in PR.
  - destruct PR as (l & _ & _ & _ & ->). reflexivity.
  - destruct PR as (rest' & ->). reflexivity.
  - now rewrite PR.
  - now rewrite PR.
Qed.
Lemma files_ignore : forall o dir op first, pruned_files o op ->
  forall fuel st st', qinv first st -> state_of (run_files fuel o dir st) = Some st' -> outside_maps (p_used st') ->
  run_files fuel (with_open (with_ignore o []) op) dir st = run_files fuel o dir st.
Proof.
  intros o dir op first P. induction fuel as [|fuel IH]; intros st st' Q; cbn [run_files].
  - destruct (p_queue st) as [|[path ctx] q]; auto.
  - destruct (p_queue st) as [|[path ctx] q] eqn:E; auto.
    pose proof (file_used o dir path ctx (set_queue st q)) as U.
    pose proof (ctx_file first o dir path ctx q st Q E) as CF.
    pose proof (file_ignore o dir op path ctx (set_queue st q) P) as FI.
    assert (G : good (p_heap st) ctx).
    { destruct Q as [Q _]. rewrite E in Q. inversion Q as [|? ? [G _] _]; subst. exact G. }
    intros S OM.
    assert (M : is_map (read_slice (p_heap st) ctx) = false).
    { destruct (parse_file o dir path ctx (set_queue st q)) as [st1|e st1| |]; try discriminate.
      - specialize (U st1 eq_refl). destruct (files_used _ _ _ _ _ S) as [l L]. rewrite L, U in OM.
        apply Forall_app in OM as [OM _]. apply Forall_app in OM as [_ OM]. now inversion OM.
      - inversion S; subst. specialize (U st' eq_refl). rewrite U in OM. apply Forall_app in OM as [_ OM]. now inversion OM. }
    rewrite (FI G M). destruct (parse_file o dir path ctx (set_queue st q)) as [st1|e st1| |]; auto.
    apply IH with st'; auto. tauto.
Qed.
Lemma parse_ignore : forall fuel o op filename st', pruned_files o op ->
  state_of (collect fuel o filename) = Some st' -> outside_maps (p_used st') ->
  collect fuel (with_open (with_ignore o []) op) filename = collect fuel o filename /\
  parse_main fuel (with_open (with_ignore o []) op) filename = parse_main fuel o filename.
Proof.
  intros fuel o op filename st' P S OM.
  assert (C : collect fuel (with_open (with_ignore o []) op) filename = collect fuel o filename).
  { unfold collect. eapply files_ignore; eauto. apply qinv_init. }
  split; auto. unfold parse_main. now rewrite C.
Qed.

(** Contexts asked for are never inside map-like blocks. *)
Lemma asked_include : forall ctx f st, p_asked (fst (add_include ctx st f)) = p_asked st \/
  p_asked (fst (add_include ctx st f)) = (p_asked st ++ [(f, read_slice (p_heap st) ctx)])%list.
Proof. intros ctx f st. unfold add_include. destruct (assoc f (p_included st)); cbn; auto. Qed.
Lemma asked_includes : forall ctx fs st, is_map (read_slice (p_heap st) ctx) = false -> outside_maps (p_asked st) ->
  outside_maps (p_asked (fst (add_includes ctx st fs))).
Proof.
  intros ctx fs. induction fs as [|f fs IH]; intros st M O; cbn [add_includes]; [exact O|].
  pose proof (asked_include ctx f st) as A. pose proof (add_include_frame ctx f st) as (H & _).
  destruct (add_include ctx st f) as [st1 i]. cbn [fst] in *.
  specialize (IH st1). rewrite H in IH. destruct (add_includes ctx st1 fs) as [st2 is]. cbn [fst] in *. apply IH; auto.
  destruct A as [-> | ->]; auto. apply Forall_app. split; auto.
Qed.
Lemma asked_run : forall o dir ctx toks st r, Run o dir ctx toks st r -> outside_maps (p_asked st) ->
  match r with POk _ _ st' => outside_maps (p_asked st') | PErr _ _ st' => outside_maps (p_asked st') | _ => True end.
Proof.
  intros o dir ctx toks st r H O.
  assert (I : inv_res (fun s => outside_maps (p_asked s)) (fun _ _ => True) (fun _ _ => True) st r).
  { refine (run_inv o dir (fun s => outside_maps (p_asked s)) (fun _ _ => True) (fun _ _ => True) _ _ _ _ _ _ _ ctx toks st r H O); auto.
    intros c t args term s Os.
    assert (D : outside_maps (p_asked (decision_state s (decide o dir c (fresh o s t args) term s)))).
    { destruct (is_map (read_slice (p_heap s) c)) eqn:M.
      - unfold decide. unfold is_map in M. destruct (read_slice (p_heap s) c) as [|x l]; [discriminate|].
        destruct (assoc (last (x :: l) EmptyString) map_bodies); [|discriminate].
        destruct (analyze_map_body _ _ _ _); [destruct (o_stop o)|]; exact Os.
      - destruct (decide_effect o dir c (fresh o s t args) term s); auto;
          apply asked_includes; auto. }
    destruct (decide o dir c (fresh o s t args) term s); cbn in *; auto. }
  destruct r; cbn in *; tauto.
Qed.
Lemma asked_files : forall o dir fuel st st', outside_maps (p_asked st) ->
  state_of (run_files fuel o dir st) = Some st' -> outside_maps (p_asked st').
Proof.
  intros o dir. induction fuel as [|fuel IH]; intros st st' O; cbn [run_files].
  - destruct (p_queue st) as [|[path ctx] q]; [|discriminate]. intros H. now inversion H; subst.
  - destruct (p_queue st) as [|[path ctx] q]; [intros H; now inversion H; subst|].
    assert (F : forall s, state_of (parse_file o dir path ctx (set_queue st q)) = Some s -> outside_maps (p_asked s)).
    { intros s. unfold parse_file. cbv zeta. set (st0 := log_use (log_open (set_queue st q) path) path ctx).
      assert (O0 : outside_maps (p_asked st0)) by exact O.
      destruct (o_open o path) as [content|msg]; [|intros H; now inversion H; subst].
      set (toks := lex (o_lexers o) content). set (st1 := set_cur st0 (Cfg path "ok" [] [])).
      pose proof (asked_run _ _ _ _ _ _ (parse_run o dir ctx toks st1) O0) as R.
      destruct (parse o dir (S (List.length toks)) ctx toks st1) as [ds rest st2|e rest st2| |]; try discriminate.
      - intros H. inversion H; subst. exact R.
      - destruct (o_stop o); intros H; inversion H; subst; exact R. }
    destruct (parse_file o dir path ctx (set_queue st q)) as [st1|e st1| |]; try discriminate.
    + intros H. eapply IH; [|exact H]. now apply F.
    + intros H. inversion H; subst. now apply F.
Qed.
(** Used contexts are a part of those asked for. *)
Lemma used_outside : forall fuel o filename st, state_of (collect fuel o filename) = Some st ->
  short (p_asked st) -> outside_maps (p_used st).
Proof.
  intros fuel o filename st S SH.
  pose proof (asked_files o (dir_name filename) fuel (init_state filename) st) as A.
  specialize (A ltac:(constructor) S).
  pose proof (ctx_files filename o (dir_name filename) fuel _ (qinv_init filename)) as F.
  unfold collect in S.
  assert (Q : qinv filename st).
  { destruct (run_files fuel o (dir_name filename) (init_state filename)); inversion S; subst; tauto. }
  pose proof (qinv_short _ _ Q SH) as V.
  assert (X : outside_maps (p_used st ++ views st)) by (rewrite V; constructor; [reflexivity|exact A]).
  now apply Forall_app in X.
Qed.
Lemma parse_ignore_short : forall fuel o op filename st', pruned_files o op ->
  state_of (collect fuel o filename) = Some st' -> short (p_asked st') ->
  collect fuel (with_open (with_ignore o []) op) filename = collect fuel o filename /\
  parse_main fuel (with_open (with_ignore o []) op) filename = parse_main fuel o filename.
Proof. intros. eapply parse_ignore; eauto using used_outside. Qed.
(** With SingleFile nothing is included at all. *)
Lemma single_ignore : forall fuel o op filename, o_single o = true -> pruned_files o op ->
  parse_main fuel (with_open (with_ignore o []) op) filename = parse_main fuel o filename.
Proof.
  intros fuel o op filename SG P. unfold parse_main, collect.
  destruct fuel as [|fuel]; [reflexivity|]. cbn [run_files init_state p_queue].
  rewrite file_ignore; auto; [|split; cbn; lia].
  destruct (parse_file o (dir_name filename) filename (Slice 0 0) (set_queue (init_state filename) [])) as [st1|e st1| |] eqn:PF; auto.
  assert (Q : p_queue st1 = []).
  { revert PF. unfold parse_file. cbv zeta. set (st0 := log_use (log_open _ filename) filename (Slice 0 0)).
    destruct (o_open o filename) as [content|msg]; [|discriminate].
    set (toks := lex (o_lexers o) content). set (s1 := set_cur st0 (Cfg filename "ok" [] [])).
    assert (QR : forall r, Run o (dir_name filename) (Slice 0 0) toks s1 r ->
       match r with POk _ _ st' => p_queue st' = [] | PErr _ _ st' => p_queue st' = [] | _ => True end).
    { intros r R. refine (run_state_inv o _ (fun s => p_queue s = []) _ _ _ _ _ _ R eq_refl); auto.
      intros c s s' E QS. destruct E; auto; congruence. }
    specialize (QR _ (parse_run o (dir_name filename) (Slice 0 0) toks s1)).
    destruct (parse o (dir_name filename) (S (List.length toks)) (Slice 0 0) toks s1) as [ds rest st2|e rest st2| |]; try discriminate.
    - intros H. inversion H; subst. exact QR.
    - destruct (o_stop o); [discriminate|]. intros H. inversion H; subst. exact QR. }
  destruct fuel; cbn [run_files]; rewrite Q; reflexivity.
Qed.
