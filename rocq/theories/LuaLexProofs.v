(** C58: the Lua lexer on any text. *)
From Verif Require Export LuaProofs SpecLuaLex.
Local Open Scope string_scope.

Lemma count_concat : forall rs, Forall rune_text rs -> count_eol rs = newlines (concat_str rs).
Proof.
  induction 1 as [|r rs T F IH]; auto. cbn [concat_str]. rewrite newlines_app, <- IH, <- (eol_newlines r T).
  unfold count_eol. cbn [fold_right]. destruct (is_eol r); lia.
Qed.
Lemma nonwhite_flat : forall r, rune_text r -> white r = false -> newlines r = 0%Z.
Proof.
  intros r T W. rewrite <- eol_newlines by auto. destruct (is_eol r) eqn:E; auto. apply (eol_rune r T) in E. subst r. vm_compute in W. discriminate.
Qed.
Lemma open_gap : forall g rest line n, gap_ok g = true -> lua_open line n (g ++ rest) = lua_open (line + newlines (concat_str g)) (n + List.length g) rest.
Proof.
  induction g as [|r g IH]; intros rest line n G.
  - cbn [app concat_str List.length]. change (newlines "") with 0%Z. now rewrite Z.add_0_r, Nat.add_0_r.
  - destruct (gap_cons r g G) as (T & W & G'). cbn [app lua_open concat_str List.length]. rewrite line_step, white_space, W by auto. rewrite IH by auto.
    rewrite newlines_app, Z.add_assoc. f_equal. lia.
Qed.
Lemma body_open : forall rs tok d q inq qt line n, Forall rune_text rs ->
  (forall body rest', rs = (body ++ "}" :: rest')%list -> balanced d q body = false) ->
  (q = "" /\ inq = false \/ q <> "" /\ In q quotes /\ inq = true /\ qt = q) ->
  lua_body tok (1 + Z.of_nat d) inq qt line n rs = ([], n + List.length rs).
Proof.
  induction rs as [|r rs IH]; intros tok d q inq qt line n F B Q.
  - cbn [lua_body List.length]. now rewrite Nat.add_0_r.
  - inversion F as [|? ? T F']; subst. cbn [lua_body List.length]. rewrite line_step by auto.
    replace (n + S (List.length rs)) with (S n + List.length rs) by lia.
    assert (BB : forall d' q', (forall b, balanced d q (r :: b) = balanced d' q' b) -> forall body rest', rs = (body ++ "}" :: rest')%list -> balanced d' q' body = false).
    { intros d' q' E body rest' ->. rewrite <- E. now apply (B (r :: body) rest'). }
    assert (D : (1 + Z.of_nat d =? 0)%Z = false) by (apply Z.eqb_neq; lia).
    destruct Q as [[-> ->]|(QN & QI & -> & ->)].
    + rewrite !andb_true_r. cbn [negb].
      destruct ((r =? s_dq) || (r =? s_sq))%bool eqn:EQ.
      * assert (R : (r =? "{") = false /\ (r =? "}") = false /\ In r quotes /\ r <> "").
        { apply orb_true_iff in EQ as [X|X]; apply String.eqb_eq in X; subst r; (split; [reflexivity|split; [reflexivity|split; [cbn; auto|discriminate]]]). }
        destruct R as (R1 & R2 & R3 & R4). rewrite R1, R2. apply (IH _ d r); auto. apply BB. intros b.
        cbn [balanced]. cbn [negb String.eqb]. unfold mem, quotes. cbn [existsb]. now rewrite orb_false_r, EQ.
      * assert (BS : forall b, balanced d "" (r :: b) = if (r =? "{") then balanced (S d) "" b else if (r =? "}") then match d with O => false | S d' => balanced d' "" b end else balanced d "" b).
        { intros b. cbn [balanced]. cbn [negb String.eqb]. unfold mem, quotes. cbn [existsb]. now rewrite orb_false_r, EQ. }
        destruct (r =? "{") eqn:E1.
        { assert (X : (1 <? 1 + Z.of_nat d + 1)%Z = true) by (apply Z.ltb_lt; lia). rewrite X. replace (1 + Z.of_nat d + 1)%Z with (1 + Z.of_nat (S d))%Z by lia.
          apply (IH _ (S d) ""); auto; apply BB; exact BS. }
        destruct (r =? "}") eqn:E2.
        { destruct d as [|d].
          - exfalso. apply String.eqb_eq in E2. subst r. specialize (B [] rs eq_refl). discriminate B.
          - assert (X : (1 + Z.of_nat (S d) - 1 <? 0)%Z = false) by (apply Z.ltb_ge; lia). rewrite X.
          assert (X1 : (0 <? 1 + Z.of_nat (S d) - 1)%Z = true) by (apply Z.ltb_lt; lia). rewrite X1.
          assert (X2 : (1 + Z.of_nat (S d) - 1 =? 0)%Z = false) by (apply Z.eqb_neq; lia). rewrite X2.
          replace (1 + Z.of_nat (S d) - 1)%Z with (1 + Z.of_nat d)%Z by lia. apply (IH _ d ""); auto; apply BB; exact BS. }
        rewrite D, andb_false_r. apply (IH _ d ""); auto; apply BB; exact BS.
    + assert (QE : (q =? "") = false) by (now apply String.eqb_neq). cbn [negb]. rewrite !andb_false_r.
      assert (BS : forall b, balanced d q (r :: b) = balanced d (if (r =? q) then "" else q) b) by (intros b; cbn [balanced]; now rewrite QE).
      rewrite D, andb_false_r. destruct ((r =? s_dq) || (r =? s_sq))%bool eqn:EQ.
      * destruct (r =? q) eqn:E; [apply (IH _ d ""); auto; apply BB; exact BS|apply (IH _ d q); auto; apply BB; exact BS].
      * assert (X : (r =? q) = false). { destruct (String.eqb_spec r q) as [->|]; auto. exfalso. destruct QI as [<- | [<- | []]]; discriminate EQ. }
        rewrite X in BS. apply (IH _ d q); auto; apply BB; exact BS.
Qed.
Lemma block_sound : forall line rs toks k, Forall rune_text rs -> lua_block line rs toks k -> forall n, lua_open line n rs = (toks, n + k).
Proof.
  intros line rs toks k F B n. destruct B as [g G|g c rest G W N|g body rest G B last|g rest G B].
  - rewrite <- (app_nil_r g) at 1. rewrite open_gap by auto. reflexivity.
  - rewrite open_gap by auto. apply Forall_app in F as [_ F]. inversion F as [|? ? T F']; subst. cbn [lua_open]. rewrite line_step, white_space, W by auto.
    rewrite (nonwhite_flat c) by auto. rewrite Z.add_0_r. rewrite (proj2 (String.eqb_neq c "{") N). rewrite app_length. cbn [List.length]. f_equal. lia.
  - apply Forall_app in F as [_ F]. inversion F as [|? ? _ F']; subst. apply Forall_app in F' as [F' _]. rewrite open_ok by auto. rewrite count_concat by auto.
    subst last. f_equal. rewrite app_length. cbn [List.length]. rewrite app_length. cbn [List.length]. lia.
  - rewrite open_gap by auto. apply Forall_app in F as [_ F]. inversion F as [|? ? _ F']; subst. cbn [lua_open]. change (is_eol "{") with false. change (is_space "{") with false. cbv iota. cbn [String.eqb Ascii.eqb Bool.eqb].
    change 1%Z with (1 + Z.of_nat 0)%Z. rewrite (body_open rest "" 0 "" false "") by auto. rewrite app_length. cbn [List.length]. f_equal. lia.
Qed.
Lemma gap_split : forall rs, Forall rune_text rs -> exists g rest, rs = (g ++ rest)%list /\ gap_ok g = true /\ match rest with [] => True | c :: _ => white c = false end.
Proof.
  induction 1 as [|r rs T F (g & rest & -> & G & W)].
  - exists [], []. auto.
  - destruct (white r) eqn:E.
    + exists (r :: g), rest. split; auto. split; auto. unfold gap_ok in *. cbn [forallb]. rewrite G, E. rewrite (proj2 (one_char_text r) T). reflexivity.
    + exists [], (r :: g ++ rest). auto.
Qed.
Lemma body_dec : forall rs d q, (exists body rest', rs = (body ++ "}" :: rest')%list /\ balanced d q body = true) \/ (forall body rest', rs = (body ++ "}" :: rest')%list -> balanced d q body = false).
Proof.
  intros rs. assert (H : forall (P : list string -> bool), (exists body rest', rs = (body ++ "}" :: rest')%list /\ P body = true) \/ (forall body rest', rs = (body ++ "}" :: rest')%list -> P body = false)); [|intros d q; apply H].
  induction rs as [|r rs IH]; intros P.
  - right. intros [|? ?] ? E; discriminate E.
  - destruct (IH (fun b => P (r :: b))) as [(b & r' & -> & H)|H]; [left; now exists (r :: b), r'|].
    destruct (String.eqb_spec r "}") as [->|N].
    + destruct (P []) eqn:E; [left; now exists [], rs|]. right. intros [|x b] r' X; [auto|]. cbn [app] in X. inversion X; subst. now apply (H b r').
    + right. intros [|x b] r' X; cbn [app] in X; inversion X; subst; [congruence|]. now apply (H b r').
Qed.
Lemma block_total : forall line rs, Forall rune_text rs -> exists toks k, lua_block line rs toks k.
Proof.
  intros line rs F. destruct (gap_split rs F) as (g & rest & -> & G & W). destruct rest as [|c rest].
  - rewrite app_nil_r. eexists _, _. now apply lb_none.
  - destruct (String.eqb_spec c "{") as [->|N]; [|eexists _, _; now apply lb_other].
    destruct (body_dec rest 0 "") as [(b & r' & -> & B)|B]; eexists _, _; [now apply lb_code|now apply lb_open].
Qed.
Lemma arg_end : forall rs arg line n, Forall rune_text rs -> forallb (fun r => negb (white r)) rs = true -> lua_arg arg line n rs = ([], n + List.length rs).
Proof.
  induction rs as [|r rs IH]; intros arg line n F W; cbn [lua_arg List.length]; [now rewrite Nat.add_0_r|].
  inversion F as [|? ? T F']; subst. cbn [forallb] in W. apply andb_true_iff in W as [W1 W2]. apply negb_true_iff in W1.
  rewrite white_space, W1 by auto. rewrite IH by auto. f_equal. lia.
Qed.
Lemma flat_all : forall v, Forall rune_text v -> forallb (fun r => negb (white r)) v = true -> count_eol v = 0%Z.
Proof.
  induction 1 as [|r v T F IH]; intros W; auto. cbn [forallb] in W. apply andb_true_iff in W as [W1 W2]. apply negb_true_iff in W1.
  specialize (IH W2). pose proof (nonwhite_flat r T W1) as X. rewrite <- eol_newlines in X by auto. unfold count_eol in *. cbn [fold_right]. destruct (is_eol r); [discriminate|auto].
Qed.
Lemma setting_sound : forall line rs toks k, Forall rune_text rs -> lua_setting line rs toks k -> lua_arg "" line 0 rs = (toks, k).
Proof.
  intros line rs toks k F B. destruct B as [g v G W|g v w rest toks n G NE W WW at_ B]; apply Forall_app in F as [_ F]; rewrite (arg_skip g _ line 0 G).
  - rewrite arg_end by auto. rewrite app_length. reflexivity.
  - apply Forall_app in F as [F1 F2]. inversion F2 as [|? ? T F3]; subst. rewrite (arg_read v "" w rest _ _ F1 W T WW (or_intror NE) (flat_all v F1 W)). fold at_. rewrite (block_sound _ _ _ _ F3 B).
    cbn [String.append]. rewrite !app_length. cbn [List.length]. f_equal. lia.
Qed.
Lemma word_split : forall rs, exists v rest, rs = (v ++ rest)%list /\ forallb (fun r => negb (white r)) v = true /\ match rest with [] => True | w :: _ => white w = true end.
Proof.
  induction rs as [|r rs (v & rest & -> & V & W)].
  - exists [], []. auto.
  - destruct (white r) eqn:E.
    + exists [], (r :: v ++ rest). auto.
    + exists (r :: v), rest. split; auto. split; auto. cbn [forallb]. now rewrite E, V.
Qed.
Lemma setting_total : forall line rs, Forall rune_text rs -> exists toks k, lua_setting line rs toks k.
Proof.
  intros line rs F. destruct (gap_split rs F) as (g & rest & -> & G & W). destruct (word_split rest) as (v & r & -> & V & W').
  destruct r as [|w r].
  - rewrite app_nil_r. eexists _, _. now apply ls_none.
  - assert (N : v <> []). { intros ->. cbn [app] in W. congruence. }
    apply Forall_app in F as [_ F]. apply Forall_app in F as [_ F]. inversion F as [|? ? _ F']; subst.
    destruct (block_total (line + newlines (concat_str g) + newlines w) r F') as (t & k & B). exists (Tok (concat_str v) (line + newlines (concat_str g) + newlines w) false None :: t), (List.length (g ++ v ++ [w]) + k). exact (ls_var line g v w r t k G N V W' B).
Qed.
Lemma lua_lex_exact : forall name line rs toks n, Forall rune_text rs -> (lua_reads name line rs toks n <-> lua_lex name line rs = (toks, n)).
Proof.
  intros name line rs toks n F. unfold lua_reads, lua_lex, set_by_lua_block. destruct (String.eqb_spec name "set_by_lua_block") as [->|N].
  - split.
    + intros [H _]. apply setting_sound; auto.
    + intros H. split; [|congruence]. intros _. destruct (setting_total line rs F) as (t & k & B). pose proof (setting_sound _ _ _ _ F B) as X. rewrite H in X. inversion X; subst. exact B.
  - split.
    + intros [_ H]. exact (block_sound _ _ _ _ F (H N) 0).
    + intros H. split; [congruence|]. intros _. destruct (block_total line rs F) as (t & k & B). pose proof (block_sound _ _ _ _ F B 0) as X. rewrite H in X. inversion X; subst. exact B.
Qed.
Lemma lua_registered : forall name, assoc name lua_lexers <> None <-> exists p, In p lua_phases /\ name = p ++ "_by_lua_block".
Proof.
  intros name. assert (E : lua_names = map (fun p => p ++ "_by_lua_block") lua_phases) by reflexivity. split.
  - intros H. destruct (assoc name lua_lexers) as [f|] eqn:A; [|congruence]. apply assoc_In, (in_map fst) in A. rewrite lua_keys in A. cbn [fst] in A.
    rewrite E in A. apply in_map_iff in A as (p & <- & I). now exists p.
  - intros (p & I & ->). assert (X : In (p ++ "_by_lua_block") lua_names) by (rewrite E; exact (in_map (fun p => p ++ "_by_lua_block") lua_phases p I)). apply lua_assoc in X as [-> _]. discriminate.
Qed.
Lemma lua_lexers_exact : forall name f line rs toks n, assoc name lua_lexers = Some f -> Forall (fun r => one_char r = true) rs ->
  (lua_reads name line rs toks n <-> f name line rs = (toks, n)).
Proof.
  intros name f line rs toks n A F. apply assoc_In in A as A1. apply (in_map fst) in A1. rewrite lua_keys in A1. cbn [fst] in A1. apply lua_assoc in A1 as [A1 _].
  rewrite A in A1. inversion A1; subst. apply lua_lex_exact. eapply Forall_impl; [|exact F]. intros r. apply one_char_text.
Qed.
