(** The Lua lexer on balanced blocks. *)
From Verif Require Export ArgProofs SpecLua.
Local Open Scope string_scope.

Lemma scan_gap : forall g b, gap_ok g = true -> scan_runes (concat_str g ++ b) = (g ++ scan_runes b)%list.
Proof.
  induction g as [|r g IH]; intros b G; auto. unfold gap_ok in G. cbn [forallb] in G. apply andb_true_iff in G as [G1 G2]. apply andb_true_iff in G1 as [O _]. apply one_char_text in O.
  cbn [concat_str]. rewrite app_assoc_s, scan_runes_app_valid by now apply rune_valid. rewrite rune_scan_runes by auto. cbn [app]. now rewrite IH.
Qed.
Lemma gap_cons : forall r g, gap_ok (r :: g) = true -> rune_text r /\ white r = true /\ gap_ok g = true.
Proof.
  intros r g G. unfold gap_ok in G. cbn [forallb] in G. apply andb_true_iff in G as [G1 G2]. apply andb_true_iff in G1 as [O W]. split; [now apply one_char_text|auto].
Qed.
Lemma eol_newlines : forall r, rune_text r -> (if is_eol r then 1 else 0)%Z = newlines r.
Proof. intros r T. rewrite <- count_scan, rune_scan_runes by auto. unfold count_eol. cbn [fold_right]. now destruct (is_eol r). Qed.
Lemma line_step : forall r (line : Z), rune_text r -> (if is_eol r then line + 1 else line)%Z = (line + newlines r)%Z.
Proof. intros r line T. rewrite <- eol_newlines by auto. destruct (is_eol r); lia. Qed.
Lemma body_ok : forall rs tok d q inq qt line n rest, Forall rune_text rs -> balanced d q rs = true ->
  (q = "" /\ inq = false \/ q <> "" /\ In q quotes /\ inq = true /\ qt = q) ->
  let l2 := (line + count_eol rs)%Z in
  lua_body tok (1 + Z.of_nat d) inq qt line n (rs ++ "}" :: rest) =
    ([Tok (tok ++ concat_str rs) l2 true None; Tok ";" l2 false None], n + List.length rs + 1).
Proof.
  induction rs as [|r rs IH]; intros tok d q inq qt line n rest F B Q; cbv zeta.
  - cbn [balanced] in B. apply andb_true_iff in B as [B1 B2]. apply Nat.eqb_eq in B1. apply String.eqb_eq in B2. subst.
    destruct Q as [[_ ->]|[Q _]]; [|congruence]. cbn [concat_str List.length]. rewrite app_nil_r_s, !Nat.add_0_r. unfold count_eol. cbn [fold_right]. rewrite !Z.add_0_r.
    replace (n + 1) with (S n) by lia. reflexivity.
  - inversion F as [|? ? T F']; subst. cbn [app lua_body concat_str List.length]. rewrite line_step by auto.
    assert (L : (line + newlines r + count_eol rs = line + count_eol (r :: rs))%Z).
    { unfold count_eol. cbn [fold_right]. rewrite <- (eol_newlines r T). destruct (is_eol r); lia. }
    assert (NN : S n + List.length rs + 1 = n + S (List.length rs) + 1) by lia.
    assert (TT : tok ++ r ++ concat_str rs = (tok ++ r) ++ concat_str rs) by now rewrite app_assoc_s.
    rewrite TT, <- NN, <- L. cbn [balanced] in B.
    assert (D : (1 + Z.of_nat d =? 0)%Z = false) by (apply Z.eqb_neq; lia).
    destruct Q as [[-> ->]|(QN & QI & -> & ->)].
    + cbn [negb String.eqb andb] in B |- *. rewrite !andb_true_r. unfold mem, quotes in B. cbn [existsb] in B. rewrite orb_false_r in B.
      destruct ((r =? s_dq) || (r =? s_sq))%bool eqn:EQ.
      * assert (R : (r =? "{") = false /\ (r =? "}") = false /\ In r quotes /\ r <> "").
        { apply orb_true_iff in EQ as [X|X]; apply String.eqb_eq in X; subst r; (split; [reflexivity|split; [reflexivity|split; [cbn; auto|discriminate]]]). }
        destruct R as (R1 & R2 & R3 & R4). rewrite R1, R2. apply (IH _ d r); auto.
      * destruct (r =? "{") eqn:E1.
        { assert (X : (1 <? 1 + Z.of_nat d + 1)%Z = true) by (apply Z.ltb_lt; lia). rewrite X. replace (1 + Z.of_nat d + 1)%Z with (1 + Z.of_nat (S d))%Z by lia.
          apply (IH _ (S d) ""); auto. }
        destruct (r =? "}") eqn:E2.
        { destruct d as [|d]; [discriminate|]. assert (X : (1 + Z.of_nat (S d) - 1 <? 0)%Z = false) by (apply Z.ltb_ge; lia). rewrite X.
          assert (X1 : (0 <? 1 + Z.of_nat (S d) - 1)%Z = true) by (apply Z.ltb_lt; lia). rewrite X1.
          assert (X2 : (1 + Z.of_nat (S d) - 1 =? 0)%Z = false) by (apply Z.eqb_neq; lia). rewrite X2.
          replace (1 + Z.of_nat (S d) - 1)%Z with (1 + Z.of_nat d)%Z by lia. apply (IH _ d ""); auto. }
        rewrite D, andb_false_r. apply (IH _ d ""); auto.
    + assert (QE : negb (q =? "") = true) by (now rewrite (proj2 (String.eqb_neq q "") QN)). rewrite QE in B. cbn [negb]. rewrite !andb_false_r.
      rewrite D, andb_false_r. destruct ((r =? s_dq) || (r =? s_sq))%bool eqn:EQ.
      * destruct (r =? q) eqn:E; [apply (IH _ d ""); auto|apply (IH _ d q); auto].
      * assert (X : (r =? q) = false). { destruct (String.eqb_spec r q) as [->|]; auto. exfalso. destruct QI as [<- | [<- | []]]; discriminate EQ. }
        rewrite X in B. apply (IH _ d q); auto.
Qed.
Lemma open_ok : forall g rs rest line n, gap_ok g = true -> Forall rune_text rs -> balanced 0 "" rs = true ->
  let l2 := (line + newlines (concat_str g) + count_eol rs)%Z in
  lua_open line n (g ++ "{" :: rs ++ "}" :: rest) =
    ([Tok (concat_str rs) l2 true None; Tok ";" l2 false None], n + List.length g + 1 + List.length rs + 1).
Proof.
  induction g as [|r g IH]; intros rs rest line n G F B; cbv zeta.
  - cbn [app lua_open concat_str]. change (is_eol "{") with false. change (is_space "{") with false. cbv iota. cbn [String.eqb Ascii.eqb Bool.eqb].
    pose proof (body_ok rs "" 0 "" false "" line (S n) rest F B) as X. cbn [Z.of_nat Z.add] in X. cbv zeta in X. rewrite X by auto. change (newlines "") with 0%Z. rewrite Z.add_0_r. cbn [List.length String.append]. f_equal. lia.
  - destruct (gap_cons r g G) as (T & W & G'). cbn [app lua_open concat_str List.length]. rewrite line_step, white_space, W by auto. rewrite IH by auto.
    rewrite newlines_app. f_equal; [|lia]. replace (line + newlines r + newlines (concat_str g))%Z with (line + (newlines r + newlines (concat_str g)))%Z by lia. reflexivity.
Qed.
Lemma arg_skip : forall g rs line n, gap_ok g = true ->
  lua_arg "" line n (g ++ rs) = lua_arg "" (line + newlines (concat_str g)) (n + List.length g) rs.
Proof.
  induction g as [|r g IH]; intros rs line n G.
  - cbn [app concat_str List.length]. change (newlines "") with 0%Z. now rewrite Z.add_0_r, Nat.add_0_r.
  - destruct (gap_cons r g G) as (T & W & G'). cbn [app lua_arg concat_str List.length]. rewrite line_step, white_space, W by auto. cbn [str_nonempty String.eqb negb]. rewrite IH by auto.
    rewrite newlines_app, Z.add_assoc. f_equal. lia.
Qed.
Lemma arg_read : forall rs arg r0 rest line n, Forall rune_text rs -> forallb (fun r => negb (white r)) rs = true -> rune_text r0 -> white r0 = true -> arg <> "" \/ rs <> [] ->
  count_eol rs = 0%Z ->
  lua_arg arg line n (rs ++ r0 :: rest) =
    (let '(ts, m) := lua_open (line + newlines r0) (n + List.length rs + 1) rest in (Tok (arg ++ concat_str rs) (line + newlines r0) false None :: ts, m)).
Proof.
  induction rs as [|r rs IH]; intros arg r0 rest line n F W T0 W0 N CE.
  - destruct N as [N|N]; [|congruence]. cbn [app lua_arg concat_str List.length]. rewrite line_step, white_space, W0 by auto.
    assert (X : str_nonempty arg = true) by (unfold str_nonempty; destruct arg; [congruence|reflexivity]). rewrite X, app_nil_r_s. replace (n + 0 + 1) with (S n) by lia. reflexivity.
  - inversion F as [|? ? T F']; subst. cbn [forallb] in W. apply andb_true_iff in W as [W1 W2]. apply negb_true_iff in W1.
    assert (CN : forall l, (0 <= count_eol l)%Z) by (induction l as [|x l IHl]; unfold count_eol in *; cbn [fold_right]; [lia|destruct (is_eol x); lia]).
    assert (CE' : is_eol r = false /\ count_eol rs = 0%Z). { unfold count_eol in *. cbn [fold_right] in CE. destruct (is_eol r); auto. specialize (CN rs). unfold count_eol in CN. lia. }
    destruct CE' as [EO CE']. cbn [app lua_arg concat_str List.length]. rewrite EO, white_space, W1 by auto. rewrite (IH (arg ++ r) r0 rest line (S n)); auto.
    + rewrite app_assoc_s. replace (S n + List.length rs + 1) with (n + S (List.length rs) + 1) by lia. reflexivity.
    + left. destruct T as [T _]. destruct arg; [exact T|discriminate].
Qed.
Lemma skipn_exact : forall (a b : list string) k, k = List.length a -> skipn k (a ++ b) = b /\ firstn k (a ++ b) = a.
Proof. intros a b k ->. rewrite skipn_app, skipn_all, Nat.sub_diag, firstn_app, firstn_all, Nat.sub_diag. cbn. now rewrite app_nil_r. Qed.
Lemma gap_count : forall g, gap_ok g = true -> count_eol g = newlines (concat_str g).
Proof.
  induction g as [|r g IH]; intros G; auto. destruct (gap_cons r g G) as (T & W & G'). cbn [concat_str]. rewrite newlines_app, <- IH, <- (eol_newlines r T) by auto.
  unfold count_eol. cbn [fold_right]. destruct (is_eol r); lia.
Qed.
Lemma name_gap_inv : forall g, name_gap g = true -> gap_ok g = true /\ core g <> [].
Proof. intros g H. unfold name_gap in H. apply andb_true_iff in H as [A B]. split; auto. intros E. rewrite E in B. discriminate. Qed.

(** Names of Lua directives: all simple, none starts another. *)
Lemma lua_assoc : forall n, In n lua_names -> assoc n lua_lexers = Some lua_lex /\ simple_name n = true /\ n <> "".
Proof.
  intros n H. assert (X : forallb (fun n => (simple_name n && negb (n =? ""))%bool) lua_names = true) by (vm_compute; reflexivity).
  rewrite forallb_forall in X. specialize (X n H). apply andb_true_iff in X as [X Y]. apply negb_true_iff, String.eqb_neq in Y.
  split; [|auto]. unfold lua_names in H. repeat (destruct H as [<- | H]; [reflexivity|]). destruct H.
Qed.
Lemma lua_keys : map fst lua_lexers = lua_names.
Proof. reflexivity. Qed.
Lemma lua_no_shorter : forall n, In n lua_names -> no_shorter lua_lexers n.
Proof.
  intros n H a b E NA NB. destruct (assoc a lua_lexers) eqn:A; auto. exfalso.
  assert (AI : In a lua_names) by (rewrite <- lua_keys; apply assoc_in_keys; now rewrite A).
  assert (X : forallb (fun n => forallb (fun a => ((n =? a) || negb (prefix a n))%bool) lua_names) lua_names = true) by (vm_compute; reflexivity).
  rewrite forallb_forall in X. specialize (X n H). rewrite forallb_forall in X. specialize (X a AI). apply orb_true_iff in X as [X|X].
  - apply String.eqb_eq in X. subst n. apply NB. destruct b as [|c b]; auto. exfalso. apply (f_equal slen) in X. rewrite app_slen in X. cbn in X. lia.
  - rewrite E, prefix_app in X. discriminate.
Qed.
Lemma block_run : forall n g B R line start dup depth quote, In n lua_names -> n <> set_by_lua_block -> name_gap g = true ->
  Forall rune_text B -> balanced 0 "" B = true ->
  let l2 := (line + newlines (concat_str g) + count_eol B)%Z in
  lex_run lua_lexers 0 (Lst "" line start SkipSpace false dup false depth quote true) (chars n ++ g ++ "{" :: B ++ "}" :: R) =
    (Tok n line false None :: Tok (concat_str B) l2 true None :: Tok ";" l2 false None :: lex_from lua_lexers l2 line depth R)%list.
Proof.
  intros n g B R line start dup depth quote IN NS G F BL l2. destruct (lua_assoc n IN) as (A & SN & NE). destruct (name_gap_inv g G) as [GO CO].
  rewrite name_run by (auto using lua_no_shorter). destruct (trigger_gap lua_lexers n lua_lex g line line depth quote ("{" :: B ++ "}" :: R) A NE GO CO) as (w & g' & _ & NL & G' & E).
  rewrite E. clear E. assert (LX : lua_lex n (line + newlines w)%Z (g' ++ "{" :: B ++ "}" :: R)%list = lua_open (line + newlines w)%Z 0 (g' ++ "{" :: B ++ "}" :: R)%list).
  { unfold lua_lex. now rewrite (proj2 (String.eqb_neq _ _) NS). }
  rewrite LX, open_ok by auto. cbn [fst snd app].
  assert (L2 : (line + newlines w + newlines (concat_str g') + count_eol B)%Z = l2) by (unfold l2; lia). rewrite L2. do 3 f_equal.
  assert (SP : (g' ++ "{" :: B ++ "}" :: R = (g' ++ "{" :: B ++ ["}"]) ++ R)%list) by (rewrite <- !app_assoc; cbn [app]; rewrite <- app_assoc; reflexivity).
  assert (K : 0 + List.length g' + 1 + List.length B + 1 = List.length (g' ++ "{" :: B ++ ["}"])) by (rewrite app_length; cbn [List.length]; rewrite app_length; cbn [List.length]; lia).
  rewrite SP. destruct (skipn_exact (g' ++ "{" :: B ++ ["}"]) R _ K) as [-> ->].
  assert (C : count_eol (g' ++ "{" :: B ++ ["}"]) = (newlines (concat_str g') + count_eol B)%Z).
  { rewrite count_eol_app, gap_count by auto. change ("{" :: B ++ ["}"])%list with (["{"] ++ B ++ ["}"])%list. rewrite !count_eol_app. change (count_eol ["{"]) with 0%Z. change (count_eol ["}"]) with 0%Z. lia. }
  rewrite C. f_equal. unfold l2. lia.
Qed.
Lemma set_run : forall g V g2 B R line start dup depth quote, name_gap g = true -> Forall rune_text V -> forallb (fun r => negb (white r)) V = true -> V <> [] ->
  gap_ok g2 = true -> g2 <> [] -> Forall rune_text B -> balanced 0 "" B = true ->
  let l1 := (line + newlines (concat_str g))%Z in
  let l2 := (l1 + newlines (concat_str g2) + count_eol B)%Z in
  lex_run lua_lexers 0 (Lst "" line start SkipSpace false dup false depth quote true) (chars set_by_lua_block ++ g ++ V ++ g2 ++ "{" :: B ++ "}" :: R) =
    (Tok set_by_lua_block line false None :: Tok (concat_str V) (l1 + first_newline g2) false None ::
     Tok (concat_str B) l2 true None :: Tok ";" l2 false None :: lex_from lua_lexers l2 line depth R)%list.
Proof.
  intros g V g2 B R line start dup depth quote G FV WV NV G2 N2 F BL l1 l2. assert (IN : In set_by_lua_block lua_names) by (vm_compute; auto).
  destruct (lua_assoc _ IN) as (A & SN & NE). destruct (name_gap_inv g G) as [GO CO].
  rewrite name_run by (auto using lua_no_shorter).
  destruct (trigger_gap lua_lexers set_by_lua_block lua_lex g line line depth quote (V ++ g2 ++ "{" :: B ++ "}" :: R)%list A NE GO CO) as (w & g' & _ & NL & G' & E).
  rewrite E. clear E. change (lua_lex set_by_lua_block) with (fun line rs => lua_arg "" line 0 rs). cbv beta.
  assert (CV : count_eol V = 0%Z).
  { clear - FV WV. induction V as [|r V IH]; auto. inversion FV; subst. cbn [forallb] in WV. apply andb_true_iff in WV as [W1 W2]. unfold count_eol in *. cbn [fold_right].
    rewrite IH by auto. destruct (is_eol r) eqn:EO; auto. apply eol_rune in EO; auto. subst r. discriminate W1. }
  destruct g2 as [|r0 g2]; [congruence|]. destruct (gap_cons r0 g2 G2) as (T0 & W0 & G2').
  assert (AR : lua_arg "" (line + newlines w) 0 (g' ++ V ++ (r0 :: g2) ++ "{" :: B ++ "}" :: R) =
    ([Tok (concat_str V) (l1 + newlines r0) false None; Tok (concat_str B) l2 true None; Tok ";" l2 false None], List.length g' + List.length V + 1 + List.length g2 + 1 + List.length B + 1)).
  { rewrite arg_skip by auto. cbn [app]. rewrite arg_read by auto. rewrite open_ok by auto.
    assert (L1 : (line + newlines w + newlines (concat_str g') = l1)%Z) by (unfold l1; lia). rewrite L1. cbn [String.append].
    assert (L2 : (l1 + newlines r0 + newlines (concat_str g2) + count_eol B = l2)%Z) by (unfold l2; cbn [concat_str]; rewrite newlines_app; lia). rewrite L2. f_equal. }
  rewrite AR. cbn [fst snd app]. cbn [first_newline]. do 4 f_equal.
  assert (SP : (g' ++ V ++ r0 :: g2 ++ "{" :: B ++ "}" :: R = (g' ++ V ++ r0 :: g2 ++ "{" :: B ++ ["}"]) ++ R)%list) by (rewrite <- !app_assoc; cbn [app]; rewrite <- !app_assoc; cbn [app]; rewrite <- app_assoc; reflexivity).
  assert (K : List.length g' + List.length V + 1 + List.length g2 + 1 + List.length B + 1 = List.length (g' ++ V ++ r0 :: g2 ++ "{" :: B ++ ["}"])).
  { rewrite !app_length; cbn [List.length]; rewrite !app_length; cbn [List.length]; rewrite app_length; cbn [List.length]. lia. }
  rewrite SP. destruct (skipn_exact (g' ++ V ++ r0 :: g2 ++ "{" :: B ++ ["}"]) R _ K) as [-> ->].
  assert (C : count_eol (g' ++ V ++ r0 :: g2 ++ "{" :: B ++ ["}"]) = (newlines (concat_str g') + newlines (concat_str (r0 :: g2)) + count_eol B)%Z).
  { change (r0 :: g2 ++ "{" :: B ++ ["}"])%list with ((r0 :: g2) ++ ["{"] ++ B ++ ["}"])%list. rewrite !count_eol_app, (gap_count g' G'), (gap_count (r0 :: g2) G2), CV. change (count_eol ["{"]) with 0%Z. change (count_eol ["}"]) with 0%Z. lia. }
  rewrite C. f_equal. unfold l2, l1. lia.
Qed.
Lemma place_run : forall ext P ts n b, directive_place P ts -> calm ext None ts -> n <> "" -> forallb name_char (list_of_str n) = true ->
  exists start dup quote, lex ext (P ++ n ++ b) =
    (ts ++ lex_run ext 0 (Lst "" (1 + newlines P) start SkipSpace false dup false (net ts) quote true) (chars n ++ scan_runes b))%list.
Proof.
  intros ext P ts n b DP U N F. destruct (place_state P ts DP) as (start & dup & quote & PG). exists start, dup, quote.
  unfold lex, lex_runes. rewrite <- (scan_name n b F). destruct n as [|c n]; [congruence|]. cbn [list_of_str forallb] in F. apply andb_true_iff in F as [F1 F2].
  cbn [String.append]. rewrite scan_ascii_app by now apply name_units. now apply (pgo_calm ext P _ _ _ PG).
Qed.
Lemma simple_inv : forall n, simple_name n = true -> n <> "" /\ forallb name_char (list_of_str n) = true.
Proof. intros n H. unfold simple_name in H. apply andb_true_iff in H as [A B]. apply negb_true_iff, String.eqb_neq in A. auto. Qed.
Lemma invoked : forall ext P ts n f w rest, directive_place P ts -> calm ext None ts -> assoc n ext = Some f -> simple_name n = true -> no_shorter ext n ->
  one_char w = true -> white w = true -> is_cr w = false ->
  let start := (1 + newlines P)%Z in
  let line := (start + newlines w)%Z in
  let res := f n line (scan_runes rest) in
  lex ext (P ++ n ++ w ++ rest) =
    (ts ++ Tok n start false None :: fst res ++
     lex_from ext (line + count_eol (firstn (snd res) (scan_runes rest))) start (net ts) (skipn (snd res) (scan_runes rest)))%list.
Proof.
  intros ext P ts n f w rest DP U A SN NS O W C start line res. destruct (simple_inv n SN) as [N F]. apply one_char_text in O.
  destruct (place_run ext P ts n (w ++ rest) DP U N F) as (st & dup & quote & ->). f_equal. rewrite name_run by auto.
  rewrite scan_runes_app_valid by now apply rune_valid. rewrite rune_scan_runes by auto. cbn [app]. rewrite (trigger ext n f) by auto. reflexivity.
Qed.
Lemma code_runes : forall body rest, lua_code body = true -> Forall rune_text (scan_runes body) /\ balanced 0 "" (scan_runes body) = true /\
  concat_str (scan_runes body) = body /\ count_eol (scan_runes body) = newlines body /\
  scan_runes ("{" ++ body ++ "}" ++ rest) = ("{" :: scan_runes body ++ "}" :: scan_runes rest)%list.
Proof.
  intros body rest H. unfold lua_code in H. apply andb_true_iff in H as [V B]. split; [apply LexFacts.scan_texts|]. split; auto. split; [|split; [apply count_scan|]].
  - rewrite <- (unscan_scan body) at 2. unfold scan_runes, unscan. f_equal. apply map_ext_in. intros i I. unfold it_text. unfold valid_utf8 in V. rewrite forallb_forall in V. now rewrite (V i I).
  - cbn [String.append]. rewrite scan_ascii_cons by reflexivity. rewrite scan_ascii_app, scan_ascii_cons by reflexivity. reflexivity.
Qed.
Lemma var_runes : forall v rest, lua_var v = true -> Forall rune_text (scan_runes v) /\ forallb (fun r => negb (white r)) (scan_runes v) = true /\
  scan_runes v <> [] /\ concat_str (scan_runes v) = v /\ scan_runes (v ++ rest) = (scan_runes v ++ scan_runes rest)%list.
Proof.
  intros v rest H. unfold lua_var in H. apply andb_true_iff in H as [H W]. apply andb_true_iff in H as [V N]. apply negb_true_iff, String.eqb_neq in N.
  split; [apply LexFacts.scan_texts|]. split; auto.
  assert (C : concat_str (scan_runes v) = v) by (rewrite <- (unscan_scan v) at 2; unfold scan_runes, unscan; f_equal; apply map_ext_in; intros i I; unfold it_text; unfold valid_utf8 in V; rewrite forallb_forall in V; now rewrite (V i I)).
  split; [intros E; rewrite E in C; now apply N|]. split; auto. now apply scan_runes_app_valid.
Qed.
Lemma lua_block : forall P ts n g body rest, directive_place P ts -> calm lua_lexers None ts -> In n lua_names -> n <> set_by_lua_block ->
  name_gap g = true -> lua_code body = true ->
  let l1 := (1 + newlines P)%Z in
  let l2 := (l1 + newlines (concat_str g) + newlines body)%Z in
  lex lua_lexers (P ++ n ++ concat_str g ++ "{" ++ body ++ "}" ++ rest) =
    (ts ++ [Tok n l1 false None; Tok body l2 true None; Tok ";" l2 false None] ++ lex_from lua_lexers l2 l1 (net ts) (scan_runes rest))%list.
Proof.
  intros P ts n g body rest DP U IN NS G B l1 l2. destruct (lua_assoc n IN) as (A & SN & NE). destruct (simple_inv n SN) as [N F].
  destruct (place_run lua_lexers P ts n (concat_str g ++ "{" ++ body ++ "}" ++ rest) DP U N F) as (st & dup & quote & ->). f_equal.
  destruct (code_runes body rest B) as (FB & BB & CB & EB & SB). destruct (name_gap_inv g G) as [GO CO]. rewrite scan_gap, SB by auto.
  rewrite block_run by auto. rewrite CB, EB. reflexivity.
Qed.
Lemma lua_set : forall P ts g v g2 body rest, directive_place P ts -> calm lua_lexers None ts -> name_gap g = true -> lua_var v = true ->
  gap_ok g2 = true -> g2 <> [] -> lua_code body = true ->
  let l1 := (1 + newlines P)%Z in
  let lv := (l1 + newlines (concat_str g))%Z in
  let l2 := (lv + newlines (concat_str g2) + newlines body)%Z in
  lex lua_lexers (P ++ set_by_lua_block ++ concat_str g ++ v ++ concat_str g2 ++ "{" ++ body ++ "}" ++ rest) =
    (ts ++ [Tok set_by_lua_block l1 false None; Tok v (lv + first_newline g2) false None; Tok body l2 true None; Tok ";" l2 false None] ++
     lex_from lua_lexers l2 l1 (net ts) (scan_runes rest))%list.
Proof.
  intros P ts g v g2 body rest DP U G V G2 N2 B l1 lv l2. assert (IN : In set_by_lua_block lua_names) by (vm_compute; auto).
  destruct (lua_assoc _ IN) as (A & SN & NE). destruct (simple_inv _ SN) as [N F].
  destruct (place_run lua_lexers P ts set_by_lua_block (concat_str g ++ v ++ concat_str g2 ++ "{" ++ body ++ "}" ++ rest) DP U N F) as (st & dup & quote & ->). f_equal.
  destruct (code_runes body rest B) as (FB & BB & CB & EB & SB). destruct (name_gap_inv g G) as [GO CO].
  destruct (var_runes v (concat_str g2 ++ "{" ++ body ++ "}" ++ rest) V) as (FV & WV & NV & CV & SV).
  rewrite scan_gap, SV, scan_gap, SB by auto. rewrite set_run by auto. rewrite CB, CV, EB. reflexivity.
Qed.
(** ** One block behind another *)
Lemma skip_gap : forall ext g line start dup depth quote rs, gap_ok g = true ->
  lex_run ext 0 (Lst "" line start SkipSpace false dup false depth quote true) (g ++ rs) =
  lex_run ext 0 (Lst "" (line + newlines (concat_str g)) start SkipSpace false dup false depth quote true) rs.
Proof.
  induction g as [|r g IH]; intros line start dup depth quote rs G. { cbn [app concat_str]. change (newlines "") with 0%Z. now rewrite Z.add_0_r. }
  destruct (gap_cons r g G) as (T & W & G'). cbn [app concat_str]. rewrite newlines_app. destruct (is_cr r) eqn:C.
  { unfold is_cr in C. apply String.eqb_eq in C. subst r. rewrite cr_run, IH by auto. reflexivity. }
  rewrite run_plain by (left; reflexivity). rewrite step0_unit; auto.
  2: { apply String.eqb_neq. intros ->. discriminate W. }
  unfold ustep, usw. assert (R : lex_read (Lst "" line start SkipSpace false dup false depth quote true) r = Lst "" (line + newlines r) start SkipSpace false dup false depth quote true).
  { unfold lex_read. rewrite <- eol_newlines by auto. destruct (is_eol r); [reflexivity|]. now rewrite Z.add_0_r. }
  rewrite R. unfold lex_switch. cbn [l_st]. rewrite white_space, W by auto. cbn [r_ctl r_toks r_st app]. rewrite IH by auto. rewrite Z.add_assoc. reflexivity.
Qed.
Lemma lua_next : forall line start depth g0 n g body rest, gap_ok g0 = true -> In n lua_names -> n <> set_by_lua_block ->
  name_gap g = true -> lua_code body = true ->
  let l1 := (line + newlines (concat_str g0))%Z in
  let l2 := (l1 + newlines (concat_str g) + newlines body)%Z in
  lex_from lua_lexers line start depth (scan_runes (concat_str g0 ++ n ++ concat_str g ++ "{" ++ body ++ "}" ++ rest)) =
    ([Tok n l1 false None; Tok body l2 true None; Tok ";" l2 false None] ++ lex_from lua_lexers l2 l1 depth (scan_runes rest))%list.
Proof.
  intros line start depth g0 n g body rest G0 IN NS G B l1 l2. destruct (lua_assoc n IN) as (A & SN & NE). destruct (simple_inv n SN) as [N F].
  destruct (code_runes body rest B) as (FB & BB & CB & EB & SB). destruct (name_gap_inv g G) as [GO CO].
  rewrite scan_gap, scan_name, scan_gap, SB by auto. unfold lex_from at 1. rewrite skip_gap, block_run by auto. rewrite CB, EB. reflexivity.
Qed.
(** ** Building and lexing back *)
Lemma lua_build_lex : forall n body, In n lua_names -> n <> set_by_lua_block -> lua_code body = true -> forall d, d_name d = n -> d_args d = [body] ->
  lex lua_lexers (lua_build d) = [Tok n 1 false None; Tok body (1 + newlines body) true None; Tok ";" (1 + newlines body) false None].
Proof.
  intros n body IN NS B d E1 E2. unfold lua_build. rewrite E1, E2, (proj2 (String.eqb_neq _ _) NS).
  assert (DP : directive_place "" []).
  { repeat split; try constructor. - exists []. split; [constructor|reflexivity]. - exists 1%Z, []. split; [constructor|reflexivity]. }
  assert (U : calm lua_lexers None []) by exact I.
  pose proof (lua_block "" [] n [" "] body "" DP U IN NS eq_refl B) as X. cbn [String.append concat_str] in X. cbn [String.append]. rewrite X. unfold lex_from. cbn [scan_runes scan map scan_from lex_run lex_finish].
  change (newlines "") with 0%Z. change (newlines " ") with 0%Z. rewrite !Z.add_0_r. reflexivity.
Qed.
Lemma lua_build_set : forall v body, lua_var v = true -> lua_code body = true -> forall d, d_name d = set_by_lua_block -> d_args d = [v; body] ->
  lex lua_lexers (lua_build d) = [Tok set_by_lua_block 1 false None; Tok v 1 false None; Tok body (1 + newlines body) true None; Tok ";" (1 + newlines body) false None].
Proof.
  intros v body V B d E1 E2. unfold lua_build. rewrite E1, E2, String.eqb_refl.
  assert (DP : directive_place "" []).
  { repeat split; try constructor. - exists []. split; [constructor|reflexivity]. - exists 1%Z, []. split; [constructor|reflexivity]. }
  assert (U : calm lua_lexers None []) by exact I.
  assert (N2 : [" "] <> []) by discriminate.
  pose proof (lua_set "" [] [" "] v [" "] body "" DP U eq_refl V eq_refl N2 B) as X. cbn [String.append concat_str] in X. cbn [String.append]. rewrite X. unfold lex_from. cbn [scan_runes scan map scan_from lex_run lex_finish].
  cbn [first_newline]. change (newlines "") with 0%Z. change (newlines " ") with 0%Z. rewrite !Z.add_0_r. reflexivity.
Qed.
