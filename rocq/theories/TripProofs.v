(** Through JSON to files. *)
From Verif Require Export SpecTrip JsonDirs BuildFacts SpecFormat.
From Verif Require Import FormatProofs ReadProofs.
From Verif Require Export Lua.
Local Open Scope string_scope.

Notation shed := (SpecJson.kept (fun s => s)).
Lemma slen_cat : forall a b, slen (a ++ b) = slen a + slen b.
Proof. induction a as [|c a IH]; intros b; cbn; auto. Qed.
(** Text [t'] in place of [t]: the same, or at least three bytes shorter. *)
Definition shorter (b : bool) (t' t : string) : Prop := if b then slen t' + 3 <= slen t else t' = t.
Definition both (b : bool) (t' t : option string) : Prop := exists u' u, t' = Some u' /\ t = Some u /\ shorter b u' u.

Lemma loses_eq : forall o d, loses o d = if is_comment d then false
  else match assoc (enquote (b_print o) (d_name d)) (b_ext o) with
       | Some _ => false
       | None => match d_block d with None => false | Some [] => true | Some l => existsb (loses o) l end
       end.
Proof. intros o []. reflexivity. Qed.
Lemma stmt_eq : forall o d depth, build_stmt o depth d = if is_comment d then Some ("#" ++ comment_of d) else match d_block d with None => Some (build_head o d ++ ";") | Some b =>
      obind (build_loop o (depth + 1) (build_stmt o (depth + 1)) true (d_line d) b) (fun body => obind (margin o depth) (fun m => Some (build_head o d ++ " {" ++ body ++ s_nl ++ m ++ "}"))) end.
Proof. intros o []. reflexivity. Qed.

Lemma shorter_le : forall b t' t, shorter b t' t -> slen t' <= slen t.
Proof. intros [] t' t S; cbn in S; subst; lia. Qed.
Lemma shorter_app : forall b c x t' t y r' r, shorter b t' t -> shorter c r' r -> shorter (b || c) (x ++ t' ++ y ++ r') (x ++ t ++ y ++ r).
Proof.
  intros b c x t' t y r' r S R. pose proof (shorter_le _ _ _ S). pose proof (shorter_le _ _ _ R).
  destruct b, c; cbn [orb shorter] in *; subst; auto; rewrite !slen_cat; lia.
Qed.

Section Trip.
Variable o : bopts.
Hypothesis I : indent_ok o.
Hypothesis B : blind o.

Lemma loop_trip : forall depth ds, (forall d, In d ds -> assoc (enquote (b_print o) (d_name d)) (b_ext o) = None ->
    both (loses o d) (build_stmt o (Z.of_nat depth) (shed d)) (build_stmt o (Z.of_nat depth) d)) -> forall nl last,
  both (existsb (loses o) ds) (build_loop o (Z.of_nat depth) (build_stmt o (Z.of_nat depth)) nl last (map shed ds))
    (build_loop o (Z.of_nat depth) (build_stmt o (Z.of_nat depth)) nl last ds).
Proof.
  intros depth. induction ds as [|d ds IH]; intros H nl last; [exists "", ""; now repeat split|].
  cbn [map build_loop existsb]. destruct (kept_fields d) as (K1 & K2 & K3 & K4 & K5).
  assert (IC : is_comment (shed d) = is_comment d) by (unfold is_comment; now rewrite K1, K4).
  assert (CO : comment_of (shed d) = comment_of d) by (unfold comment_of; now rewrite K4).
  rewrite IC, CO, K1, K2. assert (IH' := IH (fun x J => H x (or_intror J))).
  destruct (_ && _)%bool eqn:E.
  - apply andb_true_iff in E as [_ E]. rewrite loses_eq, E. destruct (IH' true last) as (u' & u & -> & -> & S). cbn [obind].
    eexists _, _. split; [reflexivity|]. split; [reflexivity|]. apply (shorter_app false _ "" " #" " #" (comment_of d)); auto. reflexivity.
  - destruct I as [I1 I2]. rewrite margin_blanks by auto. cbn [obind]. set (pre := _ ++ blanks _ _ _). destruct (assoc _ _) as [f|] eqn:A.
    + assert (L : loses o d = false) by (rewrite loses_eq, A; now destruct (is_comment d)). rewrite L. rewrite (B _ _ d (assoc_In _ _ _ _ A)).
      destruct (IH' true last) as (u' & u & -> & -> & S). cbn [obind]. eexists _, _. split; [reflexivity|]. split; [reflexivity|].
      apply (shorter_app false _ "" pre pre (f d)); auto. reflexivity.
    + destruct (H d (or_introl eq_refl) A) as (s' & s & -> & -> & S1). destruct (IH' true (d_line d)) as (u' & u & -> & -> & S2). cbn [obind].
      eexists _, _. split; [reflexivity|]. split; [reflexivity|]. apply (shorter_app _ _ pre s' s ""); auto.
Qed.
Lemma stmt_trip : forall d depth, assoc (enquote (b_print o) (d_name d)) (b_ext o) = None ->
  both (loses o d) (build_stmt o (Z.of_nat depth) (shed d)) (build_stmt o (Z.of_nat depth) d).
Proof.
  induction d as [d IH] using dir_ind'. intros depth A. destruct (kept_fields d) as (K1 & K2 & K3 & K4 & K5). rewrite !stmt_eq, loses_eq, A.
  assert (IC : is_comment (shed d) = is_comment d) by (unfold is_comment; now rewrite K1, K4).
  assert (CO : comment_of (shed d) = comment_of d) by (unfold comment_of; now rewrite K4).
  assert (HD : build_head o (shed d) = build_head o d) by (unfold build_head; now rewrite K1, K3).
  rewrite IC, CO, HD, K2, K5. destruct (is_comment d); [now eexists _, _|]. destruct I as [I1 I2].
  destruct (d_block d) as [[|e b]|] eqn:E; cbn [option_map non_empty map].
  - cbn [build_loop obind]. rewrite margin_blanks by auto. cbn [obind]. eexists _, _. split; [reflexivity|]. split; [reflexivity|].
    cbn [shorter]. rewrite !slen_cat. change (slen ";") with 1. change (slen " {") with 2. change (slen "") with 0. change (slen s_nl) with 1. change (slen "}") with 1. lia.
  - change (shed e :: map shed b) with (map shed (e :: b)). replace (Z.of_nat depth + 1)%Z with (Z.of_nat (S depth)) by lia.
    cbn [opt_list] in IH. rewrite Forall_forall in IH. destruct (loop_trip (S depth) (e :: b) (fun d J => IH d J (S depth)) true (d_line d)) as (u' & u & -> & -> & S).
    cbn [obind]. rewrite margin_blanks by auto. cbn [obind]. eexists _, _. split; [reflexivity|]. split; [reflexivity|].
    rewrite <- (orb_false_r (existsb _ _)).
    rewrite <- !(app_assoc_s (build_head o d) " {"). apply shorter_app; auto. reflexivity.
  - eexists _, _. split; [reflexivity|]. split; reflexivity.
Qed.
End Trip.

Lemma chomp_len : forall s, slen s <= slen (chomp s) + 1 /\ slen (chomp s) <= slen s.
Proof.
  intros s. unfold chomp. destruct (has_suffix s s_nl); [|lia].
  assert (T : forall n s, n <= slen s -> slen (take n s) = n). { induction n as [|n IHn]; intros [|c r] L; cbn in *; auto; [lia|]. f_equal. apply IHn. lia. }
  rewrite T; lia.
Qed.
Lemma trip_text : forall o ds, (0 <= b_indent o)%Z -> blind o ->
  exists t' t, build o (map shed ds) = Some t' /\ build o ds = Some t /\ (t' = t <-> existsb (loses o) ds = false) /\ slen t' <= slen t + 1.
Proof.
  intros o ds J B. set (o' := default_indent o). assert (I : indent_ok o').
  { unfold o', default_indent. split; cbn; destruct (Z.eqb_spec (b_indent o) 0); lia. }
  assert (B' : blind o') by exact B.
  destruct (loop_trip o' I B' 0 ds (fun d _ A => stmt_trip o' I B' d 0 A) false 0%Z) as (u' & u & E' & E & S).
  change (Z.of_nat 0) with 0%Z in *. unfold build, build_block. fold o'. rewrite E', E. cbn [obind]. eexists _, _. split; [reflexivity|]. split; [reflexivity|].
  assert (L : forall d, loses o' d = loses o d).
  { induction d as [d IH] using dir_ind'. rewrite !loses_eq. change (b_print o') with (b_print o). change (b_ext o') with (b_ext o). destruct (is_comment d); auto. destruct (assoc _ _); auto.
    destruct (d_block d) as [[|e b]|]; auto. cbn [opt_list] in IH. rewrite Forall_forall in IH. revert IH. generalize (e :: b). induction l as [|x l IHl]; intros IH; auto. cbn [existsb]. rewrite (IH x), IHl; auto.
    + intros y Y. apply IH. now right.
    + now left. }
  assert (LS : existsb (loses o') ds = existsb (loses o) ds). { clear -L. induction ds as [|d ds IH]; auto. cbn [existsb]. now rewrite L, IH. }
  rewrite LS in S. pose proof (chomp_len u'). pose proof (chomp_len u). destruct (existsb (loses o) ds); cbn [shorter] in S.
  - split; [split; [|discriminate]|rewrite !slen_cat; lia]. intros X. apply (f_equal slen) in X. rewrite !slen_cat in X. lia.
  - subst. split; [now split|lia].
Qed.
Lemma trip_exact : forall o ds, (0 <= b_indent o)%Z -> blind o ->
  (build o (map shed ds) = build o ds <-> existsb (loses o) ds = false).
Proof.
  intros o ds J B. destruct (trip_text o ds J B) as (t' & t & -> & -> & E & _). rewrite <- E. split; [now intros [= ->]|now intros ->].
Qed.

(** ** Files *)
Lemma build_opts_twice : forall bo, plain_opts (build_opts (build_opts bo)) = plain_opts (build_opts bo).
Proof.
  intros [i t h rs e pr]. unfold build_opts, register_all. destruct e as [m|]; cbn; [destruct (Z.eqb_spec i 0); cbn; auto; destruct (Z.eqb_spec i 0); [lia|auto]|].
  destruct rs; cbn; destruct (Z.eqb_spec i 0); cbn; auto; destruct (Z.eqb_spec i 0); auto; lia.
Qed.
Lemma files_trip : forall dir o, (0 <= b_indent o)%Z -> blind o -> forall cs bo outs s, plain_opts (build_opts bo) = o ->
  (forall c, In c cs -> existsb (loses o) (cf_parsed c) = false) ->
  build_files_loop dir bo (map (kept_config (fun s => s)) cs) outs s = build_files_loop dir bo cs outs s.
Proof.
  intros dir o J B. induction cs as [|c cs IH]; intros bo outs s O L; auto.
  cbn [map build_files_loop kept_config cf_file cf_parsed]. unfold build_text. rewrite O.
  rewrite (proj2 (trip_exact o (cf_parsed c) J B) (L c (or_introl eq_refl))). destruct (run_fs [MkDir _] _ _) as [[s1 r1] o1]. destruct r1; auto.
  destruct (build o (cf_parsed c)); auto. destruct (run_fs _ o1 s1) as [[s2 r2] o2]. destruct r2; auto. apply IH.
  - now rewrite build_opts_twice.
  - intros d D. apply L. now right.
Qed.
Lemma payload_valid : forall p, payload_ok p = true -> kept_payload to_valid p = kept_payload (fun s => s) p.
Proof.
  intros [st es cs] H. unfold payload_ok in H. cbn [pl_status pl_config] in H. apply andb_true_iff in H as [H1 H2]. unfold kept_payload. cbn [pl_status pl_errors pl_config]. f_equal.
  - now apply to_valid_id.
  - apply map_ext_in. intros c C. rewrite forallb_forall in H2. specialize (H2 c C). apply andb_true_iff in H2 as [H2 H4]. apply andb_true_iff in H2 as [H2 H3].
    unfold kept_config. f_equal; [now apply to_valid_id|now apply to_valid_id|]. apply map_ext_in. intros d D. rewrite forallb_forall in H4. apply kept_ok. auto.
Qed.
Lemma trip_files : forall na ne nc np other cb, (forall m, wf (other m) /\ other m <> JNull) -> (forall m, wf (cb m)) -> forall p bo,
  error_free p = true -> tallest p <= 4998 -> payload_ok p = true ->
  (0 <= bo_indent bo)%Z -> blind (in_force bo) ->
  (forall c, In c (pl_config p) -> existsb (loses (in_force bo)) (cf_parsed c) = false) ->
  exists q, unmarshal_payload (marshal_payload na ne nc np other cb p) = Got q /\
    forall cwd dir outs s, build_files cwd q dir bo outs s = build_files cwd p dir bo outs s.
Proof.
  intros na ne nc np other cb OW CW p bo E T V J B L. rewrite payload_roundtrip, E by auto. destruct (Nat.leb_spec (tallest p) 4998); [|lia]. cbn [andb].
  rewrite payload_valid by auto. eexists. split; [reflexivity|]. intros cwd dir outs s. unfold build_files. destruct (if String.eqb dir "" then cwd else Some dir) as [d|]; auto.
  cbn [kept_payload pl_config]. apply files_trip with (o := in_force bo); auto.
  clear - J. unfold in_force, build_opts, register_all. destruct bo as [i t h rs e pr]. cbn in J. destruct rs, e; cbn; destruct (Z.eqb_spec i 0); cbn; lia.
Qed.
Lemma trip_format : forall na ne nc np other cb, (forall m, wf (other m) /\ other m <> JNull) -> (forall m, wf (cb m)) ->
  forall bo o s missing cwd dir filename l fuel, bo_ext bo = None -> bo_builders bo = [] -> (0 <= bo_indent bo)%Z ->
  ascii_right (bo_print bo) -> SpecFiles.where_to cwd dir <> None -> (forall f, o_open o f = disk s missing f) ->
  o_combine o = false -> o_lexers o = [] -> loose_if o -> book o filename l -> ~ loops l ->
  (forall g, In g l -> pg_errors g = [] /\ formattable (bo_print bo) (pg_tree g) = true /\ has_prefix (pg_file g) "/" = true) ->
  (forall g, In g l -> valid_utf8 (pg_file g) = true /\ forallb texts_ok (pg_tree g) = true /\ forallb blocks_filled (pg_tree g) = true /\ Forall (fun d => height d <= 4998) (pg_tree g)) ->
  List.length l <= fuel ->
  exists p q s' p', parse_main fuel o filename = ROk p /\
    unmarshal_payload (marshal_payload na ne nc np other cb p) = Got q /\ build_files cwd q dir bo [] s = (s', BFok) /\
    parse_main fuel (with_open o (disk s' missing)) filename = ROk p' /\
    same_payload (heading (o_comments o) (bo_header bo)) p p'.
Proof.
  intros na ne nc np other cb OW CW bo o s missing cwd dir filename l fuel E1 E2 J AR W D C LX LI BK NL H1 H2 F.
  destruct (format_files bo o s missing cwd dir filename l fuel E1 E2 J AR W D C LX LI BK NL H1 F) as (p & s' & p' & P & _ & BF & P' & SP).
  assert (PO : p = payload_of o l).
  { assert (X : parse_main fuel o filename = ROk (payload_of o l)).
    { apply book_pages; auto. right. apply Forall_forall. intros g G. now apply H1. }
    congruence. }
  assert (NE : flat_map pg_errors l = []). { clear - H1. induction l as [|g l IH]; auto. cbn [flat_map]. rewrite (proj1 (H1 g (or_introl eq_refl))). apply IH. intros x X. apply H1. now right. }
  assert (EF : in_force bo = BOpts (if Z.eqb (bo_indent bo) 0 then 4 else bo_indent bo) (bo_tabs bo) (bo_header bo) [] (bo_print bo)).
  { unfold in_force, register_all, build_opts, register_all, plain_opts. rewrite E2. cbn. now rewrite E1, E2. }
  destruct (trip_files na ne nc np other cb OW CW p bo) as (q & Q & BQ); auto.
  - subst p. unfold error_free, payload_of. cbn [pl_errors pl_config]. apply andb_true_iff. split.
    + assert (X : flat_map (page_errors o) l = []); [|now rewrite X]. clear - H1. induction l as [|g l IH]; auto. cbn [flat_map]. unfold page_errors at 1. rewrite (proj1 (H1 g (or_introl eq_refl))). apply IH. intros x X. apply H1. now right.
    + apply forallb_forall. intros c I. apply in_map_iff in I as (g & <- & G). cbn [config_of cf_errors]. now rewrite (proj1 (H1 g G)).
  - subst p. unfold tallest, payload_of. cbn [pl_config]. assert (X : Forall (fun d => height d <= 4998) (flat_map cf_parsed (map config_of l))).
    { apply Forall_forall. intros d I. apply in_flat_map in I as (c & I & K). apply in_map_iff in I as (g & <- & G). cbn [config_of cf_parsed] in K. destruct (H2 g G) as (_ & _ & _ & X). rewrite Forall_forall in X. auto. }
    clear - X. induction X; cbn [map fold_right]; lia.
  - subst p. unfold payload_ok, payload_of. cbn [pl_status pl_config]. rewrite NE. cbn [verdict]. apply andb_true_iff. split; [reflexivity|]. apply forallb_forall. intros c I. apply in_map_iff in I as (g & <- & G).
    cbn [config_of cf_file cf_status cf_parsed]. rewrite (proj1 (H1 g G)). destruct (H2 g G) as (-> & -> & _). reflexivity.
  - rewrite EF. intros n f d [].
  - subst p. intros c I. cbn [payload_of pl_config] in I. apply in_map_iff in I as (g & <- & G). cbn [config_of cf_parsed]. destruct (H2 g G) as (_ & _ & X & _).
    apply not_true_is_false. intros Y. apply existsb_exists in Y as (d & K & Y). rewrite forallb_forall in X. specialize (X d K). revert X Y. clear.
    induction d as [d IH] using dir_ind'. rewrite loses_eq. destruct (is_comment d); [discriminate|]. destruct (assoc _ _); [discriminate|].
    assert (BU : blocks_filled d = match d_block d with None => true | Some [] => false | Some l => forallb blocks_filled l end) by (destruct d; reflexivity). rewrite BU.
    destruct (d_block d) as [[|e b]|]; try discriminate. cbn [opt_list] in IH. intros X Y. apply existsb_exists in Y as (x & K & Y). rewrite Forall_forall in IH. rewrite forallb_forall in X. exact (IH x K (X x K) Y).
  - exists p, q, s', p'. split; [exact P|]. split; [exact Q|]. split; [now rewrite BQ|]. now split.
Qed.
Lemma lua_sees_nothing : forall i t h pr, blind (BOpts i t h (apply_builders [(lua_build, lua_names)]) pr).
Proof.
  intros i t h pr n f d I. assert (X : f = lua_build).
  { revert n f I. cbn [b_ext]. assert (V : forallb (fun kv => mem (fst kv) lua_names) (apply_builders [(lua_build, lua_names)]) = true) by reflexivity.
    assert (Y : forall ns m, (forall n f, In (n, f) m -> f = lua_build) -> forall n f, In (n, f) (fold_left (fun m s => assoc_set s lua_build m) ns m) -> f = lua_build).
    { induction ns as [|s ns IH]; intros m M n f K; [exact (M n f K)|]. cbn [fold_left] in K. apply (IH (assoc_set s lua_build m)) with (n := n); auto. clear - M. intros k g G.
      revert M G. induction m as [|[k' g'] m IHm]; cbn [assoc_set]; intros M G.
      - destruct G as [[= <- <-]|[]]. reflexivity.
      - destruct (String.eqb s k'); destruct G as [[= <- <-]|G]; auto; [apply (M k g); now right|eapply M; now left|apply IHm; auto; intros; eapply M; right; eassumption]. }
    intros n f K. apply (Y lua_names [] ltac:(intros ? ? []) n f). exact K. }
  subst. destruct (kept_fields d) as (K1 & _ & K3 & _ & _). unfold lua_build. now rewrite K1, K3.
Qed.
