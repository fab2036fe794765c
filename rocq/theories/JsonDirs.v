(** Directives and payloads through JSON. *)
From Verif Require Export JsonProofs.
From Verif Require Import Util Utf8 TreeFacts Build.
Local Open Scope string_scope.

Section Dirs.
Variable na : directive -> bool.
Lemma num_wf : forall z, wf (JNum (itoa z)).
Proof.
  intros z. cbn [wf]. split; [apply num_ok_itoa|split; [apply num_chars_itoa|]]. destruct (itoa_form z) as (sg & u & -> & N). destruct sg; [eexists; eexists; split; [reflexivity|reflexivity]|].
  destruct (digit_first u N) as (c & t & -> & D & _). exists c, t. split; auto. now rewrite D.
Qed.
Lemma to_json_eq : forall d, to_json na d =
  JObj ([("directive", JStr (d_name d)); ("line", JNum (itoa (d_line d)));
     ("args", match d_args d with [] => if na d then JNull else JArr [] | l => JArr (map JStr l) end)] ++
    (if String.eqb (d_file d) "" then [] else [("file", JStr (d_file d))]) ++
    match d_includes d with None | Some [] => [] | Some l => [("includes", JArr (map (fun z => JNum (itoa z)) l))] end ++
    match d_block d with None | Some [] => [] | Some l => [("block", JArr (map (to_json na) l))] end ++
    match d_comment d with None => [] | Some c => [("comment", JStr c)] end ++
    (if d_ismap d then [("mapBlockParameter", JBool true)] else []))%list.
Proof. intros [n l a f i b c m]. reflexivity. Qed.
Lemma strs_wf : forall l, wf (JArr (map JStr l)).
Proof. intros l. apply wf_arr. apply Forall_forall. intros j I. apply in_map_iff in I as (s & <- & _). exact Logic.I. Qed.
Lemma nums_wf : forall l, wf (JArr (map (fun z => JNum (itoa z)) l)).
Proof. intros l. apply wf_arr. apply Forall_forall. intros j I. apply in_map_iff in I as (s & <- & _). apply num_wf. Qed.
Lemma to_json_wf : forall d, wf (to_json na d).
Proof.
  induction d as [d IH] using dir_ind'. rewrite to_json_eq. apply wf_obj. rewrite !Forall_app. split; [|split; [|split; [|split; [|split]]]].
  - constructor; [exact I|]. constructor; [apply num_wf|]. constructor; [|constructor]. cbn [snd]. destruct (d_args d); [destruct (na d); exact I|apply strs_wf].
  - destruct (String.eqb _ _); repeat constructor.
  - destruct (d_includes d) as [[|z l]|]; constructor; [apply nums_wf|constructor].
  - destruct (d_block d) as [[|z l]|]; constructor; [|constructor]. cbn [snd opt_list] in *. apply wf_arr. now apply Forall_map.
  - destruct (d_comment d); repeat constructor.
  - destruct (d_ismap d); repeat constructor.
Qed.

(** ** Depth *)
Lemma fold_max_app : forall a b, fold_right N.max 0%N (a ++ b)%list = N.max (fold_right N.max 0%N a) (fold_right N.max 0%N b).
Proof. induction a as [|x a IH]; intros b; cbn [fold_right app]; [lia|rewrite IH; lia]. Qed.
Lemma depth_obj_app : forall a b, depth (JObj (a ++ b)) = N.max (depth (JObj a)) (depth (JObj b)).
Proof. intros a b. cbn [depth]. rewrite map_app, fold_max_app. lia. Qed.
Lemma depth_obj_cons : forall k v l, depth (JObj ((k, v) :: l)) = N.max (1 + depth v) (depth (JObj l)).
Proof. intros k v l. cbn [depth map fold_right snd]. lia. Qed.
Lemma flat_depth : forall l, Forall (fun j => depth j = 0%N) l -> depth (JArr l) = 1%N.
Proof. intros l F. cbn [depth]. induction F as [|j l H F IH]; cbn [map fold_right] in *; [reflexivity|rewrite H; lia]. Qed.
Lemma depth_strs : forall l, depth (JArr (map JStr l)) = 1%N.
Proof. intros l. apply flat_depth. apply Forall_forall. intros j I. apply in_map_iff in I as (s & <- & _). reflexivity. Qed.
Lemma depth_nums : forall l, depth (JArr (map (fun z => JNum (itoa z)) l)) = 1%N.
Proof. intros l. apply flat_depth. apply Forall_forall. intros j I. apply in_map_iff in I as (s & <- & _). reflexivity. Qed.
Definition tall (d : directive) : nat := match non_empty (d_block d) with Some l => fold_right Nat.max 0 (map height l) | None => 0 end.
Lemma height_tall : forall d, height d = S (tall d).
Proof. intros [n l a f i b c m]. unfold tall. cbn [height d_block]. destruct b as [[|]|]; reflexivity. Qed.
Lemma depth_height : forall d, (2 * N.of_nat (height d) - 1 <= depth (to_json na d) <= 2 * N.of_nat (height d))%N.
Proof.
  induction d as [d IH] using dir_ind'. rewrite height_tall, to_json_eq. rewrite !depth_obj_app.
  assert (A : (1 <= depth (JObj [("directive", JStr (d_name d)); ("line", JNum (itoa (d_line d))); ("args", match d_args d with [] => if na d then JNull else JArr [] | l => JArr (map JStr l) end)]) <= 2)%N).
  { rewrite !depth_obj_cons. destruct (d_args d) as [|x l]; [destruct (na d); cbn; lia|]. rewrite depth_strs. cbn [depth map fold_right]. lia. }
  assert (F : (depth (JObj (if String.eqb (d_file d) "" then [] else [("file", JStr (d_file d))])) <= 1)%N) by (destruct (String.eqb _ _); cbn; lia).
  assert (C : (depth (JObj (match d_comment d with None => [] | Some c => [("comment", JStr c)] end)) <= 1)%N) by (destruct (d_comment d); cbn; lia).
  assert (M : (depth (JObj (if d_ismap d then [("mapBlockParameter", JBool true)] else [])) <= 1)%N) by (destruct (d_ismap d); cbn; lia).
  assert (NI : (depth (JObj (match d_includes d with None | Some [] => [] | Some l => [("includes", JArr (map (fun z => JNum (itoa z)) l))] end)) <= 2)%N).
  { destruct (d_includes d) as [[|z l]|]; [cbn; lia| |cbn; lia]. rewrite depth_obj_cons, depth_nums. cbn; lia. }
  assert (B : (depth (JObj (match d_block d with None | Some [] => [] | Some l => [("block", JArr (map (to_json na) l))] end)) <= 2 + 2 * N.of_nat (tall d))%N /\
              (tall d <> 0 -> (2 * N.of_nat (tall d) + 1 <= depth (JObj (match d_block d with None | Some [] => [] | Some l => [("block", JArr (map (to_json na) l))] end)))%N)).
  { unfold tall. destruct (d_block d) as [[|e l]|]; cbn [non_empty]; [split; [cbn; lia|congruence]| |split; [cbn; lia|congruence]]. cbn [opt_list] in IH.
    assert (G : (fold_right N.max 0 (map depth (map (to_json na) (e :: l))) <= 2 * N.of_nat (fold_right Nat.max 0%nat (map height (e :: l))) <= fold_right N.max 0 (map depth (map (to_json na) (e :: l))) + 1)%N).
    { revert IH. generalize (e :: l) as L. induction L as [|x L IHL]; intros IH; [cbn; lia|]. inversion IH as [|? ? I1 I2]; subst. specialize (IHL I2). cbn [map fold_right] in *. lia. }
    assert (D : depth (JObj [("block", JArr (map (to_json na) (e :: l)))]) = (2 + fold_right N.max 0 (map depth (map (to_json na) (e :: l))))%N) by (cbn [depth map fold_right snd]; lia).
    split; [|intros _]; rewrite D; lia. }
  destruct B as [B1 B2]. destruct (Nat.eq_dec (tall d) 0) as [Z|Z]; [rewrite Z in *; lia|specialize (B2 Z); lia].
Qed.

(** ** Reading *)
Lemma key_valid : forall k, In k ["directive"; "line"; "args"; "file"; "includes"; "block"; "comment"; "mapBlockParameter"] -> to_valid k = k.
Proof. intros k I. repeat (destruct I as [<-|I]; [reflexivity|]). destruct I. Qed.
Lemma rmap_got : forall A B (f : A -> res B) g l, Forall (fun x => f x = Got (g x)) l -> rmap f l = Got (map g l).
Proof. intros A B f g l F. induction F as [|x l H F IH]; auto. cbn [rmap map]. now rewrite H, IH. Qed.
Lemma to_valid_empty : to_valid "" = "".
Proof. reflexivity. Qed.
Lemma clean_fields : forall l, clean_json (JObj l) = JObj (map (fun kv => (to_valid (fst kv), clean_json (snd kv))) l).
Proof. reflexivity. Qed.
Definition opt_field (k : string) (o : option json) : list (string * json) := match o with Some v => [(k, v)] | None => [] end.
Lemma dec_dir_kept : forall d fuel, height d <= fuel -> dec_dir fuel (clean_json (to_json na d)) = Got (kept to_valid d).
Proof.
  induction d as [d IH] using dir_ind'. intros fuel L. destruct fuel as [|f]; [rewrite height_tall in L; lia|].
  assert (BL : dec_list (fun j => match j with JNull => Outside | _ => dec_dir f j end) (match d_block d with None | Some [] => JNull | Some l => JArr (map (fun d => clean_json (to_json na d)) l) end) = Got (non_empty (option_map (map (kept to_valid)) (d_block d)))).
  { rewrite height_tall in L. unfold tall in L. destruct (d_block d) as [[|e b]|]; [reflexivity| |reflexivity]. cbn [non_empty] in L. unfold dec_list. cbn [opt_list] in IH.
    assert (R : rmap (fun j => match j with JNull => Outside | _ => dec_dir f j end) (map (fun d => clean_json (to_json na d)) (e :: b)) = Got (map (kept to_valid) (e :: b))).
    { revert IH L. generalize (e :: b) as B. induction B as [|x B IHB]; intros IH L; auto. inversion IH as [|? ? I1 I2]; subst. cbn [map fold_right] in L. cbn [map rmap].
      specialize (I1 f ltac:(lia)). rewrite to_json_eq in *. cbn [clean_json] in *. rewrite I1. cbn [rbind]. rewrite IHB by (auto; lia). reflexivity. }
    rewrite R. reflexivity. }
  assert (AR : dec_list dec_str (clean_json (match d_args d with [] => if na d then JNull else JArr [] | l => JArr (map JStr l) end)) = Got (match d_args d with [] => if na d then None else Some [] | l => Some (map to_valid l) end)).
  { destruct (d_args d) as [|x l]; [destruct (na d); reflexivity|]. unfold clean_json at 1. fold clean_json. rewrite map_map. unfold dec_list. rewrite rmap_got with (g := fun j => match j with JStr s => s | _ => "" end).
    - cbn [rbind]. rewrite map_map. cbn [clean_json]. reflexivity.
    - apply Forall_forall. intros j I. apply in_map_iff in I as (s & <- & _). reflexivity. }
  assert (IN : dec_list dec_int (match d_includes d with None | Some [] => JNull | Some l => JArr (map (fun z => JNum (itoa z)) l) end) = Got (non_empty (d_includes d))).
  { destruct (d_includes d) as [[|z l]|]; [reflexivity| |reflexivity]. unfold dec_list. assert (R : forall l, rmap dec_int (map (fun z => JNum (itoa z)) l) = Got l).
    { induction l0 as [|y l0 IHl]; auto. cbn [map rmap]. rewrite itoa_read. cbn [rbind]. now rewrite IHl. }
    rewrite R. reflexivity. }
  rewrite to_json_eq, clean_fields. rewrite !map_app. cbn [map fst snd]. rewrite !key_valid by (cbn; tauto).
  set (args := clean_json _) in *.
  assert (FI : map (fun kv => (to_valid (fst kv), clean_json (snd kv))) (if String.eqb (d_file d) "" then [] else [("file", JStr (d_file d))]) = opt_field "file" (if String.eqb (d_file d) "" then None else Some (JStr (to_valid (d_file d))))) by (destruct (String.eqb _ _); reflexivity).
  assert (II : map (fun kv => (to_valid (fst kv), clean_json (snd kv))) (match d_includes d with None | Some [] => [] | Some l => [("includes", JArr (map (fun z => JNum (itoa z)) l))] end) =
    opt_field "includes" (match d_includes d with None | Some [] => None | Some l => Some (JArr (map (fun z => JNum (itoa z)) l)) end)).
  { destruct (d_includes d) as [[|z l]|]; [reflexivity| |reflexivity]. cbn [map opt_field fst snd clean_json]. rewrite key_valid by (cbn; tauto). do 3 f_equal. cbn [map]. f_equal. rewrite map_map. now apply map_ext. }
  assert (BI : map (fun kv => (to_valid (fst kv), clean_json (snd kv))) (match d_block d with None | Some [] => [] | Some l => [("block", JArr (map (to_json na) l))] end) =
    opt_field "block" (match d_block d with None | Some [] => None | Some l => Some (JArr (map (fun d => clean_json (to_json na d)) l)) end)).
  { destruct (d_block d) as [[|z l]|]; [reflexivity| |reflexivity]. cbn [map opt_field fst snd clean_json]. rewrite key_valid by (cbn; tauto). do 3 f_equal. cbn [map]. f_equal. now rewrite map_map. }
  assert (CI : map (fun kv => (to_valid (fst kv), clean_json (snd kv))) (match d_comment d with None => [] | Some c => [("comment", JStr c)] end) = opt_field "comment" (option_map (fun c => JStr (to_valid c)) (d_comment d))) by (destruct (d_comment d); reflexivity).
  assert (MI : map (fun kv => (to_valid (fst kv), clean_json (snd kv))) (if d_ismap d then [("mapBlockParameter", JBool true)] else []) = opt_field "mapBlockParameter" (if d_ismap d then Some (JBool true) else None)) by (destruct (d_ismap d); reflexivity).
  rewrite FI, II, BI, CI, MI. clear FI II BI CI MI.
  assert (GF : forall a b c e g h fi ii bi ci mi, let l := ([("directive", a); ("line", b); ("args", c)] ++ opt_field "file" fi ++ opt_field "includes" ii ++ opt_field "block" bi ++ opt_field "comment" ci ++ opt_field "mapBlockParameter" mi)%list in
    e = a -> g = b -> h = c -> field "directive" l = e /\ field "line" l = g /\ field "args" l = h /\ field "file" l = match fi with Some v => v | None => JNull end /\ field "includes" l = match ii with Some v => v | None => JNull end /\
    field "block" l = match bi with Some v => v | None => JNull end /\ field "comment" l = match ci with Some v => v | None => JNull end /\ field "mapBlockParameter" l = match mi with Some v => v | None => JNull end).
  { intros a b c e g h fi ii bi ci mi l -> -> ->. unfold l. destruct fi, ii, bi, ci, mi; repeat split; reflexivity. }
  match goal with |- dec_dir _ (JObj ([_; (_, ?b); _] ++ opt_field _ ?fi ++ opt_field _ ?ii ++ opt_field _ ?bi ++ opt_field _ ?ci ++ opt_field _ ?mi)) = _ =>
    destruct (GF (JStr (to_valid (d_name d))) b args _ _ _ fi ii bi ci mi eq_refl eq_refl eq_refl) as (F1 & F2 & F3 & F4 & F5 & F6 & F7 & F8) end.
  cbn [dec_dir]. cbn [clean_json] in *. rewrite F1, F2, F3, F4, F5, F6, F7, F8. cbn [dec_str rbind]. rewrite itoa_read. cbn [rbind]. rewrite AR. cbn [rbind].
  assert (X4 : dec_str (match (if String.eqb (d_file d) "" then None else Some (JStr (to_valid (d_file d)))) with Some v => v | None => JNull end) = Got (to_valid (d_file d))).
  { destruct (String.eqb_spec (d_file d) "") as [->|]; reflexivity. }
  rewrite X4. cbn [rbind].
  assert (X5 : (match (match d_includes d with None | Some [] => None | Some l => Some (JArr (map (fun z => JNum (itoa z)) l)) end) with Some v => v | None => JNull end) = (match d_includes d with None | Some [] => JNull | Some l => JArr (map (fun z => JNum (itoa z)) l) end)) by (destruct (d_includes d) as [[|]|]; reflexivity).
  rewrite X5, IN. cbn [rbind].
  assert (X6 : (match (match d_block d with None | Some [] => None | Some l => Some (JArr (map (fun d => clean_json (to_json na d)) l)) end) with Some v => v | None => JNull end) = (match d_block d with None | Some [] => JNull | Some l => JArr (map (fun d => clean_json (to_json na d)) l) end)) by (destruct (d_block d) as [[|]|]; reflexivity).
  rewrite X6, BL. cbn [rbind].
  assert (X7 : dec_ptr dec_str (match option_map (fun c => JStr (to_valid c)) (d_comment d) with Some v => v | None => JNull end) = Got (option_map to_valid (d_comment d))) by (destruct (d_comment d); reflexivity).
  rewrite X7. cbn [rbind].
  assert (X8 : dec_bool (match (if d_ismap d then Some (JBool true) else None) with Some v => v | None => JNull end) = Got (d_ismap d)) by (destruct (d_ismap d); reflexivity).
  rewrite X8. cbn [rbind]. destruct d as [n l a fi i b c m]. cbn [kept d_name d_line d_args d_file d_includes d_block d_comment d_ismap] in *. destruct a; [destruct (na _)|]; reflexivity.
Qed.
Lemma height_len : forall d, (N.of_nat (height d) <= N.of_nat (slen (marshal na d)))%N.
Proof.
  assert (G : forall j, (depth j <= N.of_nat (slen (print_json j)))%N).
  { induction j as [|b|raw|s|l IH|l IH] using json_ind'; cbn [depth]; try lia.
    - cbn [print_json]. rewrite !app_slen. assert (X : (fold_right N.max 0 (map depth l) <= N.of_nat (slen (join (map print_json l) ",")))%N).
      { induction IH as [|x l H F IHF]; [cbn; lia|]. destruct l as [|y l]; [cbn [map join String.concat fold_right] in *; lia|].
        change (join (map print_json (x :: y :: l)) ",") with (print_json x ++ "," ++ join (map print_json (y :: l)) ","). rewrite !app_slen. cbn [map fold_right] in *. lia. }
      change (slen "[") with 1. lia.
    - cbn [print_json]. fold member. rewrite !app_slen. assert (X : (fold_right N.max 0 (map (fun kv => depth (snd kv)) l) <= N.of_nat (slen (join (map member l) ",")))%N).
      { induction IH as [|x l H F IHF]; [cbn; lia|]. assert (MX : (depth (snd x) <= N.of_nat (slen (member x)))%N) by (unfold member; rewrite !app_slen; lia). destruct l as [|y l]; [cbn [map join String.concat fold_right] in *; lia|].
        change (join (map member (x :: y :: l)) ",") with (member x ++ "," ++ join (map member (y :: l)) ","). rewrite !app_slen. cbn [map fold_right] in *. lia. }
      change (slen "{") with 1. lia. }
  intros d. pose proof (depth_height d). pose proof (G (to_json na d)). unfold marshal. rewrite height_tall in *. lia.
Qed.
(** Unmarshal of Marshal. *)
Lemma roundtrip : forall d, unmarshal (marshal na d) = if Nat.leb (height d) 5000 then Got (kept to_valid d) else Fail.
Proof.
  intros d. unfold unmarshal. pose proof (height_len d) as HL. unfold marshal in *. rewrite parse_print by apply to_json_wf. pose proof (depth_height d) as H.
  destruct (Nat.leb_spec (height d) 5000) as [L|L].
  - destruct (N.leb_spec (depth (to_json na d)) max_nesting) as [_|M]; [|unfold max_nesting in M; lia]. apply dec_dir_kept. lia.
  - destruct (N.leb_spec (depth (to_json na d)) max_nesting) as [M|_]; [unfold max_nesting in M; lia|reflexivity].
Qed.
End Dirs.

(** ** Texts that are UTF-8 *)
Lemma kept_ok : forall d, texts_ok d = true -> kept to_valid d = kept (fun s => s) d.
Proof.
  induction d as [d IH] using dir_ind'. intros H. destruct d as [n l a f i b c m]. cbn [texts_ok d_name d_args d_file d_comment d_block opt_list kept d_line d_includes d_ismap] in *.
  repeat (apply andb_true_iff in H as [H ?]). rewrite !to_valid_id by auto. f_equal.
  - apply map_ext_in. intros x I. rewrite forallb_forall in *. apply to_valid_id. auto.
  - destruct b as [b|]; [|reflexivity]. cbn [option_map]. f_equal. f_equal. cbn [opt_list] in IH. rewrite Forall_forall in IH. rewrite forallb_forall in *. apply map_ext_in. intros e E. auto.
  - destruct c as [c|]; [|reflexivity]. cbn [option_map]. f_equal. apply to_valid_id. auto.
Qed.
Lemma kept_same : forall d, same_tree d (kept (fun s => s) d).
Proof.
  induction d as [d IH] using dir_ind'. destruct d as [n l a f i b c m]. constructor; cbn [kept d_name d_args d_file d_comment d_block opt_list d_line d_includes d_ismap] in *; auto.
  - now rewrite map_id.
  - destruct i as [[|]|]; reflexivity.
  - destruct b as [[|e b]|]; cbn [option_map non_empty map opt_list] in *; [constructor| |constructor]. change (kept (fun s => s) e :: map (kept (fun s => s)) b) with (map (kept (fun s => s)) (e :: b)).
    revert IH. generalize (e :: b) as B. induction B as [|x B IHB]; intros F; [constructor|]. inversion F; subst. constructor; auto.
  - destruct c; reflexivity.
Qed.
Lemma same_tree_sym : forall x y, same_tree x y -> same_tree y x.
Proof.
  induction x as [x IH] using dir_ind'. intros y S. inversion S as [? ? E1 E2 E3 E4 E5 E6 E7 E8]; subst. constructor; auto. revert IH E6. generalize (opt_list (d_block x)) (opt_list (d_block y)). induction l as [|a l IHl]; intros m F G; inversion G; subst; constructor; inversion F; subst; auto.
Qed.
Lemma json_equal : forall na d, texts_ok d = true -> height d <= 5000 ->
  exists d', unmarshal (marshal na d) = Got d' /\ dir_equal d d' = true /\ dir_equal d' d = true.
Proof.
  intros na d T L. exists (kept (fun s => s) d). rewrite roundtrip. destruct (Nat.leb_spec (height d) 5000); [|lia]. rewrite kept_ok by auto. split; auto. split; apply dir_equal_spec; [|apply same_tree_sym]; apply kept_same.
Qed.

(** ** Built text *)
Lemma kept_fields : forall d, d_name (kept (fun s => s) d) = d_name d /\ d_line (kept (fun s => s) d) = d_line d /\ d_args (kept (fun s => s) d) = d_args d /\ d_comment (kept (fun s => s) d) = d_comment d /\
  d_block (kept (fun s => s) d) = non_empty (option_map (map (kept (fun s => s))) (d_block d)).
Proof. intros [n l a f i b c m]. cbn. rewrite map_id. destruct c; repeat split; reflexivity. Qed.
Lemma loop_kept : forall o depth stmt l, (forall d, In d l -> stmt (kept (fun s => s) d) = stmt d) ->
  (forall n f d, In (n, f) (b_ext o) -> In d l -> f (kept (fun s => s) d) = f d) -> forall nl last,
  build_loop o depth stmt nl last (map (kept (fun s => s)) l) = build_loop o depth stmt nl last l.
Proof.
  intros o depth stmt. induction l as [|d l IH]; intros H E nl last; auto. cbn [map build_loop]. destruct (kept_fields d) as (K1 & K2 & K3 & K4 & K5).
  assert (IC : is_comment (kept (fun s => s) d) = is_comment d) by (unfold is_comment; now rewrite K1, K4).
  assert (CO : comment_of (kept (fun s => s) d) = comment_of d) by (unfold comment_of; now rewrite K4).
  rewrite IC, CO, K1, K2. assert (IH' : forall nl last, build_loop o depth stmt nl last (map (kept (fun s => s)) l) = build_loop o depth stmt nl last l).
  { apply IH; [intros x I; apply H; now right|]. intros n f x I J. eapply E; eauto. now right. }
  rewrite !IH'. destruct (_ && _)%bool; auto. rewrite H by (now left). destruct (assoc _ _) as [f|] eqn:A; auto. apply assoc_In in A. rewrite (E _ _ _ A) by (now left). reflexivity.
Qed.
Lemma stmt_kept : forall o, sees_no_includes o -> forall d depth, blocks_filled d = true -> build_stmt o depth (kept (fun s => s) d) = build_stmt o depth d.
Proof.
  intros o E. induction d as [d IH] using dir_ind'. intros depth B. destruct (kept_fields d) as (K1 & K2 & K3 & K4 & K5).
  assert (U : forall d depth, build_stmt o depth d = if is_comment d then Some ("#" ++ comment_of d) else match d_block d with None => Some (build_head o d ++ ";") | Some b =>
      obind (build_loop o (depth + 1) (build_stmt o (depth + 1)) true (d_line d) b) (fun body => obind (margin o depth) (fun m => Some (build_head o d ++ " {" ++ body ++ s_nl ++ m ++ "}"))) end) by (intros [] ?; reflexivity).
  rewrite !U. assert (IC : is_comment (kept (fun s => s) d) = is_comment d) by (unfold is_comment; now rewrite K1, K4).
  assert (CO : comment_of (kept (fun s => s) d) = comment_of d) by (unfold comment_of; now rewrite K4).
  assert (HD : build_head o (kept (fun s => s) d) = build_head o d) by (unfold build_head; now rewrite K1, K3).
  rewrite IC, CO, HD, K2, K5. destruct (is_comment d); auto. assert (BU : blocks_filled d = match d_block d with None => true | Some [] => false | Some l => forallb blocks_filled l end) by (destruct d; reflexivity). rewrite BU in B.
  destruct (d_block d) as [[|e b]|]; [discriminate| |reflexivity]. cbn [option_map non_empty opt_list] in *. change (map (kept (fun s => s)) (e :: b)) with (kept (fun s => s) e :: map (kept (fun s => s)) b) at 1. cbv iota.
  change (kept (fun s => s) e :: map (kept (fun s => s)) b) with (map (kept (fun s => s)) (e :: b)). rewrite forallb_forall in B. rewrite Forall_forall in IH. rewrite loop_kept; auto. intros n f x I J. eapply E; eauto.
Qed.
Lemma json_build : forall na o d, texts_ok d = true -> height d <= 5000 -> blocks_filled d = true -> sees_no_includes o ->
  exists d', unmarshal (marshal na d) = Got d' /\ build o [d'] = build o [d].
Proof.
  intros na o d T L B E. exists (kept (fun s => s) d). rewrite roundtrip. destruct (Nat.leb_spec (height d) 5000); [|lia]. rewrite kept_ok by auto. split; auto.
  unfold build, build_block. change [kept (fun s => s) d] with (map (kept (fun s => s)) [d]). rewrite loop_kept; auto.
  - intros x [<-|[]]. apply stmt_kept; auto.
  - intros n f x I [<-|[]]. eapply E; eauto.
Qed.
Lemma kept_id : forall d, lists_filled d = true -> kept (fun s => s) d = d.
Proof.
  induction d as [d IH] using dir_ind'. destruct d as [n l a f i b c m]. cbn [lists_filled kept d_name d_args d_file d_comment d_block opt_list d_line d_includes d_ismap] in *. intros H. apply andb_true_iff in H as [H1 H2]. rewrite map_id. f_equal.
  - destruct i as [[|]|]; [discriminate|reflexivity|reflexivity].
  - destruct b as [[|e b]|]; [discriminate| |reflexivity]. cbn [option_map opt_list] in *. assert (E : map (kept (fun s => s)) (e :: b) = e :: b).
    { rewrite forallb_forall in H2. rewrite Forall_forall in IH. rewrite <- (map_id (e :: b)) at 2. apply map_ext_in. auto. }
    rewrite E. reflexivity.
  - destruct c; reflexivity.
Qed.

(** ** Payloads *)
Section Payloads.
Variables (na : directive -> bool) (ne nc np : bool) (other cb : string -> json).
Hypothesis OW : forall m, wf (other m) /\ other m <> JNull.
Hypothesis CW : forall m, wf (cb m).
Lemma slice_wf : forall A (f : A -> json) nl l, (forall x, wf (f x)) -> wf (slice_json f nl l).
Proof. intros A f nl l H. unfold slice_json. destruct l as [|x l]; [destruct nl; exact I|]. apply wf_arr. apply Forall_forall. intros j J. apply in_map_iff in J as (y & <- & _). auto. Qed.
Lemma err_wf : forall e, wf (err_json other e).
Proof. intros [p|m]; [exact I|]. apply OW. Qed.
Lemma line_wf : forall o, wf (line_json o).
Proof. intros [z|]; [apply num_wf|exact I]. Qed.
Lemma payload_wf : forall p, wf (payload_json na ne nc np other cb p).
Proof.
  intros p. unfold payload_json. apply wf_obj. repeat constructor; cbn [snd].
  - apply slice_wf. intros e. unfold perr_json. apply wf_obj. repeat constructor; cbn [snd]; auto using line_wf, err_wf. destruct (py_cb e); repeat constructor. apply CW.
  - apply slice_wf. intros c. unfold config_json. apply wf_obj. repeat constructor; cbn [snd]; apply slice_wf.
    + intros e. apply wf_obj. repeat constructor; cbn [snd]; auto using line_wf, err_wf.
    + intros d. apply to_json_wf.
Qed.
Lemma slice_dec : forall A B (f : A -> json) nl (g : json -> res B) (h : A -> B) l, Forall (fun x => g (clean_json (f x)) = Got (h x)) l ->
  exists o, dec_list g (clean_json (slice_json f nl l)) = Got o /\ opt_list o = map h l.
Proof.
  intros A B f nl g h l F. unfold slice_json. destruct l as [|x l]; [destruct nl; eexists; (split; [reflexivity|reflexivity])|]. exists (Some (map h (x :: l))). split; [|reflexivity].
  cbn [clean_json dec_list]. rewrite map_map. assert (R : rmap g (map (fun y => clean_json (f y)) (x :: l)) = Got (map h (x :: l))); [|now rewrite R].
  induction F as [|y m H F IH]; auto. cbn [map rmap]. now rewrite H, IH.
Qed.
Lemma slice_fail : forall A B (f : A -> json) nl (g : json -> res B) l, l <> [] -> (exists a x b, l = a ++ x :: b /\ Forall (fun x => exists y, g (clean_json (f x)) = Got y) a /\ g (clean_json (f x)) = Fail)%list ->
  dec_list g (clean_json (slice_json f nl l)) = Fail.
Proof.
  intros A B f nl g l NE (a & x & b & E & F & X). unfold slice_json. destruct l as [|y l]; [congruence|]. cbn [clean_json dec_list]. rewrite map_map, E.
  assert (R : rmap g (map (fun y => clean_json (f y)) (a ++ x :: b)) = Fail); [|now rewrite R]. clear E. induction F as [|z m (w & H) F IH]; cbn [app map rmap]; [now rewrite X|]. now rewrite H, IH.
Qed.
Lemma err_fail : forall e, dec_error (clean_json (err_json other e)) = Fail.
Proof. intros [p|m]; [reflexivity|]. cbn [err_json]. destruct (OW m) as [_ N]. destruct (other m); cbn; congruence. Qed.
Lemma line_dec : forall o, dec_ptr dec_int (clean_json (line_json o)) = Got o.
Proof. intros [z|]; [|reflexivity]. cbn [line_json clean_json]. unfold dec_ptr. now rewrite itoa_read. Qed.
Lemma cerr_fail : forall e, dec_cerr (clean_json (cerr_json other e)) = Fail.
Proof.
  intros e. unfold cerr_json. cbn [clean_json map fst snd]. change (to_valid "line") with "line". change (to_valid "error") with "error". cbn [dec_cerr].
  change (field "line" [("line", clean_json (line_json (ce_line e))); ("error", clean_json (err_json other (ce_err e)))]) with (clean_json (line_json (ce_line e))).
  change (field "error" [("line", clean_json (line_json (ce_line e))); ("error", clean_json (err_json other (ce_err e)))]) with (clean_json (err_json other (ce_err e))).
  rewrite line_dec, err_fail. reflexivity.
Qed.
Lemma perr_fail : forall e, dec_perr (clean_json (perr_json other cb e)) = Fail.
Proof.
  intros e. unfold perr_json. rewrite clean_fields, map_app. cbn [map fst snd]. change (to_valid "file") with "file". change (to_valid "line") with "line". change (to_valid "error") with "error". cbn [dec_perr app].
  assert (G : forall a b c o, let l := (("file", a) :: ("line", b) :: ("error", c) :: map (fun kv => (to_valid (fst kv), clean_json (snd kv))) (match o with None => [] | Some c => [("callback", cb c)] end)) in field "file" l = a /\ field "line" l = b /\ field "error" l = c).
  { intros a b c [o|]; repeat split; reflexivity. }
  destruct (G (clean_json (JStr (py_file e))) (clean_json (line_json (py_line e))) (clean_json (err_json other (py_err e))) (py_cb e)) as (F1 & F2 & F3). rewrite F1, F2, F3. cbn [clean_json dec_str rbind]. rewrite line_dec, err_fail. reflexivity.
Qed.
Lemma dir_elem : forall fuel d, height d <= fuel -> (fun j => match j with JNull => Outside | _ => dec_dir fuel j end) (clean_json (to_json na d)) = Got (kept to_valid d).
Proof. intros fuel d L. rewrite <- (dec_dir_kept na d fuel L). rewrite to_json_eq. reflexivity. Qed.
Lemma config_fields : forall c, clean_json (config_json na ne np other c) = JObj [("file", JStr (to_valid (cf_file c))); ("status", JStr (to_valid (cf_status c)));
  ("errors", clean_json (slice_json (cerr_json other) ne (cf_errors c))); ("parsed", clean_json (slice_json (to_json na) np (cf_parsed c)))].
Proof. reflexivity. Qed.
Lemma config_dec : forall fuel c, Forall (fun d => height d <= fuel) (cf_parsed c) -> cf_errors c = [] -> dec_config fuel (clean_json (config_json na ne np other c)) = Got (kept_config to_valid c).
Proof.
  intros fuel c F E. rewrite config_fields, E. destruct (slice_dec _ _ (to_json na) np (fun j => match j with JNull => Outside | _ => dec_dir fuel j end) (kept to_valid) (cf_parsed c)) as (o & D & O).
  { eapply Forall_impl; [|exact F]. intros d. apply dir_elem. }
  unfold dec_config.
  assert (G : forall a b c d, field "file" [("file", a); ("status", b); ("errors", c); ("parsed", d)] = a /\ field "status" [("file", a); ("status", b); ("errors", c); ("parsed", d)] = b /\ field "errors" [("file", a); ("status", b); ("errors", c); ("parsed", d)] = c /\ field "parsed" [("file", a); ("status", b); ("errors", c); ("parsed", d)] = d) by (intros; repeat split; reflexivity).
  match goal with |- context [field "file" [(_, ?a); (_, ?b); (_, ?c); (_, ?d)]] => destruct (G a b c d) as (-> & -> & -> & ->) end.
  cbn [dec_str rbind]. assert (Z : exists o, dec_list dec_cerr (clean_json (slice_json (cerr_json other) ne [])) = Got o /\ opt_list o = []) by (unfold slice_json; destruct ne; eexists; split; reflexivity).
  destruct Z as (o' & -> & O'). cbn [rbind]. rewrite D. cbn [rbind]. rewrite O, O'. unfold kept_config. now rewrite E.
Qed.
Lemma config_fail : forall fuel c, cf_errors c <> [] -> dec_config fuel (clean_json (config_json na ne np other c)) = Fail.
Proof.
  intros fuel c N. rewrite config_fields. unfold dec_config.
  assert (G : forall a b c d, field "file" [("file", a); ("status", b); ("errors", c); ("parsed", d)] = a /\ field "status" [("file", a); ("status", b); ("errors", c); ("parsed", d)] = b /\ field "errors" [("file", a); ("status", b); ("errors", c); ("parsed", d)] = c) by (intros; repeat split; reflexivity).
  match goal with |- context [field "file" [(_, ?a); (_, ?b); (_, ?c); (_, ?d)]] => destruct (G a b c d) as (-> & -> & ->) end.
  cbn [dec_str rbind]. rewrite slice_fail; auto. destruct (cf_errors c) as [|e l]; [congruence|]. exists [], e, l. repeat split; auto. apply cerr_fail.
Qed.
Lemma fold_max_le : forall l n, fold_right Nat.max 0 l <= n <-> Forall (fun x => x <= n) l.
Proof. induction l as [|x l IH]; intros n; cbn [fold_right]; [split; auto; lia|]. rewrite Forall_cons_iff, <- IH. lia. Qed.
Lemma foldN_le : forall l n, (fold_right N.max 0 l <= n)%N <-> Forall (fun x => (x <= n)%N) l.
Proof. induction l as [|x l IH]; intros n; cbn [fold_right]; [split; auto; lia|]. rewrite Forall_cons_iff, <- IH. lia. Qed.
Lemma slice_depth : forall A (f : A -> json) nl l n, (1 <= n)%N -> ((depth (slice_json f nl l) <= n)%N <-> Forall (fun x => (1 + depth (f x) <= n)%N) l).
Proof.
  intros A f nl l n L. unfold slice_json. destruct l as [|x l]; [destruct nl; cbn; split; auto; lia|]. cbn [depth]. rewrite map_map.
  replace (1 + fold_right N.max 0 (map (fun y => depth (f y)) (x :: l)) <= n)%N with (fold_right N.max 0 (map (fun y => depth (f y)) (x :: l)) + 1 <= n)%N by (f_equal; lia).
  transitivity (fold_right N.max 0%N (map (fun y => depth (f y)) (x :: l)) <= n - 1)%N; [lia|]. rewrite foldN_le, Forall_map. split; intros F; (eapply Forall_impl; [|exact F]; cbn beta; lia).
Qed.
Lemma payload_depth : forall p, error_free p = true -> ((depth (payload_json na ne nc np other cb p) <= max_nesting)%N <-> tallest p <= 4998).
Proof.
  intros p E. unfold error_free in E. apply andb_true_iff in E as [E1 E2]. destruct (pl_errors p) as [|] eqn:EP; [|discriminate]. rewrite forallb_forall in E2.
  assert (D1 : forall c, In c (pl_config p) -> ((depth (config_json na ne np other c) <= 9998)%N <-> Forall (fun d => height d <= 4998) (cf_parsed c))).
  { intros c I. specialize (E2 c I). destruct (cf_errors c) as [|] eqn:EC; [|discriminate]. unfold config_json. rewrite EC. cbn [depth map fold_right snd].
    assert (Z : (depth (slice_json (cerr_json other) ne []) <= 1)%N) by (unfold slice_json; destruct ne; cbn; lia).
    transitivity (depth (slice_json (to_json na) np (cf_parsed c)) <= 9997)%N; [lia|]. rewrite slice_depth by lia. split; intros F; (eapply Forall_impl; [|exact F]); intros d; cbn beta; pose proof (depth_height na d); lia. }
  assert (Z : (depth (slice_json (perr_json other cb) ne []) <= 1)%N) by (unfold slice_json; destruct ne; cbn; lia).
  unfold payload_json, max_nesting. rewrite EP. cbn [depth map fold_right snd]. transitivity (depth (slice_json (config_json na ne np other) nc (pl_config p)) <= 9999)%N; [lia|]. rewrite slice_depth by lia.
  unfold tallest. rewrite fold_max_le, Forall_map. rewrite !Forall_forall. split.
  - intros F d I. apply in_flat_map in I as (c & IC & ID). specialize (F c IC). assert (X : (depth (config_json na ne np other c) <= 9998)%N) by lia. apply (D1 c IC) in X. rewrite Forall_forall in X. auto.
  - intros F c IC. assert (X : (depth (config_json na ne np other c) <= 9998)%N); [|lia]. apply (D1 c IC). apply Forall_forall. intros d ID. apply F. apply in_flat_map. eauto.
Qed.
Lemma payload_fields : forall p, clean_json (payload_json na ne nc np other cb p) = JObj [("status", JStr (to_valid (pl_status p))); ("errors", clean_json (slice_json (perr_json other cb) ne (pl_errors p)));
  ("config", clean_json (slice_json (config_json na ne np other) nc (pl_config p)))].
Proof. reflexivity. Qed.
Lemma g3 : forall a b c, field "status" [("status", a); ("errors", b); ("config", c)] = a /\ field "errors" [("status", a); ("errors", b); ("config", c)] = b /\ field "config" [("status", a); ("errors", b); ("config", c)] = c.
Proof. intros. repeat split; reflexivity. Qed.
Lemma payload_len : forall p d, In d (flat_map cf_parsed (pl_config p)) -> error_free p = true -> tallest p <= 4998 -> height d <= 4998.
Proof. intros p d I _ T. unfold tallest in T. rewrite fold_max_le, Forall_map, Forall_forall in T. auto. Qed.
Lemma dec_payload_ok : forall p fuel, error_free p = true -> tallest p <= fuel -> dec_payload fuel (clean_json (payload_json na ne nc np other cb p)) = Got (kept_payload to_valid p).
Proof.
  intros p fuel E T. rewrite payload_fields. unfold error_free in E. apply andb_true_iff in E as [E1 E2]. destruct (pl_errors p) as [|] eqn:EP; [|discriminate]. rewrite forallb_forall in E2.
  destruct (slice_dec _ _ (config_json na ne np other) nc (dec_config fuel) (kept_config to_valid) (pl_config p)) as (o & D & O).
  { apply Forall_forall. intros c I. apply config_dec; [|specialize (E2 c I); destruct (cf_errors c); congruence]. unfold tallest in T. rewrite fold_max_le, Forall_map, Forall_forall in T. apply Forall_forall. intros d J. apply T. apply in_flat_map. eauto. }
  unfold dec_payload. match goal with |- context [field "status" [(_, ?a); (_, ?b); (_, ?c)]] => destruct (g3 a b c) as (-> & -> & ->) end. cbn [dec_str rbind].
  assert (Z : exists o, dec_list dec_perr (clean_json (slice_json (perr_json other cb) ne [])) = Got o /\ opt_list o = []) by (unfold slice_json; destruct ne; eexists; split; reflexivity).
  destruct Z as (o' & -> & O'). cbn [rbind]. rewrite D. cbn [rbind]. rewrite O, O'. unfold kept_payload. now rewrite EP.
Qed.
Lemma first_bad : forall (cs : list config), forallb (fun c => match cf_errors c with [] => true | _ => false end) cs = false ->
  exists a c b, cs = (a ++ c :: b)%list /\ Forall (fun c => cf_errors c = []) a /\ cf_errors c <> [].
Proof.
  induction cs as [|c cs IH]; cbn [forallb]; intros H; [discriminate|]. destruct (cf_errors c) eqn:E.
  - cbn [andb] in H. destruct (IH H) as (a & c' & b & -> & F & N). exists (c :: a), c', b. repeat split; auto.
  - exists [], c, cs. repeat split; auto. congruence.
Qed.
Lemma dec_payload_fail : forall p fuel, error_free p = false -> tallest p <= fuel -> dec_payload fuel (clean_json (payload_json na ne nc np other cb p)) = Fail.
Proof.
  intros p fuel E T. rewrite payload_fields. unfold dec_payload. match goal with |- context [field "status" [(_, ?a); (_, ?b); (_, ?c)]] => destruct (g3 a b c) as (-> & -> & ->) end. cbn [dec_str rbind].
  destruct (pl_errors p) as [|e l] eqn:EP.
  - assert (Z : exists o, dec_list dec_perr (clean_json (slice_json (perr_json other cb) ne [])) = Got o) by (unfold slice_json; destruct ne; eexists; reflexivity).
    destruct Z as (o' & ->). cbn [rbind]. unfold error_free in E. rewrite EP in E. cbn [andb] in E. destruct (first_bad _ E) as (a & c & b & EQ & F & N). rewrite slice_fail; [reflexivity|rewrite EQ; destruct a; discriminate|].
    exists a, c, b. split; auto. split; [|now apply config_fail]. unfold tallest in T. rewrite fold_max_le, Forall_map, Forall_forall in T. rewrite Forall_forall in *. intros x I. eexists. apply config_dec; auto. apply Forall_forall. intros d J. apply T. rewrite EQ. apply in_flat_map. exists x. split; auto. apply in_or_app. now left.
  - rewrite slice_fail; [reflexivity|discriminate|]. exists [], e, l. repeat split; auto. apply perr_fail.
Qed.
Lemma depth_len : forall j, (depth j <= N.of_nat (slen (print_json j)))%N.
Proof.
  induction j as [|b|raw|s|l IH|l IH] using json_ind'; cbn [depth]; try lia.
  - cbn [print_json]. rewrite !app_slen. assert (X : (fold_right N.max 0 (map depth l) <= N.of_nat (slen (join (map print_json l) ",")))%N).
    { induction IH as [|x l H F IHF]; [cbn; lia|]. destruct l as [|y l]; [cbn [map join String.concat fold_right] in *; lia|].
      change (join (map print_json (x :: y :: l)) ",") with (print_json x ++ "," ++ join (map print_json (y :: l)) ","). rewrite !app_slen. cbn [map fold_right] in *. lia. }
    change (slen "[") with 1. lia.
  - cbn [print_json]. fold member. rewrite !app_slen. assert (X : (fold_right N.max 0 (map (fun kv => depth (snd kv)) l) <= N.of_nat (slen (join (map member l) ",")))%N).
    { induction IH as [|x l H F IHF]; [cbn; lia|]. assert (MX : (depth (snd x) <= N.of_nat (slen (member x)))%N) by (unfold member; rewrite !app_slen; lia). destruct l as [|y l]; [cbn [map join String.concat fold_right] in *; lia|].
      change (join (map member (x :: y :: l)) ",") with (member x ++ "," ++ join (map member (y :: l)) ","). rewrite !app_slen. cbn [map fold_right] in *. lia. }
    change (slen "{") with 1. lia.
Qed.
Lemma config_in_depth : forall p d, In d (flat_map cf_parsed (pl_config p)) -> (depth (to_json na d) <= depth (payload_json na ne nc np other cb p))%N.
Proof.
  intros p d I. apply in_flat_map in I as (c & IC & ID).
  assert (S1 : forall A (f : A -> json) nl l x, In x l -> (1 + depth (f x) <= depth (slice_json f nl l))%N).
  { intros A f nl l x J. destruct (slice_depth A f nl l (depth (slice_json f nl l))) as [H _]; [unfold slice_json; destruct l; [destruct J|cbn [depth]; lia]|]. specialize (H ltac:(lia)). rewrite Forall_forall in H. auto. }
  pose proof (S1 _ (to_json na) np (cf_parsed c) d ID). pose proof (S1 _ (config_json na ne np other) nc (pl_config p) c IC) as H2. unfold payload_json, config_json in *. cbn [depth map fold_right snd] in *. lia.
Qed.
Lemma tallest_len : forall p, tallest p <= S (slen (marshal_payload na ne nc np other cb p)).
Proof.
  intros p. unfold tallest. apply fold_max_le. rewrite Forall_map, Forall_forall. intros d I. pose proof (config_in_depth p d I). pose proof (depth_height na d). pose proof (depth_len (payload_json na ne nc np other cb p)). unfold marshal_payload. rewrite height_tall in *. lia.
Qed.
(** A payload without errors comes back; one with an error does not. *)
Lemma payload_roundtrip : forall p, unmarshal_payload (marshal_payload na ne nc np other cb p) =
  if (error_free p && Nat.leb (tallest p) 4998)%bool then Got (kept_payload to_valid p) else Fail.
Proof.
  intros p. unfold unmarshal_payload. pose proof (tallest_len p) as TL. unfold marshal_payload in *. rewrite parse_print by apply payload_wf. destruct (error_free p) eqn:E; cbn [andb].
  - pose proof (payload_depth p E) as H. destruct (Nat.leb_spec (tallest p) 4998) as [L|L], (N.leb_spec (depth (payload_json na ne nc np other cb p)) max_nesting) as [M|M]; try reflexivity.
    + apply dec_payload_ok; auto.
    + tauto || (apply H in L; lia).
    + apply H in M. lia.
  - destruct (N.leb _ _); [|reflexivity]. apply dec_payload_fail; auto.
Qed.
End Payloads.
Lemma json_exact : forall na d, texts_ok d = true -> height d <= 5000 -> lists_filled d = true -> unmarshal (marshal na d) = Got d.
Proof. intros na d T L F. rewrite roundtrip. destruct (Nat.leb_spec (height d) 5000); [|lia]. now rewrite kept_ok, kept_id. Qed.
