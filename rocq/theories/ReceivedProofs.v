(** C77: JSON texts from elsewhere. *)
From Verif Require Export SpecReceived JsonTextProofs JsonDirs.
Local Open Scope string_scope.

Lemma rbind_got : forall A B (r : res A) (k : A -> res B) b, rbind r k = Got b <-> exists a, r = Got a /\ k a = Got b.
Proof.
  intros A B [a| |] k b; cbn; split; intro H; try discriminate; eauto.
  - destruct H as (a' & E & K). inversion E; subst. exact K.
  - destruct H as (a' & E & _). discriminate.
  - destruct H as (a' & E & _). discriminate.
Qed.
Lemma rmap_iff : forall A B (f : A -> res B) (R : A -> B -> Prop) l,
  (forall x, In x l -> forall b, f x = Got b <-> R x b) -> forall m, rmap f l = Got m <-> Forall2 R l m.
Proof.
  intros A B f R. induction l as [|x l IH]; intros H m; cbn.
  - split; intro E; inversion E; auto.
  - rewrite rbind_got. split.
    + intros (y & E & F). apply rbind_got in F. destruct F as (z & F & G). inversion G; subst.
      constructor; [apply H; cbn; auto|apply IH; auto; intros; apply H; cbn; auto].
    + intros F. inversion F as [|? y ? z HR F']; subst. exists y. split; [apply H; cbn; auto|].
      apply rbind_got. exists z. split; [|reflexivity]. apply IH; auto. intros; apply H; cbn; auto.
Qed.
(** ** Members *)
Lemma assoc_in : forall (l : list (string * json)) k v, NoDup (map fst l) -> In (k, v) l -> assoc k l = Some v.
Proof.
  induction l as [|[k0 v0] l IH]; intros k v N I; [contradiction|]. inversion N; subst. cbn. destruct I as [E|I].
  - inversion E; subst. now rewrite String.eqb_refl.
  - destruct (String.eqb_spec k k0) as [->|]; [|auto]. exfalso. apply H1. change k0 with (fst (k0, v)). now apply in_map.
Qed.
Lemma assoc_out : forall (l : list (string * json)) k, (forall v, ~ In (k, v) l) -> assoc k l = None.
Proof.
  induction l as [|[k0 v0] l IH]; intros k N; [reflexivity|]. cbn. destruct (String.eqb_spec k k0) as [->|].
  - exfalso. apply (N v0). now left.
  - apply IH. intros v I. apply (N v). now right.
Qed.
Lemma field_in : forall l k v, NoDup (map fst l) -> In (k, v) l -> field k l = v.
Proof.
  intros l k v N I. unfold field. rewrite (assoc_in (rev l) k v); [reflexivity| |now apply -> in_rev].
  rewrite map_rev. now apply NoDup_rev.
Qed.
Lemma field_out : forall l k, (forall v, ~ In (k, v) l) -> field k l = JNull.
Proof. intros l k N. unfold field. rewrite assoc_out; [reflexivity|]. intros v I. apply in_rev in I. now apply (N v). Qed.
Lemma key_dec : forall (l : list (string * json)) k, (exists v, In (k, v) l) \/ (forall v, ~ In (k, v) l).
Proof.
  induction l as [|[k0 v0] l IH]; intros k; [right; intros v []|].
  destruct (string_dec k0 k) as [->|N]; [left; exists v0; now left|].
  destruct (IH k) as [(v & I)|O]; [left; exists v; now right|right]. intros v [E|I]; [congruence|exact (O v I)].
Qed.
Lemma member_iff : forall A k (f : json -> res A) (R : json -> A -> Prop) zero l, NoDup (map fst l) -> f JNull = Got zero ->
  (forall v, In (k, v) l -> forall a, f v = Got a <-> R v a) ->
  forall a, f (field k l) = Got a <-> member_is k R zero l a.
Proof.
  intros A k f R zero l N Z H a. destruct (key_dec l k) as [(v & I)|O].
  - rewrite (field_in l k v N I), (H v I). split; [left; eauto|].
    intros [(w & J & HR)|(O & _)]; [|destruct (O v I)].
    rewrite <- (field_in l k v N I), (field_in l k w N J). exact HR.
  - rewrite (field_out l k O), Z. split; [intro E; inversion E; subst; right; auto|].
    intros [(w & J & _)|(_ & ->)]; [destruct (O w J)|reflexivity].
Qed.
(** ** Values *)
Lemma str_iff : forall j s, dec_str j = Got s <-> text_of j s.
Proof. intros j x; destruct j; cbn; split; intro H; inversion H; subst; try constructor; reflexivity. Qed.
Lemma bool_iff : forall j b, dec_bool j = Got b <-> bool_of j b.
Proof. intros j x; destruct j; cbn; split; intro H; inversion H; subst; try constructor; reflexivity. Qed.
Lemma int_iff : forall j z, dec_int j = Got z <-> int_of j z.
Proof.
  intros j z. split.
  - destruct j; cbn; intro H; try discriminate; [inversion H; constructor|].
    destruct (NilZero.int_of_string raw) as [i|] eqn:E; [|discriminate]. apply NilZero.sis in E. inversion H; subst. constructor.
  - intros []; cbn [dec_int]; [reflexivity|].
    destruct i as [[]|[]]; try (rewrite NilZero.isi by discriminate; reflexivity).
    + now rewrite NilZero.isi_posnil.
    + now rewrite NilZero.isi_negnil.
Qed.
Lemma list_iff : forall A (f : json -> res A) (R : json -> A -> Prop) j,
  (forall l, j = JArr l -> forall x, In x l -> forall a, f x = Got a <-> R x a) ->
  forall o, dec_list f j = Got o <-> slice_of R j o.
Proof.
  intros A f R j H o. destruct j; cbn; try (split; intro E; inversion E; subst; constructor; fail).
  rewrite rbind_got. split.
  - intros (m & E & F). inversion F; subst. constructor. revert E. apply rmap_iff. now apply H.
  - intros S. inversion S as [|js m F]; subst. exists m. split; [|reflexivity]. revert F. apply rmap_iff. now apply H.
Qed.
Lemma ptr_iff : forall A (f : json -> res A) (R : json -> A -> Prop) j, (forall a, f j = Got a <-> R j a) ->
  forall o, dec_ptr f j = Got o <-> ptr_of R j o.
Proof.
  intros A f R j H o. unfold dec_ptr. destruct (match j with JNull => true | _ => false end) eqn:N.
  - destruct j; try discriminate. split; intro E; inversion E; subst; [constructor|reflexivity|congruence].
  - assert (NE : j <> JNull) by (intros ->; discriminate).
    assert (E : match j with JNull => Got None | _ => rbind (f j) (fun a => Got (Some a)) end = rbind (f j) (fun a => Got (Some a)))
      by (destruct j; auto; congruence).
    rewrite E, rbind_got. split.
    + intros (a & F & G). inversion G; subst. constructor; [exact NE|now apply H].
    + intros P. inversion P; subst; [congruence|]. exists a. split; [now apply H|reflexivity].
Qed.
(** ** Keys and depth *)
Lemma plain_obj : forall l, plain_keys (JObj l) -> NoDup (map fst l) /\ forall k v, In (k, v) l -> plain_keys v.
Proof.
  intros l (N & _ & G). split.
  - rewrite <- map_map in N. eapply NoDup_map_inv; exact N.
  - revert G. clear. induction l as [|x l IH]; intros G k v I; [contradiction|]. destruct G as [P G].
    destruct I as [->|I]; [exact P|eauto].
Qed.
Lemma plain_arr : forall l, plain_keys (JArr l) -> forall x, In x l -> plain_keys x.
Proof.
  intros l G. cbn in G. revert G. induction l as [|y l IH]; intros G x I; [contradiction|]. destruct G as [P G].
  destruct I as [->|I]; auto.
Qed.
Lemma depth_obj_in : forall l k v, In (k, v) l -> (depth v < depth (JObj l))%N.
Proof.
  intros l k v I. cbn [depth]. induction l as [|[k0 v0] l IH]; [contradiction|]. cbn [map fold_right snd] in *.
  destruct I as [E|I]; [inversion E; subst; lia|]. specialize (IH I). lia.
Qed.
Lemma depth_arr_in : forall l x, In x l -> (depth x < depth (JArr l))%N.
Proof.
  intros l x I. cbn [depth]. induction l as [|y l IH]; [contradiction|]. cbn [map fold_right] in *.
  destruct I as [->|I]; [lia|]. specialize (IH I). lia.
Qed.
Lemma slen_app2 : forall a b, slen (a ++ b) = slen a + slen b.
Proof. induction a as [|c a IH]; intros b; cbn; [reflexivity|]. now rewrite IH. Qed.
Lemma depth_text :
  (forall d s j, value d s j -> (depth j <= N.of_nat (slen s))%N) /\
  (forall d s l, elements d s l -> Forall (fun j => (depth j <= N.of_nat (slen s))%N) l) /\
  (forall d s l, members d s l -> Forall (fun kv => (depth (snd kv) <= N.of_nat (slen s))%N) l) /\
  (forall d s k j, member_of d s k j -> (depth j <= N.of_nat (slen s))%N).
Proof.
  apply (json_mut (fun d s j _ => (depth j <= N.of_nat (slen s))%N)
    (fun d s l _ => Forall (fun j => (depth j <= N.of_nat (slen s))%N) l)
    (fun d s l _ => Forall (fun kv => (depth (snd kv) <= N.of_nat (slen s))%N) l)
    (fun d s k j _ => (depth j <= N.of_nat (slen s))%N)); intros; cbn [depth map fold_right]; rewrite ?slen_app2 in *; cbn [slen String.length] in *; try lia.
  - assert (fold_right N.max 0%N (map depth l) <= N.of_nat (slen s))%N; [|lia].
    apply foldN_le. now apply Forall_map.
  - assert (fold_right N.max 0%N (map (fun kv => depth (snd kv)) l) <= N.of_nat (slen s))%N; [|lia].
    apply foldN_le. now apply Forall_map.
  - constructor; [lia|constructor].
  - constructor; [lia|]. eapply Forall_impl; [|eassumption]. cbn. intros. lia.
  - constructor; [cbn; lia|constructor].
  - constructor; [cbn; lia|]. eapply Forall_impl; [|eassumption]. cbn. intros. lia.
Qed.

(** ** Directives *)
Definition elem_dec (f : nat) (j : json) : res directive := match j with JNull => Outside | _ => dec_dir f j end.
Lemma dec_iff : forall fuel j d, plain_keys j -> (depth j < N.of_nat fuel)%N -> (dec_dir fuel j = Got d <-> means j d).
Proof.
  induction fuel as [|f IH]; intros j d P D; [lia|]. destruct j; cbn [dec_dir];
    try (split; intro H; inversion H; subst; constructor; fail).
  destruct (plain_obj _ P) as [N PV].
  assert (S0 : forall k, forall v, In (k, v) l -> forall a, dec_str v = Got a <-> text_of v a) by (intros; apply str_iff).
  assert (I0 : forall k, forall v, In (k, v) l -> forall a, dec_int v = Got a <-> int_of v a) by (intros; apply int_iff).
  assert (B0 : forall v, In ("mapBlockParameter", v) l -> forall a, dec_bool v = Got a <-> bool_of v a) by (intros; apply bool_iff).
  assert (SL : forall v, In ("args", v) l -> forall a, dec_list dec_str v = Got a <-> slice_of text_of v a)
    by (intros v _; apply list_iff; intros; apply str_iff).
  assert (IL : forall v, In ("includes", v) l -> forall a, dec_list dec_int v = Got a <-> slice_of int_of v a)
    by (intros v _; apply list_iff; intros; apply int_iff).
  assert (CP : forall v, In ("comment", v) l -> forall a, dec_ptr dec_str v = Got a <-> ptr_of text_of v a)
    by (intros v _; apply ptr_iff; intros; apply str_iff).
  assert (BL : forall v, In ("block", v) l -> forall a, dec_list (elem_dec f) v = Got a <->
                slice_of (fun j d => j <> JNull /\ means j d) v a).
  { intros v I. apply list_iff. intros js -> x J a. specialize (PV _ _ I). pose proof (plain_arr _ PV x J) as PX.
    pose proof (depth_obj_in _ _ _ I). pose proof (depth_arr_in _ _ J).
    unfold elem_dec. specialize (IH x a PX ltac:(lia)). destruct x; try (rewrite IH; split; [intro; split; [discriminate|assumption]|tauto]).
    split; [discriminate|intros [[] _]; reflexivity]. }
  change (fun j => match j with JNull => Outside | _ => dec_dir f j end) with (elem_dec f).
  split.
  - intros H.
    repeat match type of H with
    | rbind _ _ = Got _ => let a := fresh "a" in let E := fresh "E" in apply rbind_got in H; destruct H as (a & E & H); cbv beta in H
    end.
    inversion H; subst. constructor.
    + now apply (member_iff _ "directive" dec_str text_of "" l N eq_refl (S0 "directive")).
    + now apply (member_iff _ "line" dec_int int_of 0%Z l N eq_refl (I0 "line")).
    + now apply (member_iff _ "args" _ _ None l N eq_refl SL).
    + now apply (member_iff _ "file" dec_str text_of "" l N eq_refl (S0 "file")).
    + now apply (member_iff _ "includes" _ _ None l N eq_refl IL).
    + now apply (member_iff _ "block" _ _ None l N eq_refl BL).
    + now apply (member_iff _ "comment" _ _ None l N eq_refl CP).
    + now apply (member_iff _ "mapBlockParameter" _ _ false l N eq_refl B0).
  - intros M. inversion M as [|? name line args file incs blk com mp M1 M2 M3 M4 M5 M6 M7 M8]; subst.
    apply (member_iff _ "directive" dec_str text_of "" l N eq_refl (S0 "directive")) in M1.
    apply (member_iff _ "line" dec_int int_of 0%Z l N eq_refl (I0 "line")) in M2.
    apply (member_iff _ "args" _ _ None l N eq_refl SL) in M3.
    apply (member_iff _ "file" dec_str text_of "" l N eq_refl (S0 "file")) in M4.
    apply (member_iff _ "includes" _ _ None l N eq_refl IL) in M5.
    apply (member_iff _ "block" _ _ None l N eq_refl BL) in M6.
    apply (member_iff _ "comment" _ _ None l N eq_refl CP) in M7.
    apply (member_iff _ "mapBlockParameter" _ _ false l N eq_refl B0) in M8.
    rewrite M1, M2, M3, M4, M5, M6, M7, M8. reflexivity.
Qed.
Lemma text_depth : forall s j, json_text s j -> (depth j < N.of_nat (S (slen s)))%N.
Proof.
  intros s j (v & t & w & -> & _ & _ & V). apply (proj1 depth_text) in V. rewrite !slen_app2. lia.
Qed.
Lemma received : forall s j d, json_text s j -> plain_keys j -> (unmarshal s = Got d <-> means j d).
Proof.
  intros s j d T P. unfold unmarshal. rewrite (proj2 (parse_iff s j) T). apply dec_iff; [exact P|now apply text_depth].
Qed.

(** ** Payloads *)
Lemma elem_iff : forall fuel l k v js x, plain_keys (JObj l) -> In (k, v) l -> v = JArr js -> In x js ->
  (depth (JObj l) < N.of_nat fuel)%N -> forall a, elem_dec fuel x = Got a <-> (x <> JNull /\ means x a).
Proof.
  intros fuel l k v js x P I -> J D a. destruct (plain_obj _ P) as [_ PV]. pose proof (plain_arr _ (PV _ _ I) x J) as PX.
  pose proof (depth_obj_in _ _ _ I). pose proof (depth_arr_in _ _ J). unfold elem_dec.
  pose proof (dec_iff fuel x a PX ltac:(lia)) as IH.
  destruct x; try (rewrite IH; split; [intro; split; [discriminate|assumption]|tauto]).
  split; [discriminate|intros [[] _]; reflexivity].
Qed.
Lemma cerr_never : forall j e, dec_cerr j <> Got e.
Proof.
  intros j e; destruct j; cbn; try discriminate. intros H. apply rbind_got in H. destruct H as (a & _ & H).
  apply rbind_got in H. destruct H as (b & H & _). unfold dec_error in H. destruct (field "error" l); discriminate.
Qed.
Lemma perr_never : forall j e, dec_perr j <> Got e.
Proof.
  intros j e; destruct j; cbn; try discriminate. intros H. apply rbind_got in H. destruct H as (c & _ & H). apply rbind_got in H. destruct H as (a & _ & H).
  apply rbind_got in H. destruct H as (b & H & _). unfold dec_error in H. destruct (field "error" l); discriminate.
Qed.
Lemma no_elems : forall A l (o : option (list A)), member_is "errors" (slice_of (fun _ _ => False)) None l o -> opt_list o = [].
Proof.
  intros A l o [(v & _ & S)|(_ & ->)]; [|reflexivity]. destruct S as [|js m F]; [reflexivity|]. destruct F; [reflexivity|contradiction].
Qed.
Lemma config_iff : forall fuel j c, plain_keys j -> (depth j < N.of_nat fuel)%N -> (dec_config fuel j = Got c <-> config_means j c).
Proof.
  intros fuel j c P D. destruct j; cbn [dec_config]; try (split; intro H; inversion H; subst; constructor; fail).
  destruct (plain_obj _ P) as [N _].
  assert (S0 : forall k, forall v, In (k, v) l -> forall a, dec_str v = Got a <-> text_of v a) by (intros; apply str_iff).
  assert (EL : forall v, In ("errors", v) l -> forall a, dec_list dec_cerr v = Got a <-> slice_of (fun _ _ => False) v a).
  { intros v _. apply list_iff. intros js _ x _ a. split; [apply cerr_never|tauto]. }
  assert (PL : forall v, In ("parsed", v) l -> forall a, dec_list (elem_dec fuel) v = Got a <->
                slice_of (fun j d => j <> JNull /\ means j d) v a).
  { intros v I. apply list_iff. intros js E x J a. eapply elem_iff; eauto. }
  change (fun j => match j with JNull => Outside | _ => dec_dir fuel j end) with (elem_dec fuel).
  split.
  - intros H.
    repeat match type of H with
    | rbind _ _ = Got _ => let a := fresh "a" in let E := fresh "E" in apply rbind_got in H; destruct H as (a & E & H); cbv beta in H
    end.
    apply (member_iff _ "file" dec_str text_of "" l N eq_refl (S0 "file")) in E.
    apply (member_iff _ "status" dec_str text_of "" l N eq_refl (S0 "status")) in E0.
    apply (member_iff _ "errors" _ _ None l N eq_refl EL) in E1.
    apply (member_iff _ "parsed" _ _ None l N eq_refl PL) in E2.
    rewrite (no_elems _ _ _ E1) in H. inversion H; subst. econstructor; eassumption.
  - intros M. inversion M as [|? file status errs parsed M1 M2 M3 M4]; subst.
    pose proof (no_elems _ _ _ M3) as NE.
    apply (member_iff _ "file" dec_str text_of "" l N eq_refl (S0 "file")) in M1.
    apply (member_iff _ "status" dec_str text_of "" l N eq_refl (S0 "status")) in M2.
    apply (member_iff _ "errors" _ _ None l N eq_refl EL) in M3.
    apply (member_iff _ "parsed" _ _ None l N eq_refl PL) in M4.
    rewrite M1, M2, M3, M4. cbn [rbind]. now rewrite NE.
Qed.
Lemma payload_iff : forall fuel j p, plain_keys j -> (depth j < N.of_nat fuel)%N -> (dec_payload fuel j = Got p <-> payload_means j p).
Proof.
  intros fuel j p P D. destruct j; cbn [dec_payload]; try (split; intro H; inversion H; subst; constructor; fail).
  destruct (plain_obj _ P) as [N PV].
  assert (S0 : forall v, In ("status", v) l -> forall a, dec_str v = Got a <-> text_of v a) by (intros; apply str_iff).
  assert (EL : forall v, In ("errors", v) l -> forall a, dec_list dec_perr v = Got a <-> slice_of (fun _ _ => False) v a).
  { intros v _. apply list_iff. intros js _ x _ a. split; [apply perr_never|tauto]. }
  assert (CL : forall v, In ("config", v) l -> forall a, dec_list (dec_config fuel) v = Got a <-> slice_of config_means v a).
  { intros v I. apply list_iff. intros js -> x J a. apply config_iff; [exact (plain_arr _ (PV _ _ I) x J)|].
    pose proof (depth_obj_in _ _ _ I). pose proof (depth_arr_in _ _ J). lia. }
  split.
  - intros H.
    repeat match type of H with
    | rbind _ _ = Got _ => let a := fresh "a" in let E := fresh "E" in apply rbind_got in H; destruct H as (a & E & H); cbv beta in H
    end.
    apply (member_iff _ "status" dec_str text_of "" l N eq_refl S0) in E.
    apply (member_iff _ "errors" _ _ None l N eq_refl EL) in E0.
    apply (member_iff _ "config" _ _ None l N eq_refl CL) in E1.
    rewrite (no_elems _ _ _ E0) in H. inversion H; subst. econstructor; eassumption.
  - intros M. inversion M as [|? status errs configs M1 M2 M3]; subst.
    pose proof (no_elems _ _ _ M2) as NE.
    apply (member_iff _ "status" dec_str text_of "" l N eq_refl S0) in M1.
    apply (member_iff _ "errors" _ _ None l N eq_refl EL) in M2.
    apply (member_iff _ "config" _ _ None l N eq_refl CL) in M3.
    rewrite M1, M2, M3. cbn [rbind]. now rewrite NE.
Qed.
Lemma received_payload : forall s j p, json_text s j -> plain_keys j -> (unmarshal_payload s = Got p <-> payload_means j p).
Proof.
  intros s j p T P. unfold unmarshal_payload. rewrite (proj2 (parse_iff s j) T). apply payload_iff; [exact P|now apply text_depth].
Qed.

(** ** Order and other members *)
Lemma member_same : forall A k (R : json -> A -> Prop) zero l l' a, (forall v, In (k, v) l <-> In (k, v) l') ->
  member_is k R zero l a -> member_is k R zero l' a.
Proof.
  intros A k R zero l l' a E [(v & I & HR)|(O & ->)].
  - left. exists v. split; [now apply E|exact HR].
  - right. split; [|reflexivity]. intros v I. apply (O v). now apply E.
Qed.
Lemma means_same : forall l l' d, (forall k v, In k tags -> (In (k, v) l <-> In (k, v) l')) -> means (JObj l) d -> means (JObj l') d.
Proof.
  intros l l' d E M. inversion M; subst. constructor; (eapply member_same; [|eassumption]); intros v; apply E; cbn; tauto.
Qed.
Lemma received_same : forall s s' l l' d, json_text s (JObj l) -> json_text s' (JObj l') ->
  plain_keys (JObj l) -> plain_keys (JObj l') -> (forall k v, In k tags -> (In (k, v) l <-> In (k, v) l')) ->
  unmarshal s = Got d -> unmarshal s' = Got d.
Proof.
  intros s s' l l' d T T' P P' E H. apply (received s' _ d T' P'). eapply means_same; [exact E|]. now apply (received s _ d T P).
Qed.
