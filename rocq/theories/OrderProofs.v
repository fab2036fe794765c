(** C85: the order of directive sources. *)
From Verif Require Export SpecOrder LooseProofs.
Local Open Scope string_scope.

Lemma tables_sym : forall o o', same_tables o o' -> same_tables o' o.
Proof. intros o o' [[? ? ? ? ? ? ?] ? ? ? ? ?]. constructor; auto. constructor; auto. Qed.
Lemma tables_looser : forall o o', same_tables o o' -> looser o o'.
Proof.
  intros o o' [R S C A K B]. constructor; auto; try congruence.
  - intros name ms N. destruct (K name ms N) as (ms' & N' & E). exists ms'. split; [auto|]. intros m. apply E.
  - intros name U _ ms N. destruct (B name ms N) as (ms' & N' & _). exact (U ms' N').
Qed.
Lemma tables_main : forall fuel o o' filename p, same_tables o o' -> pl_errors p = [] ->
  (parse_main fuel o filename = ROk p <-> parse_main fuel o' filename = ROk p).
Proof.
  intros fuel o o' filename p T E. split; intros H; (eapply main_looser; [|eassumption|assumption]).
  - now apply tables_looser.
  - now apply tables_looser, tables_sym.
Qed.
Lemma knows_set : forall o o' name ms, o_default o' = o_default o -> same_set (o_sources o) (o_sources o') -> knows o name ms ->
  exists ms', knows o' name ms' /\ same_set ms ms'.
Proof.
  intros o o' name ms D S [[N K]|(N & f & I & F & ->)].
  - exists ms. split; [left|now intros m]. rewrite D. split; [|auto]. destruct (o_sources o') as [|x l]; [reflexivity|]. specialize (S x). rewrite N in S. exfalso. apply S. now left.
  - eexists. split; [right; split; [|exists f; split; [now apply S|split; [exact F|reflexivity]]]|].
    + intros Z. apply S in I. rewrite Z in I. destruct I.
    + intros m. rewrite !in_flat_map. split; intros (g & G & M); exists g; (split; [now apply S|exact M]).
Qed.
Lemma sources_tables : forall o gs, same_set (o_sources o) gs -> same_tables o (with_sources o gs).
Proof.
  intros o gs S. constructor; try reflexivity.
  - constructor; reflexivity.
  - intros name ms. now apply knows_set.
  - intros name ms. apply knows_set; [reflexivity|]. intros x. symmetry. apply S.
Qed.
Lemma sources_main : forall fuel o gs filename p, same_set (o_sources o) gs -> pl_errors p = [] ->
  (parse_main fuel o filename = ROk p <-> parse_main fuel (with_sources o gs) filename = ROk p).
Proof. intros fuel o gs filename p S. apply tables_main. now apply sources_tables. Qed.
