(** C67: putting texts together. *)
From Verif Require Import JoinProofs.
Local Open Scope string_scope.

(** Two texts, one behind the other.  Nothing is left open in the first one: a newline behind it
    changes nothing. *)
Theorem C67_join : forall a b, no_errors (lex [] a) -> lex [] (a ++ s_nl) = lex [] a -> fresh (lex [] b) ->
  lex [] (a ++ s_nl ++ b) = (lex [] a ++ map (later (newlines a + 1)) (lex [] b))%list.
Proof. exact join. Qed.
Print Assumptions C67_join.

(** A complete text put between two lines of another one, in whatever block. *)
Theorem C67_insert : forall a b w P S, settled a P -> no_errors (lex [] w) -> lex [] (w ++ s_nl) = lex [] w -> fresh (lex [] w) ->
  lex [] (a ++ s_nl ++ b) = (P ++ S)%list -> no_errors S -> fresh S ->
  lex [] (a ++ s_nl ++ w ++ s_nl ++ b) = (P ++ map (later (newlines a + 1)) (lex [] w) ++ map (later (newlines w + 1)) S)%list.
Proof. exact insert. Qed.
Print Assumptions C67_insert.

(** The conditions are needed: a lone ";" is a token of a text of its own, but not behind a
    statement; a quote or a backslash left open takes in what follows. *)
Theorem C67_lone_refuted : exists a b, no_errors (lex [] a) /\ lex [] (a ++ s_nl) = lex [] a /\ no_errors (lex [] b) /\
  ~ no_errors (lex [] (a ++ s_nl ++ b)).
Proof. exists "a;", ";". split; [vm_compute; repeat constructor|]. split; [vm_compute; reflexivity|]. split; [vm_compute; repeat constructor|]. intros H. vm_compute in H. apply Forall_inv_tail, Forall_inv_tail, Forall_inv in H. discriminate H. Qed.
Print Assumptions C67_lone_refuted.
Theorem C67_open_refuted : exists a b, no_errors (lex [] a) /\ fresh (lex [] b) /\
  lex [] (a ++ s_nl ++ b) <> (lex [] a ++ map (later (newlines a + 1)) (lex [] b))%list.
Proof.
  exists "a 'b", "c d;". split; [vm_compute; repeat constructor|]. split.
  - vm_compute. now apply fresh_by.
  - vm_compute. discriminate.
Qed.
Print Assumptions C67_open_refuted.

Definition join_a := "http { # one" ++ s_nl ++ "server {".
Definition join_w := "listen 80; # here" ++ s_nl ++ "root 'a b';".
Definition join_b := "index c;" ++ s_nl ++ "} }".
Example C67_case : no_errors (lex [] join_w) /\ lex [] (join_w ++ s_nl) = lex [] join_w /\ fresh (lex [] join_w).
Proof. vm_compute. split; [repeat constructor|]. split; [reflexivity|]. now apply fresh_by. Qed.
Definition join_P := ["http"; "{"; "# one"; "server"; "{"].
Definition join_S := ["index"; "c"; ";"; "}"; "}"].
Example C67_between : exists P S, settled join_a P /\ lex [] (join_a ++ s_nl ++ join_b) = (P ++ S)%list /\ no_errors S /\ fresh S /\
  map t_val P = join_P /\ map t_val S = join_S.
Proof.
  exists (firstn 5 (lex [] join_a)), (skipn 5 (lex [] (join_a ++ s_nl ++ join_b))). vm_compute. split.
  - split; [repeat constructor|]. split; right; do 2 eexists; (split; reflexivity).
  - split; [reflexivity|]. split; [repeat constructor|]. split; [now apply fresh_by|]. split; reflexivity.
Qed.
