(** C81: what is opened is closed. *)
From Verif Require Export Handles.
Local Open Scope string_scope.

(** Each file is closed, after those that were opened after it. *)
Inductive paired : list event -> Prop :=
| paired_nil : paired []
| paired_cons : forall k p a b, paired a -> paired b -> paired (Open k p :: a ++ Close k :: b)%list.
Fixpoint opens (log : list event) : list (nat * string) :=
  match log with
  | [] => []
  | Open k p :: r => (k, p) :: opens r
  | Close _ :: r => opens r
  end.
(** The files that are open behind [log]. *)
Definition closed_in (log : list event) (k : nat) : bool :=
  existsb (fun e => match e with Close j => Nat.eqb j k | Open _ _ => false end) log.
Definition still_open (log : list event) : list string :=
  map snd (filter (fun x => negb (closed_in log (fst x))) (opens log)).
Definition can_open (o : popts) (path : string) : bool := match o_open o path with inl _ => true | inr _ => false end.
