(** What a goroutine delivers, independently of any schedule. *)
From Verif Require Export Chan.
Import ListNotations.
Local Open Scope list_scope.

Section Spec.
Context {T : Type}.

(** A range loop over a known sequence: what it sends, and the final
    collection ([None]: it returned early). *)
Fixpoint over (b : loop_body T) (a : list T) (xs : list T) : list T * option (list T) :=
  match xs with
  | [] => ([], Some a)
  | x :: r =>
    match b a x with
    | (e, None) => (e, None)
    | (e, Some a') => let (e', o) := over b a' r in (e ++ e', o)
    end
  end.

(** The sequence a program sends when every channel is read to its end. *)
Fixpoint delivers (p : proc T) : list T :=
  match p with
  | Stop => []
  | Emit t k => t :: delivers k
  | Range _ c a b k =>
    match over b a (delivers c) with
    | (e, Some a') => e ++ delivers (k a')
    | (e, None) => e
    end
  end.

(** No loop of the program returns before its channel is exhausted. *)
Fixpoint patient (p : proc T) : Prop :=
  match p with
  | Stop => True
  | Emit _ k => patient k
  | Range _ c a b k =>
    patient c /\ match over b a (delivers c) with
                 | (_, Some a') => patient (k a')
                 | (_, None) => False
                 end
  end.

(** How many internal steps a program can take. *)
Fixpoint work (p : proc T) : nat :=
  match p with
  | Stop => 1
  | Emit _ k => 2 + work k
  | Range _ c a b k =>
    2 + work c + length (delivers c)
    + match over b a (delivers c) with
      | (e, Some a') => 2 * length e + work (k a')
      | (e, None) => 2 * length e + 1
      end
  end.

(** The receiver after [n] receives from a channel that delivers [l] and is
    then closed; [fed_before]: it was not done before any of them. *)
Fixpoint fed (C : consumer T) (s : c_state C) (l : list T) (n : nat) : c_state C :=
  match n with
  | O => s
  | S n => match l with
           | [] => fed C (c_next C s None) [] n
           | x :: r => fed C (c_next C s (Some x)) r n
           end
  end.

(** The receives a receiver is given. *)
Fixpoint given (l : list T) (n : nat) : list (option T) :=
  match n with
  | O => []
  | S n => match l with [] => None :: given [] n | x :: r => Some x :: given r n end
  end.

(** A receiver that reads until the channel is closed and keeps what it got. *)
Definition drainer : consumer T :=
  Cons (list T * bool) snd
       (fun s x => match x with Some t => (fst s ++ [t], false) | None => (fst s, true) end).

(** A receiver that leaves after [n] values. *)
Definition leaver (n : nat) : consumer T :=
  Cons nat (fun k => Nat.leb n k) (fun k _ => S k).

Definition sends (l : list T) : proc T := fold_right Emit Stop l.

(** Nothing more can happen by itself. *)
Definition at_rest (g : gor T) : Prop := forall g', ~ step g g'.

End Spec.

(** The tokens of a lexer's sends, in order. *)
Fixpoint send_tokens (x : send) : list token :=
  match x with Own t => [t] | Ext _ l => flat_map send_tokens l end.
