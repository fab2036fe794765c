(** Goroutines and channels: lex.go:92-101 [LexWithOptions], lex.go:133-338
    [tokenize] (only what it sends and closes), lex.go:195-198 (forwarding the
    channel of an external lexer), lua.go:55-61 ([Lua.Lex]'s goroutine),
    util.go:132-172 [performIncludes].

    A goroutine of the package owns one channel: it makes it (with some
    capacity), sends on it, closes it at the end, and in between may range over
    the channel of a goroutine it starts.  All of them are written in one small
    language of programs.

    Simplifications: what a goroutine sends does not depend on the schedule
    (it reads only its own variables, the input reader it alone uses until it
    has closed its channel, and what it receives); the runtime scheduler is an
    arbitrary choice of the next step; a panic is not modelled. *)
From Coq Require Import List ZArith Lia Bool.
From Verif Require Export Combine.
Import ListNotations.
Local Open Scope list_scope.

Section Chan.
Context {T : Type}.

(** The body of a range loop: given the values collected so far and the value
    received, what it sends, and the new collection, or [None] when it returns
    from the goroutine. *)
Definition loop_body := list T -> T -> list T * option (list T).

(** [Stop]: close(c) and return.  [Emit t k]: c <- t.  [Range cap p a b k]:
    start a goroutine running [p] with a channel of capacity [cap], range over
    that channel with loop body [b], then go on with [k]. *)
Inductive proc : Type :=
| Stop
| Emit (t : T) (k : proc)
| Range (cap : nat) (child : proc) (a : list T) (b : loop_body) (k : list T -> proc).

(** A goroutine with its channel: the capacity, the values in the channel's
    buffer, the values it is about to send (the first one may be blocked), what
    it does next, and the goroutines it started and no longer listens to. *)
Inductive gor : Type :=
| G (cap : nat) (buf hold : list T) (r : code) (kids : list gor)
with code : Type :=
| Code (p : proc)
| Loop (c : gor) (a : list T) (b : loop_body) (k : list T -> proc)
| Closed.

Definition start (cap : nat) (p : proc) : gor := G cap [] [] (Code p) [].

(** A receive on the channel of [g]: from the buffer, or, for a channel without
    a buffer, directly from the sender. *)
Definition take (g : gor) : option (T * gor) :=
  match g with
  | G cap (x :: b) h r kids => Some (x, G cap b h r kids)
  | G O [] (x :: h) r kids => Some (x, G O [] h r kids)
  | _ => None
  end.

(** The channel is closed and empty: a receive reports the end. *)
Definition ended (g : gor) : bool :=
  match g with G _ [] [] Closed _ => true | _ => false end.

Inductive step : gor -> gor -> Prop :=
| s_load cap buf t k kids :
    step (G cap buf [] (Code (Emit t k)) kids) (G cap buf [t] (Code k) kids)
| s_send cap buf t h r kids :
    length buf < cap -> step (G cap buf (t :: h) r kids) (G cap (buf ++ [t]) h r kids)
| s_go cap buf n p a b k kids :
    step (G cap buf [] (Code (Range n p a b k)) kids)
         (G cap buf [] (Loop (start n p) a b k) kids)
| s_recv cap buf c a b k kids x c' e a' :
    take c = Some (x, c') -> b a x = (e, Some a') ->
    step (G cap buf [] (Loop c a b k) kids) (G cap buf e (Loop c' a' b k) kids)
| s_return cap buf c a b k kids x c' e :
    take c = Some (x, c') -> b a x = (e, None) ->
    step (G cap buf [] (Loop c a b k) kids) (G cap buf e (Code Stop) (c' :: kids))
| s_over cap buf c a b k kids :
    ended c = true ->
    step (G cap buf [] (Loop c a b k) kids) (G cap buf [] (Code (k a)) (c :: kids))
| s_close cap buf kids :
    step (G cap buf [] (Code Stop) kids) (G cap buf [] Closed kids)
| s_child cap buf h c c' a b k kids :
    step c c' -> step (G cap buf h (Loop c a b k) kids) (G cap buf h (Loop c' a b k) kids)
| s_kid cap buf h r c c' k1 k2 :
    step c c' -> step (G cap buf h r (k1 ++ c :: k2)) (G cap buf h r (k1 ++ c' :: k2)).

Inductive steps : gor -> gor -> Prop :=
| ss_refl g : steps g g
| ss_step g1 g2 g3 : step g1 g2 -> steps g2 g3 -> steps g1 g3.

(** The number of goroutines that have not returned. *)
Fixpoint live (g : gor) : nat :=
  match g with
  | G _ _ _ r kids =>
    match r with Code _ => 1 | Loop c _ _ _ => S (live c) | Closed => 0 end
    + list_sum (map live kids)
  end.

(** The receiver: any deterministic program that reads from the channel until
    it is done ([None] is the report that the channel is closed). *)
Record consumer := Cons {
  c_state : Type;
  c_done : c_state -> bool;
  c_next : c_state -> option T -> c_state }.

(** A state of the whole: the goroutine, the receiver, and what the receiver
    has been given so far. *)
Definition sys (C : consumer) : Type := (gor * c_state C * list (option T))%type.

Inductive sstep (C : consumer) : sys C -> sys C -> Prop :=
| y_int g g' s h : step g g' -> sstep C (g, s, h) (g', s, h)
| y_recv g g' s h x : c_done C s = false -> take g = Some (x, g') ->
    sstep C (g, s, h) (g', c_next C s (Some x), h ++ [Some x])
| y_end g s h : c_done C s = false -> ended g = true ->
    sstep C (g, s, h) (g, c_next C s None, h ++ [None]).

(** [run C n x y]: a schedule of [n] steps. *)
Inductive run (C : consumer) : nat -> sys C -> sys C -> Prop :=
| r_refl x : run C 0 x x
| r_step n x y z : run C n x y -> sstep C y z -> run C (S n) x z.

(** [for x := range c { c' <- x }] (lex.go:196-198, util.go:164-166). *)
Definition forward : loop_body := fun a x => ([x], Some a).

End Chan.
Arguments proc : clear implicits.
Arguments gor : clear implicits.
Arguments code : clear implicits.
Arguments consumer : clear implicits.
Arguments loop_body : clear implicits.
Arguments forward {T} _ _ : simpl nomatch.

(** ** The lexer's goroutine (lex.go:133-338) *)

(** What [tokenize] does to its channel, in order: send a token it made, or
    forward everything an external lexer's goroutine sends on its own channel
    (which may be organised the same way). *)
Inductive send : Type :=
| Own (t : token)
| Ext (cap : nat) (l : list send).

Fixpoint send_code (x : send) (k : proc token) : proc token :=
  match x with
  | Own t => Emit t k
  | Ext n l => Range n (fold_right send_code Stop l) [] forward (fun _ => k)
  end.
Definition lexer_code (l : list send) : proc token := fold_right send_code Stop l.

(** lex.go:92-101: the channel is made with capacity tokChanCap, 2048 unless
    SetTokenChanCap (lex.go:40-45) was called. *)
Definition default_cap : nat := Z.to_nat 2048.

(** ** Payload.Combined's goroutines (util.go:132-172) *)

(** util.go:16-19 [included]. *)
Inductive inc := IDir (d : directive) | IErr (e : goerr).

(** util.go:142-148: the loop that collects a block. *)
Definition collects : loop_body inc := fun a x =>
  match x with IErr _ => ([x], None) | IDir _ => ([], Some (a ++ [x])) end.
Definition dirs_of (l : list inc) : list directive :=
  flat_map (fun x => match x with IDir d => [d] | IErr _ => [] end) l.

(** util.go:132-172 [performIncludes]; each call costs one unit of fuel, out of
    fuel and panicking goroutines are represented by [Stop] (theorems exclude
    them). *)
Fixpoint includes_code (fuel : nat) (old : list config) (fromfile : string)
         (block : list directive) : proc inc :=
  match fuel with
  | O => Stop
  | S fuel =>
    let idx_code d (k : proc inc) :=
      fix go (idxs : list Z) : proc inc :=
        match idxs with
        | [] => k
        | i :: r =>
          if Z.leb (Z.of_nat (length old)) i then Emit (IErr (index_error fromfile d i)) Stop
          else if Z.ltb i 0 then Stop
          else match nth_error old (Z.to_nat i) with
               | None => Stop
               | Some c => Range 0 (includes_code fuel old (cf_file c) (cf_parsed c))
                                 [] forward (fun _ => go r)
               end
        end in
    (fix loop (block : list directive) : proc inc :=
       match block with
       | [] => Stop
       | d :: r =>
         let after d' :=
           if negb (is_include d') then Emit (IDir d') (loop r)
           else idx_code d' (loop r) (opt_list (d_includes d')) in
         match d_block d with
         | Some b => Range 0 (includes_code fuel old fromfile b) [] collects
                           (fun a => after (with_block d (dirs_of a)))
         | None => after d
         end
       end) block
  end.

(** util.go:116-121: the loop of combineConfigs. *)
Inductive combining := Reading (ds : list directive) | Returned (r : cres).
Definition combiner : consumer inc :=
  Cons combining
       (fun s => match s with Reading _ => false | Returned _ => true end)
       (fun s x => match s, x with
                   | Reading ds, Some (IDir d) => Reading (ds ++ [d])
                   | Reading ds, Some (IErr e) => Returned (CErr e)
                   | Reading ds, None => Returned (COk ds)
                   | Returned r, _ => Returned r
                   end).
