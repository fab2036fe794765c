(** types.go:93-131 [Directive.Equal] on pointers: directives that are shared, elements of
    a block that are nil, and blocks that contain themselves. *)
From Verif Require Export Types.
Local Open Scope string_scope.

Definition addr := nat.
Definition ptr := option addr.   (* None: nil *)
(** types.go:40-50 [Directive] in memory.  The text of a comment stands for the pointer to it
    (strPtrEqual compares the texts); nil and empty slices have length 0 alike. *)
Record node := Node {
  n_name : string; n_line : Z; n_args : list string; n_file : string;
  n_includes : list Z; n_block : list ptr; n_comment : option string; n_ismap : bool }.
Definition memory := addr -> node.

Definition ptr_eqb (p q : ptr) : bool :=
  match p, q with
  | None, None => true
  | Some x, Some y => Nat.eqb x y
  | _, _ => false
  end.

(** types.go:101-118: the cases of the switch. *)
Definition differ (a d : node) : bool :=
  if negb (String.eqb (n_name a) (n_name d)) then true
  else if negb (str_list_eqb (n_args a) (n_args d)) then true
  else if negb (Nat.eqb (List.length (n_block a)) (List.length (n_block d))) then true
  else if negb (Nat.eqb (List.length (n_includes a)) (List.length (n_includes d))) then true
  else if negb (opt_str_eqb (n_comment a) (n_comment d)) then true
  else if negb (Z.eqb (n_line a) (n_line d)) then true
  else if negb (String.eqb (n_file a) (n_file d)) then true
  else negb (Bool.eqb (n_ismap a) (n_ismap d)).

(** types.go:124-128: the loop over the block of [a]; [equal] is the recursive call.  The
    lengths agree here. *)
Fixpoint equal_each (equal : ptr -> ptr -> option bool) (la ld : list ptr) : option bool :=
  match la, ld with
  | x :: la', y :: ld' =>
    match equal x y with
    | Some true => equal_each equal la' ld'
    | r => r
    end
  | _, _ => Some true
  end.

(** types.go:93-131 [d.Equal(a)]; [None]: it did not return with that many nested
    calls. *)
Fixpoint equal_at (fuel : nat) (m : memory) (d a : ptr) : option bool :=
  match fuel with
  | O => None
  | S fuel =>
    if ptr_eqb d a then Some true
    else match d, a with
    | Some x, Some y =>
      if differ (m y) (m x) then Some false
      else if negb (z_list_eqb (n_includes (m y)) (n_includes (m x))) then Some false
      else equal_each (equal_at fuel m) (n_block (m y)) (n_block (m x))
    | _, _ => Some false
    end
  end.
