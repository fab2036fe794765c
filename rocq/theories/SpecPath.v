(** Paths of nested blocks (C31, C32, C51). *)
From Verif Require Export GoStr.
Local Open Scope string_scope.

(** Path inside a block: locations below http start again. *)
Definition below (path : list string) (name : string) : list string :=
  match path with
  | "http" :: _ => if String.eqb name "location" then ["http"; "location"] else (path ++ [name])%list
  | _ => (path ++ [name])%list
  end.
(** Paths of the same length that agree in the first three names. *)
Definition alike (p q : list string) : Prop := List.length p = List.length q /\ firstn 3 p = firstn 3 q.
