(** path/filepath on Unix: Clean, Join, Dir, IsAbs, as used by parse.go and
    build.go. *)
From Verif Require Export GoStr.
Local Open Scope string_scope.

Definition slash : ascii := "/"%char.

(** filepath.IsAbs *)
Definition is_abs (p : string) : bool := has_prefix p "/".

(** The element stack of filepath.Clean: process the slash-separated elements
    left to right, dropping "" and ".", and resolving ".." against the previous
    element; [rooted] paths drop leading "..". *)
Fixpoint clean_elems (rooted : bool) (acc : list string) (es : list string) : list string :=
  match es with
  | [] => rev acc
  | e :: r =>
    if (String.eqb e "" || String.eqb e ".")%bool then clean_elems rooted acc r
    else if String.eqb e ".." then
      match acc with
      | a :: acc' => if String.eqb a ".." then clean_elems rooted (e :: acc) r
                     else clean_elems rooted acc' r
      | [] => if rooted then clean_elems rooted [] r else clean_elems rooted [e] r
      end
    else clean_elems rooted (e :: acc) r
  end.

(** filepath.Clean *)
Definition clean (p : string) : string :=
  if String.eqb p "" then "."
  else
    let rooted := is_abs p in
    let body := join (clean_elems rooted [] (split slash p)) "/" in
    if rooted then "/" ++ body
    else if String.eqb body "" then "." else body.

(** filepath.Join of two elements: empty elements are ignored; the result is
    cleaned; all empty gives "". *)
Definition join_path (a b : string) : string :=
  if String.eqb a "" then (if String.eqb b "" then "" else clean b)
  else clean (a ++ "/" ++ b).

(** filepath.Dir: everything up to and including the last slash, cleaned. *)
Fixpoint dir_prefix (s : string) : string :=
  match s with
  | EmptyString => EmptyString
  | String c r => let d := dir_prefix r in
                  if String.eqb d "" then (if Ascii.eqb c slash then str1 c else EmptyString)
                  else String c d
  end.
Definition dir_name (p : string) : string := clean (dir_prefix p).
