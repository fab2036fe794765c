(** Data types of the package: types.go, errors.go, lex.go (NgxToken). *)
From Verif Require Export GoStr.
Local Open Scope string_scope.

(** errors.go:15-24 [ParseError].  Pointers to file name and line are optional
    values; [originalErr] is represented by its message. *)
Record parse_error := PE {
  pe_what : string;
  pe_file : option string;
  pe_line : option Z;
  pe_stmt : string;
  pe_block : string;
  pe_orig : option string }.

(** The error interface: a *ParseError, or any other error (its message).
    Simplification: an external lexer's error that merely wraps a *ParseError is
    not distinguished from one that is a *ParseError. *)
Inductive goerr :=
| EParse (p : parse_error)
| EOther (msg : string).

(** errors.go:26-35 [ParseError.Error]. *)
Definition perr_string (e : parse_error) : string :=
  let file := match pe_file e with Some f => f | None => "(nofile)" end in
  match pe_line e with
  | Some l => pe_what e ++ " in " ++ file ++ ":" ++ itoa l
  | None => pe_what e ++ " in " ++ file
  end.

Definition err_string (e : goerr) : string :=
  match e with EParse p => perr_string p | EOther m => m end.

(** lex.go:17-22 [NgxToken]. *)
Record token := Tok { t_val : string; t_line : Z; t_quoted : bool; t_err : option goerr }.

(** types.go:40-50 [Directive].  [Includes] and [Block] are nil-able slices whose
    nil-ness is observable (IsBlock, IsInclude), hence options.  [Args] is never
    tested for nil.  Elements of [Block] are assumed non-nil pointers. *)
Inductive directive : Type := Dir {
  d_name : string;
  d_line : Z;
  d_args : list string;
  d_file : string;
  d_includes : option (list Z);
  d_block : option (list directive);
  d_comment : option string;
  d_ismap : bool }.

(** types.go:55-57, 60-62, 65-67. *)
Definition is_block (d : directive) : bool :=
  match d_block d with Some _ => true | None => false end.
Definition is_include (d : directive) : bool :=
  (String.eqb (d_name d) "include"
   && match d_includes d with Some _ => true | None => false end)%bool.
Definition is_comment (d : directive) : bool :=
  (String.eqb (d_name d) "#"
   && match d_comment d with Some _ => true | None => false end)%bool.

Definition opt_list {A} (o : option (list A)) : list A :=
  match o with Some l => l | None => [] end.

(** types.go:69-79 [equals]. *)
Fixpoint str_list_eqb (a b : list string) : bool :=
  match a, b with
  | [], [] => true
  | x :: a', y :: b' => (String.eqb x y && str_list_eqb a' b')%bool
  | _, _ => false
  end.

(** types.go:82-90 [strPtrEqual]. *)
Definition opt_str_eqb (a b : option string) : bool :=
  match a, b with
  | None, None => true
  | Some x, Some y => String.eqb x y
  | _, _ => false
  end.

Fixpoint z_list_eqb (a b : list Z) : bool :=
  match a, b with
  | [], [] => true
  | x :: a', y :: b' => (Z.eqb x y && z_list_eqb a' b')%bool
  | _, _ => false
  end.

Section ForallTwo.
  Context {A B : Type} (p : A -> B -> bool).
  Fixpoint forall2b (l : list A) (m : list B) : bool :=
    match l, m with
    | [], [] => true
    | x :: l', y :: m' => (p x y && forall2b l' m')%bool
    | _, _ => false
    end.
End ForallTwo.

(** types.go:93-130 [Directive.Equal] on non-nil receivers and arguments.
    [d.Equal(a)] calls [a.Block[i].Equal(d.Block[i])]: the roles of receiver and
    argument swap at each level, tracked by [sw] ([dir_equal_sw false x y] is
    [x.Equal(y)], [dir_equal_sw true x y] is [y.Equal(x)]).  The pointer
    shortcut [d == a] is omitted: it answers true only for identical trees. *)
Fixpoint dir_equal_sw (sw : bool) (x y : directive) {struct x} : bool :=
  let d := if sw then y else x in
  let a := if sw then x else y in
  if negb (String.eqb (d_name a) (d_name d)) then false
  else if negb (str_list_eqb (d_args a) (d_args d)) then false
  else if negb (Nat.eqb (List.length (opt_list (d_block a)))
                        (List.length (opt_list (d_block d)))) then false
  else if negb (Nat.eqb (List.length (opt_list (d_includes a)))
                        (List.length (opt_list (d_includes d)))) then false
  else if negb (opt_str_eqb (d_comment a) (d_comment d)) then false
  else if negb (Z.eqb (d_line a) (d_line d)) then false
  else if negb (String.eqb (d_file a) (d_file d)) then false
  else if negb (Bool.eqb (d_ismap a) (d_ismap d)) then false
  else if negb (z_list_eqb (opt_list (d_includes a)) (opt_list (d_includes d))) then false
  else
    match d_block x with
    | Some bx => forall2b (dir_equal_sw (negb sw)) bx (opt_list (d_block y))
    | None => match opt_list (d_block y) with [] => true | _ :: _ => false end
    end.

Definition dir_equal (d a : directive) : bool := dir_equal_sw false d a.

(** types.go:93-100: nil receivers/arguments. *)
Definition dir_equal_ptr (d a : option directive) : bool :=
  match d, a with
  | None, None => true
  | Some x, Some y => dir_equal x y
  | _, _ => false
  end.

(** types.go:134-139 [Directive.String]. *)
Definition dir_string (d : directive) : string :=
  match opt_list (d_block d) with
  | [] => d_name d ++ " " ++ join (d_args d) " "
  | _ => d_name d ++ " " ++ join (d_args d) " " ++ " {...}"
  end.

(** types.go:15-38. *)
Record config_error := CE { ce_line : option Z; ce_err : goerr }.
Record payload_error := PyE {
  py_file : string; py_line : option Z; py_err : goerr;
  py_cb : option string  (* Callback result, nil without callback *) }.
Record config := Cfg {
  cf_file : string; cf_status : string;
  cf_errors : list config_error; cf_parsed : list directive }.
Record payload := Pay {
  pl_status : string; pl_errors : list payload_error; pl_config : list config }.
