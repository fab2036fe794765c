(** C77: the directive or payload a JSON text from elsewhere stands for. *)
From Verif Require Export SpecJsonText.
From Coq Require Export DecimalString.
Local Open Scope string_scope.

(** ** Members of an object: in any order, left out where the zero value is meant, null for
    the zero value, beside members with other names. *)
Definition member_is {A} (k : string) (R : json -> A -> Prop) (zero : A) (l : list (string * json)) (a : A) : Prop :=
  (exists v, In (k, v) l /\ R v a) \/ ((forall v, ~ In (k, v) l) /\ a = zero).
Inductive text_of : json -> string -> Prop := to_null : text_of JNull "" | to_text : forall s, text_of (JStr s) s.
Inductive bool_of : json -> bool -> Prop := bo_null : bool_of JNull false | bo_bool : forall b, bool_of (JBool b) b.
(** Decimal notation, of any size here. *)
Inductive int_of : json -> Z -> Prop :=
| io_null : int_of JNull 0
| io_num : forall i, int_of (JNum (NilZero.string_of_int i)) (Z.of_int i).
Inductive slice_of {A} (R : json -> A -> Prop) : json -> option (list A) -> Prop :=
| so_null : slice_of R JNull None
| so_arr : forall js l, Forall2 R js l -> slice_of R (JArr js) (Some l).
Inductive ptr_of {A} (R : json -> A -> Prop) : json -> option A -> Prop :=
| po_null : ptr_of R JNull None
| po_some : forall j a, j <> JNull -> R j a -> ptr_of R j (Some a).

Inductive means : json -> directive -> Prop :=
| me_null : means JNull (Dir "" 0 [] "" None None None false)
| me_obj : forall l name line args file incs blk com mp,
    member_is "directive" text_of "" l name -> member_is "line" int_of 0%Z l line ->
    member_is "args" (slice_of text_of) None l args -> member_is "file" text_of "" l file ->
    member_is "includes" (slice_of int_of) None l incs ->
    member_is "block" (slice_of (fun j d => j <> JNull /\ means j d)) None l blk ->
    member_is "comment" (ptr_of text_of) None l com -> member_is "mapBlockParameter" bool_of false l mp ->
    means (JObj l) (Dir name line (opt_list args) file incs blk com mp).
Inductive config_means : json -> config -> Prop :=
| cm_null : config_means JNull (Cfg "" "" [] [])
| cm_obj : forall l file status (errs : option (list config_error)) parsed,
    member_is "file" text_of "" l file -> member_is "status" text_of "" l status ->
    member_is "errors" (slice_of (fun _ _ => False)) None l errs ->
    member_is "parsed" (slice_of (fun j d => j <> JNull /\ means j d)) None l parsed ->
    config_means (JObj l) (Cfg file status [] (opt_list parsed)).
Inductive payload_means : json -> payload -> Prop :=
| pm_null : payload_means JNull (Pay "" [] [])
| pm_obj : forall l status (errs : option (list payload_error)) configs,
    member_is "status" text_of "" l status -> member_is "errors" (slice_of (fun _ _ => False)) None l errs ->
    member_is "config" (slice_of config_means) None l configs ->
    payload_means (JObj l) (Pay status [] (opt_list configs)).

(** ** Keys *)
(** Letters of one case; U+017F and U+212A are forms of s and k. *)
Fixpoint folded (s : string) : string :=
  match s with
  | String "197" (String "191" r) => String "s" (folded r)
  | String "226" (String "132" (String "170" r)) => String "k" (folded r)
  | String c r => String (lower_byte c) (folded r)
  | "" => ""
  end.
Definition tags : list string :=
  ["directive"; "line"; "args"; "file"; "includes"; "block"; "comment"; "mapBlockParameter"; "status"; "errors"; "parsed"; "config"; "error"; "callback"].
(** In no object two keys are equal up to case, and a key that is the name of a field up to
    case is that name. *)
Fixpoint plain_keys (j : json) : Prop :=
  match j with
  | JArr l => (fix go l := match l with [] => True | x :: r => plain_keys x /\ go r end) l
  | JObj l => NoDup (map (fun kv => folded (fst kv)) l) /\
      (forall k v t, In (k, v) l -> In t tags -> folded k = folded t -> k = t) /\
      (fix go l := match l with [] => True | x :: r => plain_keys (snd x) /\ go r end) l
  | _ => True
  end.
