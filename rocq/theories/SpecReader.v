(** C70: what arrives from a reader. *)
From Verif Require Export Reader.
Local Open Scope string_scope.

Definition quiet_read (r : rd) : Prop := rd_err r = None.
Definition empty_read : rd := Rd "" None.
(** Nowhere are there 101 empty reads in a row. *)
Definition lively (rs : list rd) : Prop := forall a b, rs <> (a ++ repeat empty_read 101 ++ b)%list.
(** The bytes that arrive and how that ends. *)
Inductive arrives : list rd -> string -> rerr -> Prop :=
| ar_end : forall rs, Forall quiet_read rs -> lively rs -> arrives rs (bytes_of rs) EndOfFile
| ar_fails : forall rs b e after, Forall quiet_read rs -> lively rs -> arrives (rs ++ Rd b (Some e) :: after) (bytes_of rs ++ b) e
| ar_stuck : forall rs after, Forall quiet_read rs -> lively (rs ++ repeat empty_read 100) ->
    arrives (rs ++ repeat empty_read 101 ++ after) (bytes_of rs) NoProgress.
(** The texts a scanner gives until Scan returns false, and the scanner then. *)
Inductive scans : scanner -> list string -> scanner -> Prop :=
| sc_no : forall s s', sc_scan s = (None, s') -> scans s [] s'
| sc_yes : forall s t s' l s'', sc_scan s = (Some t, s') -> scans s' l s'' -> scans s (t :: l) s''.
