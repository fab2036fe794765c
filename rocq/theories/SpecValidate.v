(** Specification of directive validation (C20-C22, C24, C25), written with bit
    positions and context paths, independent of the mask constants and of the
    checking loop. *)
From Verif Require Export Analyze.
From Coq Require Import Permutation.
Local Open Scope string_scope.

(** Bit positions (ngx_conf_file.h layout as documented in analyze.go:24-112). *)
Definition bit (n : N) (mask : N) : Prop := N.testbit mask n = true.

(** Which bit a block path stands for. *)
Definition path_bit (path : list string) : option N :=
  match path with
  | [] => Some 18%N
  | ["events"] => Some 19%N
  | ["mail"] => Some 20%N
  | ["mail"; "server"] => Some 21%N
  | ["stream"] => Some 22%N
  | ["stream"; "server"] => Some 23%N
  | ["stream"; "upstream"] => Some 24%N
  | ["http"] => Some 25%N
  | ["http"; "server"] => Some 26%N
  | ["http"; "location"] => Some 27%N
  | ["http"; "upstream"] => Some 28%N
  | ["http"; "server"; "if"] => Some 29%N
  | ["http"; "location"; "if"] => Some 30%N
  | ["http"; "location"; "limit_except"] => Some 31%N
  | ["mgmt"] => Some 17%N
  | ["http"; "oidc_provider"] => Some 32%N
  | _ => None
  end.

(** A path whose names contain no '>' and are not empty. *)
Definition plain_path (path : list string) : Prop :=
  Forall (fun n => n <> "" /\ str_exists (Ascii.eqb ">"%char) n = false) path.

(** "on"/"off" in any mixture of cases. *)
Definition flag_words : list string :=
  ["on"; "oN"; "On"; "ON"; "off"; "ofF"; "oFf"; "oFF"; "Off"; "OfF"; "OFf"; "OFF"].

(** The number (and kind) of arguments a mask admits. *)
Inductive args_fit (mask : N) (args : list string) : Prop :=
| fit_take : List.length args <= 7 -> bit (N.of_nat (List.length args)) mask -> args_fit mask args
| fit_flag : forall a, args = [a] -> bit 10 mask -> In a flag_words -> args_fit mask args
| fit_any : bit 11 mask -> args_fit mask args
| fit_1more : bit 12 mask -> 1 <= List.length args -> args_fit mask args
| fit_2more : bit 13 mask -> 2 <= List.length args -> args_fit mask args.

(** A non-empty expression in parentheses. *)
Definition paren_expr (args : list string) : Prop :=
  (exists r, hd "" args = "(" ++ r) /\ (exists r, last args "" = r ++ ")") /\
  args <> [] /\ args <> ["()"] /\ args <> ["("; ")"].

(** The form (terminator, expression, arguments) a mask admits. *)
Definition form_fits (mask : N) (d : directive) (term : string) : Prop :=
  (bit 9 mask -> paren_expr (d_args d)) /\
  (bit 8 mask -> term = "{") /\
  (~ bit 8 mask -> term = ";") /\
  args_fit mask (d_args d).

(** The masks for a name: of all sources that know it, or of the default table. *)
Definition knows (o : popts) (name : string) (ms : list N) : Prop :=
  (o_sources o = [] /\ o_default o name = Some ms) \/
  (o_sources o <> [] /\ exists f, In f (o_sources o) /\ f name <> None /\
   ms = flat_map (fun f => match f name with Some l => l | None => [] end) (o_sources o)).
Definition unknown (o : popts) (name : string) : Prop := forall ms, ~ knows o name ms.

(** The verdict. *)
Inductive accepts (o : popts) (path : list string) (d : directive) (term : string) : Prop :=
| acc_unknown : unknown o (d_name d) -> o_strict o = false -> accepts o path d term
| acc_path : forall ms, knows o (d_name d) ms -> path_bit path = None -> accepts o path d term
| acc_unchecked : forall ms, knows o (d_name d) ms -> o_skipctx o = true -> o_skipargs o = true ->
    accepts o path d term
| acc_mask : forall ms mask b, knows o (d_name d) ms -> path_bit path = Some b -> In mask ms ->
    (o_skipctx o = true \/ bit b mask) ->
    (o_skipargs o = true \/ form_fits mask d term) ->
    accepts o path d term.

(** Map-like blocks: the parameter rule of an entry. *)
Inductive arity := Exactly (n : nat) | AtLeast (n : nat).
Definition fits_arity (a : arity) (args : list string) : Prop :=
  match a with
  | Exactly n => List.length args = n
  | AtLeast n => n <= List.length args
  end.
Definition map_block (b : string) : Prop :=
  In b ["charset_map"; "geo"; "map"; "match"; "types"; "split_clients"; "geoip2"; "otel_exporter"].
Definition entry_arity (b name : string) : arity :=
  if String.eqb b "geo" then
    if (String.eqb name "ranges" || String.eqb name "proxy_recursive")%bool
    then Exactly 0 else Exactly 1
  else if String.eqb b "map" then
    if (String.eqb name "volatile" || String.eqb name "hostnames")%bool
    then Exactly 0 else Exactly 1
  else if (String.eqb b "match" || String.eqb b "types")%bool then AtLeast 1
  else if String.eqb b "geoip2" then
    if String.eqb name "auto_reload" then Exactly 1 else AtLeast 1
  else Exactly 1.

(** Two sources that give the same masks for a name, in some order. *)
Definition same_answer (name : string) (f g : match_func) : Prop :=
  match f name, g name with
  | Some a, Some b => Permutation a b
  | None, None => True
  | _, _ => False
  end.

(** The path the tables are asked for: a known one that is written like [path] with ">" between the names,
    or one that is not known, if [path] is not written like any known one. *)
Definition meant (path p : list string) : Prop :=
  match path_bit p with
  | Some _ => join p ">" = join path ">"
  | None => forall q, path_bit q <> None -> join q ">" <> join path ">"
  end.
