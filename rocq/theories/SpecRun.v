(** What the statements of the properties say about the states and results of runs. *)
From Verif Require Export Main SpecForest.
Local Open Scope string_scope.

(** The state after all files were read or an error ended the run. *)
Definition state_of (r : fres) : option pst := match r with FDone st | FErr _ st => Some st | _ => None end.
(** Files included inside at most three blocks. *)
Definition short (l : list (string * list string)) : Prop := Forall (fun e => List.length (snd e) <= 3) l.
(** A slice within its array. *)
Definition good (h : heap) (s : slice) : Prop :=
  sl_arr s < List.length h /\ sl_len s <= List.length (arr_of h (sl_arr s)).
(** Nothing happened but one error per statement of [bad], with file and line. *)
Definition only_errors (file : string) (st st' : pst) (bad : list stmt) : Prop :=
  p_queue st' = p_queue st /\ p_included st' = p_included st /\ p_edges st' = p_edges st /\
  p_indeg st' = p_indeg st /\ p_heap st' = p_heap st /\ p_opens st' = p_opens st /\
  pl_config (p_pay st') = pl_config (p_pay st) /\
  exists es, pl_errors (p_pay st') = (pl_errors (p_pay st) ++ es)%list /\
    Forall2 (fun s e => match s with SStm h _ _ _ => py_line e = Some (t_line h) | SCom _ => False end /\ py_file e = file) bad es.
(** The files opened are the configs and the files that could not be opened, which are reported. *)
Record reads_ok (o : popts) (filename : string) (st : pst) : Prop := {
  rd_opened : forall f, In f (p_opens st) ->
    In f (map cf_file (pl_config (p_pay st))) \/
    exists msg e pe, o_open o f = inr msg /\ In e (pl_errors (p_pay st)) /\
      py_err e = EParse pe /\ pe_what pe = msg;
  rd_parsed : forall c, In c (pl_config (p_pay st)) ->
    In (cf_file c) (p_opens st) /\ exists content, o_open o (cf_file c) = inl content }.
(** The tokens a parser call leaves in the channel. *)
Definition unread (r : pres) : list token :=
  match r with POk _ rest _ | PErr _ rest _ => rest | _ => [] end.
Definition with_rest (r : pres) (rest : list token) : pres :=
  match r with
  | POk ds _ st => POk ds rest st
  | PErr e _ st => PErr e rest st
  | PPanic => PPanic
  | PFuel => PFuel
  end.
