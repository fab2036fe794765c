(** build.go, buffer.go: option state, BuildFiles and BuildInto. *)
From Verif Require Export Build GoPath.
Local Open Scope string_scope.

(** build.go:20-26 [BuildOptions], as the caller holds it: Build and BuildFiles
    change Indent and extBuilders behind the pointer.  [bo_print] stands for
    strconv.IsPrint. *)
Record boptions := BO {
  bo_indent : Z; bo_tabs : bool; bo_header : bool;
  bo_builders : list (builder * list string);
  bo_ext : option (list (string * builder));
  bo_print : N -> bool }.

(** build.go:38-46, 89-91, 141-143: all registrations are applied to extBuilders. *)
Definition register_all (o : boptions) : boptions :=
  match bo_builders o with
  | [] => o
  | rs => BO (bo_indent o) (bo_tabs o) (bo_header o) rs
             (Some (fold_left apply_builder rs (match bo_ext o with Some m => m | None => [] end))) (bo_print o)
  end.
Definition plain_opts (o : boptions) : bopts :=
  BOpts (bo_indent o) (bo_tabs o) (bo_header o) (match bo_ext o with Some m => m | None => [] end) (bo_print o).

(** build.go:128-145: the options Build leaves behind. *)
Definition build_opts (o : boptions) : boptions :=
  let o := BO (if Z.eqb (bo_indent o) 0 then 4 else bo_indent o) (bo_tabs o) (bo_header o) (bo_builders o) (bo_ext o) (bo_print o) in
  match bo_ext o with None => register_all o | Some _ => o end.
(** build.go:128-156 [Build]: the text written (None: panic). *)
Definition build_text (o : boptions) (ds : list directive) : option string := build (plain_opts (build_opts o)) ds.

(** ** BuildFiles *)
(** File-system operations (os.MkdirAll, os.Create, File.Write, File.Close). *)
Inductive fsop := MkDir (p : string) | Create (p : string) | Write (p : string) (b : string) | Close (p : string).
(** What the operating system makes of one: done, an error is returned, or the
    process dies; a failed Write may have written [k] bytes. *)
Inductive outcome := Done | Err (k : nat) | Crash (k : nat).
(** Contents by path; directories are only recorded. *)
Record fs := Fs { files : string -> option string; dirs : list string }.
Definition upd (f : string -> option string) (p : string) (c : string) : string -> option string :=
  fun q => if String.eqb q p then Some c else f q.
Definition content (f : string -> option string) (p : string) : string := match f p with Some c => c | None => "" end.
Definition apply_op (op : fsop) (out : outcome) (s : fs) : fs :=
  match op, out with
  | MkDir p, Done => Fs (files s) (p :: dirs s)
  | MkDir p, _ => s
  | Create p, Done => Fs (upd (files s) p "") (dirs s)
  | Create p, Err _ => s
  | Create p, Crash k => if Nat.eqb k 0 then s else Fs (upd (files s) p "") (dirs s)
  | Write p b, Done => Fs (upd (files s) p (content (files s) p ++ b)) (dirs s)
  | Write p b, (Err k | Crash k) => Fs (upd (files s) p (content (files s) p ++ take k b)) (dirs s)
  | Close p, _ => s
  end.
Inductive bf_result := BFok | BFerr | BFpanic | BFdead.
(** Runs the operations; [outs] are the outcomes (all Done behind its end). *)
Fixpoint run_fs (ops : list fsop) (outs : list outcome) (s : fs) : fs * option bf_result * list outcome :=
  match ops with
  | [] => (s, None, outs)
  | op :: ops =>
    let '(o, outs) := match outs with [] => (Done, []) | o :: r => (o, r) end in
    let s := apply_op op o s in
    match o with
    | Done => run_fs ops outs s
    | Err _ => (s, Some BFerr, outs)
    | Crash _ => (s, Some BFdead, outs)
    end
  end.

(** build.go:94-97 *)
Definition target (dir file : string) : string := if is_abs file then file else join_path dir file.
(** build.go:114 *)
Definition trim_output (t : string) : string := trim_right is_space_rune t ++ s_nl.

(** build.go:93-122: the loop over the configs. *)
Fixpoint build_files_loop (dir : string) (o : boptions) (cs : list config) (outs : list outcome) (s : fs) : fs * bf_result :=
  match cs with
  | [] => (s, BFok)
  | c :: cs =>
    let path := target dir (cf_file c) in
    let '(s, r, outs) := run_fs [MkDir (dir_name path)] outs s in
    match r with
    | Some r => (s, r)
    | None =>
      match build_text o (cf_parsed c) with
      | None => (s, BFpanic)
      | Some t =>
        let '(s, r, outs) := run_fs [Create path; Write path (trim_output t); Close path] outs s in
        match r with
        | Some r => (s, r)
        | None => build_files_loop dir (build_opts o) cs outs s
        end
      end
    end
  end.
(** build.go:79-125 [BuildFiles]; [cwd] is os.Getwd (None: it fails). *)
Definition build_files (cwd : option string) (p : payload) (dir : string) (o : boptions) (outs : list outcome) (s : fs) : fs * bf_result :=
  match (if String.eqb dir "" then cwd else Some dir) with
  | None => (s, BFerr)
  | Some dir => build_files_loop dir (register_all o) (pl_config p) outs s
  end.

(** ** StringsCreator *)
(** buffer.go:21-25, 44-46: FileStrings live on the heap, Files points at them. *)
Record fstring := FStr { fs_name : string; fs_text : string }.
Record creator := Creat { cr_heap : list fstring; cr_files : list nat }.
(** buffer.go:48-53 [Create]; the handle is the heap position. *)
Definition cr_create (name : string) (c : creator) : creator * nat :=
  (Creat (cr_heap c ++ [FStr name ""]) (cr_files c ++ [List.length (cr_heap c)]), List.length (cr_heap c)).
Fixpoint put_nth {A} (n : nat) (x : A) (l : list A) : list A :=
  match n, l with
  | O, _ :: r => x :: r
  | S n, y :: r => y :: put_nth n x r
  | _, [] => []
  end.
(** buffer.go:27-30 [Write] *)
Definition cr_write (h : nat) (b : string) (c : creator) : creator :=
  match nth_error (cr_heap c) h with
  | Some f => Creat (put_nth h (FStr (fs_name f) (fs_text f ++ b)) (cr_heap c)) (cr_files c)
  | None => c
  end.
(** buffer.go:32-36 [Close] *)
Definition cr_close (h : nat) (c : creator) : creator := cr_write h s_nl c.
(** buffer.go:55-58 [Reset] *)
Definition cr_reset (c : creator) : creator := Creat (cr_heap c) [].

(** build.go:128-156 into a FileString: the header (if any), then the body. *)
Definition build_body (o : bopts) (ds : list directive) : option string :=
  option_map chomp (build_block (default_indent o) 0 false 0 ds).
Definition build_write (h : nat) (o : boptions) (ds : list directive) (c : creator) : creator * bool :=
  let c := if bo_header o then cr_write h header c else c in
  match build_body (plain_opts (build_opts o)) ds with
  | None => (c, false)
  | Some t => (cr_write h t c, true)
  end.
(** build.go:331-347 [BuildInto] with a StringsCreator; false = panic. *)
Fixpoint build_into (cs : list config) (o : boptions) (c : creator) : creator * bool :=
  match cs with
  | [] => (c, true)
  | g :: cs =>
    let '(c, h) := cr_create (cf_file g) c in
    let '(c, ok) := build_write h o (cf_parsed g) c in
    if ok then build_into cs (build_opts o) (cr_close h c) else (c, false)
  end.
(** What the creator shows. *)
Definition shown (c : creator) : list (option fstring) := map (nth_error (cr_heap c)) (cr_files c).
