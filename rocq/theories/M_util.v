(** Model of neut_utilities.py. *)
From Verif Require Import PyBase PyFloat PyFs.

(** neut_utilities.py:12-84, NeutronToolsLogger and setup_ntlogger.
    The named logger 'nt_logger' is process global; its state is its handler list.
    Formatters and log output are not modelled: [fmt_ok] says if logging.Formatter
    accepts the format; [level_of] is getattr(logging, name) followed by setLevel (which may
    raise); [file_ok] is the outcome of opening the log file.  [auto_name] is
    nt_<date>.log for the current date. *)
Section Logger.
  Context {level : Type}.
  Variable level_of : str -> res level.
  Variable file_ok : str -> res unit.
  Variable auto_name : str.

  Inductive handler : Type :=
  | Console (l : level)
  | Rotating (fname : str) (l : level).

  (** neut_utilities.py:19-62.  Returns the handler list after the call, also when it
      raises (second component). *)
  Definition setup_logging (log_file : option str) (console_level file_level : str)
             (fmt_ok : bool) (h : list handler) : list handler * option exn :=
    (* l.38 handlers.clear() *)
    let h0 : list handler := [] in
    (* l.40 Formatter(log_format) *)
    if negb fmt_ok then (h0, Some ValueError) else
    (* l.42-45 *)
    match level_of (upper console_level) with
    | Err e => (h0, Some e)
    | Ok cl =>
        let h1 := h0 ++ [Console cl] in
        (* l.48 *)
        match log_file with
        | None => (h1, None)
        | Some name =>
            (* l.49-51 *)
            let name' := if str_eqb name (lit "auto") then auto_name else name in
            (* l.53-57 *)
            match file_ok name' with
            | Err e => (h1, Some e)
            | Ok _ =>
                (* l.58-60 *)
                match level_of (upper file_level) with
                | Err e => (h1, Some e)
                | Ok fl => (h1 ++ [Rotating name' fl], None)
                end
            end
        end
    end.

  (** neut_utilities.py:64-68. *)
  Definition get_logger (h : list handler) : list handler * option exn :=
    match h with
    | [] => setup_logging None (lit "INFO") (lit "DEBUG") true h
    | _ :: _ => (h, None)
    end.

  (** Calls a client can make; neut_utilities.py:71-84 setup_ntlogger makes a fresh
      wrapper around the same named logger and calls setup_logging with the default
      format. *)
  Inductive log_call : Type :=
  | CSetup (log_file : option str) (console_level file_level : str) (fmt_ok : bool)
  | CSetupNt (log_file : option str) (console_level file_level : str)
  | CGet.
  Definition log_step (h : list handler) (c : log_call) : list handler * option exn :=
    match c with
    | CSetup lf cl fl ok => setup_logging lf cl fl ok h
    | CSetupNt lf cl fl => setup_logging lf cl fl true h
    | CGet => get_logger h
    end.
  (** State after a history of calls, exceptions being caught by the caller. *)
  Definition log_run (cs : list log_call) : list handler :=
    fold_left (fun h c => fst (log_step h c)) cs [].
End Logger.
Arguments handler : clear implicits.

(** neut_utilities.py:87-91, write_lines: the effects of a successful open. *)
Definition write_lines_ops (p : path) (lines : list str) : list fop :=
  OTrunc p :: map (fun line => OAppend p (line ++ [c_nl])) lines.
Definition write_lines_effects (f : fs) (p : path) (lines : list str) : res (list fop) :=
  do _ <- can_open_w f p; Ok (write_lines_ops p lines).
Definition write_lines (f : fs) (p : path) (lines : list str) : res fs :=
  do ops <- write_lines_effects f p lines; Ok (run_ops f ops).

(** neut_utilities.py:94-98. *)
Definition get_lines (f : fs) (p : path) : res (list str) :=
  do t <- read_text f p; Ok (splitlines t).

(** neut_utilities.py:101-108. *)
Fixpoint find_line_from (i : nat) (text : str) (lines : list str) (num : Z) : res nat :=
  match lines with
  | [] => Err ValueError
  | line :: lines' => if str_eqb (slice_to num line) text then Ok i
                      else find_line_from (S i) text lines' num
  end.
Definition find_line (text : str) (lines : list str) (num : Z) : res nat :=
  find_line_from 0 text lines num.

(** neut_utilities.py:111-115. *)
Definition string_cleaner (text : str) : str :=
  let text := strip text in
  let text := join [c_space] (split_ws text) in
  text.

(** neut_utilities.py:118-122; the separator is always one character in this code base. *)
Definition string_clean_and_split_by (spliter : ascii) (text : str) : list str :=
  split_on spliter (string_cleaner text).
Definition string_clean_and_split (text : str) : list str :=
  string_clean_and_split_by c_space text.

(** neut_utilities.py:125-130. *)
Fixpoint find_ind_from (i : nat) (data : list str) (sub : str) : res nat :=
  match data with
  | [] => Err ValueError
  | s :: data' => if contains sub s then Ok i else find_ind_from (S i) data' sub
  end.
Definition find_ind (data : list str) (sub : str) : res nat := find_ind_from 0 data sub.

(** neut_utilities.py:133-140: np.nonzero keeps the positions of truthy entries (NaN is
    truthy), the first one is returned.  Lists of floats. *)
Definition truthy_f (x : float) : bool := negb (is_zero_f x).
Definition find_first_non_zero (l : list float) : option nat :=
  match filter (fun ix => truthy_f (snd ix)) (enumerate l) with
  | [] => None
  | (i, _) :: _ => Some i
  end.
(** neut_utilities.py:143-150: np.where(arr == 0). *)
Definition find_first_zero (l : list float) : option nat :=
  match filter (fun ix => feq (snd ix) fzero) (enumerate l) with
  | [] => None
  | (i, _) :: _ => Some i
  end.

(** neut_utilities.py:153-163.  [PyLeaf] is any value that is not a list.  The while loop
    runs on fuel; [None] means it is still running. *)
Inductive pyval : Type := PyLeaf | PyList (l : list pyval).
Fixpoint dims_loop (fuel : nat) (dimensions : list nat) (lst : pyval) : option (list nat) :=
  match fuel with
  | O => None
  | S k =>
      match lst with
      | PyLeaf => Some dimensions
      | PyList l =>
          let dimensions := dimensions ++ [List.length l] in
          let lst := match l with x :: _ => x | [] => PyList [] end in
          dims_loop k dimensions lst
      end
  end.
Definition get_list_dimensions (fuel : nat) (lst : pyval) : option (list nat) :=
  match lst with
  | PyLeaf => Some []
  | PyList _ => dims_loop fuel [] lst
  end.

(** neut_utilities.py:166-176. *)
Definition text_replace_ops (p : path) (data : str) : list fop :=
  [OTrunc p; OAppend p data].
Definition text_replace_effects (f : fs) (p : path) (old new : str) : res (list fop) :=
  do data <- read_text f p;
  let data := replace old new data in
  do _ <- can_open_w f p;
  Ok (text_replace_ops p data).
Definition text_replace (f : fs) (p : path) (old new : str) : res fs :=
  do ops <- text_replace_effects f p old new; Ok (run_ops f ops).

(** neut_utilities.py:179-181. *)
Definition is_same_value (v1 v2 tolerance : float) : bool :=
  flt (fabs (fsub v1 v2)) tolerance.

(** neut_utilities.py:184-186: pathlib's mkdir(parents=True, exist_ok=True) (CPython 3.11
    pathlib.py, Path.mkdir), by recursion on the reversed path. *)
Fixpoint mkdir_p_rev (f : fs) (rp : list str) : res fs :=
  let p := rev rp in
  match os_mkdir f p with
  | Ok f' => Ok f'
  | Err FileNotFoundError =>
      match rp with
      | [] => Err FileNotFoundError
      | _ :: parent =>
          match mkdir_p_rev f parent with
          | Err e => Err e
          | Ok f' =>
              match os_mkdir f' p with
              | Ok f'' => Ok f''
              | Err FileNotFoundError => Err FileNotFoundError
              | Err e => if is_dir f' p then Ok f' else Err e
              end
          end
      end
  | Err e => if is_dir f p then Ok f else Err e
  end.
Definition ensure_dir_exists (f : fs) (p : path) : res fs := mkdir_p_rev f (rev p).

(** neut_utilities.py:189-192. *)
Definition find_tabs_in_list (lines : list str) : list nat :=
  map fst (filter (fun il => contains [c_tab] (snd il)) (enumerate lines)).

(** neut_utilities.py:195-197. *)
Definition replace_tab_with_space (line : str) (num_spaces : Z) : str :=
  replace [c_tab] (rep_chr c_space num_spaces) line.
