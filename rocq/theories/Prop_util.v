(** Properties C01-C15: neut_utilities.py.  See properties.jsonl for the English text and
    SpecStr.v / SpecUtil.v for the vocabulary. *)
From Coq Require Import Reals.
From Verif Require Import PyBase PyFloat PyFs SpecStr M_util SpecUtil FloatR P_util P_util_R.

(** A small file system used by the examples. *)
Definition ex_path : path := [lit "out"; lit "a.txt"].
Definition ex_fs : fs := fun q =>
  if path_eqb q [lit "out"] then Some Dir
  else if path_eqb q ex_path then Some (File (lit "one" ++ [chr 13; chr 10] ++ lit "two cc")) else None.

(** C01 *)
Theorem C01_write_get : forall f p lines,
  ((exists f', write_lines f p lines = Ok f') <-> openable f p) /\
  forall f', write_lines f p lines = Ok f' ->
    (get_lines f' p = Ok lines <-> Forall no_break lines) /\ (forall q, q <> p -> f' q = f q).
Proof. exact (fun f p lines => conj (write_lines_ok_iff f p lines) (write_get_iff f p lines)). Qed.
Print Assumptions C01_write_get.
Example C01_ex : exists f', write_lines ex_fs ex_path [lit "a b"; []; lit "c"] = Ok f' /\
  get_lines f' ex_path = Ok [lit "a b"; []; lit "c"].
Proof. eexists; split; vm_compute; reflexivity. Qed.

(** C02 *)
Theorem C02_newline_convention : forall f p t lines last,
  terminator t -> Forall no_break lines -> no_break last ->
  f p = Some (File (concat (map (fun l => l ++ t) lines) ++ last)) -> openable f p ->
  get_lines f p = Ok (lines ++ match last with [] => [] | _ => [last] end).
Proof. exact get_lines_conv. Qed.
Print Assumptions C02_newline_convention.
Theorem C02_lines_have_no_break : forall f p ls, get_lines f p = Ok ls -> Forall no_break ls.
Proof. exact get_lines_no_break. Qed.
Print Assumptions C02_lines_have_no_break.
Example C02_ex : get_lines ex_fs ex_path = Ok [lit "one"; lit "two cc"].
Proof. reflexivity. Qed.
Example C02_ex_hyp : ex_fs ex_path =
  Some (File (concat (map (fun l => l ++ [chr 13; chr 10]) [lit "one"]) ++ lit "two cc")).
Proof. reflexivity. Qed.

(** C03 *)
Theorem C03_write_interrupted : forall f p lines ops f',
  write_lines_effects f p lines = Ok ops -> crash f ops f' ->
  (f' p = f p \/ exists t, prefix_of t (full_text lines) /\ f' p = Some (File t)) /\
  forall q, q <> p -> f' q = f q.
Proof. exact write_effects_crash. Qed.
Print Assumptions C03_write_interrupted.
Example C03_ex : exists ops f', write_lines_effects ex_fs ex_path [lit "ab"; lit "cd"] = Ok ops /\
  crash ex_fs ops f' /\ f' ex_path = Some (File (lit "ab" ++ [chr 10] ++ lit "c")).
Proof.
  eexists _, _. split; [vm_compute; reflexivity|]. split.
  - apply crash_later, crash_later. apply (crash_partial _ _ _ _ (lit "c") (lit "d" ++ [chr 10])). reflexivity.
  - vm_compute; reflexivity.
Qed.

(** C04 *)
Theorem C04_find_line : forall text lines num,
  (forall i, find_line text lines num = Ok i <-> first_index (fun l => head_chars num l = text) lines i) /\
  (forall e, find_line text lines num = Err e <->
     e = ValueError /\ forall l, In l lines -> head_chars num l <> text).
Proof. exact (fun text lines num => conj (find_line_Ok text lines num) (find_line_Err text lines num)). Qed.
Print Assumptions C04_find_line.
Example C04_ex : find_line (lit "1tal") [lit "x"; lit "1tally 4"; lit "1tally 5"] 4 = Ok 1.
Proof. reflexivity. Qed.

(** C05 *)
Theorem C05_find_ind : forall data sub,
  (forall i, find_ind data sub = Ok i <-> first_index (occurs sub) data i) /\
  (forall e, find_ind data sub = Err e <-> e = ValueError /\ forall s, In s data -> ~ occurs sub s).
Proof. exact (fun data sub => conj (find_ind_Ok data sub) (find_ind_Err data sub)). Qed.
Print Assumptions C05_find_ind.
Example C05_ex : find_ind [lit "x"; lit "a tally b"; lit "tally"] (lit "tally") = Ok 1.
Proof. reflexivity. Qed.

(** C06 *)
Theorem C06_cleaner : forall t,
  (exists ws, words t ws /\ spaced ws (string_cleaner t)) /\
  string_cleaner (string_cleaner t) = string_cleaner t /\
  forall u, string_cleaner t = string_cleaner u <-> (forall ws, words t ws <-> words u ws).
Proof. exact (fun t => conj (cleaner_spec t) (conj (cleaner_idem t) (cleaner_eq_iff t))). Qed.
Print Assumptions C06_cleaner.
Example C06_ex : string_cleaner (lit "  m1   1001  0.5 ") = lit "m1 1001 0.5".
Proof. reflexivity. Qed.

(** C07 *)
Theorem C07_clean_and_split : forall t,
  (forall ws, ws <> [] -> words t ws -> string_clean_and_split t = ws) /\
  (words t [] -> string_clean_and_split t = [[]]) /\
  spaced (string_clean_and_split t) (string_cleaner t).
Proof. exact (fun t => conj (clean_split_words t) (conj (clean_split_blank t) (clean_split_join t))). Qed.
Print Assumptions C07_clean_and_split.
Example C07_ex : string_clean_and_split (lit "  m1   1001  0.5 ") = [lit "m1"; lit "1001"; lit "0.5"] /\
  string_clean_and_split (lit "  ") = [[]].
Proof. split; reflexivity. Qed.

(** C08 *)
Theorem C08_find_first_zero : forall l,
  (forall i, find_first_zero l = Some i <-> first_index fp_zero l i) /\
  (find_first_zero l = None <-> forall x, In x l -> ~ fp_zero x).
Proof. exact (fun l => conj (find_first_zero_Some l) (find_first_zero_None l)). Qed.
Print Assumptions C08_find_first_zero.
Theorem C08_find_first_non_zero : forall l,
  (forall i, find_first_non_zero l = Some i <-> first_index (fun x => ~ fp_zero x) l i) /\
  (find_first_non_zero l = None <-> forall x, In x l -> fp_zero x).
Proof. exact (fun l => conj (find_first_non_zero_Some l) (find_first_non_zero_None l)). Qed.
Print Assumptions C08_find_first_non_zero.
Example C08_ex : find_first_zero [f_of_Z 1; fopp fzero; fzero] = Some 1 /\
  find_first_non_zero [fzero; fopp fzero; SpecFloat.S754_nan] = Some 2.
Proof. split; reflexivity. Qed.

(** C09 *)
Theorem C09_dimensions : forall x,
  (forall d, (exists fuel, get_list_dimensions fuel x = Some d) <-> first_branch x d) /\
  ((forall fuel, get_list_dimensions fuel x = None) <-> dead_end x).
Proof. exact get_dims_all. Qed.
Print Assumptions C09_dimensions.
Example C09_ex : first_branch (PyList [PyList [PyLeaf; PyLeaf; PyLeaf]; PyLeaf]) [2; 3].
Proof. repeat constructor. Qed.
(** The expected totality fails: the call on [[]] never returns. *)
Theorem C09_total_refuted : exists x, forall fuel, get_list_dimensions fuel x = None.
Proof. exact get_dims_refuted. Qed.
Print Assumptions C09_total_refuted.

(** C10 *)
Theorem C10_text_replace : forall f p old new c, openable f p -> f p = Some (File c) ->
  exists f' data t, text_replace f p old new = Ok f' /\ nl_translated c data /\
    f' p = Some (File t) /\
    (old <> [] -> replaced old new data t) /\
    (old = [] -> t = new ++ concat (map (fun c => c :: new) data)) /\
    forall q, q <> p -> f' q = f q.
Proof. exact text_replace_full. Qed.
Print Assumptions C10_text_replace.
Theorem C10_replacement_unique : forall old new s t t',
  replaced old new s t -> replaced old new s t' -> t = t'.
Proof. exact replaced_fun. Qed.
Print Assumptions C10_replacement_unique.
Theorem C10_missing_file : forall f p old new,
  (forall a b, p = a ++ b -> a <> [] -> b <> [] -> f a = Some Dir) ->
  p <> [] -> f p = None -> text_replace f p old new = Err FileNotFoundError.
Proof. exact text_replace_missing. Qed.
Print Assumptions C10_missing_file.
Example C10_ex : exists f', text_replace ex_fs ex_path (lit "c") (lit "xy") = Ok f' /\
  f' ex_path = Some (File (lit "one" ++ [chr 10] ++ lit "two xyxy")).
Proof. eexists; split; vm_compute; reflexivity. Qed.

(** C11: false; wherever neither text is empty, an interruption can lose both. *)
Theorem C11_interrupted_refuted : forall f p old new ops, text_replace_effects f p old new = Ok ops -> f p <> Some (File []) ->
  exists final u, text_replace f p old new = Ok final /\ final p = Some (File u) /\
    (u <> [] -> exists f', crash f ops f' /\ f' p = Some (File []) /\ f' p <> f p /\ f' p <> final p).
Proof. exact text_replace_lost. Qed.
Print Assumptions C11_interrupted_refuted.
Example C11_lost_ex : exists f p old new ops f' final,
    text_replace_effects f p old new = Ok ops /\ crash f ops f' /\
    text_replace f p old new = Ok final /\ f' p <> f p /\ f' p <> final p.
Proof. exact text_replace_crash_refuted. Qed.
(** What does hold: old text or a prefix of the new one. *)
Theorem C11_interrupted_partial : forall f p old new ops f',
  text_replace_effects f p old new = Ok ops -> crash f ops f' ->
  exists final, text_replace f p old new = Ok final /\
  (f' p = f p \/ exists t u, prefix_of t u /\ final p = Some (File u) /\ f' p = Some (File t)) /\
  forall q, q <> p -> f' q = f q.
Proof. exact replace_effects_crash. Qed.
Print Assumptions C11_interrupted_partial.
Example C11_ex : exists ops, text_replace_effects ex_fs ex_path (lit "c") (lit "xy") = Ok ops.
Proof. eexists; vm_compute; reflexivity. Qed.

(** C12 *)
Theorem C12_symmetric : forall a b tol, is_same_value a b tol = is_same_value b a tol.
Proof. exact is_same_sym. Qed.
Print Assumptions C12_symmetric.
Theorem C12_reflexive : forall a tol,
  is_finite_f a = true -> flt fzero tol = true -> is_same_value a a tol = true.
Proof. exact is_same_refl. Qed.
Print Assumptions C12_reflexive.
Theorem C12_nan : forall a b tol,
  is_nan_f a = true \/ is_nan_f b = true \/ is_nan_f tol = true -> is_same_value a b tol = false.
Proof. exact is_same_nan. Qed.
Print Assumptions C12_nan.
Theorem C12_nonpositive_tolerance : forall a b tol, fle tol fzero = true -> is_same_value a b tol = false.
Proof. exact is_same_tol. Qed.
Print Assumptions C12_nonpositive_tolerance.
(** True only when the real difference is below the tolerance ... *)
Theorem C12_sound : forall a b tol,
  valid a = true -> valid b = true -> valid tol = true ->
  is_finite_f a = true -> is_finite_f b = true -> is_finite_f tol = true ->
  is_same_value a b tol = true -> (Rabs (FR a - FR b) < FR tol)%R.
Proof. exact is_same_sound. Qed.
Print Assumptions C12_sound.
(** ... and always when a float lies between the difference and the tolerance. *)
Theorem C12_complete : forall a b tol x,
  valid a = true -> valid b = true -> valid tol = true -> valid x = true ->
  is_finite_f a = true -> is_finite_f b = true -> is_finite_f tol = true -> is_finite_f x = true ->
  (Rabs (FR a - FR b) <= FR x)%R -> (FR x < FR tol)%R -> is_same_value a b tol = true.
Proof. exact is_same_complete. Qed.
Print Assumptions C12_complete.
Example C12_ex : is_same_value (fdec 1 0) (fdec 10000001 (-7)) (fdec 1 (-6)) = true /\
  is_same_value (fdec 1 0) (fdec 1000001 (-6)) (fdec 1 (-7)) = false /\
  valid (fdec 1000001 (-6)) = true /\ is_finite_f (fdec 1000001 (-6)) = true.
Proof. repeat split; vm_compute; reflexivity. Qed.

(** C13 *)
Theorem C13_find_tabs : forall lines, increasing (find_tabs_in_list lines) /\
  forall i, In i (find_tabs_in_list lines) <-> exists l, nth_error lines i = Some l /\ In (chr 9) l.
Proof. exact find_tabs_spec. Qed.
Print Assumptions C13_find_tabs.
Theorem C13_replace_tabs : forall s z,
  let t := replace_tab_with_space s z in
  detabbed (Z.to_nat z) s t /\ ~ In (chr 9) t /\
  List.length t + tabs s = List.length s + Z.to_nat z * tabs s /\
  forall t', detabbed (Z.to_nat z) s t' -> t' = t.
Proof.
  exact (fun s z => conj (replace_tab_detab s z) (conj (detabbed_no_tab _ _ _ (replace_tab_detab s z))
    (conj (detabbed_length _ _ _ (replace_tab_detab s z)) (fun t' H => detabbed_fun _ _ _ _ H (replace_tab_detab s z))))).
Qed.
Print Assumptions C13_replace_tabs.
Example C13_ex : replace_tab_with_space (lit "a" ++ [chr 9] ++ lit "b") 5 = lit "a     b" /\
  find_tabs_in_list [lit "a"; [chr 9]; lit "b" ++ [chr 9]] = [1; 2].
Proof. split; reflexivity. Qed.

(** C14 *)
Theorem C14_at_most_one_handler : forall level (level_of : str -> res level) file_ok auto_name cs,
  count is_console (log_run level_of file_ok auto_name cs) <= 1 /\
  count is_filelog (log_run level_of file_ok auto_name cs) <= 1.
Proof. exact @run_counts. Qed.
Print Assumptions C14_at_most_one_handler.
Theorem C14_after_success : forall level (level_of : str -> res level) file_ok auto_name cs lf cl fl ok c h',
  c = CSetup lf cl fl ok \/ c = CSetupNt lf cl fl ->
  log_step level_of file_ok auto_name (log_run level_of file_ok auto_name cs) c = (h', None) ->
  count is_console h' = 1 /\ count is_filelog h' = match lf with None => 0 | Some _ => 1 end.
Proof. exact @setup_call_success. Qed.
Print Assumptions C14_after_success.
Theorem C14_get_logger_ready : forall level (level_of : str -> res level) file_ok auto_name l h,
  level_of (lit "INFO") = Ok l ->
  snd (get_logger level_of file_ok auto_name h) = None /\
  fst (get_logger level_of file_ok auto_name h) <> [] /\
  (h <> [] -> fst (get_logger level_of file_ok auto_name h) = h).
Proof. exact @get_logger_ready. Qed.
Print Assumptions C14_get_logger_ready.
Definition ex_level (s : str) : res nat := if str_eqb s (lit "INFO") then Ok 20 else
  if str_eqb s (lit "DEBUG") then Ok 10 else Err AttributeError.
Example C14_ex :
  log_run ex_level (fun _ => Ok tt) (lit "nt_20260101.log")
    [CSetup (Some (lit "auto")) (lit "info") (lit "debug") true; CGet;
     CSetupNt (Some (lit "b.log")) (lit "INFO") (lit "DEBUG")]
  = [Console 20; Rotating (lit "b.log") 10].
Proof. vm_compute. reflexivity. Qed.

(** C15 *)
Theorem C15_ensure_dir : forall f p f', wf_fs f -> ensure_dir_exists f p = Ok f' ->
  all_dirs f' p /\
  (forall q, f q <> None -> f' q = f q) /\
  (forall q, f' q <> f q -> exists r, p = q ++ r /\ f' q = Some Dir) /\
  wf_fs f' /\ ensure_dir_exists f' p = Ok f'.
Proof. exact ensure_dir_twice. Qed.
Print Assumptions C15_ensure_dir.
Theorem C15_failure : forall f p, wf_fs f ->
  (exists e, ensure_dir_exists f p = Err e) <->
  exists a b c, p = a ++ b /\ a <> [] /\ f a = Some (File c).
Proof. exact ensure_dir_fails_iff. Qed.
Print Assumptions C15_failure.
Example C15_ex : exists f', ensure_dir_exists (fun _ => None) [lit "a"; lit "b"; lit "c"] = Ok f' /\
  f' [lit "a"; lit "b"] = Some Dir.
Proof. eexists; split; vm_compute; reflexivity. Qed.
Example C15_ex_wf : wf_fs (fun _ => None).
Proof. intros p x H; now elim H. Qed.
Example C15_ex_fail : ensure_dir_exists ex_fs (ex_path ++ [lit "d"]) = Err NotADirectoryError.
Proof. vm_compute. reflexivity. Qed.
