(** Properties C178-C180: mcnp_run_plot.py.  Vocabulary: SpecRunplot.v, SpecStr.v,
    SpecOutput.v (columns), SpecInput.v (selects). *)
From Verif Require Import PyBase PyFloat PyFs M_util M_runplot SpecStr SpecOutput SpecInput SpecUtil SpecRunplot P_runplot TextTac.

Ltac line := unfold quiet, time_line, dump_line, rendezvous_line, reports_time, reports_dump, reports_rendezvous;
  repeat match goal with |- _ /\ _ => split end; text; try (vm_compute; reflexivity).
Ltac lines := repeat (apply Forall_cons; [line|]); apply Forall_nil.

(** C178: the graphs show one point for each stage of the run. *)
Theorem C178_graphs : forall (T : Type) (date : str -> res T) f p ls a b ss,
  get_lines f p = Ok ls -> ls = a ++ b -> start a -> stages date b ss ->
  plot_nps_stats date f p = Ok (mkGraphs (map (fun s => (st_time s, st_nps s)) ss) (map (fun s => (st_nps s, st_ctm s)) ss)
    (map (fun s => (st_nps s, st_nrn s)) ss) (map (fun s => (st_nps s, st_coll s)) ss)).
Proof. exact (fun T date => finished_run date). Qed.
Print Assumptions C178_graphs.
Theorem C178_points : forall (T : Type) (date : str -> res T) f p g, plot_nps_stats date f p = Ok g ->
  exists ls times dumps sets, get_lines f p = Ok ls /\
    selects reports_time ls times /\ selects reports_dump ls dumps /\ selects reports_rendezvous ls sets /\
    List.length times - 1 = List.length sets /\ List.length dumps - 1 = List.length sets /\
    List.length (g_nps g) = List.length sets /\ List.length (g_ctm g) = List.length sets /\
    List.length (g_nrn g) = List.length sets /\ List.length (g_coll g) = List.length sets /\
    (forall k t n, nth_error (g_nps g) k = Some (t, n) -> exists r, nth_error sets k = Some r /\
       date (columns 66 83 r) = Ok t /\ py_int (columns 28 40 r) = Ok n) /\
    (forall k n c, nth_error (g_ctm g) k = Some (n, c) -> exists r l, nth_error sets k = Some r /\ nth_error times (S k) = Some l /\
       py_int (columns 28 40 r) = Ok n /\ py_float (columns 6 18 l) = Ok c) /\
    (forall k n c, nth_error (g_nrn g) k = Some (n, c) -> exists r l, nth_error sets k = Some r /\ nth_error times (S k) = Some l /\
       py_int (columns 28 40 r) = Ok n /\ py_int (columns 26 44 l) = Ok c) /\
    (forall k n c, nth_error (g_coll g) k = Some (n, c) -> exists r l, nth_error sets k = Some r /\ nth_error dumps (S k) = Some l /\
       py_int (columns 28 40 r) = Ok n /\ py_int (columns 61 78 l) = Ok c).
Proof. exact (fun T date => graphs_spec date). Qed.
Print Assumptions C178_points.
Definition run_start : list str := map lit [" imcn   is done"; ""; " ctm =        0.00   nrn =                 0"; " dump    1 on file test_model.ir   nps =           0   coll =                0"]%string.
Definition run_rest : list str := map lit [" xact   is done"; " master set rendezvous nps =    10000000,  work chunks =   239    01/11/24 16:04:17 "; "";
  " ctm =       24.60   nrn =         920964084"; " dump    2 on file test_model.ir   nps =    10000000   coll =         65819806"; " mcrun  is done"]%string.
Definition run_fs (ls : list str) : fs := fun p => match p with [] => Some Dir | [_] => Some (File (full_text ls)) | _ => None end.
Definition run_stage : stage str := mkStage (lit "01/11/24 16:04:17") 10000000 (fdec 2460 (-2)) 920964084 65819806.
Example C178_ex : get_lines (run_fs (run_start ++ run_rest)) [lit "out"] = Ok (run_start ++ run_rest) /\ start run_start /\ stages Ok run_rest [run_stage].
Proof.
  split; [vm_compute; reflexivity|]. split.
  - exists (map lit [" imcn   is done"; ""]%string), (lit " ctm =        0.00   nrn =                 0"), [], (lit " dump    1 on file test_model.ir   nps =           0   coll =                0").
    exists fzero, 0%Z, 0%Z. split; [reflexivity|]. split; [lines|].
    split; [line|]. split; [apply Forall_nil|]. line.
  - apply (stages_more Ok [lit " xact   is done"] _ [[]] _ [] _ [lit " mcrun  is done"] run_stage []).
    + lines.
    + line.
    + lines.
    + line.
    + apply Forall_nil.
    + line.
    + apply stages_end. lines.
Qed.
Example C178_ex_points : exists g, plot_nps_stats Ok (run_fs (run_start ++ run_rest)) [lit "out"] = Ok g /\ g_coll g = [(10000000, 65819806)]%Z.
Proof. eexists. split; vm_compute; reflexivity. Qed.

(** C179: false; a run that has not reached its last rendezvous is not plotted. *)
Theorem C179_running_refuted : forall (T : Type) (date : str -> res T) f p ls a b ss q r q' n t,
  get_lines f p = Ok ls -> ls = a ++ b ++ q ++ r :: q' -> start a -> stages date b ss ->
  Forall quiet q -> rendezvous_line date r n t -> Forall quiet q' -> plot_nps_stats date f p = Err ValueError.
Proof. exact (fun T date => running_run date). Qed.
Print Assumptions C179_running_refuted.
Example C179_ex : let r := lit " master set rendezvous nps =    20000000,  work chunks =   239    01/11/24 16:04:56 " in
  rendezvous_line Ok r 20000000 (lit "01/11/24 16:04:56") /\
  plot_nps_stats Ok (run_fs (run_start ++ run_rest ++ [r])) [lit "out"] = Err ValueError.
Proof. cbv zeta. split; [line|vm_compute; reflexivity]. Qed.

(** C180: the number of collisions is read in fixed columns, whatever the name of the run
    file; it is right for names of thirteen characters. *)
Theorem C180_collisions_partial : forall number name nps coll l, dump_text number name nps coll l ->
  (List.length name <= 13 -> py_int (columns 61 78 l) = Ok (Z.of_N (coll mod 10 ^ N.of_nat (4 + List.length name)))) /\
  (13 < List.length name <= 30 -> py_int (columns 61 78 l) = Err ValueError).
Proof. exact dump_column. Qed.
Print Assumptions C180_collisions_partial.
Theorem C180_long_name_refuted : forall (T : Type) (date : str -> res T) f p ls l number name nps coll,
  get_lines f p = Ok ls -> In l ls -> dump_text number name nps coll l ->
  13 < List.length name <= 30 -> forall g, plot_nps_stats date f p <> Ok g.
Proof. exact (fun T date => long_name date). Qed.
Print Assumptions C180_long_name_refuted.
(** With the default name runtpe, ten thousand million collisions are read as none. *)
Theorem C180_short_name_refuted : forall name, List.length name < 13 -> exists coll l,
  dump_text 1 name 0 coll l /\ py_int (columns 61 78 l) <> Ok (Z.of_N coll).
Proof. exact short_name. Qed.
Print Assumptions C180_short_name_refuted.
Example C180_ex : dump_text 2 (lit "test_model.ir") 10000000 65819806 (lit " dump    2 on file test_model.ir   nps =    10000000   coll =         65819806") /\
  dump_text 2 (lit "runtpe") 10000000 20000000123 (lit " dump    2 on file runtpe   nps =    10000000   coll =      20000000123") /\
  py_int (columns 61 78 (lit " dump    2 on file runtpe   nps =    10000000   coll =      20000000123")) = Ok 123%Z.
Proof.
  split; [|split; [|vm_compute; reflexivity]].
  - exists (lit "    2"), (lit "    10000000"), (lit "         65819806"). repeat split; [exists 4|exists 4|exists 9]; vm_compute; split; reflexivity.
  - exists (lit "    2"), (lit "    10000000"), (lit "      20000000123"). repeat split; [exists 4|exists 4|exists 6]; vm_compute; split; reflexivity.
Qed.
