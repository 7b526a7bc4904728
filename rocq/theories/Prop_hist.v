(** Properties C220-C221: the collapse stage and the histogram of relative errors. *)
From Coq Require Import Sorted Floats.SpecFloat.
From Verif Require Import PyBase PyFacts PyFloat PyFrame PyFs PyIo M_util M_input M_mesh M_hist M_mcout M_r2s SpecMesh SpecStr SpecUtil SpecR2s SpecHist P_hist P_r2s2 P_r2s3 P_r2s4 P_r2s6.
Import ListNotations.

(** C220: the group count of the collapse stage. *)
Theorem C220_collapse : forall p n f f', write_collapse p n f = (f', Ok tt) -> exists before after,
  get_lines f' p = Ok (before ++ (lit "GETXS 1 " ++ str_of_Z n) :: after) /\
  before = map lit ["<< -----collapse cross section data----- >>"; "CLOBBER"]%string /\ after = map lit ["FISPACT"; "* COLLAPSE"; "END"; "* END OF RUN"]%string.
Proof. exact collapse_written. Qed.
Print Assumptions C220_collapse.
Theorem C220_other : forall p q n f, q <> p -> fst (write_collapse p n f) q = f q.
Proof. exact collapse_other. Qed.
Print Assumptions C220_other.
(** The set up of a folder cannot pass another count on. *)
Theorem C220_groups_refuted : forall name v f src f', plain_name name -> path_of_json v = Ok src -> ~ inside name src -> fispact_setup [name] v f = (f', Ok tt) ->
  f' [name; lit "collapse.i"] = Some (File collapse_text) /\ occurs (lit "GETXS 1 175") collapse_text.
Proof. exact setup_groups. Qed.
Print Assumptions C220_groups_refuted.
Example C220_ex : get_lines (fst (write_collapse [lit "c.i"] 709 (fun _ => None))) [lit "c.i"] =
  Ok (map lit ["<< -----collapse cross section data----- >>"; "CLOBBER"; "GETXS 1 709"; "FISPACT"; "* COLLAPSE"; "END"; "* END OF RUN"]%string).
Proof. vm_compute. reflexivity. Qed.

(** C221: the histogram of relative errors. *)
Theorem C221_hist : forall bin_edges d c, covers bin_edges -> has d "rel_err" c -> Forall (fun v => is_nan_f v = true \/ is_finite_f v = true) (c_vals c) ->
  exists edges counts, rel_err_hist bin_edges d = Ok (edges, counts) /\ List.length edges = 16 /\ List.length counts = 15 /\
    how_many a_number (c_vals c) (list_sum counts) /\
    (forall i lo hi n, nth_error edges i = Some lo -> nth_error edges (S i) = Some hi -> nth_error counts i = Some n ->
       how_many (in_bin lo hi (Nat.eqb i 14)) (filter (fun v => negb (is_nan_f v)) (c_vals c)) n).
Proof. exact hist_spec. Qed.
Print Assumptions C221_hist.
Theorem C221_no_column : forall bin_edges d, (forall c, ~ has d "rel_err" c) -> rel_err_hist bin_edges d = Err KeyError.
Proof. exact hist_no_column. Qed.
Print Assumptions C221_no_column.
Example C221_ex : covers (fun _ lo hi => lo :: repeat hi 15).
Proof. exact covers_ex. Qed.
Example C221_ex_bars : rel_err_hist (fun _ lo hi => lo :: repeat hi 15) (Frame [0; 1; 2; 3] [(lit "rel_err", Col false [fdec 5 (-1); S754_nan; fdec 1 (-1); fdec 2 (-1)])]) =
  Ok (fdec 1 (-1) :: repeat (fdec 5 (-1)) 15, 2 :: repeat 0 13 ++ [1]).
Proof. vm_compute. reflexivity. Qed.
