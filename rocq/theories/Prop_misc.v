(** Properties C181-C185: the figures of meshtal_analysis.py, magic.py, the text form of an
    MCNP input, the debug copy of a tally section.  Vocabulary: SpecStr.v, SpecUtil.v,
    SpecInput.v, SpecMesh.v, SpecMeshplot.v, SpecFisana.v (largest), FloatR.v (FR, valid). *)
From Coq Require Import Reals Lra Lia Floats.SpecFloat.
From Flocq Require Import Core.
From Verif Require Import PyBase PyFloat FloatR SpecStr SpecUtil SpecInput SpecMesh SpecMeshplot SpecFisana PyFs PyIo PyFrame M_util M_input M_mesh M_meshplot M_misc P_meshplot P_misc P_mesh TextTac.

(** an entry of one of the example frames *)
Ltac entry := eexists; split; [vm_compute; reflexivity|vm_compute; reflexivity].

(** C181: the colour at (x, y) is the value of the row with these coordinates. *)
Theorem C181_drawn : forall m value p i j v erg time d ci cj cn cval cerr lmin lmax sl mid,
  plane_of p i j v -> data m = Df d -> table d ->
  has_if_given d erg "Energy" -> has_if_given d time "Time" ->
  has d (axis_name i) ci -> has d (axis_name j) cj -> has d (axis_name v) cn ->
  has d "value" cval -> has d "rel_err" cerr ->
  extract_slice m value p erg time = Ok sl -> sl_value sl = mid ->
  axis_mids m i <> [] -> axis_mids m j <> [] ->
  complete d (in_slice d erg time cn mid) ci cj (axis_mids m i) (axis_mids m j) ->
  exists cs, plot_slice m value p lmin lmax false erg time = Ok (sl, [Panel (axis_mids m i) (axis_mids m j) cs lmin lmax]) /\
    Forall2 (fun x vs => Forall2 (fun y v => exists r, in_slice d erg time cn mid r /\ entry_is ci r x /\ entry_is cj r y /\
      nth_error (c_vals cval) r = Some v) (axis_mids m j) vs) (axis_mids m i) cs.
Proof. exact (fun m value p i j v erg time d ci cj cn cval cerr lmin lmax sl mid H1 H2 H3 H4 H5 H6 H7 H8 H9 H10 =>
  slice_drawn m value p i j v erg time d ci cj cn cval cerr H1 H2 H3 H4 H5 H6 H7 H8 H9 H10 lmin lmax sl mid). Qed.
Print Assumptions C181_drawn.
Definition ex_frame : frame := let c := fun l => Col false (map f_of_Z l) in
  Frame [0; 1; 2; 3] [(lit "x", c [1; 1; 3; 3]%Z); (lit "y", c [6; 8; 6; 8]%Z); (lit "z", c [5; 5; 5; 5]%Z);
                      (lit "value", c [10; 11; 12; 13]%Z); (lit "rel_err", c [20; 21; 22; 23]%Z)].
Definition ex_mesh : mesh := Mesh None None [] [] [] [] [] (Df ex_frame) [f_of_Z 1; f_of_Z 3] [f_of_Z 6; f_of_Z 8] [f_of_Z 5] (Some (lit "5col")).
Example C181_ex : let c := fun l => Col false (map f_of_Z l) in
  complete ex_frame (in_slice ex_frame None None (c [5; 5; 5; 5]%Z) (f_of_Z 5)) (c [1; 1; 3; 3]%Z) (c [6; 8; 6; 8]%Z) (x_mids ex_mesh) (y_mids ex_mesh) /\
  rmap snd (plot_slice ex_mesh fzero (lit "XY") (f_of_Z 1) (f_of_Z 20) false None None) =
    Ok [Panel [f_of_Z 1; f_of_Z 3] [f_of_Z 6; f_of_Z 8] [[f_of_Z 10; f_of_Z 11]; [f_of_Z 12; f_of_Z 13]] (f_of_Z 1) (f_of_Z 20)].
Proof.
  cbv zeta. split; [|vm_compute; reflexivity].
  assert (Z : forall r, r < 4 -> in_slice ex_frame None None (Col false (map f_of_Z [5; 5; 5; 5]%Z)) (f_of_Z 5) r).
  { intros r L. split; [exact L|]. split; [split; intros ? ?; discriminate|].
    do 4 (destruct r as [|r]; [entry|]). lia. }
  intros x [<-|[<-|[]]]; [exists [0; 1]|exists [2; 3]]; (split; [split; [repeat constructor|]|]).
  1, 3: intros r; split; [intros I; cbn in I; decompose [or] I; subst; try contradiction; (split; [cbn; lia|]); (split; [apply Z; lia|]); entry|].
  1, 2: intros (L & _ & y & E & F); do 4 (destruct r as [|r]; [first [cbn; tauto|exfalso; vm_compute in E; injection E as <-; vm_compute in F; discriminate]|]); cbn in L; lia.
  1, 2: repeat constructor; entry.
Qed.

(** C182: false; the panel of errors cannot be drawn when the two axes share no coordinate,
    and when they share some but not all no slice is given at all. *)
Theorem C182_errors_refuted : forall m value p i j v erg time d ci cj cn cval cerr lmin lmax sl,
  plane_of p i j v -> data m = Df d -> table d ->
  has_if_given d erg "Energy" -> has_if_given d time "Time" ->
  has d (axis_name i) ci -> has d (axis_name j) cj -> has d (axis_name v) cn ->
  has d "value" cval -> has d "rel_err" cerr ->
  (forall x r, In x (axis_mids m i) -> ~ entry_is cj r x) -> axis_mids m j <> [] -> axis_mids m i <> [] ->
  extract_slice m value p erg time = Ok sl -> plot_slice m value p lmin lmax true erg time = Err TypeError.
Proof. exact (fun m value p i j v erg time d ci cj cn cval cerr lmin lmax sl H1 H2 H3 H4 H5 H6 H7 H8 H9 H10 =>
  errors_not_drawn m value p i j v erg time d ci cj cn cval cerr H1 H2 H3 H4 H5 H6 H7 H8 H9 H10 lmin lmax sl). Qed.
Print Assumptions C182_errors_refuted.
Theorem C182_shared_refuted : forall m value p i j v erg time d ci cj cn cval cerr x1 x2,
  plane_of p i j v -> data m = Df d -> table d ->
  has_if_given d erg "Energy" -> has_if_given d time "Time" ->
  has d (axis_name i) ci -> has d (axis_name j) cj -> has d (axis_name v) cn ->
  has d "value" cval -> has d "rel_err" cerr ->
  In x1 (axis_mids m i) -> In x2 (axis_mids m i) ->
  (forall mid, In mid (axis_mids m v) -> exists r, in_slice d erg time cn mid r /\ entry_is cj r x1) ->
  (forall r, ~ entry_is cj r x2) -> extract_slice m value p erg time = Err ValueError.
Proof. exact (fun m value p i j v erg time d ci cj cn cval cerr x1 x2 H1 H2 H3 H4 H5 H6 H7 H8 H9 H10 =>
  ragged m value p i j v erg time d ci cj cn cval cerr H1 H2 H3 H4 H5 H6 H7 H8 H9 H10 x1 x2). Qed.
Print Assumptions C182_shared_refuted.
(** A mesh of two by two voxels around (1, 3) x (3, 5): the coordinate 3 is shared. *)
Definition ex_shared : mesh := let c := fun l => Col false (map f_of_Z l) in
  Mesh None None [] [] [] [] [] (Df (Frame [0; 1; 2; 3] [(lit "x", c [1; 1; 3; 3]%Z); (lit "y", c [3; 5; 3; 5]%Z); (lit "z", c [5; 5; 5; 5]%Z);
    (lit "value", c [10; 11; 12; 13]%Z); (lit "rel_err", c [20; 21; 22; 23]%Z)])) [f_of_Z 1; f_of_Z 3] [f_of_Z 3; f_of_Z 5] [f_of_Z 5] (Some (lit "5col")).
Example C182_ex : plot_slice ex_mesh fzero (lit "XY") (f_of_Z 1) (f_of_Z 20) true None None = Err TypeError /\
  extract_slice ex_shared fzero (lit "XY") None None = Err ValueError /\
  (forall r, ~ entry_is (Col false (map f_of_Z [3; 5; 3; 5]%Z)) r (f_of_Z 1)) /\
  (forall mid, In mid (z_mids ex_shared) -> entry_is (Col false (map f_of_Z [5; 5; 5; 5]%Z)) 0 mid) /\
  entry_is (Col false (map f_of_Z [3; 5; 3; 5]%Z)) 0 (f_of_Z 3).
Proof.
  split; [vm_compute; reflexivity|]. split; [vm_compute; reflexivity|]. split; [|split].
  - intros r (y & E & F). do 4 (destruct r as [|r]; [vm_compute in E; injection E as <-; vm_compute in F; discriminate|]). destruct r; discriminate.
  - intros mid [<-|[]]. entry.
  - entry.
Qed.

(** C183: the highest value becomes a half and the others follow in proportion. *)
Theorem C183_half : forall m d c, data m = Df d -> has d "value" c -> forall top,
  Forall (fun x => valid x = true /\ is_finite_f x = true /\ (0 <= FR x)%R) (c_vals c) -> largest (c_vals c) top ->
  (bpow radix2 (-1000) <= FR top <= bpow radix2 1000)%R ->
  exists rs, normalise_mesh true m = Ok rs /\
    Forall2 (fun x r => is_finite_f r = true /\ (Rabs (FR r - FR x / (2 * FR top)) <= bpow radix2 (-52))%R) (c_vals c) rs /\
    (forall i j x y r s, nth_error (c_vals c) i = Some x -> nth_error (c_vals c) j = Some y -> nth_error rs i = Some r -> nth_error rs j = Some s ->
       (FR x <= FR y)%R -> (FR r <= FR s)%R).
Proof. exact norm_scaled. Qed.
Print Assumptions C183_half.
Theorem C183_zero_refuted : forall m d c, data m = Df d -> has d "value" c -> c_vals c <> [] ->
  Forall (fun x => is_zero_f x = true) (c_vals c) -> normalise_mesh true m = Err ZeroDivisionError.
Proof. exact norm_zero. Qed.
Print Assumptions C183_zero_refuted.
Theorem C183_numpy_refuted : forall m d c, data m = Df d -> has d "value" c -> normalise_mesh false m = Err AttributeError.
Proof. exact norm_removed. Qed.
Print Assumptions C183_numpy_refuted.
Example C183_ex : normalise_mesh true ex_mesh = Ok (map (fun x => fmul (f_of_Z x) (fdiv (fdec 5 (-1)) (f_of_Z 13))) [10; 11; 12; 13]%Z) /\
  has ex_frame "value" (Col false (map f_of_Z [10; 11; 12; 13]%Z)) /\ largest (map f_of_Z [10; 11; 12; 13]%Z) (f_of_Z 13).
Proof.
  split; [vm_compute; reflexivity|]. split; [apply has_col; reflexivity|]. split; [cbn; tauto|].
  intros x I. cbn in I. decompose [or] I; subst; try contradiction; reflexivity.
Qed.

(** C184: the kind of calculation in str() of an input. *)
Theorem C184_kind : forall block d, process_data_block block = Ok d ->
  let has_card k := exists l q r, In l block /\ l = q ++ r /\ same_case q (lit k) in
  (calculation_line d = lit "Fixed source calculation" <-> has_card "sdef"%string) /\
  (calculation_line d = lit "Kcode calculation" <-> has_card "kcode"%string /\ ~ has_card "sdef"%string) /\
  (calculation_line d = lit "Unknown calculation type" <-> ~ has_card "kcode"%string /\ ~ has_card "sdef"%string).
Proof. exact kind_of_calculation. Qed.
Print Assumptions C184_kind.
(** A criticality calculation whose first source is given by an sdef card. *)
Theorem C184_kcode_refuted : forall block d, process_data_block block = Ok d ->
  (exists l q r, In l block /\ l = q ++ r /\ same_case q (lit "kcode")) -> (exists l q r, In l block /\ l = q ++ r /\ same_case q (lit "sdef")) ->
  calculation_line d = lit "Fixed source calculation".
Proof. exact kcode_with_sdef. Qed.
Print Assumptions C184_kcode_refuted.
Example C184_ex : rmap calculation_line (process_data_block [lit "mode n"; lit "KCODE 1000 1.0 10 110"; lit "sdef pos=0 0 0 erg=2"]) = Ok (lit "Fixed source calculation") /\
  rmap calculation_line (process_data_block [lit "mode n"; lit "KCODE 1000 1.0 10 110"; lit "ksrc 0 0 0"]) = Ok (lit "Kcode calculation").
Proof. vm_compute. split; reflexivity. Qed.

(** C185 *)
Theorem C185_off : forall cwd lines fname tnum f, print_tally_lines_to_file false cwd lines fname tnum f = (f, Ok tt).
Proof. exact debug_copy_off. Qed.
Print Assumptions C185_off.
Theorem C185_on : forall cwd lines fname tnum f f' r, print_tally_lines_to_file true cwd lines fname tnum f = (f', r) ->
  let p := cwd ++ [fname ++ str_of_Z tnum ++ lit ".txt"] in
  (r = Ok tt <-> openable f p) /\ (r = Ok tt -> (get_lines f' p = Ok lines <-> Forall no_break lines) /\ forall q, q <> p -> f' q = f q) /\
  (r <> Ok tt -> f' = f).
Proof. exact debug_copy_on. Qed.
Print Assumptions C185_on.
Example C185_ex : let f := fun p : path => match p with [] => Some Dir | _ => None end in
  exists f', print_tally_lines_to_file true [] [lit "a"; lit "b"] (lit "tally_test") 4 f = (f', Ok tt) /\
    get_lines f' [lit "tally_test4.txt"] = Ok [lit "a"; lit "b"].
Proof. eexists. split; [reflexivity|]. vm_compute. reflexivity. Qed.
