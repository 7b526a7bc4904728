(** Properties C231-C232: tables of outputs that do not fit.  Vocabulary: SpecStr.v,
    SpecOutput.v, SpecMcout.v, SpecFis.v. *)
From Coq Require Import Lia.
From Verif Require Import PyBase PyFloat PyFs SpecStr SpecUtil SpecOutput M_util M_mcout SpecMcout SpecMcout2 P_util P_mcout8 M_ptrac M_fisout SpecFis ExFis P_fisout2 P_fisout6 P_fisout7 TextTac.
Local Open Scope nat_scope.

(** C231: a row longer than the header, or only shorter rows. *)
Theorem C231_table101 : forall pre h0 h1 h2 h3 h4 h5 rows ws l m e post, Forall2 (fun l w => words l w /\ w <> []) rows ws -> rows <> [] ->
  (exists w, In w ws /\ 9 < List.length w) \/ (forall w, In w ws -> List.length w < 9) -> blank l ->
  none_of (prefix_of (lit " *******")) ([h0; h1; h2; h3; h4; h5] ++ rows ++ l :: m) -> prefix_of (lit " *******") e ->
  read_table101 (pre ++ ([h0; h1; h2; h3; h4; h5] ++ rows ++ l :: m) ++ e :: post) (Z.of_nat (List.length pre)) = Err ValueError.
Proof. exact table101_misfit. Qed.
Print Assumptions C231_table101.
Theorem C231_table60 : forall pre t0 t1 h1 h2 t4 rows f1 f2 f3 e post a0 a1 m al b0 b1 b2 b3 mid bl ws,
  none_of (prefix_of (lit "    minimum source weight")) (pre ++ t0 :: t1 :: h1 :: h2 :: t4 :: rows ++ [f1; f2; f3]) -> prefix_of (lit "    minimum source weight") e ->
  words h1 (a0 :: a1 :: m ++ [al]) -> words h2 (b0 :: b1 :: b2 :: b3 :: mid ++ [bl]) -> rows <> [] ->
  Forall2 (fun l w => exists x, words l (x :: w)) rows ws ->
  (exists w, In w ws /\ 5 + List.length mid < List.length w) \/ (forall w, In w ws -> List.length w < 5 + List.length mid) ->
  read_table60 (pre ++ (t0 :: t1 :: h1 :: h2 :: t4 :: rows ++ [f1; f2; f3]) ++ e :: post) (Z.of_nat (List.length pre)) = Err ValueError.
Proof. exact table60_misfit. Qed.
Print Assumptions C231_table60.
(** Shorter rows beside full ones are not refused: the cells on the right are empty. *)
Theorem C231_short_row_refuted : forall pre h0 h1 h2 h3 h4 h5 rows ws w0 l m e post, Forall2 (fun l w => words l w /\ w <> []) rows ws -> In w0 ws -> List.length w0 = 9 ->
  (forall w, In w ws -> List.length w <= 9) -> blank l ->
  none_of (prefix_of (lit " *******")) ([h0; h1; h2; h3; h4; h5] ++ rows ++ l :: m) -> prefix_of (lit " *******") e ->
  read_table101 (pre ++ ([h0; h1; h2; h3; h4; h5] ++ rows ++ l :: m) ++ e :: post) (Z.of_nat (List.length pre)) =
  Ok (map (fun w => map Some w ++ repeat None (9 - List.length w)) ws).
Proof. exact table101_padded. Qed.
Print Assumptions C231_short_row_refuted.
(** Energy and time bins: rows of different lengths, parts with different energies. *)
Theorem C231_time_rows : forall gap tl el rows fin rest ts tot es m ps ps', none_of (heads (lit "time:")) gap -> time_line tl ts tot -> heads (lit "energy") el -> energy_rows rows es m ->
  In ps m -> In ps' m -> List.length ps <> List.length ps' -> blank fin \/ heads (lit "total") fin ->
  process_e_t_userbin (gap ++ tl :: el :: rows ++ fin :: rest) = Err ValueError.
Proof. exact uneven_rows. Qed.
Print Assumptions C231_time_rows.
Theorem C231_time_parts : forall gap1 blk1 gap2 blk2 rest ts1 es1 m1 ts2 es2 m2, none_of (heads (lit "time:")) gap1 -> et_block blk1 ts1 es1 m1 -> none_of (heads (lit "time:")) gap2 -> et_block blk2 ts2 es2 m2 ->
  List.length es1 <> List.length es2 -> process_e_t_userbin (gap1 ++ blk1 ++ gap2 ++ blk2 ++ rest) = Err ValueError.
Proof. exact uneven_parts. Qed.
Print Assumptions C231_time_parts.
Theorem C231_time_errors : forall lines e, process_e_t_userbin lines = Err e -> e = ValueError.
Proof. exact userbin_err. Qed.
Print Assumptions C231_time_errors.
Definition C231_101 (row : str) : list str :=
  [lit "x"; lit "1particles and energy limits   print table 101"; []; lit "a"; lit "b"; lit "c"; []; lit "  1  n  neutron  1 2 3 4 5 6"; row; [chr 32]; lit " *******"].
Definition C231_60 (row : str) : list str :=
  [lit "x"; lit "1cells                                print table 60"; []; lit "                 atom        gram                         neutron";
   lit "        cell  mat  density    density   volume   mass   pieces importance"; []; lit "    1     1    1  4.0E-02  1.0E+00  5.0E+00  5.0E+00   1  1.0E+00"; row; []; lit " total  1.2E+01"; []; lit "    minimum source weight = 1.0"; lit "end"].
Definition C231_et (row : str) (more : list str) : list str :=
  [lit " detector"; lit "      time:         1.0000E+00           2.0000E+00"; lit "      energy";
   lit "    1.0000E-01   1.5E-03 0.0100   2.5E-03 0.0200"; row; lit "      total      5.0E-03 0.02 7.0E-03 0.03"; [];
   lit "      time:         3.0000E+00"; lit "      energy"; lit "    1.0000E-01   5.5E-03 0.0500"] ++ more ++ [[]; lit "end"].
Example C231_ex : read_table101 (C231_101 (lit "  2  p  photon  1 2 3 4 5 7 8")) 1 = Err ValueError /\
  read_table101 (C231_101 (lit "  2  p  photon")) 1 = Ok [map (fun s => Some (lit s)) ["1"; "n"; "neutron"; "1"; "2"; "3"; "4"; "5"; "6"]%string; map (fun s => Some (lit s)) ["2"; "p"; "photon"]%string ++ repeat None 6] /\
  read_table60 (C231_60 (lit "    2     9    0  0.0E-02  0.0E+00  7.0E+00  0.0E+00   1  2.0E+00  1")) 1 = Err ValueError /\
  process_e_t_userbin (C231_et (lit "    2.0000E+00   3.5E-03 0.0300   4.5E-03") [lit "    2.0000E+00   6.5E-03 0.0700"]) = Err ValueError /\
  process_e_t_userbin (C231_et (lit "    2.0000E+00   3.5E-03 0.0300   4.5E-03 0.0400") []) = Err ValueError /\
  exists r, process_e_t_userbin (C231_et (lit "    2.0000E+00   3.5E-03 0.0300   4.5E-03 0.0400") [lit "    2.0000E+00   6.5E-03 0.0700"]) = Ok r.
Proof. split; [|split; [|split; [|split; [|split]]]]; [vm_compute; reflexivity..|]. eexists. vm_compute. reflexivity. Qed.
Example C231_ex_rows : exists ts m ps ps' tot es, time_line (nth 1 (C231_et [] []) []) ts tot /\
  energy_rows [nth 3 (C231_et [] []) []; lit "    2.0000E+00   3.5E-03 0.0300"] es m /\ In ps m /\ In ps' m /\ List.length ps <> List.length ps'.
Proof.
  exists [fdec 1 0; fdec 2 0], [[(fdec 15 (-4), fdec 1 (-2)); (fdec 25 (-4), fdec 2 (-2))]; [(fdec 35 (-4), fdec 3 (-2))]], [(fdec 15 (-4), fdec 1 (-2)); (fdec 25 (-4), fdec 2 (-2))], [(fdec 35 (-4), fdec 3 (-2))], false, [fdec 1 (-1); fdec 2 0].
  split; [exists [lit "1.0000E+00"; lit "2.0000E+00"]; split; [text|split; text]|]. split; [|split; [now left|split; [right; now left|discriminate]]].
  apply er_cons; [exists (lit "1.0000E-01"), (map lit ["1.5E-03"; "0.0100"; "2.5E-03"; "0.0200"]%string); split; [text|split; [cbn [map]; text|split; [text|unfold flat; cbn [map concat app fst snd]; text]]]|].
  apply er_cons; [exists (lit "2.0000E+00"), (map lit ["3.5E-03"; "0.0300"]%string); split; [text|split; [cbn [map]; text|split; [text|unfold flat; cbn [map concat app fst snd]; text]]]|].
  apply er_nil.
Qed.

(** C232: the table of dominant nuclides, when a line is malformed or the parts do not have the
    same length. *)
Theorem C232_refused : forall data tops lows, dominant_tables data tops lows -> ~ In [] lows ->
  (exists l, In l tops /\ forall t, ~ top_line l t) \/ (exists l, In l lows /\ forall t, ~ low_line l t) \/ (tops <> [] /\ List.length tops <> List.length lows) ->
  parse_dominant data = Err ValueError.
Proof. exact dominant_refused. Qed.
Print Assumptions C232_refused.
Theorem C232_errors : forall data e, parse_dominant data = Err e -> e = ValueError \/ e = IndexError /\ In [] data.
Proof. exact parse_dominant_Err. Qed.
Print Assumptions C232_errors.
(** An empty line below the table is another error. *)
Theorem C232_empty_line_refuted : forall data p d1 d2 lows rest ts ls, first_index (occurs (lit "DOMINANT NUCLIDES")) data p ->
  first_index (occurs (lit "(Bq) ")) (skipn p data) d1 -> first_index (occurs (lit "GAMMA HEAT")) (skipn p data) d2 -> 1 <= d2 ->
  Forall2 top_line (span (d1 + 2) (d2 - 1) (skipn p data)) ts -> skipn (d2 + 3) (skipn p data) = lows ++ [] :: rest ->
  Forall (fun l => ~ starts_with_1 l) lows -> Forall2 low_line lows ls -> parse_dominant data = Err IndexError.
Proof. exact dominant_empty. Qed.
Print Assumptions C232_empty_line_refuted.
Example C232_ex : (exists rows, parse_dominant ex_step = Ok rows) /\ parse_dominant (ex_step ++ [[]]) = Err IndexError /\ parse_dominant (ex_step ++ [lit " "]) = Err ValueError /\
  parse_dominant (removelast ex_step) = Err ValueError /\ exists tops lows, dominant_tables (removelast ex_step) tops lows /\ ~ In [] lows /\ tops <> [] /\ List.length tops <> List.length lows.
Proof.
  split; [eexists; vm_compute; reflexivity|]. split; [vm_compute; reflexivity|]. split; [vm_compute; reflexivity|]. split; [vm_compute; reflexivity|].
  exists (span 6 9 (skipn 79 ex_step)), (span 13 15 (skipn 79 ex_step)). split; [|split; [vm_compute; intros [K|[K|[]]]; discriminate K|split; vm_compute; discriminate]].
  exists 79, 4, 10, []. split; [apply find_first; vm_compute; reflexivity|]. split; [apply find_first; vm_compute; reflexivity|].
  split; [apply find_first; vm_compute; reflexivity|]. split; [lia|]. split; [vm_compute; reflexivity|]. split; [vm_compute; reflexivity|]. split; [|left; reflexivity].
  repeat (constructor; [intros (r & K); vm_compute in K; discriminate|]). constructor.
Qed.
