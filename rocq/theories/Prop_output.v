(** Properties C36-C45, C114, C115: output_utilities.py, ofile_reduce.py, lost_points.py,
    xsdir_reader.py, magic.py.  Vocabulary: SpecStr.v, SpecUtil.v, SpecInput.v, SpecOutput.v. *)
From Verif Require Import PyBase PyFloat PyFs SpecStr SpecUtil M_util M_input SpecInput PyIo M_output SpecOutput P_output P_output2 P_output3.

(** C36 *)
Theorem C36_length_bound : forall prefix tokens max cont lines,
  wrap_tokens prefix tokens max cont = Ok lines ->
  (exists p, rtrimmed prefix p /\ (Z.of_nat (List.length p) <= max)%Z) ->
  (forall w tok t, cont_width cont w -> In tok tokens -> trimmed tok t -> t <> [] ->
     (w + Z.of_nat (List.length t) <= max)%Z) ->
  Forall (fun l => (Z.of_nat (List.length l) <= max)%Z) lines.
Proof. exact wrap_bound. Qed.
Print Assumptions C36_length_bound.
Theorem C36_long_token : forall prefix tokens max cont e,
  wrap_tokens prefix tokens max cont = Err e <->
  e = ValueError /\ exists tok t, In tok tokens /\ trimmed tok t /\ t <> [] /\ (max < Z.of_nat (List.length t))%Z.
Proof. exact wrap_err. Qed.
Print Assumptions C36_long_token.
(** The bound without the room for the continuation prefix fails, for every such token. *)
Theorem C36_unconditional_refuted : forall prefix tok t w max cont,
  trimmed tok t -> t <> [] -> cont_width cont w ->
  (Z.of_nat (List.length t) <= max)%Z -> (max < w + Z.of_nat (List.length t))%Z ->
  (max < Z.of_nat (List.length prefix) + Z.of_nat (List.length t) + 2)%Z ->
  exists lines l, wrap_tokens prefix [tok] max cont = Ok lines /\ In l lines /\ (max < Z.of_nat (List.length l))%Z.
Proof. exact wrap_overflow. Qed.
Print Assumptions C36_unconditional_refuted.
Example C36_ex : wrap_tokens (lit "m1") [lit "1001"; lit " 0.5"; lit "8016"] 12 (lit "  ") = Ok [lit "m1 1001 0.5"; lit "  8016"].
Proof. reflexivity. Qed.
Example C36_ex_refuted : wrap_tokens (lit "m1") [lit "abcdefgh"] 10 (lit "     ") = Ok [lit "m1"; lit "     abcdefgh"].
Proof. reflexivity. Qed.

(** C37 *)
Theorem C37_words_kept : forall prefix tokens max cont lines pw tw,
  wrap_tokens prefix tokens max cont = Ok lines -> blank cont ->
  words prefix pw -> all_words tokens tw -> all_words lines (pw ++ tw).
Proof. exact wrap_words_blank. Qed.
Print Assumptions C37_words_kept.
(** With any continuation prefix, its words start each further line. *)
Theorem C37_any_prefix : forall prefix tokens max cont lines pw cw tw,
  wrap_tokens prefix tokens max cont = Ok lines ->
  words prefix pw -> words cont cw -> all_words tokens tw ->
  (lines = [] /\ pw = [] /\ tw = []) \/
  exists ts0 tss, tw = ts0 ++ concat tss /\ Forall2 words lines ((pw ++ ts0) :: map (app cw) tss).
Proof. exact wrap_words. Qed.
Print Assumptions C37_any_prefix.
Example C37_ex : wrap_tokens (lit "m1") [lit "1001"; lit " 0.5"; lit "8016"] 12 (lit "&") = Ok [lit "m1 1001 0.5"; lit "& 8016"].
Proof. reflexivity. Qed.

(** C38 *)
Theorem C38_read_back_partial : forall card tok t toks lines pre post cw tw,
  (exists a r, card = a :: r /\ a <> chr 32) -> (exists r c, card = r ++ [c] /\ is_ws c = false) ->
  Forall (fun x => ~ In (chr 36) x) (card :: tok :: toks) -> trimmed tok t -> t <> [] ->
  List.length card + List.length t + 2 <= 80 ->
  words card cw -> all_words (tok :: toks) tw ->
  (forall l, In l pre -> ~ card_head card l) -> card_tail post [] ->
  wrap_default card (tok :: toks) = Ok lines ->
  exists out, get_card_lines (pre ++ lines ++ post) card = out /\ all_words out (map lower (cw ++ tw)).
Proof. exact wrap_read_back. Qed.
Print Assumptions C38_read_back_partial.
(** A card without tokens, or whose first token does not fit after the name, is lost. *)
Theorem C38_lost_refuted : forall card tokens lines,
  (exists a r, card = a :: r /\ a <> chr 32) -> (exists r c, card = r ++ [c] /\ is_ws c = false) ->
  (tokens = [] \/ exists tok t toks, tokens = tok :: toks /\ trimmed tok t /\ t <> [] /\
     80 < List.length card + List.length t + 2) ->
  wrap_default card tokens = Ok lines -> get_card_lines lines card = [].
Proof. exact wrap_lost. Qed.
Print Assumptions C38_lost_refuted.
Example C38_ex : wrap_default (lit "E4") (repeat (lit "1.000E+00 ") 9) =
    Ok [lit "E4 1.000E+00 1.000E+00 1.000E+00 1.000E+00 1.000E+00 1.000E+00 1.000E+00"; lit "     1.000E+00 1.000E+00"] /\
  get_card_lines [lit "E4 1.000E+00 1.000E+00 1.000E+00 1.000E+00 1.000E+00 1.000E+00 1.000E+00"; lit "     1.000E+00 1.000E+00"; lit "nps 5"] (lit "E4")
    = [lit "e4 1.000e+00 1.000e+00 1.000e+00 1.000e+00 1.000e+00 1.000e+00 1.000e+00"; lit "     1.000e+00 1.000e+00"].
Proof. split; vm_compute; reflexivity. Qed.

(** C39 *)
Theorem C39_points : forall V (show : V -> str) f x y z d dir name,
  same_lengths x y z d -> openable f (dir ++ [name ++ lit ".3d"]) ->
  exists f' rows, output_points show x y z d (dir ++ [name]) f = (f', Ok tt) /\
    f' (dir ++ [name ++ lit ".3d"]) = Some (File (full_text (lit "x y z temp" :: rows))) /\
    rows_of show x y z (last_field show d) rows /\ forall q, q <> dir ++ [name ++ lit ".3d"] -> f' q = f q.
Proof. exact (@output_points_ok). Qed.
Print Assumptions C39_points.
Theorem C39_lengths : forall V (show : V -> str) f x y z d p,
  (~ same_lengths x y z d -> output_points show x y z d p f = (f, Err ValueError)) /\
  (same_lengths x y z d -> snd (output_points show x y z d p f) <> Err ValueError).
Proof. exact (@output_points_err). Qed.
Print Assumptions C39_lengths.
Definition ex_empty : fs := fun _ => None.
Example C39_ex : exists f', output_points str_of_Z [1; 2]%Z [3; 4]%Z [5; 6]%Z (Some [7; 8]%Z) [lit "p"] ex_empty = (f', Ok tt) /\
  f' [lit "p.3d"] = Some (File (full_text [lit "x y z temp"; lit "1 3 5 7"; lit "2 4 6 8"])).
Proof. eexists; split; vm_compute; reflexivity. Qed.

(** C40 *)
Theorem C40_csv : forall V (show : V -> str) f data p, Forall enough data -> openable f p ->
  exists f' rss, csv_out show data p f = (f', Ok tt) /\ f' p = Some (File (full_text (concat rss))) /\
    Forall2 (fun t rs => tally_rows (ot_cells t) (ot_result t) (ot_err t) (csv_row show (ot_number t)) rs) data rss /\
    forall q, q <> p -> f' q = f q.
Proof. exact (@csv_ok). Qed.
Print Assumptions C40_csv.
Theorem C40_csv_short : forall V (show : V -> str) f data p,
  ~ Forall enough data -> csv_out show data p f = (f, Err IndexError).
Proof. exact (@csv_err). Qed.
Print Assumptions C40_csv_short.
Theorem C40_html : forall V (show : V -> str) f data p, Forall enough data -> openable f p ->
  exists f' rss t, html_f4_tab_out show data p f = (f', Ok tt) /\ f' p = Some (File t) /\
    t ++ [chr 10] = full_text (html_table_lines (concat rss)) /\
    Forall2 (fun t rs => tally_rows (ot_cells t) (ot_result t) (ot_err t) (html_row show (ot_number t)) rs) data rss /\
    forall q, q <> p -> f' q = f q.
Proof. exact (@html_ok). Qed.
Print Assumptions C40_html.
Theorem C40_html_short : forall V (show : V -> str) f data p,
  ~ Forall enough data -> html_f4_tab_out show data p f = (f, Err IndexError).
Proof. exact (@html_err). Qed.
Print Assumptions C40_html_short.
Example C40_ex : exists f', csv_out str_of_Z [OutTally 4 [1; 2] [10; 20] [3; 5]; OutTally 14 [] [] []]%Z [lit "o.csv"] ex_empty = (f', Ok tt) /\
  f' [lit "o.csv"] = Some (File (full_text [lit "4, 1, 10, 3"; lit "4, 2, 20, 5"])).
Proof. eexists; split; vm_compute; reflexivity. Qed.

(** C41: false; html_output never writes anything. *)
Theorem C41_never_writes_refuted : forall lines fname f,
  exists e, html_output lines fname f = (f, Err e).
Proof. intros [l|e] fname f; eexists; reflexivity. Qed.
Print Assumptions C41_never_writes_refuted.

(** C42 *)
Theorem C42_reduced : forall f infile ofile pre l post,
  get_lines f infile = Ok (pre ++ l :: post) -> (forall x, In x pre -> ~ final_results x) -> final_results l ->
  openable f ofile ->
  exists f', reduce_ofile infile ofile f = (f', Ok tt) /\ f' ofile = Some (File (full_text (l :: post))) /\
    forall q, q <> ofile -> f' q = f q.
Proof. exact reduce_found. Qed.
Print Assumptions C42_reduced.
Theorem C42_missing : forall f infile ofile lines,
  get_lines f infile = Ok lines -> (forall x, In x lines -> ~ final_results x) ->
  reduce_ofile infile ofile f = (f, Err ValueError).
Proof. exact reduce_missing. Qed.
Print Assumptions C42_missing.
Theorem C42_again : forall f infile ofile f', reduce_ofile infile ofile f = (f', Ok tt) ->
  exists f'', reduce_ofile ofile ofile f' = (f'', Ok tt) /\ forall q, f'' q = f' q.
Proof. exact reduce_again. Qed.
Print Assumptions C42_again.
Definition ex_one (p : path) (t : str) : fs := fun q => if path_eqb q p then Some (File t) else None.
Example C42_ex : exists f', reduce_ofile [lit "in"] [lit "out"]
    (ex_one [lit "in"] (full_text [lit "a"; lit "      run terminated when   500 particles"; lit "b"])) = (f', Ok tt) /\
  f' [lit "out"] = Some (File (full_text [lit "      run terminated when   500 particles"; lit "b"])).
Proof. eexists; split; vm_compute; reflexivity. Qed.

(** C43 *)
Theorem C43_lost_points : forall (show : float -> str) f p c data ls marked,
  openable f p -> f p = Some (File c) -> nl_translated c data -> text_lines data ls -> picked reports_lost ls marked ->
  forall ps dir name, Forall2 lost_at marked ps -> openable f (dir ++ [name ++ lit ".3d"]) -> marked <> [] ->
  exists f' rows, output_lost_points show p (dir ++ [name]) f = (f', Ok (List.length marked)) /\
    f' (dir ++ [name ++ lit ".3d"]) = Some (File (full_text (lit "x y z temp" :: rows))) /\
    Forall2 (fun q row => spaced [show (fst (fst q)); show (snd (fst q)); show (snd q); lit "1"] row) ps rows /\
    forall q, q <> dir ++ [name ++ lit ".3d"] -> f' q = f q.
Proof. exact lost_ok. Qed.
Print Assumptions C43_lost_points.
Theorem C43_none : forall (show : float -> str) f p c data ls marked,
  openable f p -> f p = Some (File c) -> nl_translated c data -> text_lines data ls -> picked reports_lost ls marked ->
  forall out, marked = [] -> output_lost_points show p out f = (f, Ok 0).
Proof. exact lost_none. Qed.
Print Assumptions C43_none.
Theorem C43_unreadable : forall (show : float -> str) f p c data ls marked,
  openable f p -> f p = Some (File c) -> nl_translated c data -> text_lines data ls -> picked reports_lost ls marked ->
  forall out l, In l marked -> (forall q, ~ lost_at l q) -> exists e, output_lost_points show p out f = (f, Err e).
Proof. exact lost_bad. Qed.
Print Assumptions C43_unreadable.
Example C43_ex : let l := lit "       x,y,z coordinates:    1.00000E+00    2.50000E+00   -3.00000E+00" in
  exists f', output_lost_points (fun x => if feq x (f_of_Z 1) then lit "one" else lit "other") [lit "in"] [lit "lost"]
    (ex_one [lit "in"] (full_text [lit "a"; l; l])) = (f', Ok 2) /\
  f' [lit "lost.3d"] = Some (File (full_text [lit "x y z temp"; lit "one other other 1"; lit "one other other 1"])).
Proof. eexists; split; vm_compute; reflexivity. Qed.

(** C44 *)
Theorem C44_xsdir : forall f p lines arest asec aes dsec des tsec tes,
  get_lines f p = Ok lines ->
  (forall x, In x lines -> datapath_line x -> In (chr 61) x) ->
  after_first (heads (lit "atomic")) lines arest -> before_first (heads (lit "directory")) arest asec -> awr_entries asec aes ->
  after_first (heads (lit "directory")) lines dsec -> word_entries (heads (lit "directory")) dsec des ->
  after_first thermal_head lines tsec -> word_entries thermal_skip tsec tes ->
  exists x, read_xsdir f p = Ok x /\ bindings str_eqb (xs_awr x) aes /\
    bindings str_eqb (xs_directory x) des /\ bindings str_eqb (xs_thermal x) tes.
Proof. exact xsdir_read. Qed.
Print Assumptions C44_xsdir.
Definition ex_xsdir : list str :=
  [lit "DataPath = /Data/XS"; lit " atomic weight ratios"; lit "h 1001 0.999"; lit "x"; lit "o 8016 15.86"; lit "directory";
   lit "1001.80c 0.999 endf 0 1"; lit "sab"; lit "lwtr.10t 0.99 tsl"].
Example C44_ex : exists x, read_xsdir (ex_one [lit "xsdir"] (full_text ex_xsdir)) [lit "xsdir"] = Ok x /\
  map fst (xs_awr x) = [lit "1001"; lit "8016"] /\
  xs_directory x = [(lit "1001.80c", [lit "0.999"; lit "endf"; lit "0"; lit "1"]); (lit "lwtr.10t", [lit "0.99"; lit "tsl"])] /\
  xs_thermal x = [(lit "lwtr.10t", [lit "0.99"; lit "tsl"])] /\ xs_datapath x = Some (lit "/data/xs").
Proof. eexists; repeat split; vm_compute; reflexivity. Qed.

(** C45 *)
Theorem C45_datapath_partial : forall pre l post a v rest t,
  (forall x, In x pre -> ~ datapath_line x) -> datapath_line l ->
  l = a ++ chr 61 :: rest -> ~ In (chr 61) a -> upto (chr 61) rest v -> trimmed v t ->
  process_datapath (pre ++ l :: post) = Ok (Some (lower t)).
Proof. exact datapath_spec. Qed.
Print Assumptions C45_datapath_partial.
Theorem C45_absent : forall lines, (forall x, In x lines -> ~ datapath_line x) -> process_datapath lines = Ok None.
Proof. exact datapath_none. Qed.
Print Assumptions C45_absent.
Theorem C45_no_equals : forall pre l post,
  (forall x, In x pre -> ~ datapath_line x) -> datapath_line l -> ~ In (chr 61) l ->
  process_datapath (pre ++ l :: post) = Err IndexError.
Proof. exact datapath_noeq. Qed.
Print Assumptions C45_no_equals.
(** The path as written is lost as soon as it has a capital or an equals sign. *)
Theorem C45_as_written_refuted : forall pre l post a rest v t,
  (forall x, In x pre -> ~ datapath_line x) -> datapath_line l ->
  l = a ++ chr 61 :: rest -> ~ In (chr 61) a -> upto (chr 61) rest v -> trimmed v t -> lower t <> t \/ In (chr 61) rest ->
  forall w, trimmed rest w -> process_datapath (pre ++ l :: post) <> Ok (Some w).
Proof. exact datapath_refuted. Qed.
Print Assumptions C45_as_written_refuted.
Example C45_ex : process_datapath ex_xsdir = Ok (Some (lit "/data/xs")) /\ datapath_line (lit "DataPath = /Data/XS").
Proof.
  split; [reflexivity|]. exists (lit "DataPath = /Data/XS"), (lit "DataPath"), (lit " = /Data/XS").
  split; [|split; reflexivity]. apply trimmed_strip. reflexivity.
Qed.

(** C114: false; do_magic never writes anything. *)
Theorem C114_magic_refuted : forall infile ofile f, exists e, do_magic infile ofile f = (f, Err e).
Proof. intros. eexists. reflexivity. Qed.
Print Assumptions C114_magic_refuted.

(** C115: false; the second line of a continued directory entry becomes an entry of its own. *)
Theorem C115_continued_refuted : forall pre h a l b l2 k v vs es,
  (forall x, In x pre -> ~ heads (lit "directory") x) -> heads (lit "directory") h ->
  ~ heads (lit "directory") l2 -> words l (b ++ [lit "+"]) -> words l2 (k :: v :: vs) ->
  word_entries (heads (lit "directory")) (a ++ [l]) es ->
  dict_get str_eqb k (process_directory (pre ++ h :: a ++ [l; l2])) = Some (v :: vs).
Proof. exact xsdir_continued. Qed.
Print Assumptions C115_continued_refuted.
Example C115_ex : process_directory [lit "directory"; lit "1001.80c 0.999 endf 0 1 +"; lit "  17 0 2.5e-8"] =
  [(lit "1001.80c", [lit "0.999"; lit "endf"; lit "0"; lit "1"; lit "+"]); (lit "17", [lit "0"; lit "2.5e-8"])].
Proof. reflexivity. Qed.
