(** Properties C19-C35 and C107-C114: mcnp_input_reader.py. *)
From Verif Require Import PyBase PyFloat PyFs SpecStr PyFacts SpecUtil M_util M_input SpecInput TextFacts P_input P_input2 P_input3 P_input4.

Definition demo : list str := map lit
  ["c a deck"; "1 1 -7.8 -1 (2:3) imp:n=1"; "2 0 1 IMP:N=0"; ""; "1 so 5.0"; "2 3 pz 1.0"; "C comment"; "3 RPP 0 1"; "     0 1 0 1";
   ""; "mode n p $ two particles"; "m1 26056.80c 0.9"; "     6000 0.1 nlib=80c"; "F4:n 1"; "e4 1 2"]%string.

(** C19 *)
Theorem C19_blocks : forall lines a b c, split_blocs lines = Ok (a, b, c) <->
  lines = a ++ b ++ c /\ Forall (fun l => ~ blank l) a /\
  (exists l b', b = l :: b' /\ blank l /\ Forall (fun l => ~ blank l) b') /\
  exists l c', c = l :: c' /\ blank l.
Proof. exact split_blocs_Ok. Qed.
Print Assumptions C19_blocks.
Theorem C19_error : forall lines e, split_blocs lines = Err e <->
  e = KeyError /\ ~ exists a l1 b l2 c, lines = a ++ l1 :: b ++ l2 :: c /\ blank l1 /\ blank l2.
Proof. exact split_blocs_Err. Qed.
Print Assumptions C19_error.
Example C19_ex : split_blocs (map lit ["a"; " "; "b"; ""; "c"; ""]%string)
  = Ok (map lit ["a"]%string, map lit [" "; "b"]%string, map lit [""; "c"; ""]%string) /\
  split_blocs (map lit ["a"; ""; "b"]%string) = Err KeyError.
Proof. split; vm_compute; reflexivity. Qed.

(** C20 *)
Theorem C20_comments : forall lines,
  increasing (map fst (get_full_line_comments lines)) /\
  forall i l, In (i, l) (get_full_line_comments lines) <-> nth_error lines i = Some l /\ full_comment l.
Proof. intros lines. exact (conj (comments_inc lines) (comments_spec lines)). Qed.
Print Assumptions C20_comments.
Theorem C20_long : forall lines ix, long_line_index lines = Some ix ->
  ix <> [] /\ increasing ix /\ forall i, In i ix <-> exists l, nth_error lines i = Some l /\
    79 < length l /\ ~ full_comment l /\ ~ occurs (lit " $") l.
Proof. exact long_lines_Some. Qed.
Print Assumptions C20_long.
Theorem C20_long_none : forall lines, long_line_index lines = None <->
  forall l, In l lines -> ~ (79 < length l /\ ~ full_comment l /\ ~ occurs (lit " $") l).
Proof. exact long_lines_None. Qed.
Print Assumptions C20_long_none.
Example C20_ex : get_full_line_comments demo = [(0, lit "c a deck"); (6, lit "C comment")] /\
  long_line_index (map lit ["x"]%string ++ [repeat (chr 120) 80]) = Some [1].
Proof. split; vm_compute; reflexivity. Qed.

(** C21 *)
Theorem C21_remove : forall l, upto (chr 36) l (remove_inline_comment l).
Proof. exact remove_spec. Qed.
Print Assumptions C21_remove.
Theorem C21_has : forall l, has_inline_comment l = true <-> In (chr 36) l.
Proof. exact has_spec. Qed.
Print Assumptions C21_has.
Theorem C21_get : forall a b r, ~ In (chr 36) a -> upto (chr 36) b r -> get_inline_comment (a ++ chr 36 :: b) = Ok r.
Proof. exact get_inline_some. Qed.
Print Assumptions C21_get.
Theorem C21_get_none : forall l, ~ In (chr 36) l -> get_inline_comment l = Ok l.
Proof. exact get_inline_none. Qed.
Print Assumptions C21_get_none.
Example C21_ex : remove_inline_comment (lit "1 so 5 $ a $ b") = lit "1 so 5 " /\ get_inline_comment (lit "1 so 5 $ a $ b") = Ok (lit " a ").
Proof. split; vm_compute; reflexivity. Qed.

(** C22 *)
Theorem C22_card_lines : forall lines card out, (exists a t, card = a :: t /\ a <> chr 32) ->
  get_card_lines lines card = out <-> card_found (card_head card) lines out.
Proof. exact get_card_iff. Qed.
Print Assumptions C22_card_lines.
Theorem C22_absent : forall lines card, (exists a t, card = a :: t /\ a <> chr 32) ->
  get_card_lines lines card = [] <-> forall l, In l lines -> ~ card_head card l.
Proof. exact get_card_nil. Qed.
Print Assumptions C22_absent.
Example C22_ex : get_card_lines (map lit ["nps 10"; "SDEF erg=1 $ source"; "C note"; "     POS=0 0 0"; "m1 1001 1"; "     6000 2"]%string) (lit "sdef")
  = map lit ["sdef erg=1 "; "     pos=0 0 0"]%string.
Proof. vm_compute; reflexivity. Qed.

(** C23 *)
Theorem C23_mode : forall lines ws, read_mode_card lines = Some ws <->
  exists out w, card_found (card_head (lit "mode")) lines out /\ all_words out (w :: ws).
Proof. exact read_mode_Some. Qed.
Print Assumptions C23_mode.
Theorem C23_no_mode : forall lines, read_mode_card lines = None <-> forall l, In l lines -> ~ card_head (lit "mode") l.
Proof. exact read_mode_None. Qed.
Print Assumptions C23_no_mode.
Theorem C23_valid : forall mode, is_mode_valid mode = true <->
  Forall (fun p => In (lower p) (map lit ["n"; "p"; "h"; "e"; "|"; "q"; "u"; "v"; "!"]%string)) mode.
Proof. exact mode_valid_spec. Qed.
Print Assumptions C23_valid.
Example C23_ex : read_mode_card demo = Some (map lit ["n"; "p"]%string) /\ is_mode_valid (map lit ["N"; "p"]%string) = true.
Proof. split; vm_compute; reflexivity. Qed.

(** C24 *)
Theorem C24_surface : forall s line, wf_surface s -> Forall word (s_params s) -> spaced (surface_words s) (lower line) ->
  process_surface_line line = Ok s.
Proof. exact surface_roundtrip. Qed.
Print Assumptions C24_surface.
Theorem C24_converse : forall line ws s, ws <> [] -> Forall word ws -> spaced ws (lower line) ->
  process_surface_line line = Ok s <-> wf_surface s /\
  exists nw, py_int nw = Ok (s_number s) /\
    ws = nw :: match s_transform s with Some t => [t] | None => [] end ++ s_type s :: s_params s.
Proof. exact surface_line_iff. Qed.
Print Assumptions C24_converse.
Theorem C24_bad_type : forall line nw n ws, py_int nw = Ok n -> Forall word (nw :: ws) -> spaced (nw :: ws) (lower line) ->
  (exists t ps, ~ digits t /\ ~ In t surface_mnemonics /\ ws = t :: ps) \/
  (exists tr t ps, digits tr /\ ~ In t surface_mnemonics /\ ws = tr :: t :: ps) ->
  process_surface_line line = Err ValueError.
Proof. exact surface_bad_type. Qed.
Print Assumptions C24_bad_type.
Example C24_ex : process_surface_line (lit "2 3 PZ 1.0") = Ok (Surface 2 (lit "pz") [lit "1.0"] true (Some (lit "3"))) /\
  process_surface_line (lit "2 3 qz 1.0") = Err ValueError.
Proof. split; vm_compute; reflexivity. Qed.

(** C25 *)
Theorem C25_surface_block : forall ss cards lines,
  surf_layout cards lines ->
  Forall2 (fun s ws => wf_surface s /\ map lower ws = surface_words s) ss cards ->
  NoDup (map s_number ss) ->
  process_surface_block lines = Ok (map (fun s => (s_number s, s)) ss).
Proof. exact surface_block_recovers. Qed.
Print Assumptions C25_surface_block.
Definition C25_lines : list str := map lit ["c surfaces"; "3 RPP 0 1"; "c inside"; "     0 1 0 1"; ""; "4 so 5"]%string.
Example C25_ex_layout : surf_layout [map lit ["3"; "RPP"; "0"; "1"; "0"; "1"; "0"; "1"]%string; map lit ["4"; "so"; "5"]%string] C25_lines.
Proof.
  apply (sl_card [lit "c surfaces"] (lit "3 RPP 0 1") (map lit ["3"; "RPP"; "0"; "1"]%string) (map lit ["c inside"; "     0 1 0 1"; ""]%string) (map lit ["0"; "1"; "0"; "1"]%string)).
  - constructor; [|constructor]. split; [intros [r E]; discriminate|]. right. eexists _, _. split; reflexivity.
  - repeat split.
    + intros [r E]; discriminate.
    + intros H; inversion H; discriminate.
    + intros (a & r & E & H). injection E as <- _. discriminate.
  - apply words_split. reflexivity.
  - apply sb_noise; [split; [intros [r E]; discriminate|right; eexists _, _; split; reflexivity]|].
    apply (sb_cont (lit "     0 1 0 1") (map lit ["0"; "1"; "0"; "1"]%string) (map lit [""]%string) []).
    + now exists (lit "0 1 0 1").
    + apply words_split. reflexivity.
    + discriminate.
    + apply sb_noise; [split; [intros [r E]; discriminate|left; constructor]|constructor].
  - apply (sl_card [] (lit "4 so 5") (map lit ["4"; "so"; "5"]%string) [] [] [] []).
    + constructor.
    + repeat split.
      * intros [r E]; discriminate.
      * intros H; inversion H; discriminate.
      * intros (a & r & E & H). injection E as <- _. discriminate.
    + apply words_split. reflexivity.
    + constructor.
    + repeat constructor.
Qed.
Example C25_ex : process_surface_block C25_lines =
  Ok [(3%Z, Surface 3 (lit "rpp") (map lit ["0"; "1"; "0"; "1"; "0"; "1"]%string) false None); (4%Z, Surface 4 (lit "so") [lit "5"] false None)].
Proof. vm_compute; reflexivity. Qed.

(** C26 *)
Theorem C26_cell_block : forall cards lines,
  cards <> [] -> cell_layout cards lines -> Forall wf_cell_card cards -> NoDup (map cc_number cards) ->
  process_cell_block lines = Ok (map (fun c => (cc_number c, cell_of_card c)) cards).
Proof. exact cell_block_recovers. Qed.
Print Assumptions C26_cell_block.
Definition C26_card : cell_card := CellCard 1 1 (Some (lit "-7.8", f_of_dec true 78 (-1)))
  [GSurf (lit "-") 1 []; GUnion (lit "(") 2 [3%Z] (lit ")"); GImp (lit "imp") (chr 110) (lit "1") (f_of_Z 1)].
Example C26_ex_wf : wf_cell_card C26_card /\ words (lit "1 1 -7.8 -1 (2:3) imp:n=1") (cell_card_words C26_card).
Proof.
  split; [|apply words_split; reflexivity]. split; [discriminate|]. split.
  - split; [discriminate|]. split; [vm_compute; reflexivity|]. split; [discriminate|repeat constructor].
  - constructor; [|constructor; [|constructor; [|constructor]]].
    + split; [|split; [discriminate|constructor]]. constructor; [|constructor]. right; right; now left.
    + split; [constructor; [now left|constructor]|]. split; [discriminate|]. split; [constructor; [discriminate|constructor]|]. constructor; [right; now left|constructor].
    + split; [reflexivity|]. split.
      { split; [reflexivity|]. repeat split; try discriminate. intros [H|[H|[H|[]]]]; discriminate. }
      split; [vm_compute; reflexivity|]. split; [discriminate|]. split.
      { constructor; [|constructor]. repeat split; discriminate. }
      { exists [], (chr 49). split; [reflexivity|]. intros [H|[H|[H|[]]]]; discriminate. }
Qed.
Example C26_ex : process_cell_block [lit "title"; lit "1 1 -7.8 -1 (2:3) imp:n=1"] = Ok [(1%Z, cell_of_card C26_card)] /\
  c_surfaces (cell_of_card C26_card) = map f_of_Z [1; 2; 3]%Z.
Proof. split; vm_compute; reflexivity. Qed.

(** C27: violated by every cell card with a continuation line of surfaces. *)
Theorem C27_continuation_refuted : forall c l k,
  wf_cell_card c -> words l (cell_card_words c) -> (exists a r, l = a :: r /\ is_ws a = false) ->
  continuation k -> ~ occurs (lit "imp") (lower k) -> ~ In (chr 36) k ->
  exists c', process_cell_block [l; k] = Ok [(cc_number c, c')] /\ c_surfaces c' = c_surfaces (cell_of_card c).
Proof. exact cont_surfaces_lost. Qed.
Print Assumptions C27_continuation_refuted.
Example C27_ex : exists c', process_cell_block (map lit ["1 0 -1 2"; "     3 -4"]%string) = Ok [(1%Z, c')] /\ c_surfaces c' = map f_of_Z [1; 2]%Z.
Proof. eexists. split; vm_compute; reflexivity. Qed.

(** C28 *)
Theorem C28_get_cell : forall n cells c, NoDup (map fst cells) -> get_cell n cells = Some c <-> In (n, c) cells.
Proof. exact get_cell_iff. Qed.
Print Assumptions C28_get_cell.
Theorem C28_get_mat : forall n mats (m : material), NoDup (map fst mats) -> get_mat n mats = Some m <-> In (n, m) mats.
Proof. exact get_mat_iff. Qed.
Print Assumptions C28_get_mat.
Theorem C28_check_cell : forall n cells, check_cell_exists n cells = true <-> In n (map fst cells).
Proof. exact check_cell_iff. Qed.
Print Assumptions C28_check_cell.
Theorem C28_check_mat : forall c mats, check_cell_mat_exists c mats = true <-> In (c_mat c) (map fst mats).
Proof. exact check_mat_iff. Qed.
Print Assumptions C28_check_mat.
Theorem C28_cells_with_mat : forall m cells, selects (fun c => c_mat c = m) (map snd cells) (cells_with_mat m cells).
Proof. exact cells_with_mat_spec. Qed.
Print Assumptions C28_cells_with_mat.
Theorem C28_cells_with_surface : forall n cells, (Z.abs n < 2 ^ 53)%Z ->
  (forall c, In c (map snd cells) -> exists ns, c_surfaces c = map f_of_Z ns /\ Forall (fun z => Z.abs z < 2 ^ 53)%Z ns) ->
  selects (fun c => In (f_of_Z n) (c_surfaces c)) (map snd cells) (cells_with_surface n cells).
Proof. exact cells_with_surface_spec. Qed.
Print Assumptions C28_cells_with_surface.
(** ... on the cells read from cards: those whose geometry names the surface. *)
Theorem C28_cells_with_surface_cards : forall n cards, (Z.abs n < 2 ^ 53)%Z ->
  Forall (fun c => Forall (fun z => Z.abs z < 2 ^ 53)%Z (concat (map gtok_surfaces (cc_geom c)))) cards ->
  cells_with_surface n (map (fun c => (cc_number c, cell_of_card c)) cards) =
  map cell_of_card (filter (fun c => existsb (Z.eqb n) (concat (map gtok_surfaces (cc_geom c)))) cards).
Proof. exact cells_with_surface_cards. Qed.
Print Assumptions C28_cells_with_surface_cards.
Example C28_ex : cells_with_surface 2 [(1%Z, cell_of_card C26_card)] = [cell_of_card C26_card] /\ cells_with_surface 4 [(1%Z, cell_of_card C26_card)] = []
  /\ cells_with_mat 1 [(1%Z, cell_of_card C26_card)] = [cell_of_card C26_card].
Proof. repeat split; vm_compute; reflexivity. Qed.

(** C29 *)
Theorem C29_materials : forall lines ns, get_material_numbers lines = Ok ns <-> card_numbers (chr 109) None lines ns.
Proof. exact mat_numbers_spec. Qed.
Print Assumptions C29_materials.
Theorem C29_tallies : forall lines ns, get_tally_numbers lines = Ok ns <-> card_numbers (chr 102) (Some (chr 58)) lines ns.
Proof. exact tally_numbers_spec. Qed.
Print Assumptions C29_tallies.
Example C29_ex : get_material_numbers demo = Ok [1%Z] /\ get_tally_numbers demo = Ok [4%Z].
Proof. split; vm_compute; reflexivity. Qed.

(** C30 *)
Theorem C30_material : forall n lines out h ws pairs kws mts mxs, (0 <= n)%Z ->
  card_found (mat_head n) lines out -> all_words out (h :: ws) ->
  interleave (pair_words pairs) (kw_words kws) ws -> wf_pairs pairs -> wf_kws kws ->
  card_found (card_head (lit "mt" ++ str_of_Z n)) lines mts ->
  card_found (card_head (lit "mx" ++ str_of_Z n)) lines mxs ->
  read_material_lines n lines =
  Ok (Material n (length pairs) (map (fun p => (fst p, snd (snd p))) pairs) (map (fun kv => (fst kv, KStr (snd kv))) kws) mts mxs).
Proof. exact material_recovers. Qed.
Print Assumptions C30_material.
Example C30_ex_hyp : exists out h ws, card_found (mat_head 1) demo out /\ all_words out (h :: ws) /\
  interleave (pair_words [(lit "26056.80c", (lit "0.9", f_of_dec false 9 (-1))); (lit "6000", (lit "0.1", f_of_dec false 1 (-1)))]) (kw_words [(lit "nlib", lit "80c")]) ws /\
  wf_pairs [(lit "26056.80c", (lit "0.9", f_of_dec false 9 (-1))); (lit "6000", (lit "0.1", f_of_dec false 1 (-1)))] /\
  wf_kws [(lit "nlib", lit "80c")].
Proof.
  exists (map lit ["m1 26056.80c 0.9"; "     6000 0.1 nlib=80c"]%string), (lit "m1"), (map lit ["26056.80c"; "0.9"; "6000"; "0.1"; "nlib=80c"]%string).
  split; [apply mat_block; [discriminate|vm_compute; reflexivity]|]. split; [apply all_words_fun; vm_compute; reflexivity|].
  split; [vm_compute; repeat constructor|]. split.
  - split; [repeat constructor; vm_compute; intuition discriminate|].
    repeat constructor; try (vm_compute; reflexivity); vm_compute; intuition discriminate.
  - split; [repeat constructor; vm_compute; intuition discriminate|]. constructor; [|constructor]. split; [vm_compute; tauto|vm_compute; intuition discriminate].
Qed.
Example C30_ex : rmap m_composition (read_material_lines 1 demo) = Ok [(lit "26056.80c", f_of_dec false 9 (-1)); (lit "6000", f_of_dec false 1 (-1))].
Proof. vm_compute; reflexivity. Qed.

(** C31 *)
Theorem C31_bad_keyword : forall l n h ws e k, spaced (h :: ws) l -> Forall word (h :: ws) ->
  In e ws -> In (chr 61) e -> upto (chr 61) e k -> ~ In k library_keywords -> process_material_line l n = Err ValueError.
Proof. exact bad_keyword. Qed.
Print Assumptions C31_bad_keyword.
(** With valid keywords the result is the one without the keyword entries. *)
Theorem C31_good_keywords : forall l l' n h ws, spaced (h :: ws) l -> Forall word (h :: ws) ->
  (forall e k, In e ws -> In (chr 61) e -> upto (chr 61) e k -> In k library_keywords) ->
  spaced (h :: filter (fun e => negb (contains [chr 61] e)) ws) l' ->
  rmap m_composition (process_material_line l n) = rmap m_composition (process_material_line l' n).
Proof. exact good_keywords. Qed.
Print Assumptions C31_good_keywords.
Example C31_ex : process_material_line (lit "m1 1001 1 lib=80c") 1 = Err ValueError /\
  rmap m_composition (process_material_line (lit "m1 gas=1 1001 1 nlib=80c") 1) = Ok [(lit "1001", f_of_Z 1)].
Proof. split; vm_compute; reflexivity. Qed.

(** C32 *)
Theorem C32_materials_partial : forall lines d, process_data_block lines = Ok d ->
  card_numbers (chr 109) None lines (d_mat_nums d) /\
  (forall n, In n (map fst (d_materials d)) <-> In n (d_mat_nums d)) /\
  (forall n m, dict_get Z.eqb n (d_materials d) = Some m -> read_material_lines n lines = Ok m).
Proof. exact data_block_materials. Qed.
Print Assumptions C32_materials_partial.
(** A material listed with a number that is not written canonically gets an empty composition. *)
Theorem C32_lost_refuted : forall lines n, (0 <= n)%Z -> (forall l, In l lines -> ~ mat_head n l) ->
  exists mts mxs, read_material_lines n lines = Ok (Material n 0 [] [] mts mxs).
Proof. intros lines n. exact (material_absent n lines). Qed.
Print Assumptions C32_lost_refuted.
Example C32_ex : rmap d_materials (process_data_block [lit "m01 1001 1"]) = Ok [(1%Z, Material 1 0 [] [] [] [])] /\
  rmap d_materials (process_data_block [lit "m1" ++ chr 9 :: lit "1001 1"]) = Ok [(1%Z, Material 1 0 [] [] [] [])] /\
  rmap d_materials (process_data_block [lit "m1 1001 1"]) = Ok [(1%Z, Material 1 1 [(lit "1001", f_of_Z 1)] [] [] [])].
Proof. repeat split; vm_compute; reflexivity. Qed.

(** C33 *)
Theorem C33_unrelated : forall n pre block post, (0 <= n)%Z ->
  (forall l, In l (pre ++ post) -> ~ mat_head n l /\ ~ card_head (lit "mt" ++ str_of_Z n) l /\ ~ card_head (lit "mx" ++ str_of_Z n) l) ->
  post = [] \/ (exists l p, post = l :: p /\ ~ continuation l /\ ~ full_comment l /\ l <> []) ->
  read_material_lines n (pre ++ block ++ post) = read_material_lines n block.
Proof. exact material_frame. Qed.
Print Assumptions C33_unrelated.
Example C33_ex : read_material_lines 1 (map lit ["m2 8016 1"; "m1 1001 2"; "     8016 1"; "m11 1001 1"]%string) = read_material_lines 1 (map lit ["m1 1001 2"; "     8016 1"]%string).
Proof. vm_compute; reflexivity. Qed.

(** C34 *)
Theorem C34_validators : forall n,
  (is_valid_mat_num n = true <-> (n <= 99999999)%Z) /\ (is_valid_surf_num n = true <-> (n <= 99999999)%Z) /\
  (is_valid_cell_num n = true <-> (n <= 99999999)%Z) /\ (is_valid_tally_num n = true <-> (n <= 99999999)%Z) /\
  (is_valid_universe_num n = true <-> (n <= 99999999)%Z) /\ (is_number_of_tallies_valid n = true <-> (n <= 9999)%Z).
Proof. intros n. repeat split; apply Z.leb_le. Qed.
Print Assumptions C34_validators.
Example C34_ex : is_valid_mat_num (-5) = true /\ is_valid_mat_num 100000000 = false.
Proof. split; reflexivity. Qed.

(** C35: the second application changes the file iff the first one did something. *)
Theorem C35_twice_refuted : forall f p c data, openable f p -> f p = Some (File c) -> nl_translated c data ->
  exists f1 f2, vised_compatible f p = Ok f1 /\ vised_compatible f1 p = Ok f2 /\
    (f1 p = f2 p <-> ~ occurs (lit "mphys") data).
Proof. exact vised_twice. Qed.
Print Assumptions C35_twice_refuted.
Example C35_ex : exists f p c, openable f p /\ f p = Some (File c) /\ occurs (lit "mphys") c.
Proof.
  exists (fun q => if path_eqb q [lit "in"] then Some (File (lit "mphys on")) else None), [lit "in"], (lit "mphys on").
  split; [|split; [reflexivity|exists [], (lit " on"); reflexivity]]. split; [discriminate|]. split; [discriminate|].
  intros a b E Ha Hb. destruct a as [|x [|y a]]; [congruence| |discriminate]. destruct b; [congruence|discriminate].
Qed.

(** C107 *)
Theorem C107_tally : forall n lines out w ws, (0 <= n)%Z -> card_found (tally_head n) lines out -> all_words out (w :: ws) ->
  exists t, read_tally_lines n lines = t /\ ti_number t = n /\ ti_type t = str_of_Z n /\ spaced (w :: ws) (ti_data t).
Proof. exact tally_recovers. Qed.
Print Assumptions C107_tally.
Theorem C107_flags : forall n lines, (0 <= n)%Z -> let t := read_tally_lines n lines in
  let present k := exists l q r, In l lines /\ l = q ++ chr 32 :: r /\ same_case q (lit k ++ str_of_Z n) in
  (ti_has_ebins t = true <-> present "e"%string) /\ (ti_has_tbins t = true <-> present "t"%string) /\
  (ti_has_fm t = true <-> present "fm"%string) /\ (ti_has_sd t = true <-> present "sd"%string) /\ (ti_has_fc t = true <-> present "fc"%string).
Proof. exact tally_flags. Qed.
Print Assumptions C107_flags.
Theorem C107_dict : forall lines d, process_data_block lines = Ok d ->
  card_numbers (chr 102) (Some (chr 58)) lines (d_tal_nums d) /\
  (forall n, In n (map fst (d_tallies d)) <-> In n (d_tal_nums d)) /\
  (forall n t, dict_get Z.eqb n (d_tallies d) = Some t -> t = read_tally_lines n lines).
Proof. exact data_block_tallies. Qed.
Print Assumptions C107_dict.
Example C107_ex : let t := read_tally_lines 4 demo in ti_data t = lit "f4:n 1" /\ ti_type t = lit "4" /\ ti_has_ebins t = true /\ ti_has_tbins t = false.
Proof. vm_compute. repeat split. Qed.

(** C108: the documented attributes stay False whatever the deck holds. *)
Theorem C108_attributes_refuted : forall n lines,
  ti_has_sd_card (read_tally_lines n lines) = false /\ ti_has_fc_comment (read_tally_lines n lines) = false.
Proof. intros n lines. exact (conj eq_refl eq_refl). Qed.
Print Assumptions C108_attributes_refuted.
Example C108_ex : let t := read_tally_lines 4 (map lit ["f4:n 1"; "sd4 2"; "fc4 flux"]%string) in
  ti_has_sd t = true /\ ti_has_sd_card t = false /\ ti_has_fc t = true /\ ti_has_fc_comment t = false.
Proof. vm_compute. repeat split. Qed.

(** C109: a union of bracketed groups makes the reader fail. *)
Theorem C109_union_groups_refuted : forall c l L a b R rest,
  wf_cell_card c -> brackets L -> brackets R -> (0 <= a)%Z -> (0 <= b)%Z -> Forall word rest ->
  words l (cell_card_words c ++ (L ++ str_of_Z a ++ lit "):(" ++ str_of_Z b ++ R) :: rest) -> (exists x r, l = x :: r /\ is_ws x = false) ->
  process_cell_block [l] = Err ValueError.
Proof. exact union_groups_fail. Qed.
Print Assumptions C109_union_groups_refuted.
Example C109_ex : process_cell_block [lit "1 0 (1 -2):(3 -4)"] = Err ValueError.
Proof. vm_compute; reflexivity. Qed.

(** C110: a separator line of five or more spaces makes every surface block fail. *)
Theorem C110_long_blank_refuted : forall b rest, blank b -> continuation b -> process_surface_block (b :: rest) = Err ValueError.
Proof. exact long_blank_fails. Qed.
Print Assumptions C110_long_blank_refuted.
Example C110_ex : process_surface_block [lit "     "; lit "1 so 5"] = Err ValueError /\ blank (lit "     ") /\ continuation (lit "     ").
Proof. split; [vm_compute; reflexivity|]. split; [repeat constructor|now exists []]. Qed.

(** C111 *)
Theorem C111_deck : forall f p f' cards cl b1 ss scards sl b2 dl d,
  cards <> [] -> cell_layout cards cl -> Forall wf_cell_card cards -> NoDup (map cc_number cards) -> Forall (fun l => ~ blank l) cl ->
  blank b1 -> ~ continuation b1 ->
  surf_layout scards sl -> Forall2 (fun s ws => wf_surface s /\ map lower ws = surface_words s) ss scards -> NoDup (map s_number ss) -> Forall (fun l => ~ blank l) sl ->
  blank b2 -> process_data_block (b2 :: dl) = Ok d ->
  Forall no_break (cl ++ (b1 :: sl) ++ b2 :: dl) -> write_lines f p (cl ++ (b1 :: sl) ++ b2 :: dl) = Ok f' ->
  exists i, read_mcnp_input f' p = Ok i /\ i_cell_block i = cl /\ i_surface_block i = b1 :: sl /\ i_data_block i = b2 :: dl /\
    i_cells i = map (fun c => (cc_number c, cell_of_card c)) cards /\ i_surfaces i = map (fun s => (s_number s, s)) ss /\
    i_data i = d /\ (forall k l, In (k, l) (i_comments i) <-> nth_error (cl ++ (b1 :: sl) ++ b2 :: dl) k = Some l /\ full_comment l).
Proof. exact deck_roundtrip. Qed.
Print Assumptions C111_deck.
Example C111_ex : exists f', write_lines (fun _ => None) [lit "deck"] demo = Ok f' /\
  rmap (fun i => (map fst (i_cells i), map fst (i_surfaces i), map fst (d_materials (i_data i)))) (read_mcnp_input f' [lit "deck"])
  = Ok ([1; 2]%Z, [1; 2; 3]%Z, [1]%Z).
Proof. eexists. split; [reflexivity|]. vm_compute; reflexivity. Qed.

(** C112: reflecting surfaces make every surface block fail. *)
Theorem C112_reflecting_refuted : forall pre l w ws rest, Forall surf_noise pre -> ~ continuation l -> words l ((chr 42 :: w) :: ws) ->
  process_surface_block (pre ++ l :: rest) = Err ValueError.
Proof. exact star_fails. Qed.
Print Assumptions C112_reflecting_refuted.
Example C112_ex : process_surface_block [lit "*5 pz 1"] = Err ValueError.
Proof. vm_compute; reflexivity. Qed.

(** C113: an importance for several particles is recorded for the first only. *)
Theorem C113_imp_list_refuted : forall name p q v x imp,
  ~ In (chr 58) name -> ~ In (chr 61) v -> ~ In (chr 58) v -> p <> chr 58 -> ~ In (chr 58) q -> py_float v = Ok x ->
  process_imp (name ++ chr 58 :: p :: q ++ chr 61 :: v) imp = Ok (dict_set Ascii.eqb p x imp).
Proof. exact imp_list_first. Qed.
Print Assumptions C113_imp_list_refuted.
Example C113_ex : rmap (map (fun nc => c_imp (snd nc))) (process_cell_block [lit "1 0 1 imp:n,p=1"]) = Ok [[(chr 110, f_of_Z 1)]].
Proof. vm_compute; reflexivity. Qed.
