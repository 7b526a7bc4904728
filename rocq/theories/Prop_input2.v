(** Properties C186-C198: further cards of mcnp_input_reader.py, the weights read by
    xsdir_reader.py and the text forms of tallies, directories and meshes.  Vocabulary:
    SpecStr.v, SpecInput.v, SpecInput2.v, SpecOutput.v, SpecMesh.v, SpecMesh2.v. *)
From Verif Require Import PyBase PyFloat PyFs PyFrame SpecStr SpecUtil M_util M_input SpecInput SpecInput2 M_output SpecOutput M_mesh SpecMesh SpecMesh2 M_str P_input5 P_str TextTac.

(** C186: the title is no card. *)
Theorem C186_title : forall t b, (exists a r, t = a :: r /\ is_digit a = false) -> process_cell_block (t :: b) = process_cell_block b.
Proof. exact title_ignored. Qed.
Print Assumptions C186_title.
(** A title that starts with a digit is taken for a cell. *)
Theorem C186_digit_title_refuted : forall t w v ws b, (exists a r, t = a :: r /\ is_digit a = true) -> words t (w :: v :: ws) ->
  (forall n, py_int v <> Ok n) -> process_cell_block (t :: b) = Err ValueError.
Proof. exact title_number. Qed.
Print Assumptions C186_digit_title_refuted.
Example C186_ex : rmap (map fst) (process_cell_block (map lit ["demo deck"; "1 0 -1"]%string)) = Ok [1%Z] /\
  process_cell_block (map lit ["14 MeV source"; "1 0 -1"]%string) = Err ValueError.
Proof. vm_compute. split; reflexivity. Qed.

(** C187: what is kept of a comment after a cell card, and what is added to its surfaces. *)
Theorem C187_comment_partial : forall c l u ws ns, wf_cell_card c -> word (chr 36 :: u) -> ~ In (chr 36) u -> comment_numbers ws ns ->
  words l (cell_card_words c ++ (chr 36 :: u) :: ws) -> column_one l ->
  exists c', process_cell_block [l] = Ok [(cc_number c, c')] /\ c_surfaces c' = map f_of_Z (card_surfaces c ++ ns) /\ c_comment c' = [u].
Proof. exact cell_comment. Qed.
Print Assumptions C187_comment_partial.
(** A number in the comment becomes a surface of the cell. *)
Theorem C187_numbers_refuted : forall c l u ws n ns, (Z.abs n < 2 ^ 53)%Z -> wf_cell_card c -> word (chr 36 :: u) -> ~ In (chr 36) u -> comment_numbers ws (n :: ns) ->
  words l (cell_card_words c ++ (chr 36 :: u) :: ws) -> column_one l ->
  exists c', process_cell_block [l] = Ok [(cc_number c, c')] /\ c_surfaces c' <> map f_of_Z (card_surfaces c) /\
    cells_with_surface n [(cc_number c, c')] = [c'].
Proof. exact comment_adds. Qed.
Print Assumptions C187_numbers_refuted.
Example C187_ex : rmap (map (fun nc => (c_surfaces (snd nc), c_comment (snd nc)))) (process_cell_block [lit "1 0 -1 2 $shield layer 7"])
  = Ok [([f_of_Z 1; f_of_Z 2; f_of_Z 7], [lit "shield"])].
Proof. vm_compute. reflexivity. Qed.
Example C187_ex_hyp : comment_numbers (map lit ["layer"; "7"]%string) [7%Z].
Proof.
  apply (cmn_text (lit "layer")); [|apply (cmn_number 7 [] []); [discriminate|constructor]].
  split; [text|]. split; [intros H; repeat (destruct H as [H|H]; [discriminate|]); destruct H|]. split.
  - intros (a & b & H). repeat (destruct a as [|? a]; [discriminate|injection H as _ H]). destruct a; discriminate.
  - exists [], (chr 108), (lit "ayer"). repeat split; [constructor|]. intros H; repeat (destruct H as [H|H]; [discriminate|]); destruct H.
Qed.

(** C188: a bracket standing on its own makes the reader fail. *)
Theorem C188_lone_bracket_refuted : forall c l b rest, wf_cell_card c -> b <> [] -> brackets b -> Forall word rest ->
  words l (cell_card_words c ++ b :: rest) -> column_one l -> process_cell_block [l] = Err IndexError.
Proof. exact lone_bracket. Qed.
Print Assumptions C188_lone_bracket_refuted.
Example C188_ex : process_cell_block [lit "1 0 -1 ( 2 : 3 )"] = Err IndexError /\ wf_cell_card (CellCard 1 0 None [GSurf (lit "-") 1 []]).
Proof.
  split; [vm_compute; reflexivity|]. assert (B : brackets (lit "-")) by (constructor; [right; right; now left|constructor]).
  assert (G : wf_gtok (GSurf (lit "-") 1 [])) by (cbn; split; [exact B|split; [discriminate|constructor]]).
  split; [discriminate|]. split; [reflexivity|]. constructor; [exact G|constructor].
Qed.

(** C189: surfaces written with a plus sign, or inside a complement, are left out. *)
Theorem C189_plus_refuted : forall c l n ts, wf_cell_card c -> Forall wf_gtok ts ->
  words l (cell_card_words c ++ (chr 43 :: str_of_Z n) :: map gtok_text ts) -> column_one l ->
  exists c', process_cell_block [l] = Ok [(cc_number c, c')] /\ c_surfaces c' = map f_of_Z (card_surfaces c ++ concat (map gtok_surfaces ts)).
Proof. exact plus_lost. Qed.
Print Assumptions C189_plus_refuted.
Theorem C189_complement_refuted : forall c l n R ts, wf_cell_card c -> brackets R -> Forall wf_gtok ts ->
  words l (cell_card_words c ++ (lit "#(" ++ str_of_Z n ++ R) :: map gtok_text ts) -> column_one l ->
  exists c', process_cell_block [l] = Ok [(cc_number c, c')] /\ c_surfaces c' = map f_of_Z (card_surfaces c ++ concat (map gtok_surfaces ts)).
Proof. exact complement_lost. Qed.
Print Assumptions C189_complement_refuted.
Example C189_ex : rmap (map (fun nc => c_surfaces (snd nc))) (process_cell_block [lit "1 0 -1 +2 #(4 5) 3"]) = Ok [[f_of_Z 1; f_of_Z 5; f_of_Z 3]].
Proof. vm_compute. reflexivity. Qed.

(** C190: in a union, a surface after a colon keeps its sense as part of its number. *)
Theorem C190_sense_refuted : forall c l L n m R ts, wf_cell_card c -> brackets L -> brackets R -> (0 <= n)%Z -> (0 < m)%Z -> Forall wf_gtok ts ->
  words l (cell_card_words c ++ (L ++ str_of_Z n ++ lit ":-" ++ str_of_Z m ++ R) :: map gtok_text ts) -> column_one l ->
  exists c', process_cell_block [l] = Ok [(cc_number c, c')] /\
    c_surfaces c' = map f_of_Z (card_surfaces c ++ [n; - m]%Z ++ concat (map gtok_surfaces ts)).
Proof. exact union_sense. Qed.
Print Assumptions C190_sense_refuted.
(** So that a search for the surface misses the cell. *)
Theorem C190_search_refuted : forall c l L n m R ts, wf_cell_card c -> brackets L -> brackets R -> (0 <= n)%Z -> (0 < m)%Z -> Forall wf_gtok ts ->
  words l (cell_card_words c ++ (L ++ str_of_Z n ++ lit ":-" ++ str_of_Z m ++ R) :: map gtok_text ts) -> column_one l ->
  ~ In m (card_surfaces c ++ n :: concat (map gtok_surfaces ts)) ->
  Forall (fun z => Z.abs z < 2 ^ 53)%Z (m :: card_surfaces c ++ n :: concat (map gtok_surfaces ts)) ->
  exists cells, process_cell_block [l] = Ok cells /\ cells_with_surface m cells = [].
Proof. exact union_not_found. Qed.
Print Assumptions C190_search_refuted.
Example C190_ex : exists cells, process_cell_block [lit "1 0 -1 (2:-3)"] = Ok cells /\ map (fun nc => c_surfaces (snd nc)) cells = [[f_of_Z 1; f_of_Z 2; f_of_Z (-3)]] /\
  cells_with_surface 3 cells = [] /\ map (fun c => c_number c) (cells_with_surface 2 cells) = [1%Z].
Proof. eexists. split; [vm_compute; reflexivity|]. vm_compute. repeat split. Qed.

(** C191: the numbers of a transformation become surfaces. *)
Theorem C191_trcl_refuted : forall c l a b d, wf_cell_card c -> (0 <= b)%Z -> (0 <= d)%Z ->
  words l (cell_card_words c ++ [lit "trcl=(" ++ str_of_Z a; str_of_Z b; str_of_Z d ++ lit ")"]) -> column_one l ->
  exists c', process_cell_block [l] = Ok [(cc_number c, c')] /\ c_surfaces c' = map f_of_Z (card_surfaces c ++ [b; d]).
Proof. exact trcl_numbers. Qed.
Print Assumptions C191_trcl_refuted.
Example C191_ex : rmap (map (fun nc => c_surfaces (snd nc))) (process_cell_block [lit "1 0 -1 trcl=(5 6 7)"]) = Ok [[f_of_Z 1; f_of_Z 6; f_of_Z 7]].
Proof. vm_compute. reflexivity. Qed.

(** C192: the words of a comment after a surface card become parameters. *)
Theorem C192_comment_refuted : forall s l ws cw, wf_surface s -> surf_first l -> words l (ws ++ cw) -> map lower ws = surface_words s ->
  process_surface_block [l] = Ok [(s_number s, Surface (s_number s) (s_type s) (s_params s ++ map lower cw) (s_has_transform s) (s_transform s))].
Proof. exact surface_comment. Qed.
Print Assumptions C192_comment_refuted.
Example C192_ex : rmap (map (fun ns => s_params (snd ns))) (process_surface_block [lit "1 SO 5 $ Outer sphere"]) = Ok [map lit ["5"; "$"; "outer"; "sphere"]%string].
Proof. vm_compute. reflexivity. Qed.

(** C193: surfaces defined by points are rejected. *)
Theorem C193_points_refuted : forall l nw n t ps, surf_first l -> words l (nw :: t :: ps) -> py_int (lower nw) = Ok n -> In (lower t) [lit "x"; lit "y"; lit "z"] ->
  process_surface_block [l] = Err ValueError.
Proof. exact point_plane. Qed.
Print Assumptions C193_points_refuted.
Example C193_ex : process_surface_block [lit "7 X 1 2 3 4"] = Err ValueError /\ py_int (lit "7") = Ok 7%Z.
Proof. vm_compute. split; reflexivity. Qed.

(** C194: a comment line holding only the letter c ends a card. *)
Theorem C194_card_refuted : forall card pre h body rest, (exists a t, card = a :: t /\ a <> chr 32) -> (forall l, In l pre -> ~ card_head card l) -> card_head card h ->
  get_card_lines (pre ++ h :: body ++ lit "c" :: rest) card = get_card_lines (pre ++ h :: body) card.
Proof. exact lone_c_card. Qed.
Print Assumptions C194_card_refuted.
Theorem C194_material_refuted : forall n pre h body rest, (0 <= n)%Z -> (forall l, In l pre -> ~ mat_head n l) -> mat_head n h ->
  rmap m_composition (read_material_lines n (pre ++ h :: body ++ lit "c" :: rest)) = rmap m_composition (read_material_lines n (pre ++ h :: body)).
Proof. exact lone_c_material. Qed.
Print Assumptions C194_material_refuted.
Example C194_ex : let read := fun x => rmap (fun m => map fst (m_composition m)) (read_material_lines 1 (map lit ["m1 1001 2"; x; "     8016 1"]%string)) in
  read "c"%string = Ok [lit "1001"] /\ read "c "%string = Ok [lit "1001"; lit "8016"] /\ read "c water"%string = Ok [lit "1001"; lit "8016"].
Proof. vm_compute. repeat split. Qed.

(** C195: of weights given as pairs, only weights become keys. *)
Theorem C195_pairs_refuted : forall lines rest sec pl d,
  after_first (heads (lit "atomic")) lines rest -> before_first (heads (lit "directory")) rest sec -> Forall2 pair_line sec pl ->
  process_awr lines = Ok d -> forall k, In k (map fst d) -> exists p q ps, In (p :: q :: ps) pl /\ k = snd p.
Proof. exact awr_pairs. Qed.
Print Assumptions C195_pairs_refuted.
Example C195_ex : process_awr (map lit ["atomic weight ratios"; "1001 0.999 8016 15.86"; "2004 4.002"; "directory"]%string) = Ok [(lit "0.999", f_of_Z 8016)] /\
  pair_line (lit "1001 0.999 8016 15.86") [(lit "1001", lit "0.999"); (lit "8016", lit "15.86")].
Proof. split; [vm_compute; reflexivity|]. unfold pair_line. cbn [map concat fst snd app]. text. Qed.

(** C196: the last line of the text form of a directory holds two counts. *)
Theorem C196_text_refuted : forall fpath x, ~ In (chr 10) fpath -> (forall p, xs_datapath x = Some p -> ~ In (chr 10) p) ->
  exists ls last, xsdir_str fpath x = join [chr 10] (ls ++ [last]) /\ List.length ls = 3 /\ Forall (fun l => ~ In (chr 10) l) (ls ++ [last]) /\
    last = lit "Number of directory entries: " ++ str_of_Z (Z.of_nat (List.length (xs_directory x))) ++ lit "Number of TSL entries: " ++ str_of_Z (Z.of_nat (List.length (xs_thermal x))) /\
    ~ In (lit "Number of TSL entries: " ++ str_of_Z (Z.of_nat (List.length (xs_thermal x)))) (ls ++ [last]).
Proof. exact xsdir_text_form. Qed.
Print Assumptions C196_text_refuted.
Example C196_ex : xsdir_str (lit "xsdir") (XsDir (Some (lit "/data")) [] [(lit "1001.80c", [])] []) =
  join [chr 10] (map lit ["Filename: xsdir"; "Datapath: /data"; "Number of AWR entries: 0"; "Number of directory entries: 1Number of TSL entries: 0"]%string).
Proof. vm_compute. reflexivity. Qed.

(** C197: the text form of a mesh. *)
Theorem C197_uniform : forall show m xs ys zs a1 b1 l1 a2 b2 l2 a3 b3 l3,
  numbers (x_bounds m) xs -> numbers (y_bounds m) ys -> numbers (z_bounds m) zs ->
  evenly_spaced xs -> evenly_spaced ys -> evenly_spaced zs ->
  xs = a1 :: b1 :: l1 -> ys = a2 :: b2 :: l2 -> zs = a3 :: b3 :: l3 ->
  mesh_str show m = Ok (join [chr 10]
    [lit "Number of voxels: " ++ str_of_Z (Z.of_nat (List.length (x_mids m) * List.length (y_mids m) * List.length (z_mids m)));
     lit "Number of bins in:"; lit "  x-dimension: " ++ str_of_Z (Z.of_nat (List.length (x_mids m)));
     lit "  y-dimension: " ++ str_of_Z (Z.of_nat (List.length (y_mids m))); lit "  z-dimension: " ++ str_of_Z (Z.of_nat (List.length (z_mids m)));
     lit "voxel volume: " ++ show (fmul (fmul (fabs (fsub b1 a1)) (fabs (fsub b2 a2))) (fabs (fsub b3 a3))) ++ lit " cm^3"]).
Proof. exact mesh_text_uniform. Qed.
Print Assumptions C197_uniform.
(** A mesh with uneven bins has none. *)
Theorem C197_uneven_refuted : forall show m xs ys zs, numbers (x_bounds m) xs -> numbers (y_bounds m) ys -> numbers (z_bounds m) zs ->
  2 <= List.length xs -> 2 <= List.length ys -> 2 <= List.length zs ->
  ~ (evenly_spaced xs /\ evenly_spaced ys /\ evenly_spaced zs) -> mesh_str show m = Err TypeError.
Proof. exact mesh_text_other. Qed.
Print Assumptions C197_uneven_refuted.
Example C197_ex : let m := fun x => Mesh None None (map lit x) (map lit ["0"; "0.5"]%string) (map lit ["0"; "2"]%string) [] [] (Raw []) (map f_of_Z [1; 4; 7]%Z) [fzero] [fzero] None in
  mesh_str (fun v => if feq v (f_of_Z 3) then lit "3.0" else []) (m ["0"; "3"; "6"; "9"]%string) =
    Ok (join [chr 10] (map lit ["Number of voxels: 3"; "Number of bins in:"; "  x-dimension: 3"; "  y-dimension: 1"; "  z-dimension: 1"; "voxel volume: 3.0 cm^3"]%string)) /\
  mesh_str (fun _ => []) (m ["0"; "3"; "7"; "9"]%string) = Err TypeError.
Proof. vm_compute. split; reflexivity. Qed.

(** C198: the text form of a tally. *)
Theorem C198_text : forall n lines out w ws card, (0 <= n)%Z -> card_found (tally_head n) lines out -> all_words out (w :: ws) -> spaced (w :: ws) card ->
  exists e t fm,
    let present k := exists l q r, In l lines /\ l = q ++ chr 32 :: r /\ same_case q (lit k ++ str_of_Z n) in
    (e = true <-> present "e"%string) /\ (t = true <-> present "t"%string) /\ (fm = true <-> present "fm"%string) /\
    tally_str (read_tally_lines n lines) =
      join [chr 10] ([lit "Tally number: " ++ str_of_Z n; lit "Tally card: " ++ card] ++ (if e then [lit "Has energy bins"] else []) ++
        (if t then [lit "Has time bins"] else []) ++ (if fm then [lit "Is modified by a flux modifed card"] else [])).
Proof. exact tally_text_form. Qed.
Print Assumptions C198_text.
Example C198_ex : tally_str (read_tally_lines 4 (map lit ["F4:n 1"; "     2"; "e4 1 2"; "fm4 3"]%string)) =
  join [chr 10] (map lit ["Tally number: 4"; "Tally card: f4:n 1 2"; "Has energy bins"; "Is modified by a flux modifed card"]%string).
Proof. vm_compute. reflexivity. Qed.
