{
 "C09": [
  "proved",
  "The exact domain of termination is proved; the expected totality is refuted (C09_total_refuted: the call on [] never returns)."
 ],
 "C11": [
  "partial",
  "False of the code for every file: by C11_interrupted_refuted an interruption can leave the file empty whenever neither the old nor the new text is. C11_interrupted_partial states what does hold: old text or a prefix of the new text, no other file touched."
 ],
 "C12": [
  "proved",
  "C12_sound and C12_complete are about reals and use the standard library's real-number axioms."
 ],
 "C14": [
  "proved",
  "Log level lookup, log file opening and the date are parameters of the model."
 ],
 "C15": [
  "proved",
  "Sequential semantics; permissions and concurrent file system changes are not modelled."
 ],
 "C17": [
  "proved",
  "Real reading exact; binary64 reading within relative 2^-51 when intermediate values are finite and at least 2^-1021 in magnitude."
 ],
 "C18": [
  "partial",
  "False of the code: C18_years_refuted (every non-zero value) and C18_curie_refuted (3.7e10 Bq becomes 1.00011e22 Ci). The exact factors are proved instead."
 ],
 "C27": [
  "partial",
  "False of the code: C27_continuation_refuted shows for every one-line card and continuation line that only the surfaces of the first line are recorded."
 ],
 "C28": [
  "proved",
  "Surface numbers below 2^53 in magnitude, as cell.surfaces holds floats."
 ],
 "C32": [
  "partial",
  "C32_materials_partial gives the keys and that each value is read from the deck; the composition part is false for numbers not written canonically (C32_lost_refuted, example m01)."
 ],
 "C35": [
  "partial",
  "False of the code: C35_twice_refuted proves the second application changes the file exactly when it contains mphys."
 ],
 "C107": [
  "proved",
  "tal_type is the whole tally number as text."
 ],
 "C108": [
  "partial",
  "False of the code: the attributes are never set (the reader assigns has_sd and has_fc)."
 ],
 "C109": [
  "partial",
  "False of the code for every such card: C109_union_groups_refuted."
 ],
 "C110": [
  "partial",
  "False of the code for every block: C110_long_blank_refuted. The positive part for shorter blank lines is C25 and C111."
 ],
 "C111": [
  "proved",
  "The data block is described by C23, C29-C33, C107."
 ],
 "C112": [
  "partial",
  "False of the code for every block: C112_reflecting_refuted."
 ],
 "C113": [
  "partial",
  "False of the code for every list: C113_imp_list_refuted."
 ],
 "C36": [
  "partial",
  "The bound is proved when the prefix and each token on a continuation line fit; without that it is false of the code, C36_unconditional_refuted (for every such token)."
 ],
 "C38": [
  "partial",
  "Proved when the first token fits after the card name; otherwise false of the code, C38_lost_refuted (for every such card, and for every card without tokens)."
 ],
 "C41": [
  "partial",
  "False of the code: ut.write_html does not exist, every call raises before writing."
 ],
 "C45": [
  "partial",
  "Proved: the lower-cased text up to a second equals sign is returned. False as stated: C45_as_written_refuted for every path with a capital or an equals sign."
 ],
 "C114": [
  "partial",
  "False of the code: ut.setup_logging does not exist, every call raises."
 ],
 "C115": [
  "partial",
  "False of the code: C115_continued_refuted."
 ],
 "C53": [
  "partial",
  "Field-wise equality, symmetry and reflexivity proved; comparison with a non event is false of the code (truthy), C53_other_refuted."
 ],
 "C116": [
  "partial",
  "False of the code: C116_units_refuted for every energy in the range."
 ],
 "C117": [
  "partial",
  "False of the code: C117_last_group_refuted for every energy."
 ],
 "C120": [
  "partial",
  "False of the code: C120_empty_refuted for every such input."
 ],
 "C63": [
  "partial",
  "The property is violated: C63_refuted shows that for every successfully read type 1 tally with at least two surfaces another iteration order of the set gives the same results with the surfaces in a different order."
 ],
 "C124": [
  "partial",
  "Violated: C124_long_numbers_refuted shows it for every title of a number of five to nine digits."
 ],
 "C125": [
  "partial",
  "Violated: C125_user_bins_refuted shows that every detector section with user bins raises."
 ],
 "C126": [
  "partial",
  "Violated for other cells (C126_other_cells_refuted); C126_value is the positive part for cell 2."
 ],
 "C127": [
  "partial",
  "Holds for one cell (C127_one_cell), violated for two (C127_two_cells_refuted)."
 ],
 "C135": [
  "partial",
  "Holds for the spacing printed by MCNP; C135_spacing_refuted shows the failure for single spaces."
 ],
 "C130": [
  "proved",
  "Stated for results of successful reads."
 ],
 "C132": [
  "proved",
  "Stated for successful reads; energy-time detectors reduce to C61."
 ],
 "C65": [
  "partial",
  "Nearest and mid point accuracy proved; refuted for narrower bins: C65_narrow_bin_refuted gives every bin between 0 and 4.999e-6 a mid point below it."
 ],
 "C66": [
  "proved",
  "For files in the layout of SpecMesh (mesh_file) whose rows are readable; energy-binned only as the first mesh (C67)."
 ],
 "C67": [
  "partial",
  "Refuted for every file with a second energy mesh; the first one is proved readable."
 ],
 "C69": [
  "partial",
  "Values proved; errors refuted: taken from the wrong axis."
 ],
 "C70": [
  "proved",
  "Five-column pairs are proved to raise UnboundLocalError."
 ],
 "C72": [
  "partial",
  "Exact contents proved; lost voxels refuted for coordinates kept in binary32."
 ],
 "C139": [
  "partial",
  "Refuted for every non-last number; the returned contents are proved."
 ],
 "C140": [
  "partial",
  "Refuted for every blank line."
 ],
 "C141": [
  "partial",
  "Refuted for every such file."
 ],
 "C142": [
  "partial",
  "C142_too_large_refuted: whenever both values are positive (neither less than a millionth of their sum) the error given is strictly larger than the propagated one."
 ],
 "C143": [
  "partial",
  "Uniform meshes and voxel count proved; non-uniform raise TypeError."
 ],
 "C145": [
  "partial",
  "Refuted for every mesh."
 ],
 "C146": [
  "partial",
  "C146_small_refuted: in every column of numbers up to 1000, those below 2^-150 become 0. C146_precision_partial: 0 and numbers from 2^-126 to 2^127 keep single precision. The reading of values is specified exactly in C66 (mesh_of)."
 ],
 "C89": [
  "proved",
  "Over the reals, with exact sine and cosine. Each rotation turns every point by the angle about its axis (C89_turns_x/y/z) and angles add."
 ],
 "C90": [
  "partial",
  "Refuted for every centre other than the origin: rotated points are relative to the centre, the centre itself goes to (0,0,0)."
 ],
 "C91": [
  "proved",
  "Over the reals. The result is (d - n.p)/|n|; a zero normal raises ValueError."
 ],
 "C92": [
  "partial",
  "Refuted: the returned point satisfies the plane equation only if d = 0 or n.(p1-p0) = 1. The rejection part is proved (C92_raises)."
 ],
 "C93": [
  "partial",
  "The circle is proved correct for every plane that meets the sphere. Planes missing the sphere on the side n.p > d give nan instead of ValueError."
 ],
 "C94": [
  "partial",
  "Proved when nx1*ny2 - ny1*nx2 is not zero. Refuted otherwise: planes meeting in a horizontal line raise; planes with opposite normals return nan."
 ],
 "C95": [
  "partial",
  "True exactly for normals in the same direction; opposite normals refuted. dist_between_planes is correct for normals with non-zero x, nan for zero x, 0 for opposite normals, and overwrites the caller's second normal."
 ],
 "C96": [
  "proved",
  "Over the reals. Both directions of all three pairs, the failing cases and the agreement of the two ways from spherical to Cartesian."
 ],
 "C97": [
  "proved",
  "Over the reals. NonFinite stands for numpy's nan with a warning."
 ],
 "C98": [
  "proved",
  "Over the reals. A sphere and a plane are also shown equal to their general quadric."
 ],
 "C99": [
  "proved",
  "Over the reals. The surface is shown to be the rate of change of the volume, which fixes the formulas."
 ],
 "C100": [
  "partial",
  "Proved for non-zero sides; refuted for every triangle with exactly one zero side, where 0 is returned."
 ],
 "C147": [
  "partial",
  "Proved for all normals not pointing the same way; the rejection of parallel planes is refuted for opposite normals."
 ],
 "C148": [
  "partial",
  "numpy.linalg.lstsq is a parameter with its documented contract. Proved for different x; refuted for equal x."
 ],
 "C149": [
  "proved",
  "Over the reals."
 ],
 "C74": [
  "proved",
  "cut is the only way to split the file at the markers (C74_cut). Each segment after the first gives one step, numbered from 2."
 ],
 "C75": [
  "proved",
  "C75_exactly describes success for every table, with any number of separators. Missing mass line raises StopIteration."
 ],
 "C76": [
  "proved",
  "All errors are ValueError."
 ],
 "C77": [
  "proved",
  "The sum of a pandas column is a parameter with relative error eps; the division is binary64."
 ],
 "C78": [
  "proved",
  "All errors are ValueError."
 ],
 "C79": [
  "proved",
  "All errors of read_parameter are ValueError."
 ],
 "C150": [
  "proved",
  "The tables are described by C76-C78 and C151."
 ],
 "C151": [
  "proved",
  "An empty upper table gives rows with empty upper part, as pandas does."
 ],
 "C152": [
  "partial",
  "Refuted for every file that can be read."
 ],
 "C153": [
  "partial",
  "Refuted for every one-letter element."
 ],
 "C154": [
  "partial",
  "Refuted for num_fissions whenever the columns have no E; the appm fields are read in the same way (C150)."
 ],
 "C155": [
  "partial",
  "Refuted for every file of the older version whose table has a row."
 ],
 "C156": [
  "proved",
  "Decoding errors of the file are not modelled."
 ],
 "C80": [
  "proved",
  "C80_rows is an equivalence for every list of lines. The averages the function collects are never used and left out."
 ],
 "C81": [
  "proved",
  "Frames of mixed cells; the positive value may be infinite; NaN is not positive. C81_inventories: no exception on inventories of the output reader."
 ],
 "C82": [
  "proved",
  "Lists of binary64 numbers."
 ],
 "C83": [
  "proved",
  "Needs a limit for every active nuclide (C83_other_suffices: an entry Other is enough). Without active rows the outcome follows pandas' apply on an empty frame (C83_no_other)."
 ],
 "C84": [
  "partial",
  "The first passing step is found, but always by the default table: C84_path_refuted."
 ],
 "C85": [
  "partial",
  "Refuted for the inventories of the output reader: A is a text (C85_parsed_refuted). Proved for frames with whole mass numbers; the sum of a pandas column is a parameter with relative error eps."
 ],
 "C86": [
  "proved",
  "Case is that of the letters A to Z; texts are Latin-1."
 ],
 "C157": [
  "partial",
  "Refuted for every frame the function accepts; show is str() of a float, assumed to end whole numbers in .0."
 ],
 "C158": [
  "partial",
  "Refuted for every frame the function accepts."
 ],
 "C159": [
  "partial",
  "Refuted for series that start with zero and for any line; C159_curve_partial covers all others."
 ],
 "C160": [
  "proved",
  "Spectra without NaN."
 ],
 "C161": [
  "partial",
  "Violated for the total: the summary has no column for atoms, mass and the energies, so total=True raises KeyError for them (C161_total_refuted). The curves of the nuclides and the other totals are proved."
 ],
 "C162": [
  "partial",
  "Refuted for metastables; proved with the mass number the code uses. Ranges inside the table. to_numeric is a parameter."
 ],
 "C163": [
  "proved",
  "Colours are not modelled."
 ],
 "C87": [
  "proved",
  "Binary64 arrays. C87_strictly_between_refuted shows why mid points of neighbouring numbers are excepted."
 ],
 "C88": [
  "proved",
  "Matrices without NaN; C88_nearest gives the nearness in the reals."
 ],
 "C164": [
  "partial",
  "Refuted for type 1 tallies without angle bins (C164_current_refuted) and for surface and cell tallies with listed results, as with time bins (C164_listed_refuted). For other types results with time bins are left open (parameters)."
 ],
 "C165": [
  "partial",
  "Refuted: C165_own_error_refuted, C165_table_refuted; C165_bars_drawn says what is drawn."
 ],
 "C166": [
  "proved",
  "Results that are lists of rows, as for angle-binned tallies; dictionaries are not accepted by the code."
 ],
 "C167": [
  "proved",
  "Times without NaN."
 ],
 "C168": [
  "partial",
  "Proved for one energy (C168_peak_in_view); refuted for several and for the documented shape. The sum over a column is a parameter; C168_sums gives one."
 ],
 "C169": [
  "partial",
  "C169_heatmap says what is drawn; C169_own_bin_refuted: every rectangle whose own bin has another shade than the bin below and before is drawn wrongly. log10 is a parameter."
 ],
 "C170": [
  "proved",
  ""
 ],
 "C101": [
  "partial",
  "Proved for all JSON objects (the parser is a parameter) except the default of mc_output: C101_output_default_refuted."
 ],
 "C102": [
  "proved",
  ""
 ],
 "C103": [
  "proved",
  ""
 ],
 "C104": [
  "partial",
  "Proved for a folder given by one name, other than collapse and array, and a source outside it, as main uses it; refuted for nested folders (C104_nested_refuted)."
 ],
 "C171": [
  "partial",
  "Refuted: C171_selection_refuted."
 ],
 "C172": [
  "proved",
  "Links and permissions are not modelled; the FILES source lies outside the folders."
 ],
 "C173": [
  "partial",
  "Refuted: C173_nothing_to_do_refuted."
 ],
 "C174": [
  "partial",
  "Refuted: C174_contents_refuted."
 ],
 "C175": [
  "partial",
  "Refuted: C175_fatal_log_refuted."
 ],
 "C176": [
  "partial",
  "C176_materials; refuted for undefined materials: C176_no_card_refuted."
 ],
 "C177": [
  "proved",
  "For orders of tally and material numbers."
 ],
 "C178": [
  "proved",
  "strptime is a parameter."
 ],
 "C179": [
  "partial",
  "Refuted: C179_running_refuted."
 ],
 "C180": [
  "partial",
  "C180_collisions_partial; refuted for longer and shorter names: C180_long_name_refuted, C180_short_name_refuted."
 ],
 "C181": [
  "proved",
  "Completeness and order of the rows are hypotheses; matplotlib's checks of shapes are modelled (3.5 or later)."
 ],
 "C182": [
  "partial",
  "Refuted: C182_errors_refuted, C182_shared_refuted."
 ],
 "C183": [
  "partial",
  "C183_half for non-negative finite values; refuted for zeros and for recent numpy: C183_zero_refuted, C183_numpy_refuted."
 ],
 "C184": [
  "partial",
  "C184_kind; refuted when both cards are there: C184_kcode_refuted."
 ],
 "C185": [
  "proved",
  ""
 ],
 "C186": [
  "partial",
  "C186_title; refuted for titles starting with a digit: C186_digit_title_refuted."
 ],
 "C187": [
  "partial",
  "C187_comment_partial says exactly what is read; refuted: C187_numbers_refuted."
 ],
 "C188": [
  "partial",
  "Refuted: C188_lone_bracket_refuted."
 ],
 "C189": [
  "partial",
  "Refuted: C189_plus_refuted, C189_complement_refuted."
 ],
 "C190": [
  "partial",
  "Refuted: C190_sense_refuted, C190_search_refuted."
 ],
 "C191": [
  "partial",
  "Refuted: C191_trcl_refuted."
 ],
 "C192": [
  "partial",
  "Refuted: C192_comment_refuted."
 ],
 "C193": [
  "partial",
  "Refuted: C193_points_refuted."
 ],
 "C194": [
  "partial",
  "Refuted: C194_card_refuted, C194_material_refuted."
 ],
 "C195": [
  "partial",
  "Refuted: C195_pairs_refuted."
 ],
 "C196": [
  "partial",
  "Refuted: C196_text_refuted."
 ],
 "C197": [
  "partial",
  "C197_uniform; str() of a float is a parameter; refuted for uneven bins: C197_uneven_refuted."
 ],
 "C198": [
  "proved",
  ""
 ],
 "C199": [
  "partial",
  "C199_surfaces, C199_order; refuted for more than one line: C199_second_line_refuted."
 ],
 "C200": [
  "proved",
  ""
 ],
 "C201": [
  "proved",
  ""
 ],
 "C202": [
  "proved",
  ""
 ],
 "C203": [
  "proved",
  ""
 ],
 "C204": [
  "partial",
  "C204_table60; refuted for two importances: C204_two_importances_refuted."
 ],
 "C205": [
  "partial",
  "C205_labels, C205_other_shapes; refuted for the results of the reader: C205_reader_refuted, C205_transposed_refuted."
 ],
 "C206": [
  "partial",
  "C206_microseconds; refuted: C206_milliseconds_refuted."
 ],
 "C207": [
  "partial",
  "C207_close; refuted: C207_charge_refuted."
 ],
 "C208": [
  "partial",
  "C208_cooling; refuted without cooling: C208_none_refuted."
 ],
 "C209": [
  "proved",
  ""
 ],
 "C210": [
  "proved",
  ""
 ],
 "C211": [
  "partial",
  "Refuted: C211_indented_refuted."
 ],
 "C212": [
  "partial",
  "Refuted: C212_starred_refuted."
 ],
 "C213": [
  "partial",
  "Refuted: C213_default_bins_refuted."
 ],
 "C214": [
  "proved",
  "Stated about the model's text-to-path function, which stands for pathlib."
 ],
 "C215": [
  "proved",
  ""
 ],
 "C216": [
  "proved",
  "For every text form of floats that is injective, without line breaks and not ambiguous in lists (repr_float)."
 ],
 "C217": [
  "partial",
  "C217_material; refuted: C217_thermal_refuted."
 ],
 "C218": [
  "proved",
  ""
 ],
 "C219": [
  "proved",
  ""
 ],
 "C220": [
  "partial",
  "C220_collapse, C220_other; refuted for the set up: C220_groups_refuted."
 ],
 "C221": [
  "proved",
  "numpy's bin edges are a parameter, assumed ascending and to include the numbers (covers)."
 ],
 "C222": [
  "proved",
  ""
 ],
 "C223": [
  "proved",
  "The power function of the C library is a parameter, assumed accurate to three units (power_accurate); mul_power is an instance."
 ],
 "C224": [
  "partial",
  "C224_radius, C224_height, C224_shells; refuted for NaN: C224_nan_refuted."
 ],
 "C225": [
  "partial",
  "C225_symmetric, C225_self, C225_near for every numpy.dot that is accurate (dot_accurate, dot_signs, dot_integers; loop_dot is an instance); refuted outside the range: C225_range_refuted."
 ],
 "C226": [
  "partial",
  "C226_between, C226_between_yz, C226_near, C226_symmetric; refuted: C226_overflow_refuted."
 ],
 "C227": [
  "partial",
  "C227_same_normal, C227_distance, C227_x_planes, C227_no_plane, C227_said_parallel, C227_crossing; refuted: C227_multiple_refuted, C227_no_x_refuted."
 ],
 "C228": [
  "partial",
  "C228_clear, C228_integers, C228_no_plane; refuted: C228_near_refuted."
 ],
 "C229": [
  "proved",
  "Whole numbers within the bounds of the statement."
 ],
 "C230": [
  "partial",
  "C230_translate, C230_axis_plane, C230_no_plane; refuted in general: C230_undone_refuted, C230_steep_refuted."
 ],
 "C231": [
  "partial",
  "C231_table101, C231_table60, C231_time_rows, C231_time_parts, C231_time_errors; refuted for a shorter row beside a full one: C231_short_row_refuted."
 ],
 "C232": [
  "partial",
  "C232_refused, C232_errors; refuted for an empty line: C232_empty_line_refuted."
 ],
 "C233": [
  "partial",
  "C233_scale, C233_order; refuted for the year of neut_constants: C233_same_year_refuted."
 ],
 "C234": [
  "partial",
  "C234_angle_energy; refuted for angle bins alone, several surfaces and column counts: C234_angle_only_refuted, C234_surfaces_refuted, C234_columns_refuted."
 ],
 "C235": [
  "partial",
  "C235_curve, C235_dose_label, C235_activity_label; refuted for the labels of the other columns: C235_units_refuted."
 ],
 "C236": [
  "proved",
  "C236_near, C236_integers, C236_start."
 ],
 "C237": [
  "partial",
  "C237_values, C237_times, C237_times_one, C237_matrices, C237_matrices_one, C237_energies; refuted for surfaces named several times: C237_repeated_refuted."
 ],
 "C238": [
  "partial",
  "C238_bad_weight, C238_weights_to_end; refuted for entries after both headings: C238_separate_refuted."
 ],
 "C240": [
  "partial",
  "Which segments are refused is complete for whole numbers; for other numbers the product of the distances and the scalar product of the difference must not vanish by rounding, and C240_near_refuted shows that ends on different sides are then refused. The point is exact for planes through the origin and ends that are a power of two apart; for other planes it is not on the plane (C240_point_refuted)."
 ],
 "C241": [
  "partial",
  "Order of the hits for all inputs; exact hits for whole numbers at a whole distance. Violated in general: C241_tangent_refuted, C241_missed_refuted."
 ],
 "C242": [
  "partial",
  "Planes across an axis, normals of any whole length. Violated for planes that miss the sphere on the negative side (C242_missed_refuted)."
 ],
 "C243": [
  "partial",
  "Differences to the centre far from overflow and underflow. Refuted: C243_centre_refuted, C243_quarter_refuted."
 ],
 "C244": [
  "partial",
  "Numbers far from overflow and underflow; arctan and arccos themselves are left open. Refuted: C244_plane_refuted, C244_tiny_refuted, C244_origin_refuted."
 ],
 "C245": [
  "partial",
  "Whole numbers within bounds; arccos is left open. Refuted for parallel planes: C245_opposite_refuted, C245_parallel_refuted."
 ],
 "C246": [
  "partial",
  "Whole numbers within bounds; the solver is left open. Refuted: C246_opposite_refuted."
 ]
}