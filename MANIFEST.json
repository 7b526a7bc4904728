{
 "claims": [
  {
   "property": "C01",
   "status": "proved",
   "theorems": [
    "C01_write_get"
   ],
   "note": ""
  },
  {
   "property": "C02",
   "status": "proved",
   "theorems": [
    "C02_newline_convention",
    "C02_lines_have_no_break"
   ],
   "note": ""
  },
  {
   "property": "C03",
   "status": "proved",
   "theorems": [
    "C03_write_interrupted"
   ],
   "note": ""
  },
  {
   "property": "C04",
   "status": "proved",
   "theorems": [
    "C04_find_line"
   ],
   "note": ""
  },
  {
   "property": "C05",
   "status": "proved",
   "theorems": [
    "C05_find_ind"
   ],
   "note": ""
  },
  {
   "property": "C06",
   "status": "proved",
   "theorems": [
    "C06_cleaner"
   ],
   "note": ""
  },
  {
   "property": "C07",
   "status": "proved",
   "theorems": [
    "C07_clean_and_split"
   ],
   "note": ""
  },
  {
   "property": "C08",
   "status": "proved",
   "theorems": [
    "C08_find_first_zero",
    "C08_find_first_non_zero"
   ],
   "note": ""
  },
  {
   "property": "C09",
   "status": "proved",
   "theorems": [
    "C09_dimensions",
    "C09_total_refuted"
   ],
   "note": "The exact domain of termination is proved; the expected totality is refuted (C09_total_refuted: the call on [] never returns)."
  },
  {
   "property": "C10",
   "status": "proved",
   "theorems": [
    "C10_text_replace",
    "C10_replacement_unique",
    "C10_missing_file"
   ],
   "note": ""
  },
  {
   "property": "C11",
   "status": "partial",
   "theorems": [
    "C11_interrupted_refuted",
    "C11_interrupted_partial"
   ],
   "note": "False of the code for every file: by C11_interrupted_refuted an interruption can leave the file empty whenever neither the old nor the new text is. C11_interrupted_partial states what does hold: old text or a prefix of the new text, no other file touched."
  },
  {
   "property": "C12",
   "status": "proved",
   "theorems": [
    "C12_symmetric",
    "C12_reflexive",
    "C12_nan",
    "C12_nonpositive_tolerance",
    "C12_sound",
    "C12_complete"
   ],
   "note": "C12_sound and C12_complete are about reals and use the standard library's real-number axioms."
  },
  {
   "property": "C13",
   "status": "proved",
   "theorems": [
    "C13_find_tabs",
    "C13_replace_tabs"
   ],
   "note": ""
  },
  {
   "property": "C14",
   "status": "proved",
   "theorems": [
    "C14_at_most_one_handler",
    "C14_after_success",
    "C14_get_logger_ready"
   ],
   "note": "Log level lookup, log file opening and the date are parameters of the model."
  },
  {
   "property": "C15",
   "status": "proved",
   "theorems": [
    "C15_ensure_dir",
    "C15_failure"
   ],
   "note": "Sequential semantics; permissions and concurrent file system changes are not modelled."
  },
  {
   "property": "C16",
   "status": "proved",
   "theorems": [
    "C16_Z_dict"
   ],
   "note": ""
  },
  {
   "property": "C17",
   "status": "proved",
   "theorems": [
    "C17_inverse_real",
    "C17_inverse_float"
   ],
   "note": "Real reading exact; binary64 reading within relative 2^-51 when intermediate values are finite and at least 2^-1021 in magnitude."
  },
  {
   "property": "C18",
   "status": "partial",
   "theorems": [
    "C18_years_refuted",
    "C18_years_factor",
    "C18_curie_refuted",
    "C18_curie_there_and_back"
   ],
   "note": "False of the code: C18_years_refuted (every non-zero value) and C18_curie_refuted (3.7e10 Bq becomes 1.00011e22 Ci). The exact factors are proved instead."
  },
  {
   "property": "C19",
   "status": "proved",
   "theorems": [
    "C19_blocks",
    "C19_error"
   ],
   "note": ""
  },
  {
   "property": "C20",
   "status": "proved",
   "theorems": [
    "C20_comments",
    "C20_long",
    "C20_long_none"
   ],
   "note": ""
  },
  {
   "property": "C21",
   "status": "proved",
   "theorems": [
    "C21_remove",
    "C21_has",
    "C21_get",
    "C21_get_none"
   ],
   "note": ""
  },
  {
   "property": "C22",
   "status": "proved",
   "theorems": [
    "C22_card_lines",
    "C22_absent"
   ],
   "note": ""
  },
  {
   "property": "C23",
   "status": "proved",
   "theorems": [
    "C23_mode",
    "C23_no_mode",
    "C23_valid"
   ],
   "note": ""
  },
  {
   "property": "C24",
   "status": "proved",
   "theorems": [
    "C24_surface",
    "C24_converse",
    "C24_bad_type"
   ],
   "note": ""
  },
  {
   "property": "C25",
   "status": "proved",
   "theorems": [
    "C25_surface_block"
   ],
   "note": ""
  },
  {
   "property": "C26",
   "status": "proved",
   "theorems": [
    "C26_cell_block"
   ],
   "note": ""
  },
  {
   "property": "C27",
   "status": "partial",
   "theorems": [
    "C27_continuation_refuted"
   ],
   "note": "False of the code: C27_continuation_refuted shows for every one-line card and continuation line that only the surfaces of the first line are recorded."
  },
  {
   "property": "C28",
   "status": "proved",
   "theorems": [
    "C28_get_cell",
    "C28_get_mat",
    "C28_check_cell",
    "C28_check_mat",
    "C28_cells_with_mat",
    "C28_cells_with_surface",
    "C28_cells_with_surface_cards"
   ],
   "note": "Surface numbers below 2^53 in magnitude, as cell.surfaces holds floats."
  },
  {
   "property": "C29",
   "status": "proved",
   "theorems": [
    "C29_materials",
    "C29_tallies"
   ],
   "note": ""
  },
  {
   "property": "C30",
   "status": "proved",
   "theorems": [
    "C30_material"
   ],
   "note": ""
  },
  {
   "property": "C31",
   "status": "proved",
   "theorems": [
    "C31_bad_keyword",
    "C31_good_keywords"
   ],
   "note": ""
  },
  {
   "property": "C32",
   "status": "partial",
   "theorems": [
    "C32_materials_partial",
    "C32_lost_refuted"
   ],
   "note": "C32_materials_partial gives the keys and that each value is read from the deck; the composition part is false for numbers not written canonically (C32_lost_refuted, example m01)."
  },
  {
   "property": "C33",
   "status": "proved",
   "theorems": [
    "C33_unrelated"
   ],
   "note": ""
  },
  {
   "property": "C34",
   "status": "proved",
   "theorems": [
    "C34_validators"
   ],
   "note": ""
  },
  {
   "property": "C35",
   "status": "partial",
   "theorems": [
    "C35_twice_refuted"
   ],
   "note": "False of the code: C35_twice_refuted proves the second application changes the file exactly when it contains mphys."
  },
  {
   "property": "C36",
   "status": "partial",
   "theorems": [
    "C36_length_bound",
    "C36_long_token",
    "C36_unconditional_refuted"
   ],
   "note": "The bound is proved when the prefix and each token on a continuation line fit; without that it is false of the code, C36_unconditional_refuted (for every such token)."
  },
  {
   "property": "C37",
   "status": "proved",
   "theorems": [
    "C37_words_kept",
    "C37_any_prefix"
   ],
   "note": ""
  },
  {
   "property": "C38",
   "status": "partial",
   "theorems": [
    "C38_read_back_partial",
    "C38_lost_refuted"
   ],
   "note": "Proved when the first token fits after the card name; otherwise false of the code, C38_lost_refuted (for every such card, and for every card without tokens)."
  },
  {
   "property": "C39",
   "status": "proved",
   "theorems": [
    "C39_points",
    "C39_lengths"
   ],
   "note": ""
  },
  {
   "property": "C40",
   "status": "proved",
   "theorems": [
    "C40_csv",
    "C40_csv_short",
    "C40_html",
    "C40_html_short"
   ],
   "note": ""
  },
  {
   "property": "C41",
   "status": "partial",
   "theorems": [
    "C41_never_writes_refuted"
   ],
   "note": "False of the code: ut.write_html does not exist, every call raises before writing."
  },
  {
   "property": "C42",
   "status": "proved",
   "theorems": [
    "C42_reduced",
    "C42_missing",
    "C42_again"
   ],
   "note": ""
  },
  {
   "property": "C43",
   "status": "proved",
   "theorems": [
    "C43_lost_points",
    "C43_none",
    "C43_unreadable"
   ],
   "note": ""
  },
  {
   "property": "C44",
   "status": "proved",
   "theorems": [
    "C44_xsdir"
   ],
   "note": ""
  },
  {
   "property": "C45",
   "status": "partial",
   "theorems": [
    "C45_datapath_partial",
    "C45_absent",
    "C45_no_equals",
    "C45_as_written_refuted"
   ],
   "note": "Proved: the lower-cased text up to a second equals sign is returned. False as stated: C45_as_written_refuted for every path with a capital or an equals sign."
  },
  {
   "property": "C46",
   "status": "proved",
   "theorems": [
    "C46_position",
    "C46_nan",
    "C46_errors"
   ],
   "note": ""
  },
  {
   "property": "C47",
   "status": "proved",
   "theorems": [
    "C47_one_hot",
    "C47_errors"
   ],
   "note": ""
  },
  {
   "property": "C48",
   "status": "proved",
   "theorems": [
    "C48_structures",
    "C48_check",
    "C48_162",
    "C48_709"
   ],
   "note": ""
  },
  {
   "property": "C49",
   "status": "proved",
   "theorems": [
    "C49_reversed",
    "C49_errors",
    "C49_bad_step"
   ],
   "note": ""
  },
  {
   "property": "C50",
   "status": "proved",
   "theorems": [
    "C50_command",
    "C50_bad_arguments",
    "C50_closed"
   ],
   "note": ""
  },
  {
   "property": "C51",
   "status": "proved",
   "theorems": [
    "C51_histories"
   ],
   "note": ""
  },
  {
   "property": "C52",
   "status": "proved",
   "theorems": [
    "C52_fields",
    "C52_errors"
   ],
   "note": ""
  },
  {
   "property": "C53",
   "status": "partial",
   "theorems": [
    "C53_fieldwise",
    "C53_ne",
    "C53_sym",
    "C53_refl",
    "C53_other_refuted"
   ],
   "note": "Field-wise equality, symmetry and reflexivity proved; comparison with a non event is false of the code (truthy), C53_other_refuted."
  },
  {
   "property": "C54",
   "status": "proved",
   "theorems": [
    "C54_mean",
    "C54_empty"
   ],
   "note": ""
  },
  {
   "property": "C55",
   "status": "proved",
   "theorems": [
    "C55_indices",
    "C55_second_last",
    "C55_too_few"
   ],
   "note": ""
  },
  {
   "property": "C56",
   "status": "proved",
   "theorems": [
    "C56_numbers",
    "C56_errors"
   ],
   "note": ""
  },
  {
   "property": "C57",
   "status": "proved",
   "theorems": [
    "C57_tables",
    "C57_keys"
   ],
   "note": ""
  },
  {
   "property": "C58",
   "status": "proved",
   "theorems": [
    "C58_comments_warnings",
    "C58_fatal"
   ],
   "note": ""
  },
  {
   "property": "C59",
   "status": "proved",
   "theorems": [
    "C59_section"
   ],
   "note": ""
  },
  {
   "property": "C60",
   "status": "proved",
   "theorems": [
    "C60_time_bins"
   ],
   "note": ""
  },
  {
   "property": "C61",
   "status": "proved",
   "theorems": [
    "C61_matrix",
    "C61_none"
   ],
   "note": ""
  },
  {
   "property": "C62",
   "status": "proved",
   "theorems": [
    "C62_surfaces",
    "C62_cells"
   ],
   "note": ""
  },
  {
   "property": "C63",
   "status": "partial",
   "theorems": [
    "C63_refuted"
   ],
   "note": "The property is violated: C63_refuted shows that for every successfully read type 1 tally with at least two surfaces another iteration order of the set gives the same results with the surfaces in a different order."
  },
  {
   "property": "C64",
   "status": "proved",
   "theorems": [
    "C64_order",
    "C64_tallies"
   ],
   "note": ""
  },
  {
   "property": "C65",
   "status": "partial",
   "theorems": [
    "C65_nearest",
    "C65_unique",
    "C65_mid_points",
    "C65_narrow_bin_refuted"
   ],
   "note": "Nearest and mid point accuracy proved; refuted for narrower bins: C65_narrow_bin_refuted gives every bin between 0 and 4.999e-6 a mid point below it."
  },
  {
   "property": "C66",
   "status": "proved",
   "theorems": [
    "C66_file",
    "C66_missing"
   ],
   "note": "For files in the layout of SpecMesh (mesh_file) whose rows are readable; energy-binned only as the first mesh (C67)."
  },
  {
   "property": "C67",
   "status": "partial",
   "theorems": [
    "C67_refuted",
    "C67_first_partial"
   ],
   "note": "Refuted for every file with a second energy mesh; the first one is proved readable."
  },
  {
   "property": "C68",
   "status": "proved",
   "theorems": [
    "C68_pick_point",
    "C68_extract_line"
   ],
   "note": ""
  },
  {
   "property": "C69",
   "status": "partial",
   "theorems": [
    "C69_values_partial",
    "C69_errors_refuted",
    "C69_plane"
   ],
   "note": "Values proved; errors refuted: taken from the wrong axis."
  },
  {
   "property": "C70",
   "status": "proved",
   "theorems": [
    "C70_add",
    "C70_rejects",
    "C70_five_columns"
   ],
   "note": "Five-column pairs are proved to raise UnboundLocalError."
  },
  {
   "property": "C71",
   "status": "proved",
   "theorems": [
    "C71_numbers",
    "C71_next"
   ],
   "note": ""
  },
  {
   "property": "C72",
   "status": "partial",
   "theorems": [
    "C72_array_partial",
    "C72_lost_refuted",
    "C72_five_columns"
   ],
   "note": "Exact contents proved; lost voxels refuted for coordinates kept in binary32."
  },
  {
   "property": "C73",
   "status": "proved",
   "theorems": [
    "C73_upper",
    "C73_lower"
   ],
   "note": ""
  },
  {
   "property": "C74",
   "status": "proved",
   "theorems": [
    "C74_cut",
    "C74_steps",
    "C74_no_steps"
   ],
   "note": "cut is the only way to split the file at the markers (C74_cut). Each segment after the first gives one step, numbered from 2."
  },
  {
   "property": "C75",
   "status": "proved",
   "theorems": [
    "C75_two_phases",
    "C75_one_phase",
    "C75_exactly",
    "C75_cooling",
    "C75_labels",
    "C75_first_cooling",
    "C75_no_cooling",
    "C75_no_title",
    "C75_no_mass",
    "C75_separator_first"
   ],
   "note": "C75_exactly describes success for every table, with any number of separators. Missing mass line raises StopIteration."
  },
  {
   "property": "C76",
   "status": "proved",
   "theorems": [
    "C76_rows",
    "C76_errors"
   ],
   "note": "All errors are ValueError."
  },
  {
   "property": "C77",
   "status": "proved",
   "theorems": [
    "C77_rows",
    "C77_normalised",
    "C77_errors"
   ],
   "note": "The sum of a pandas column is a parameter with relative error eps; the division is binary64."
  },
  {
   "property": "C78",
   "status": "proved",
   "theorems": [
    "C78_groups",
    "C78_number",
    "C78_short",
    "C78_errors"
   ],
   "note": "All errors are ValueError."
  },
  {
   "property": "C79",
   "status": "proved",
   "theorems": [
    "C79_parameter",
    "C79_parameter_errors",
    "C79_mass",
    "C79_no_mass",
    "C79_mass_cases"
   ],
   "note": "All errors of read_parameter are ValueError."
  },
  {
   "property": "C80",
   "status": "proved",
   "theorems": [
    "C80_rows",
    "C80_no_end",
    "C80_unnamed",
    "C80_file",
    "C80_paths"
   ],
   "note": "C80_rows is an equivalence for every list of lines. The averages the function collects are never used and left out."
  },
  {
   "property": "C81",
   "status": "proved",
   "theorems": [
    "C81_positive",
    "C81_missing",
    "C81_idempotent",
    "C81_commute",
    "C81_energy_filter",
    "C81_particle_filter",
    "C81_energy_lines",
    "C81_particle_lines",
    "C81_filters_reject",
    "C81_inventories"
   ],
   "note": "Frames of mixed cells; the positive value may be infinite; NaN is not positive. C81_inventories: no exception on inventories of the output reader."
  },
  {
   "property": "C82",
   "status": "proved",
   "theorems": [
    "C82_prefix",
    "C82_lengths",
    "C82_total"
   ],
   "note": "Lists of binary64 numbers."
  },
  {
   "property": "C83",
   "status": "proved",
   "theorems": [
    "C83_check",
    "C83_reported",
    "C83_agree",
    "C83_nuclide",
    "C83_other_suffices",
    "C83_no_other"
   ],
   "note": "Needs a limit for every active nuclide (C83_other_suffices: an entry Other is enough). Without active rows the outcome follows pandas' apply on an empty frame (C83_no_other)."
  },
  {
   "property": "C84",
   "status": "partial",
   "theorems": [
    "C84_first_partial",
    "C84_none_partial",
    "C84_path_refuted"
   ],
   "note": "The first passing step is found, but always by the default table: C84_path_refuted."
  },
  {
   "property": "C85",
   "status": "partial",
   "theorems": [
    "C85_rows",
    "C85_fractions",
    "C85_injective",
    "C85_parsed_refuted"
   ],
   "note": "Refuted for the inventories of the output reader: A is a text (C85_parsed_refuted). Proved for frames with whole mass numbers; the sum of a pandas column is a parameter with relative error eps."
  },
  {
   "property": "C86",
   "status": "proved",
   "theorems": [
    "C86_time_units"
   ],
   "note": "Case is that of the letters A to Z; texts are Latin-1."
  },
  {
   "property": "C87",
   "status": "proved",
   "theorems": [
    "C87_normalise",
    "C87_abs_errors",
    "C87_bin_widths",
    "C87_few_bins",
    "C87_mid_points",
    "C87_strictly_between_refuted"
   ],
   "note": "Binary64 arrays. C87_strictly_between_refuted shows why mid points of neighbouring numbers are excepted."
  },
  {
   "property": "C88",
   "status": "proved",
   "theorems": [
    "C88_peak_time",
    "C88_nearest",
    "C88_total",
    "C88_errors"
   ],
   "note": "Matrices without NaN; C88_nearest gives the nearness in the reals."
  },
  {
   "property": "C89",
   "status": "proved",
   "theorems": [
    "C89_rotations_keep_distances",
    "C89_turns_x",
    "C89_turns_y",
    "C89_turns_z",
    "C89_angles_add",
    "C89_translate"
   ],
   "note": "Over the reals, with exact sine and cosine. Each rotation turns every point by the angle about its axis (C89_turns_x/y/z) and angles add."
  },
  {
   "property": "C90",
   "status": "partial",
   "theorems": [
    "C90_centre_refuted",
    "C90_relative_partial"
   ],
   "note": "Refuted for every centre other than the origin: rotated points are relative to the centre, the centre itself goes to (0,0,0)."
  },
  {
   "property": "C91",
   "status": "proved",
   "theorems": [
    "C91_distance",
    "C91_no_plane"
   ],
   "note": "Over the reals. The result is (d - n.p)/|n|; a zero normal raises ValueError."
  },
  {
   "property": "C92",
   "status": "partial",
   "theorems": [
    "C92_point_refuted",
    "C92_point_partial",
    "C92_raises"
   ],
   "note": "Refuted: the returned point satisfies the plane equation only if d = 0 or n.(p1-p0) = 1. The rejection part is proved (C92_raises)."
  },
  {
   "property": "C93",
   "status": "partial",
   "theorems": [
    "C93_circle",
    "C93_miss_partial",
    "C93_miss_refuted",
    "C93_bad_input"
   ],
   "note": "The circle is proved correct for every plane that meets the sphere. Planes missing the sphere on the side n.p > d give nan instead of ValueError."
  },
  {
   "property": "C94",
   "status": "partial",
   "theorems": [
    "C94_line",
    "C94_always_solved_refuted",
    "C94_parallel",
    "C94_opposite_refuted"
   ],
   "note": "Proved when nx1*ny2 - ny1*nx2 is not zero. Refuted otherwise: planes meeting in a horizontal line raise; planes with opposite normals return nan."
  },
  {
   "property": "C95",
   "status": "partial",
   "theorems": [
    "C95_same_direction_partial",
    "C95_opposite_refuted",
    "C95_distance_partial",
    "C95_distance_x0_refuted",
    "C95_not_parallel",
    "C95_distance_opposite_refuted"
   ],
   "note": "True exactly for normals in the same direction; opposite normals refuted. dist_between_planes is correct for normals with non-zero x, nan for zero x, 0 for opposite normals, and overwrites the caller's second normal."
  },
  {
   "property": "C96",
   "status": "proved",
   "theorems": [
    "C96_cartesian_cylindrical",
    "C96_cartesian_spherical",
    "C96_on_axis_plane",
    "C96_cylindrical_cartesian",
    "C96_spherical_cartesian",
    "C96_spherical_cylindrical",
    "C96_cylindrical_spherical",
    "C96_origin_fails",
    "C96_negative_radius",
    "C96_same_point"
   ],
   "note": "Over the reals. Both directions of all three pairs, the failing cases and the agreement of the two ways from spherical to Cartesian."
  },
  {
   "property": "C97",
   "status": "proved",
   "theorems": [
    "C97_hits",
    "C97_misses",
    "C97_negative_radius",
    "C97_project"
   ],
   "note": "Over the reals. NonFinite stands for numpy's nan with a warning."
  },
  {
   "property": "C98",
   "status": "proved",
   "theorems": [
    "C98_plane",
    "C98_sphere",
    "C98_quadric",
    "C98_sphere_is_quadric",
    "C98_plane_is_quadric",
    "C98_flip",
    "C98_bad_input"
   ],
   "note": "Over the reals. A sphere and a plane are also shown equal to their general quadric."
  },
  {
   "property": "C99",
   "status": "proved",
   "theorems": [
    "C99_shell_sphere",
    "C99_shell_circle",
    "C99_shell_cylinder",
    "C99_additive",
    "C99_sphere_rate",
    "C99_circle_rate",
    "C99_anchors",
    "C99_cylinder",
    "C99_cone",
    "C99_cone_surface",
    "C99_negative",
    "C99_negative_shell"
   ],
   "note": "Over the reals. The surface is shown to be the rate of change of the volume, which fixes the formulas."
  },
  {
   "property": "C100",
   "status": "partial",
   "theorems": [
    "C100_hypotenuse_partial",
    "C100_zero_side_refuted"
   ],
   "note": "Proved for non-zero sides; refuted for every triangle with exactly one zero side, where 0 is returned."
  },
  {
   "property": "C101",
   "status": "partial",
   "theorems": [
    "C101_assigns",
    "C101_unrecognised",
    "C101_order",
    "C101_missing",
    "C101_output_default_refuted"
   ],
   "note": "Proved for all JSON objects (the parser is a parameter) except the default of mc_output: C101_output_default_refuted."
  },
  {
   "property": "C102",
   "status": "proved",
   "theorems": [
    "C102_cells",
    "C102_errors"
   ],
   "note": ""
  },
  {
   "property": "C103",
   "status": "proved",
   "theorems": [
    "C103_rows",
    "C103_none",
    "C103_missing"
   ],
   "note": ""
  },
  {
   "property": "C104",
   "status": "partial",
   "theorems": [
    "C104_setup",
    "C104_only_if",
    "C104_frame",
    "C104_again",
    "C104_missing_source",
    "C104_nested_refuted"
   ],
   "note": "Proved for a folder given by one name, other than collapse and array, and a source outside it, as main uses it; refuted for nested folders (C104_nested_refuted)."
  },
  {
   "property": "C105",
   "status": "proved",
   "theorems": [
    "C105_photon_wavelength",
    "C105_neutron_wavelength"
   ],
   "note": ""
  },
  {
   "property": "C106",
   "status": "proved",
   "theorems": [
    "C106_years_agree"
   ],
   "note": ""
  },
  {
   "property": "C107",
   "status": "proved",
   "theorems": [
    "C107_tally",
    "C107_flags",
    "C107_dict"
   ],
   "note": "tal_type is the whole tally number as text."
  },
  {
   "property": "C108",
   "status": "partial",
   "theorems": [
    "C108_attributes_refuted"
   ],
   "note": "False of the code: the attributes are never set (the reader assigns has_sd and has_fc)."
  },
  {
   "property": "C109",
   "status": "partial",
   "theorems": [
    "C109_union_groups_refuted"
   ],
   "note": "False of the code for every such card: C109_union_groups_refuted."
  },
  {
   "property": "C110",
   "status": "partial",
   "theorems": [
    "C110_long_blank_refuted"
   ],
   "note": "False of the code for every block: C110_long_blank_refuted. The positive part for shorter blank lines is C25 and C111."
  },
  {
   "property": "C111",
   "status": "proved",
   "theorems": [
    "C111_deck"
   ],
   "note": "The data block is described by C23, C29-C33, C107."
  },
  {
   "property": "C112",
   "status": "partial",
   "theorems": [
    "C112_reflecting_refuted"
   ],
   "note": "False of the code for every block: C112_reflecting_refuted."
  },
  {
   "property": "C113",
   "status": "partial",
   "theorems": [
    "C113_imp_list_refuted"
   ],
   "note": "False of the code for every list: C113_imp_list_refuted."
  },
  {
   "property": "C114",
   "status": "partial",
   "theorems": [
    "C114_magic_refuted"
   ],
   "note": "False of the code: ut.setup_logging does not exist, every call raises."
  },
  {
   "property": "C115",
   "status": "partial",
   "theorems": [
    "C115_continued_refuted"
   ],
   "note": "False of the code: C115_continued_refuted."
  },
  {
   "property": "C116",
   "status": "partial",
   "theorems": [
    "C116_units_refuted"
   ],
   "note": "False of the code: C116_units_refuted for every energy in the range."
  },
  {
   "property": "C117",
   "status": "partial",
   "theorems": [
    "C117_last_group_refuted"
   ],
   "note": "False of the code: C117_last_group_refuted for every energy."
  },
  {
   "property": "C118",
   "status": "proved",
   "theorems": [
    "C118_upper_bound",
    "C118_errors"
   ],
   "note": ""
  },
  {
   "property": "C119",
   "status": "proved",
   "theorems": [
    "C119_file",
    "C119_split"
   ],
   "note": ""
  },
  {
   "property": "C120",
   "status": "partial",
   "theorems": [
    "C120_empty_refuted"
   ],
   "note": "False of the code: C120_empty_refuted for every such input."
  },
  {
   "property": "C121",
   "status": "proved",
   "theorems": [
    "C121_lines",
    "C121_missing",
    "C121_directory",
    "C121_no_other"
   ],
   "note": ""
  },
  {
   "property": "C122",
   "status": "proved",
   "theorems": [
    "C122_version"
   ],
   "note": ""
  },
  {
   "property": "C123",
   "status": "proved",
   "theorems": [
    "C123_run_date",
    "C123_no_date"
   ],
   "note": ""
  },
  {
   "property": "C124",
   "status": "partial",
   "theorems": [
    "C124_long_numbers_refuted"
   ],
   "note": "Violated: C124_long_numbers_refuted shows it for every title of a number of five to nine digits."
  },
  {
   "property": "C125",
   "status": "partial",
   "theorems": [
    "C125_user_bins_refuted"
   ],
   "note": "Violated: C125_user_bins_refuted shows that every detector section with user bins raises."
  },
  {
   "property": "C126",
   "status": "partial",
   "theorems": [
    "C126_cell_2",
    "C126_other_cells_refuted",
    "C126_value"
   ],
   "note": "Violated for other cells (C126_other_cells_refuted); C126_value is the positive part for cell 2."
  },
  {
   "property": "C127",
   "status": "partial",
   "theorems": [
    "C127_one_cell",
    "C127_two_cells_refuted"
   ],
   "note": "Holds for one cell (C127_one_cell), violated for two (C127_two_cells_refuted)."
  },
  {
   "property": "C128",
   "status": "proved",
   "theorems": [
    "C128_cell_data"
   ],
   "note": ""
  },
  {
   "property": "C129",
   "status": "proved",
   "theorems": [
    "C129_tests",
    "C129_no_tests"
   ],
   "note": ""
  },
  {
   "property": "C130",
   "status": "proved",
   "theorems": [
    "C130_header"
   ],
   "note": "Stated for results of successful reads."
  },
  {
   "property": "C131",
   "status": "proved",
   "theorems": [
    "C131_missing"
   ],
   "note": ""
  },
  {
   "property": "C132",
   "status": "proved",
   "theorems": [
    "C132_position",
    "C132_value",
    "C132_energies"
   ],
   "note": "Stated for successful reads; energy-time detectors reduce to C61."
  },
  {
   "property": "C133",
   "status": "proved",
   "theorems": [
    "C133_printed_order"
   ],
   "note": ""
  },
  {
   "property": "C134",
   "status": "proved",
   "theorems": [
    "C134_table101"
   ],
   "note": ""
  },
  {
   "property": "C135",
   "status": "partial",
   "theorems": [
    "C135_energy_lines",
    "C135_spacing_refuted"
   ],
   "note": "Holds for the spacing printed by MCNP; C135_spacing_refuted shows the failure for single spaces."
  },
  {
   "property": "C136",
   "status": "proved",
   "theorems": [
    "C136_time_bins",
    "C136_energy_bins"
   ],
   "note": ""
  },
  {
   "property": "C137",
   "status": "proved",
   "theorems": [
    "C137_angles"
   ],
   "note": ""
  },
  {
   "property": "C138",
   "status": "proved",
   "theorems": [
    "C138_values"
   ],
   "note": ""
  },
  {
   "property": "C139",
   "status": "partial",
   "theorems": [
    "C139_selected",
    "C139_usable_refuted",
    "C139_last"
   ],
   "note": "Refuted for every non-last number; the returned contents are proved."
  },
  {
   "property": "C140",
   "status": "partial",
   "theorems": [
    "C140_refuted"
   ],
   "note": "Refuted for every blank line."
  },
  {
   "property": "C141",
   "status": "partial",
   "theorems": [
    "C141_refuted"
   ],
   "note": "Refuted for every such file."
  },
  {
   "property": "C142",
   "status": "partial",
   "theorems": [
    "C142_too_large_refuted"
   ],
   "note": "C142_too_large_refuted: whenever both values are positive (neither less than a millionth of their sum) the error given is strictly larger than the propagated one."
  },
  {
   "property": "C143",
   "status": "partial",
   "theorems": [
    "C143_uniform",
    "C143_volume",
    "C143_average_refuted",
    "C143_voxels"
   ],
   "note": "Uniform meshes and voxel count proved; non-uniform raise TypeError."
  },
  {
   "property": "C144",
   "status": "proved",
   "theorems": [
    "C144_zeros"
   ],
   "note": ""
  },
  {
   "property": "C145",
   "status": "partial",
   "theorems": [
    "C145_energy_refuted",
    "C145_time_refuted"
   ],
   "note": "Refuted for every mesh."
  },
  {
   "property": "C146",
   "status": "partial",
   "theorems": [
    "C146_small_refuted",
    "C146_precision_partial"
   ],
   "note": "C146_small_refuted: in every column of numbers up to 1000, those below 2^-150 become 0. C146_precision_partial: 0 and numbers from 2^-126 to 2^127 keep single precision. The reading of values is specified exactly in C66 (mesh_of)."
  },
  {
   "property": "C147",
   "status": "partial",
   "theorems": [
    "C147_angle",
    "C147_parallel_partial",
    "C147_opposite_refuted"
   ],
   "note": "Proved for all normals not pointing the same way; the rejection of parallel planes is refuted for opposite normals."
  },
  {
   "property": "C148",
   "status": "partial",
   "theorems": [
    "C148_line_partial",
    "C148_vertical_refuted"
   ],
   "note": "numpy.linalg.lstsq is a parameter with its documented contract. Proved for different x; refuted for equal x."
  },
  {
   "property": "C149",
   "status": "proved",
   "theorems": [
    "C149_midpoint",
    "C149_metric"
   ],
   "note": "Over the reals."
  },
  {
   "property": "C150",
   "status": "proved",
   "theorems": [
    "C150_time_step"
   ],
   "note": "The tables are described by C76-C78 and C151."
  },
  {
   "property": "C151",
   "status": "proved",
   "theorems": [
    "C151_rows"
   ],
   "note": "An empty upper table gives rows with empty upper part, as pandas does."
  },
  {
   "property": "C152",
   "status": "partial",
   "theorems": [
    "C152_cooling_refuted"
   ],
   "note": "Refuted for every file that can be read."
  },
  {
   "property": "C153",
   "status": "partial",
   "theorems": [
    "C153_names_refuted"
   ],
   "note": "Refuted for every one-letter element."
  },
  {
   "property": "C154",
   "status": "partial",
   "theorems": [
    "C154_text_refuted"
   ],
   "note": "Refuted for num_fissions whenever the columns have no E; the appm fields are read in the same way (C150)."
  },
  {
   "property": "C155",
   "status": "partial",
   "theorems": [
    "C155_old_refuted"
   ],
   "note": "Refuted for every file of the older version whose table has a row."
  },
  {
   "property": "C156",
   "status": "proved",
   "theorems": [
    "C156_file",
    "C156_path",
    "C156_missing",
    "C156_directory"
   ],
   "note": "Decoding errors of the file are not modelled."
  },
  {
   "property": "C157",
   "status": "partial",
   "theorems": [
    "C157_zaid_refuted",
    "C157_library_refuted"
   ],
   "note": "Refuted for every frame the function accepts; show is str() of a float, assumed to end whole numbers in .0."
  },
  {
   "property": "C158",
   "status": "partial",
   "theorems": [
    "C158_caller_refuted",
    "C158_columns"
   ],
   "note": "Refuted for every frame the function accepts."
  },
  {
   "property": "C159",
   "status": "partial",
   "theorems": [
    "C159_curve_partial",
    "C159_zero_refuted",
    "C159_lines_refuted"
   ],
   "note": "Refuted for series that start with zero and for any line; C159_curve_partial covers all others."
  },
  {
   "property": "C160",
   "status": "proved",
   "theorems": [
    "C160_accepts",
    "C160_parsed",
    "C160_others",
    "C160_bounds"
   ],
   "note": "Spectra without NaN."
  },
  {
   "property": "C161",
   "status": "partial",
   "theorems": [
    "C161_curves",
    "C161_lengths",
    "C161_present",
    "C161_file",
    "C161_total_refuted"
   ],
   "note": "Violated for the total: the summary has no column for atoms, mass and the energies, so total=True raises KeyError for them (C161_total_refuted). The curves of the nuclides and the other totals are proved."
  },
  {
   "property": "C162",
   "status": "partial",
   "theorems": [
    "C162_chart_partial",
    "C162_metastable_refuted"
   ],
   "note": "Refuted for metastables; proved with the mass number the code uses. Ranges inside the table. to_numeric is a parameter."
  },
  {
   "property": "C163",
   "status": "proved",
   "theorems": [
    "C163_wedges"
   ],
   "note": "Colours are not modelled."
  },
  {
   "property": "C164",
   "status": "partial",
   "theorems": [
    "C164_curves",
    "C164_auto_limit",
    "C164_integral",
    "C164_current_refuted",
    "C164_nothing",
    "C164_listed_refuted"
   ],
   "note": "Refuted for type 1 tallies without angle bins (C164_current_refuted) and for surface and cell tallies with listed results, as with time bins (C164_listed_refuted). For other types results with time bins are left open (parameters)."
  },
  {
   "property": "C165",
   "status": "partial",
   "theorems": [
    "C165_bars_drawn",
    "C165_own_error_refuted",
    "C165_table_refuted"
   ],
   "note": "Refuted: C165_own_error_refuted, C165_table_refuted; C165_bars_drawn says what is drawn."
  },
  {
   "property": "C166",
   "status": "proved",
   "theorems": [
    "C166_ratio",
    "C166_same",
    "C166_errors"
   ],
   "note": "Results that are lists of rows, as for angle-binned tallies; dictionaries are not accepted by the code."
  },
  {
   "property": "C167",
   "status": "proved",
   "theorems": [
    "C167_time_slice"
   ],
   "note": "Times without NaN."
  },
  {
   "property": "C168",
   "status": "partial",
   "theorems": [
    "C168_peak_in_view",
    "C168_sums",
    "C168_documented_shape_refuted",
    "C168_several_refuted"
   ],
   "note": "Proved for one energy (C168_peak_in_view); refuted for several and for the documented shape. The sum over a column is a parameter; C168_sums gives one."
  },
  {
   "property": "C169",
   "status": "partial",
   "theorems": [
    "C169_heatmap",
    "C169_own_bin_refuted"
   ],
   "note": "C169_heatmap says what is drawn; C169_own_bin_refuted: every rectangle whose own bin has another shade than the bin below and before is drawn wrongly. log10 is a parameter."
  },
  {
   "property": "C170",
   "status": "proved",
   "theorems": [
    "C170_runs"
   ],
   "note": ""
  },
  {
   "property": "C171",
   "status": "partial",
   "theorems": [
    "C171_selection_refuted"
   ],
   "note": "Refuted: C171_selection_refuted."
  },
  {
   "property": "C172",
   "status": "proved",
   "theorems": [
    "C172_folders",
    "C172_frame",
    "C172_reads_first",
    "C172_other_code",
    "C172_fatal"
   ],
   "note": "Links and permissions are not modelled; the FILES source lies outside the folders."
  },
  {
   "property": "C173",
   "status": "partial",
   "theorems": [
    "C173_nothing_to_do_refuted"
   ],
   "note": "Refuted: C173_nothing_to_do_refuted."
  },
  {
   "property": "C174",
   "status": "partial",
   "theorems": [
    "C174_contents_refuted"
   ],
   "note": "Refuted: C174_contents_refuted."
  },
  {
   "property": "C175",
   "status": "partial",
   "theorems": [
    "C175_fatal_log_refuted"
   ],
   "note": "Refuted: C175_fatal_log_refuted."
  },
  {
   "property": "C176",
   "status": "partial",
   "theorems": [
    "C176_materials",
    "C176_no_card_refuted"
   ],
   "note": "C176_materials; refuted for undefined materials: C176_no_card_refuted."
  },
  {
   "property": "C177",
   "status": "proved",
   "theorems": [
    "C177_order"
   ],
   "note": "For orders of tally and material numbers."
  },
  {
   "property": "C178",
   "status": "proved",
   "theorems": [
    "C178_graphs",
    "C178_points"
   ],
   "note": "strptime is a parameter."
  },
  {
   "property": "C179",
   "status": "partial",
   "theorems": [
    "C179_running_refuted"
   ],
   "note": "Refuted: C179_running_refuted."
  },
  {
   "property": "C180",
   "status": "partial",
   "theorems": [
    "C180_collisions_partial",
    "C180_long_name_refuted",
    "C180_short_name_refuted"
   ],
   "note": "C180_collisions_partial; refuted for longer and shorter names: C180_long_name_refuted, C180_short_name_refuted."
  },
  {
   "property": "C181",
   "status": "proved",
   "theorems": [
    "C181_drawn"
   ],
   "note": "Completeness and order of the rows are hypotheses; matplotlib's checks of shapes are modelled (3.5 or later)."
  },
  {
   "property": "C182",
   "status": "partial",
   "theorems": [
    "C182_errors_refuted",
    "C182_shared_refuted"
   ],
   "note": "Refuted: C182_errors_refuted, C182_shared_refuted."
  },
  {
   "property": "C183",
   "status": "partial",
   "theorems": [
    "C183_half",
    "C183_zero_refuted",
    "C183_numpy_refuted"
   ],
   "note": "C183_half for non-negative finite values; refuted for zeros and for recent numpy: C183_zero_refuted, C183_numpy_refuted."
  },
  {
   "property": "C184",
   "status": "partial",
   "theorems": [
    "C184_kind",
    "C184_kcode_refuted"
   ],
   "note": "C184_kind; refuted when both cards are there: C184_kcode_refuted."
  },
  {
   "property": "C185",
   "status": "proved",
   "theorems": [
    "C185_off",
    "C185_on"
   ],
   "note": ""
  },
  {
   "property": "C186",
   "status": "partial",
   "theorems": [
    "C186_title",
    "C186_digit_title_refuted"
   ],
   "note": "C186_title; refuted for titles starting with a digit: C186_digit_title_refuted."
  },
  {
   "property": "C187",
   "status": "partial",
   "theorems": [
    "C187_comment_partial",
    "C187_numbers_refuted"
   ],
   "note": "C187_comment_partial says exactly what is read; refuted: C187_numbers_refuted."
  },
  {
   "property": "C188",
   "status": "partial",
   "theorems": [
    "C188_lone_bracket_refuted"
   ],
   "note": "Refuted: C188_lone_bracket_refuted."
  },
  {
   "property": "C189",
   "status": "partial",
   "theorems": [
    "C189_plus_refuted",
    "C189_complement_refuted"
   ],
   "note": "Refuted: C189_plus_refuted, C189_complement_refuted."
  },
  {
   "property": "C190",
   "status": "partial",
   "theorems": [
    "C190_sense_refuted",
    "C190_search_refuted"
   ],
   "note": "Refuted: C190_sense_refuted, C190_search_refuted."
  },
  {
   "property": "C191",
   "status": "partial",
   "theorems": [
    "C191_trcl_refuted"
   ],
   "note": "Refuted: C191_trcl_refuted."
  },
  {
   "property": "C192",
   "status": "partial",
   "theorems": [
    "C192_comment_refuted"
   ],
   "note": "Refuted: C192_comment_refuted."
  },
  {
   "property": "C193",
   "status": "partial",
   "theorems": [
    "C193_points_refuted"
   ],
   "note": "Refuted: C193_points_refuted."
  },
  {
   "property": "C194",
   "status": "partial",
   "theorems": [
    "C194_card_refuted",
    "C194_material_refuted"
   ],
   "note": "Refuted: C194_card_refuted, C194_material_refuted."
  },
  {
   "property": "C195",
   "status": "partial",
   "theorems": [
    "C195_pairs_refuted"
   ],
   "note": "Refuted: C195_pairs_refuted."
  },
  {
   "property": "C196",
   "status": "partial",
   "theorems": [
    "C196_text_refuted"
   ],
   "note": "Refuted: C196_text_refuted."
  },
  {
   "property": "C197",
   "status": "partial",
   "theorems": [
    "C197_uniform",
    "C197_uneven_refuted"
   ],
   "note": "C197_uniform; str() of a float is a parameter; refuted for uneven bins: C197_uneven_refuted."
  },
  {
   "property": "C198",
   "status": "proved",
   "theorems": [
    "C198_text"
   ],
   "note": ""
  },
  {
   "property": "C199",
   "status": "partial",
   "theorems": [
    "C199_surfaces",
    "C199_order",
    "C199_second_line_refuted"
   ],
   "note": "C199_surfaces, C199_order; refuted for more than one line: C199_second_line_refuted."
  },
  {
   "property": "C200",
   "status": "proved",
   "theorems": [
    "C200_values"
   ],
   "note": ""
  },
  {
   "property": "C201",
   "status": "proved",
   "theorems": [
    "C201_times",
    "C201_one_surface"
   ],
   "note": ""
  },
  {
   "property": "C202",
   "status": "proved",
   "theorems": [
    "C202_matrices",
    "C202_one_surface"
   ],
   "note": ""
  },
  {
   "property": "C203",
   "status": "proved",
   "theorems": [
    "C203_energies"
   ],
   "note": ""
  },
  {
   "property": "C204",
   "status": "partial",
   "theorems": [
    "C204_table60",
    "C204_two_importances_refuted"
   ],
   "note": "C204_table60; refuted for two importances: C204_two_importances_refuted."
  },
  {
   "property": "C205",
   "status": "partial",
   "theorems": [
    "C205_labels",
    "C205_other_shapes",
    "C205_reader_refuted",
    "C205_transposed_refuted"
   ],
   "note": "C205_labels, C205_other_shapes; refuted for the results of the reader: C205_reader_refuted, C205_transposed_refuted."
  },
  {
   "property": "C206",
   "status": "partial",
   "theorems": [
    "C206_microseconds",
    "C206_milliseconds_refuted"
   ],
   "note": "C206_microseconds; refuted: C206_milliseconds_refuted."
  },
  {
   "property": "C207",
   "status": "partial",
   "theorems": [
    "C207_charge_refuted",
    "C207_close"
   ],
   "note": "C207_close; refuted: C207_charge_refuted."
  },
  {
   "property": "C208",
   "status": "partial",
   "theorems": [
    "C208_cooling",
    "C208_none_refuted"
   ],
   "note": "C208_cooling; refuted without cooling: C208_none_refuted."
  },
  {
   "property": "C209",
   "status": "proved",
   "theorems": [
    "C209_curves",
    "C209_other_energies"
   ],
   "note": ""
  },
  {
   "property": "C210",
   "status": "proved",
   "theorems": [
    "C210_flags"
   ],
   "note": ""
  },
  {
   "property": "C211",
   "status": "partial",
   "theorems": [
    "C211_indented_refuted"
   ],
   "note": "Refuted: C211_indented_refuted."
  },
  {
   "property": "C212",
   "status": "partial",
   "theorems": [
    "C212_starred_refuted"
   ],
   "note": "Refuted: C212_starred_refuted."
  },
  {
   "property": "C213",
   "status": "partial",
   "theorems": [
    "C213_default_bins_refuted"
   ],
   "note": "Refuted: C213_default_bins_refuted."
  },
  {
   "property": "C214",
   "status": "proved",
   "theorems": [
    "C214_parts",
    "C214_name",
    "C214_here",
    "C214_dot"
   ],
   "note": "Stated about the model's text-to-path function, which stands for pathlib."
  },
  {
   "property": "C215",
   "status": "proved",
   "theorems": [
    "C215_surface",
    "C215_lines"
   ],
   "note": ""
  },
  {
   "property": "C216",
   "status": "proved",
   "theorems": [
    "C216_cell",
    "C216_lines"
   ],
   "note": "For every text form of floats that is injective, without line breaks and not ambiguous in lists (repr_float)."
  },
  {
   "property": "C217",
   "status": "partial",
   "theorems": [
    "C217_material",
    "C217_thermal_refuted"
   ],
   "note": "C217_material; refuted: C217_thermal_refuted."
  },
  {
   "property": "C218",
   "status": "proved",
   "theorems": [
    "C218_window"
   ],
   "note": ""
  },
  {
   "property": "C219",
   "status": "proved",
   "theorems": [
    "C219_tables",
    "C219_angles",
    "C219_several"
   ],
   "note": ""
  },
  {
   "property": "C220",
   "status": "partial",
   "theorems": [
    "C220_collapse",
    "C220_other",
    "C220_groups_refuted"
   ],
   "note": "C220_collapse, C220_other; refuted for the set up: C220_groups_refuted."
  },
  {
   "property": "C221",
   "status": "proved",
   "theorems": [
    "C221_hist",
    "C221_no_column"
   ],
   "note": "numpy's bin edges are a parameter, assumed ascending and to include the numbers (covers)."
  },
  {
   "property": "C222",
   "status": "proved",
   "theorems": [
    "C222_radius",
    "C222_radius_height",
    "C222_cone_in_cylinder",
    "C222_shells",
    "C222_shell_in_circle",
    "C222_no_shell"
   ],
   "note": ""
  },
  {
   "property": "C223",
   "status": "proved",
   "theorems": [
    "C223_circles",
    "C223_cylinders",
    "C223_cones",
    "C223_spheres",
    "C223_hypotenuse",
    "C223_shells",
    "C223_zero_leg"
   ],
   "note": "The power function of the C library is a parameter, assumed accurate to three units (power_accurate); mul_power is an instance."
  },
  {
   "property": "C224",
   "status": "partial",
   "theorems": [
    "C224_radius",
    "C224_height",
    "C224_shells",
    "C224_nan_refuted"
   ],
   "note": "C224_radius, C224_height, C224_shells; refuted for NaN: C224_nan_refuted."
  },
  {
   "property": "C225",
   "status": "partial",
   "theorems": [
    "C225_symmetric",
    "C225_self",
    "C225_near",
    "C225_range_refuted"
   ],
   "note": "C225_symmetric, C225_self, C225_near for every numpy.dot that is accurate (dot_accurate, dot_signs, dot_integers; loop_dot is an instance); refuted outside the range: C225_range_refuted."
  },
  {
   "property": "C226",
   "status": "partial",
   "theorems": [
    "C226_symmetric",
    "C226_between",
    "C226_between_yz",
    "C226_near",
    "C226_overflow_refuted"
   ],
   "note": "C226_between, C226_between_yz, C226_near, C226_symmetric; refuted: C226_overflow_refuted."
  },
  {
   "property": "C227",
   "status": "partial",
   "theorems": [
    "C227_said_parallel",
    "C227_crossing",
    "C227_same_normal",
    "C227_distance",
    "C227_x_planes",
    "C227_no_plane",
    "C227_no_x_refuted",
    "C227_multiple_refuted"
   ],
   "note": "C227_same_normal, C227_distance, C227_x_planes, C227_no_plane, C227_said_parallel, C227_crossing; refuted: C227_multiple_refuted, C227_no_x_refuted."
  },
  {
   "property": "C228",
   "status": "partial",
   "theorems": [
    "C228_clear",
    "C228_integers",
    "C228_no_plane",
    "C228_near_refuted"
   ],
   "note": "C228_clear, C228_integers, C228_no_plane; refuted: C228_near_refuted."
  },
  {
   "property": "C229",
   "status": "proved",
   "theorems": [
    "C229_sphere",
    "C229_negative_radius",
    "C229_quadric"
   ],
   "note": "Whole numbers within the bounds of the statement."
  },
  {
   "property": "C230",
   "status": "partial",
   "theorems": [
    "C230_translate",
    "C230_no_plane",
    "C230_axis_plane",
    "C230_scaled_plane",
    "C230_undone_refuted",
    "C230_steep_refuted"
   ],
   "note": "C230_translate, C230_axis_plane, C230_no_plane; refuted in general: C230_undone_refuted, C230_steep_refuted."
  },
  {
   "property": "C231",
   "status": "partial",
   "theorems": [
    "C231_table101",
    "C231_table60",
    "C231_short_row_refuted",
    "C231_time_rows",
    "C231_time_parts",
    "C231_time_errors"
   ],
   "note": "C231_table101, C231_table60, C231_time_rows, C231_time_parts, C231_time_errors; refuted for a shorter row beside a full one: C231_short_row_refuted."
  },
  {
   "property": "C232",
   "status": "partial",
   "theorems": [
    "C232_refused",
    "C232_errors",
    "C232_empty_line_refuted"
   ],
   "note": "C232_refused, C232_errors; refuted for an empty line: C232_empty_line_refuted."
  },
  {
   "property": "C233",
   "status": "partial",
   "theorems": [
    "C233_scale",
    "C233_order",
    "C233_same_year_refuted"
   ],
   "note": "C233_scale, C233_order; refuted for the year of neut_constants: C233_same_year_refuted."
  },
  {
   "property": "C234",
   "status": "partial",
   "theorems": [
    "C234_angle_energy",
    "C234_angle_only_refuted",
    "C234_surfaces_refuted",
    "C234_columns_refuted"
   ],
   "note": "C234_angle_energy; refuted for angle bins alone, several surfaces and column counts: C234_angle_only_refuted, C234_surfaces_refuted, C234_columns_refuted."
  },
  {
   "property": "C235",
   "status": "partial",
   "theorems": [
    "C235_curve",
    "C235_dose_label",
    "C235_activity_label",
    "C235_units_refuted"
   ],
   "note": "C235_curve, C235_dose_label, C235_activity_label; refuted for the labels of the other columns: C235_units_refuted."
  },
  {
   "property": "C236",
   "status": "proved",
   "theorems": [
    "C236_near",
    "C236_integers",
    "C236_start"
   ],
   "note": "C236_near, C236_integers, C236_start."
  },
  {
   "property": "C237",
   "status": "partial",
   "theorems": [
    "C237_values",
    "C237_times",
    "C237_times_one",
    "C237_matrices",
    "C237_matrices_one",
    "C237_energies",
    "C237_repeated_refuted"
   ],
   "note": "C237_values, C237_times, C237_times_one, C237_matrices, C237_matrices_one, C237_energies; refuted for surfaces named several times: C237_repeated_refuted."
  },
  {
   "property": "C238",
   "status": "partial",
   "theorems": [
    "C238_bad_weight",
    "C238_separate_refuted",
    "C238_weights_to_end"
   ],
   "note": "C238_bad_weight, C238_weights_to_end; refuted for entries after both headings: C238_separate_refuted."
  },
  {
   "property": "C239",
   "status": "proved",
   "theorems": [
    "C239_quiet",
    "C239_debug"
   ],
   "note": ""
  },
  {
   "property": "C240",
   "status": "partial",
   "theorems": [
    "C240_integers",
    "C240_crossing_partial",
    "C240_refused",
    "C240_near_refuted",
    "C240_point_partial",
    "C240_point_refuted"
   ],
   "note": "Which segments are refused is complete for whole numbers; for other numbers the product of the distances and the scalar product of the difference must not vanish by rounding, and C240_near_refuted shows that ends on different sides are then refused. The point is exact for planes through the origin and ends that are a power of two apart; for other planes it is not on the plane (C240_point_refuted)."
  },
  {
   "property": "C241",
   "status": "partial",
   "theorems": [
    "C241_order",
    "C241_integers_partial",
    "C241_tangent_refuted",
    "C241_missed_refuted"
   ],
   "note": "Order of the hits for all inputs; exact hits for whole numbers at a whole distance. Violated in general: C241_tangent_refuted, C241_missed_refuted."
  },
  {
   "property": "C242",
   "status": "partial",
   "theorems": [
    "C242_axis_partial",
    "C242_missed_refuted",
    "C242_refused"
   ],
   "note": "Planes across an axis, normals of any whole length. Violated for planes that miss the sphere on the negative side (C242_missed_refuted)."
  },
  {
   "property": "C243",
   "status": "partial",
   "theorems": [
    "C243_about_x",
    "C243_about_y",
    "C243_about_z",
    "C243_whole_x",
    "C243_whole_y",
    "C243_whole_z",
    "C243_lengths",
    "C243_centre_refuted",
    "C243_quarter_refuted"
   ],
   "note": "Differences to the centre far from overflow and underflow. Refuted: C243_centre_refuted, C243_quarter_refuted."
  },
  {
   "property": "C244",
   "status": "partial",
   "theorems": [
    "C244_cylindrical",
    "C244_spherical",
    "C244_refused",
    "C244_to_cylindrical",
    "C244_to_spherical",
    "C244_between",
    "C244_whole_cylindrical",
    "C244_whole_spherical",
    "C244_whole_between",
    "C244_plane_refuted",
    "C244_tiny_refuted",
    "C244_origin_refuted"
   ],
   "note": "Numbers far from overflow and underflow; arctan and arccos themselves are left open. Refuted: C244_plane_refuted, C244_tiny_refuted, C244_origin_refuted."
  },
  {
   "property": "C245",
   "status": "partial",
   "theorems": [
    "C245_cosine",
    "C245_right_angle",
    "C245_same_normal",
    "C245_no_normal",
    "C245_opposite_refuted",
    "C245_parallel_refuted"
   ],
   "note": "Whole numbers within bounds; arccos is left open. Refuted for parallel planes: C245_opposite_refuted, C245_parallel_refuted."
  },
  {
   "property": "C246",
   "status": "partial",
   "theorems": [
    "C246_line",
    "C246_same_normal",
    "C246_no_normal",
    "C246_opposite_refuted"
   ],
   "note": "Whole numbers within bounds; the solver is left open. Refuted: C246_opposite_refuted."
  }
 ]
}