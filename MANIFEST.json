{
 "claims": [
  {
   "property": "C01",
   "status": "proved",
   "theorems": [
    "C01_list",
    "C01_make",
    "C01_shift",
    "C01_append",
    "C01_add",
    "C01_getitem",
    "C01_size"
   ],
   "note": ""
  },
  {
   "property": "C02",
   "status": "proved",
   "theorems": [
    "C02_compress",
    "C02_compress_empty"
   ],
   "note": ""
  },
  {
   "property": "C03",
   "status": "proved",
   "theorems": [
    "C03_default_numbering",
    "C03_numbers_bijection",
    "C03_returns"
   ],
   "note": ""
  },
  {
   "property": "C04",
   "status": "proved",
   "theorems": [
    "C04_check_sound",
    "C04_check_complete_sorted",
    "C04_check_complete_refuted"
   ],
   "note": "Sound; complete only for numberings that appear sorted across types; the converse is refuted by a quad/tri/quad mesh."
  },
  {
   "property": "C05",
   "status": "proved",
   "theorems": [
    "C05_export_csr",
    "C05_check",
    "C05_check_increasing_refuted"
   ],
   "note": ""
  },
  {
   "property": "C06",
   "status": "proved",
   "theorems": [
    "C06_import_export",
    "C06_import_bad_size"
   ],
   "note": ""
  },
  {
   "property": "C07",
   "status": "proved",
   "theorems": [
    "C07_export_import"
   ],
   "note": ""
  },
  {
   "property": "C08",
   "status": "proved",
   "theorems": [
    "C08_merge_two",
    "C08_merge_two_numbers"
   ],
   "note": ""
  },
  {
   "property": "C09",
   "status": "proved",
   "theorems": [
    "C09_merge_three_collides",
    "C09_any_list",
    "C09_collides",
    "C09_merge_unique_refuted"
   ],
   "note": "The desirable statement is false: with three operands the numbers always collide (proved for all operands, plus a witness)."
  },
  {
   "property": "C10",
   "status": "proved",
   "theorems": [
    "C10_nodes_of_indexlist",
    "C10_unknown_number",
    "C10_nodelist",
    "C10_all_index"
   ],
   "note": ""
  },
  {
   "property": "C11",
   "status": "proved",
   "theorems": [
    "C11_faces",
    "C11_returns",
    "C11_counts"
   ],
   "note": ""
  },
  {
   "property": "C12",
   "status": "proved",
   "theorems": [
    "C12_row",
    "C12_outward_tetra4",
    "C12_outward_pyra5",
    "C12_outward_prism6",
    "C12_outward_hexa8"
   ],
   "note": ""
  },
  {
   "property": "C13",
   "status": "proved",
   "theorems": [
    "C13_refused_iff",
    "C13_no_shared_side",
    "C13_single_cell",
    "C13_third_cell_lost_refuted"
   ],
   "note": ""
  },
  {
   "property": "C14",
   "status": "proved",
   "theorems": [
    "C14_closed",
    "C14_contributions_cancel",
    "C14_orders_inverse",
    "C14_orders_surface"
   ],
   "note": ""
  },
  {
   "property": "C15",
   "status": "proved",
   "theorems": [
    "C15_table_in_force",
    "C15_linear_types_unaffected",
    "C15_tri3_before",
    "C15_tri3_after",
    "C15_hexa27_differs"
   ],
   "note": ""
  },
  {
   "property": "C16",
   "status": "proved",
   "theorems": [
    "C16_node_marks_to_faces",
    "C16_without_boundary"
   ],
   "note": ""
  },
  {
   "property": "C17",
   "status": "proved",
   "theorems": [
    "C17_unmarked",
    "C17_name_collision"
   ],
   "note": ""
  },
  {
   "property": "C18",
   "status": "proved",
   "theorems": [
    "C18_check_complete",
    "C18_check_incomplete",
    "C18_counts",
    "C18_check_never_settles"
   ],
   "note": ""
  },
  {
   "property": "C19",
   "status": "proved",
   "theorems": [
    "C19_reindex"
   ],
   "note": ""
  },
  {
   "property": "C20",
   "status": "proved",
   "theorems": [
    "C20_inconsistent",
    "C20_not_faces",
    "C20_no_index",
    "C20_empty_mark",
    "C20_unmarked_faces",
    "C20_failure_is_atomic_refuted",
    "C20_no_table"
   ],
   "note": ""
  },
  {
   "property": "C21",
   "status": "proved",
   "theorems": [
    "C21_mixed_export",
    "C21_no_table",
    "C21_empty_type",
    "C21_valid_mesh_refuted"
   ],
   "note": ""
  },
  {
   "property": "C22",
   "status": "proved",
   "theorems": [
    "C22_remade",
    "C22_kinds",
    "C22_counter",
    "C22_counter_after_pop"
   ],
   "note": ""
  },
  {
   "property": "C23",
   "status": "proved",
   "theorems": [
    "C23_set_xyz",
    "C23_set_xyz_bad",
    "C23_set_nd",
    "C23_set_nd_bad",
    "C23_set_nd_two_columns",
    "C23_scale",
    "C23_scale_twice",
    "C23_morph"
   ],
   "note": ""
  },
  {
   "property": "C24",
   "status": "proved",
   "theorems": [
    "C24_node_numbers",
    "C24_cell_numbers",
    "C24_nodes_bijective",
    "C24_exported",
    "C24_hexa",
    "C24_empty"
   ],
   "note": ""
  },
  {
   "property": "C25",
   "status": "proved",
   "theorems": [
    "C25_faces",
    "C25_marks",
    "C25_one_side",
    "C25_single_cell"
   ],
   "note": ""
  },
  {
   "property": "C26",
   "status": "proved",
   "theorems": [
    "C26_cube_file"
   ],
   "note": ""
  },
  {
   "property": "C27",
   "status": "proved",
   "theorems": [
    "C27_extruded",
    "C27_cells",
    "C27_one_plane",
    "C27_face_mark",
    "C27_overwrites"
   ],
   "note": ""
  },
  {
   "property": "C28",
   "status": "proved",
   "theorems": [
    "C28_numbers",
    "C28_complete_iff",
    "C28_rejected",
    "C28_unique_iff",
    "C28_unique",
    "C28_collide"
   ],
   "note": ""
  },
  {
   "property": "C29",
   "status": "proved",
   "theorems": [
    "C29_distinct",
    "C29_hexa_sides",
    "C29_outward",
    "C29_inward",
    "C29_tri_no_faces",
    "C29_bar_sides",
    "C29_bar_crossed",
    "C29_other_types"
   ],
   "note": ""
  },
  {
   "property": "C30",
   "status": "proved",
   "theorems": [
    "C30_header_roundtrip",
    "C30_names",
    "C30_refused"
   ],
   "note": ""
  },
  {
   "property": "C31",
   "status": "proved",
   "theorems": [
    "C31_found",
    "C31_found_from",
    "C31_not_found"
   ],
   "note": ""
  },
  {
   "property": "C32",
   "status": "proved",
   "theorems": [
    "C32_read_headers_terminates",
    "C32_read_data_terminates",
    "C32_search_advances"
   ],
   "note": ""
  },
  {
   "property": "C33",
   "status": "proved",
   "theorems": [
    "C33_order_and_version",
    "C33_endian_names",
    "C33_unknown_endian",
    "C33_written"
   ],
   "note": ""
  },
  {
   "property": "C34",
   "status": "proved",
   "theorems": [
    "C34_written",
    "C34_round_trip"
   ],
   "note": ""
  },
  {
   "property": "C35",
   "status": "proved",
   "theorems": [
    "C35_truncated"
   ],
   "note": ""
  },
  {
   "property": "C36",
   "status": "proved",
   "theorems": [
    "C36_node_variable",
    "C36_cell_variable",
    "C36_mark"
   ],
   "note": ""
  },
  {
   "property": "C37",
   "status": "proved",
   "theorems": [
    "C37_zones",
    "C37_no_mark"
   ],
   "note": ""
  },
  {
   "property": "C38",
   "status": "proved",
   "theorems": [
    "C38_located",
    "C38_as_many_nodes",
    "C38_as_many_faces"
   ],
   "note": ""
  },
  {
   "property": "C39",
   "status": "proved",
   "theorems": [
    "C39_node_vectors",
    "C39_weights",
    "C39_face_data",
    "C39_case"
   ],
   "note": ""
  },
  {
   "property": "C40",
   "status": "proved",
   "theorems": [
    "C40_rewrites"
   ],
   "note": ""
  },
  {
   "property": "C41",
   "status": "proved",
   "theorems": [
    "C41_written_fits",
    "C41_refused",
    "C41_header_refused"
   ],
   "note": ""
  },
  {
   "property": "C42",
   "status": "proved",
   "theorems": [
    "C42_written",
    "C42_altered",
    "C42_tolerance"
   ],
   "note": ""
  },
  {
   "property": "C43",
   "status": "proved",
   "theorems": [
    "C43_labels",
    "C43_zones",
    "C43_ranges",
    "C43_round_trip",
    "C43_gap",
    "C43_same_start",
    "C43_no_mark"
   ],
   "note": ""
  },
  {
   "property": "C44",
   "status": "proved",
   "theorems": [
    "C44_mesh",
    "C44_mesh_read",
    "C44_solution",
    "C44_missing",
    "C44_letters",
    "C44_written",
    "C44_not_v2"
   ],
   "note": ""
  },
  {
   "property": "C45",
   "status": "proved",
   "theorems": [
    "C45_safe_name",
    "C45_suffix",
    "C45_last_dot"
   ],
   "note": ""
  },
  {
   "property": "C46",
   "status": "proved",
   "theorems": [
    "C46_existing_kept",
    "C46_race",
    "C46_serial",
    "C46_apart"
   ],
   "note": ""
  },
  {
   "property": "C47",
   "status": "proved",
   "theorems": [
    "C47_change_dir",
    "C47_remove_dir",
    "C47_change_suffix",
    "C47_refused",
    "C47_refused_error",
    "C47_idempotent",
    "C47_two_dots",
    "C47_paths"
   ],
   "note": ""
  },
  {
   "property": "C48",
   "status": "proved",
   "theorems": [
    "C48_registry",
    "C48_detect",
    "C48_explicit",
    "C48_cli_formats",
    "C48_cli_named"
   ],
   "note": ""
  },
  {
   "property": "C49",
   "status": "proved",
   "theorems": [
    "C49_refused",
    "C49_protocol",
    "C49_monotone",
    "C49_with"
   ],
   "note": ""
  },
  {
   "property": "C50",
   "status": "proved",
   "theorems": [
    "C50_transparent",
    "C50_once",
    "C50_exception",
    "C50_equal_keys"
   ],
   "note": ""
  },
  {
   "property": "C51",
   "status": "proved",
   "theorems": [
    "C51_reps",
    "C51_setters",
    "C51_ndof",
    "C51_invariant",
    "C51_broken",
    "C51_add",
    "C51_time_zero"
   ],
   "note": ""
  },
  {
   "property": "C52",
   "status": "proved",
   "theorems": [
    "C52_pop",
    "C52_written"
   ],
   "note": ""
  },
  {
   "property": "C53",
   "status": "proved",
   "theorems": [
    "C53_spectrum",
    "C53_spectrum_exists",
    "C53_spectrum_consistent",
    "C53_spectrum_range",
    "C53_filter_changed",
    "C53_no_time",
    "C53_even_window",
    "C53_odd_window",
    "C53_no_window",
    "C53_bad_window",
    "C53_default_window"
   ],
   "note": ""
  },
  {
   "property": "C54",
   "status": "proved",
   "theorems": [
    "C54_distinct",
    "C54_interp",
    "C54_diff",
    "C54_sums",
    "C54_lagrange",
    "C54_nodes",
    "C54_diff_lagrange",
    "C54_bases"
   ],
   "note": ""
  },
  {
   "property": "C55",
   "status": "proved",
   "theorems": [
    "C55_kept",
    "C55_terminates",
    "C55_check",
    "C55_sources",
    "C55_prefix",
    "C55_bad_coordinate",
    "C55_time"
   ],
   "note": ""
  },
  {
   "property": "C56",
   "status": "proved",
   "theorems": [
    "C56_v2",
    "C56_all",
    "C56_last_skipped",
    "C56_holes",
    "C56_exported"
   ],
   "note": ""
  },
  {
   "property": "C57",
   "status": "proved",
   "theorems": [
    "C57_loads",
    "C57_refused",
    "C57_cells",
    "C57_marks",
    "C57_own_group",
    "C57_own_group_v4",
    "C57_no_repeats",
    "C57_one_type_2d"
   ],
   "note": ""
  },
  {
   "property": "C58",
   "status": "proved",
   "theorems": [
    "C58_surface",
    "C58_curve_lost",
    "C58_curve_wrong",
    "C58_no_group",
    "C58_2d_unreadable"
   ],
   "note": ""
  },
  {
   "property": "C59",
   "status": "proved",
   "theorems": [
    "C59_loads",
    "C59_cells",
    "C59_check_fails",
    "C59_unsupported",
    "C59_cut",
    "C59_marks",
    "C59_tree",
    "C59_tree_all",
    "C59_base",
    "C59_zone"
   ],
   "note": ""
  },
  {
   "property": "C60",
   "status": "proved",
   "theorems": [
    "C60_extract",
    "C60_empty",
    "C60_out_of_range",
    "C60_large_cells"
   ],
   "note": ""
  },
  {
   "property": "C61",
   "status": "proved",
   "theorems": [
    "C61_read",
    "C61_accepts",
    "C61_too_far",
    "C61_collision",
    "C61_counts",
    "C61_single",
    "C61_no_files",
    "C61_check_order",
    "C61_list"
   ],
   "note": ""
  },
  {
   "property": "C62",
   "status": "proved",
   "theorems": [
    "C62_step_names",
    "C62_step_form",
    "C62_roundtrip",
    "C62_list",
    "C62_xdmf",
    "C62_xdmf_written",
    "C62_aligned",
    "C62_opened",
    "C62_no_version",
    "C62_group",
    "C62_group_missing",
    "C62_three_dims"
   ],
   "note": ""
  },
  {
   "property": "C63",
   "status": "proved",
   "theorems": [
    "C63_planes",
    "C63_columns",
    "C63_unique",
    "C63_accepts",
    "C63_refusal",
    "C63_modes",
    "C63_unknown",
    "C63_select"
   ],
   "note": ""
  },
  {
   "property": "C64",
   "status": "proved",
   "theorems": [
    "C64_converter",
    "C64_output_name",
    "C64_no_reader",
    "C64_content",
    "C64_no_cells",
    "C64_info",
    "C64_cube",
    "C64_cube_refused",
    "C64_ic3_no_cells"
   ],
   "note": ""
  },
  {
   "property": "C65",
   "status": "proved",
   "theorems": [
    "C65_mid_nodes",
    "C65_quad9_order_refuted",
    "C65_tables"
   ],
   "note": ""
  },
  {
   "property": "C66",
   "status": "proved",
   "theorems": [
    "C66_cube_ready"
   ],
   "note": ""
  },
  {
   "property": "C67",
   "status": "proved",
   "theorems": [
    "C67_export",
    "C67_write",
    "C67_roundtrip",
    "C67_unsupported"
   ],
   "note": ""
  },
  {
   "property": "C68",
   "status": "proved",
   "theorems": [
    "C68_volumes",
    "C68_single",
    "C68_set",
    "C68_moved"
   ],
   "note": ""
  },
  {
   "property": "C69",
   "status": "proved",
   "theorems": [
    "C69_converted",
    "C69_refused_empty",
    "C69_refused_overlap"
   ],
   "note": ""
  },
  {
   "property": "C70",
   "status": "proved",
   "theorems": [
    "C70_misnumbered",
    "C70_extruded"
   ],
   "note": ""
  },
  {
   "property": "C71",
   "status": "proved",
   "theorems": [
    "C71_marks_by_name",
    "C71_remove",
    "C71_order"
   ],
   "note": ""
  },
  {
   "property": "C72",
   "status": "proved",
   "theorems": [
    "C72_cgns_to_ic3"
   ],
   "note": ""
  },
  {
   "property": "C73",
   "status": "proved",
   "theorems": [
    "C73_long_names",
    "C73_time_map",
    "C73_freq_map",
    "C73_axis"
   ],
   "note": ""
  },
  {
   "property": "C74",
   "status": "proved",
   "theorems": [
    "C74_gmsh_to_ic3",
    "C74_refused",
    "C74_version2"
   ],
   "note": ""
  },
  {
   "property": "C75",
   "status": "proved",
   "theorems": [
    "C75_listed",
    "C75_deof",
    "C75_cut",
    "C75_written"
   ],
   "note": ""
  },
  {
   "property": "C76",
   "status": "proved",
   "theorems": [
    "C76_created",
    "C76_emptied",
    "C76_exclusive",
    "C76_read",
    "C76_reopened",
    "C76_append",
    "C76_mode",
    "C76_stale",
    "C76_shown",
    "C76_overwrite",
    "C76_lost"
   ],
   "note": ""
  },
  {
   "property": "C77",
   "status": "proved",
   "theorems": [
    "C77_new",
    "C77_entries",
    "C77_content",
    "C77_defined",
    "C77_own",
    "C77_shared",
    "C77_dataset"
   ],
   "note": ""
  },
  {
   "property": "C78",
   "status": "proved",
   "theorems": [
    "C78_once",
    "C78_same",
    "C78_retry",
    "C78_unchanged",
    "C78_attributes",
    "C78_late",
    "C78_poly"
   ],
   "note": ""
  },
  {
   "property": "C79",
   "status": "proved",
   "theorems": [
    "C79_success",
    "C79_failed",
    "C79_content",
    "C79_ic3",
    "C79_formats",
    "C79_cgns"
   ],
   "note": ""
  },
  {
   "property": "C80",
   "status": "proved",
   "theorems": [
    "C80_ic3",
    "C80_command",
    "C80_cube",
    "C80_gmsh",
    "C80_cgns"
   ],
   "note": ""
  },
  {
   "property": "C81",
   "status": "proved",
   "theorems": [
    "C81_outcome",
    "C81_unopened",
    "C81_refused",
    "C81_command"
   ],
   "note": ""
  },
  {
   "property": "C82",
   "status": "proved",
   "theorems": [
    "C82_outcome",
    "C82_opened",
    "C82_mesh_refused",
    "C82_solution",
    "C82_reader",
    "C82_ncell"
   ],
   "note": ""
  },
  {
   "property": "C83",
   "status": "proved",
   "theorems": [
    "C83_missing",
    "C83_none",
    "C83_safe",
    "C83_refused",
    "C83_packed",
    "C83_aligned"
   ],
   "note": ""
  },
  {
   "property": "C84",
   "status": "proved",
   "theorems": [
    "C84_by_value",
    "C84_frame",
    "C84_operands",
    "C84_own",
    "C84_follows",
    "C84_range_alias",
    "C84_list_copy",
    "C84_shared",
    "C84_failed_add"
   ],
   "note": ""
  },
  {
   "property": "C85",
   "status": "proved",
   "theorems": [
    "C85_one_tree",
    "C85_document",
    "C85_lines"
   ],
   "note": ""
  },
  {
   "property": "C86",
   "status": "proved",
   "theorems": [
    "C86_parsed",
    "C86_dashes",
    "C86_no_file",
    "C86_swallowed",
    "C86_one_file",
    "C86_formats",
    "C86_refused",
    "C86_lacking",
    "C86_help",
    "C86_abbreviation",
    "C86_ambiguous",
    "C86_unknown",
    "C86_total",
    "C86_cube",
    "C86_cube_refused",
    "C86_cube_unknown",
    "C86_filelist",
    "C86_filelist_dashes",
    "C86_filelist_unknown",
    "C86_filelist_empty"
   ],
   "note": ""
  },
  {
   "property": "C87",
   "status": "proved",
   "theorems": [
    "C87_defined",
    "C87_apart",
    "C87_shared",
    "C87_own",
    "C87_export",
    "C87_reread",
    "C87_first",
    "C87_first4"
   ],
   "note": ""
  },
  {
   "property": "C88",
   "status": "proved",
   "theorems": [
    "C88_converted",
    "C88_misnumbered",
    "C88_refused",
    "C88_box",
    "C88_cgns",
    "C88_gmsh",
    "C88_ic3",
    "C88_ic3_solution",
    "C88_ic3_incomplete"
   ],
   "note": ""
  },
  {
   "property": "C89",
   "status": "proved",
   "theorems": [
    "C89_mesh",
    "C89_fixed_point",
    "C89_any_number",
    "C89_mesh_only"
   ],
   "note": ""
  },
  {
   "property": "C90",
   "status": "proved",
   "theorems": [
    "C90_gmsh",
    "C90_extruded",
    "C90_version2",
    "C90_cgns",
    "C90_ic3",
    "C90_cube",
    "C90_safe"
   ],
   "note": ""
  },
  {
   "property": "C91",
   "status": "proved",
   "theorems": [
    "C91_gmsh",
    "C91_version2",
    "C91_extruded",
    "C91_negative",
    "C91_ic3",
    "C91_cgns",
    "C91_cube",
    "C91_safe"
   ],
   "note": ""
  },
  {
   "property": "C92",
   "status": "proved",
   "theorems": [
    "C92_failed",
    "C92_complete",
    "C92_patches"
   ],
   "note": ""
  },
  {
   "property": "C93",
   "status": "proved",
   "theorems": [
    "C93_brief",
    "C93_usage",
    "C93_unknown",
    "C93_info",
    "C93_converted",
    "C93_failed",
    "C93_gmsh"
   ],
   "note": ""
  },
  {
   "property": "C94",
   "status": "proved",
   "theorems": [
    "C94_words",
    "C94_verbose",
    "C94_usage",
    "C94_long_names",
    "C94_time_map",
    "C94_freq_map"
   ],
   "note": ""
  },
  {
   "property": "C95",
   "status": "proved",
   "theorems": [
    "C95_safe",
    "C95_missing",
    "C95_packed",
    "C95_counts",
    "C95_gmsh",
    "C95_cube"
   ],
   "note": ""
  },
  {
   "property": "C96",
   "status": "proved",
   "theorems": [
    "C96_brief",
    "C96_usage",
    "C96_unknown",
    "C96_gmsh",
    "C96_cube"
   ],
   "note": ""
  },
  {
   "property": "C97",
   "status": "proved",
   "theorems": [
    "C97_layout",
    "C97_mesh4",
    "C97_solution4"
   ],
   "note": ""
  },
  {
   "property": "C98",
   "status": "proved",
   "theorems": [
    "C98_created",
    "C98_loaded",
    "C98_exported",
    "C98_created4",
    "C98_loaded4",
    "C98_exported4",
    "C98_complete",
    "C98_hidden",
    "C98_hidden4"
   ],
   "note": ""
  },
  {
   "property": "C99",
   "status": "proved",
   "theorems": [
    "C99_pop",
    "C99_sequence",
    "C99_read",
    "C99_read4"
   ],
   "note": ""
  }
 ]
}