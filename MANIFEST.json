{
 "claims": [
  {
   "property": "C01",
   "status": "proved",
   "theorems": [
    "C01_frames_partition",
    "C01_cut_unique",
    "C01_no_separator"
   ],
   "note": "Frames handed out are exactly the file cut after every separator line; the cut is unique; no separator gives IndexError."
  },
  {
   "property": "C02",
   "status": "proved",
   "theorems": [
    "C02_random_access"
   ],
   "note": "Random access equals sequential access for every index; IndexError exactly past the end (indices are non-negative)."
  },
  {
   "property": "C03",
   "status": "proved",
   "theorems": [
    "C03_single_vs_all",
    "C03_content",
    "C03_labels"
   ],
   "note": "For all files: all-frames extraction and single-frame extraction agree field by field."
  },
  {
   "property": "C04",
   "status": "proved",
   "theorems": [
    "C04_magmoms_never",
    "C04_no_magmoms_field"
   ],
   "note": "get_magmoms raises for every frame; no label or column for magnetic moments ever appears."
  },
  {
   "property": "C05",
   "status": "proved",
   "theorems": [
    "C05_from_str_raises",
    "C05_structures_unavailable"
   ],
   "note": "The property as stated (structure building from frame text always raises) is a defect of the code and is proved for all inputs."
  },
  {
   "property": "C06",
   "status": "proved",
   "theorems": [
    "C06_bulk_energy_new_header",
    "C06_bulk_energy_old_header",
    "C06_frame_energy_new_header",
    "C06_frame_energy_old_header_fails",
    "C06_readers_agree_refuted"
   ],
   "note": "Bulk reader correct for both header styles; single-frame reader drops the last character of the third field and rejects old headers; the disagreement is a refutation witness."
  },
  {
   "property": "C07",
   "status": "proved",
   "theorems": [
    "C07_bulk_reader",
    "C07_bulk_counts",
    "C07_frame_virial_text",
    "C07_uneven_rows_raise",
    "C07_virials_complete_iff",
    "C07_virial_origin",
    "C07_aligned_iff_prefix",
    "C07_virials_aligned_refuted"
   ],
   "note": "Exact content of the bulk virial list for an arbitrary structure builder; alignment with frames refuted by a witness."
  },
  {
   "property": "C08",
   "status": "proved",
   "theorems": [
    "C08_round_trip",
    "C08_last_block",
    "C08_read",
    "C08_first_line",
    "C08_moments_needed",
    "C08_reread_refuted"
   ],
   "note": "Round trip for arbitrary number printers/parser (printed texts must look like numbers), with and without magnetic block; stale-cache re-read refuted by a witness."
  },
  {
   "property": "C09",
   "status": "proved",
   "theorems": [
    "C09_success_iff_odd",
    "C09_even_fails",
    "C09_length"
   ],
   "note": "Success iff all factors positive and odd (or no site); assertion failure otherwise; length n*a*b*c."
  },
  {
   "property": "C10",
   "status": "proved",
   "theorems": [
    "C10_exact_images",
    "C10_originals_first"
   ],
   "note": "Sites are the originals shifted by a duplicate-free list of exactly the centred-box triples, starting with the zero shift."
  },
  {
   "property": "C11",
   "status": "proved",
   "theorems": [
    "C11_key_indices"
   ],
   "note": "Key indices strictly increasing, one per site, selecting the element-sorted originals in the element-sorted supercell."
  },
  {
   "property": "C12",
   "status": "proved",
   "theorems": [
    "C12_stable_by_element",
    "C12_unique",
    "C12_idempotent"
   ],
   "note": "Stable sort by atomic number; unique; idempotent."
  },
  {
   "property": "C13",
   "status": "proved",
   "theorems": [
    "C13_species_kept_iff_grouped",
    "C13_success_iff_listed",
    "C13_unlisted_raises",
    "C13_sites_kept_together_refuted"
   ],
   "note": "The defect is characterised: coordinates stay, species stay iff already grouped; success iff all species listed; witness of detachment."
  },
  {
   "property": "C14",
   "status": "proved",
   "theorems": [
    "C14_correct_iff",
    "C14_only_loses",
    "C14_keeps_real_atoms_refuted"
   ],
   "note": "Exact condition under which only vacancies are removed; witness where a real atom is deleted."
  },
  {
   "property": "C15",
   "status": "proved",
   "theorems": [
    "C15_counts",
    "C15_counts_in_given_order"
   ],
   "note": "Counts by first appearance, or in the given order; keys duplicate-free, counts positive, sum to n."
  },
  {
   "property": "C16",
   "status": "proved",
   "theorems": [
    "C16_first_image"
   ],
   "note": "First lattice image within 1e-10 per component, over the reals, for any nearest-integer rounding and non-degenerate lattice."
  },
  {
   "property": "C17",
   "status": "proved",
   "theorems": [
    "C17_table",
    "C17_structure",
    "C17_complete",
    "C17_small_supercell_refuted",
    "C17_unsorted_refuted"
   ],
   "note": "Any total preorder on distances, any sorting argsort; real instance for periodic structures incl. completeness in the infinite crystal."
  },
  {
   "property": "C18",
   "status": "proved",
   "theorems": [
    "C18_width_and_count",
    "C18_structure",
    "C18_per_element",
    "C18_unknown_element",
    "C18_count_refuted"
   ],
   "note": "Statement corrected: equality iff some widest row has no atom on the cutoff."
  },
  {
   "property": "C19",
   "status": "proved",
   "theorems": [
    "C19_indices",
    "C19_padding",
    "C19_all_pairs",
    "C19_default_refuted",
    "C19_rejected",
    "C19_unpadded_refuted"
   ],
   "note": "Site index function as in C16; all element pairs as well."
  },
  {
   "property": "C20",
   "status": "proved",
   "theorems": [
    "C20_create",
    "C20_name_unusable"
   ],
   "note": "Both registries have the same code."
  },
  {
   "property": "C21",
   "status": "proved",
   "theorems": [
    "C21_on_cutoff_kept",
    "C21_inner",
    "C21_smooth_below_cutoff",
    "C21_left_limit",
    "C21_jump",
    "C21_same_as_cpp"
   ],
   "note": "Weight formula in real arithmetic; the inclusive table bound is part of C17."
  },
  {
   "property": "C22",
   "status": "proved",
   "theorems": [
    "C22_derivative",
    "C22_at_cutoff",
    "C22_beyond_cutoff_refuted"
   ],
   "note": "Derivative table is exact strictly below the cutoff; on and beyond it is shown not to be."
  },
  {
   "property": "C23",
   "status": "proved",
   "theorems": [
    "C23_extract",
    "C23_expand",
    "C23_advertised_width",
    "C23_advertised_width_refuted"
   ],
   "note": "Generic in distance and position types."
  },
  {
   "property": "C24",
   "status": "proved",
   "theorems": [
    "C24_floor",
    "C24_values",
    "C24_mean_close",
    "C24_normalized",
    "C24_inverse",
    "C24_derivative"
   ],
   "note": "Exact values of the statistics for every sample, the floor for every sample including empty ones, unit deviation after normalising, inverse and derivative. The radial mean is not exact but off by a factor N/(N+1e-15), bounded by C24_mean_close. The module imports one that is not in the repository (see the findings in DESIGN.md), so it cannot be imported as it stands."
  },
  {
   "property": "C25",
   "status": "proved",
   "theorems": [
    "C25_saved",
    "C25_zero",
    "C25_names",
    "C25_negative",
    "C25_mixed_sizes"
   ],
   "note": "numpy arrays are lists of flattened rows; the directory is modelled as the list of its entries."
  },
  {
   "property": "C26",
   "status": "proved",
   "theorems": [
    "C26_parts",
    "C26_whole",
    "C26_zero",
    "C26_exists",
    "C26_negative"
   ],
   "note": "The division is exact (float rounding of num_frames / part_size not modelled)."
  },
  {
   "property": "C27",
   "status": "proved",
   "theorems": [
    "C27_together",
    "C27_merged",
    "C27_counts",
    "C27_counts_refuted",
    "C27_saved"
   ],
   "note": "Files are the extractor's arrays with their shape as hypothesis; recorded counts are refuted with a witness."
  },
  {
   "property": "C28",
   "status": "proved",
   "theorems": [
    "C28_indices",
    "C28_late_element_fails"
   ],
   "note": "Same model as C27."
  },
  {
   "property": "C29",
   "status": "proved",
   "theorems": [
    "C29_selected",
    "C29_guard",
    "C29_unguarded",
    "C29_empty",
    "C29_slice",
    "C29_uneven_virials",
    "C29_selection_saved_refuted"
   ],
   "note": "Includes the virial placeholder finding."
  },
  {
   "property": "C30",
   "status": "proved",
   "theorems": [
    "C30_metal",
    "C30_cbm",
    "C30_vbm",
    "C30_exact",
    "C30_rounding",
    "C30_cbm_first",
    "C30_vbm_first",
    "C30_gap",
    "C30_gap_positive",
    "C30_gap_infinite",
    "C30_no_levels",
    "C30_no_rows",
    "C30_fermi",
    "C30_fermi_short",
    "C30_file_fermi_refuted"
   ],
   "note": "Edges characterised for every table; the claim about the true Fermi energy is refuted by a witness."
  },
  {
   "property": "C31",
   "status": "proved",
   "theorems": [
    "C31_last",
    "C31_direct",
    "C31_shared_missed_refuted",
    "C31_shared_listed_refuted",
    "C31_band_zero_refuted",
    "C31_direct_refuted"
   ],
   "note": "Behaviour at the last k-point for every table; each defect by a witness."
  },
  {
   "property": "C32",
   "status": "proved",
   "theorems": [
    "C32_steps",
    "C32_monotone",
    "C32_rejected",
    "C32_bohr",
    "C32_short_segment_refuted"
   ],
   "note": "Exact steps for every file; short segments lose their length."
  },
  {
   "property": "C33",
   "status": "proved",
   "theorems": [
    "C33_mesh",
    "C33_positive",
    "C33_falling",
    "C33_growing_refuted",
    "C33_spacing",
    "C33_zero",
    "C33_unbounded",
    "C33_negative_refuted",
    "C33_object_refuted"
   ],
   "note": "Exact counts; the growth claim is refuted, the opposite monotonicity proved."
  },
  {
   "property": "C34",
   "status": "proved",
   "theorems": [
    "C34_symmetric",
    "C34_entry",
    "C34_crystal",
    "C34_even_small",
    "C34_phantom_refuted",
    "C34_even_large",
    "C34_nonpositive",
    "C34_negative_cutoff"
   ],
   "note": "Symmetry for all inputs; exact counts; even factors characterised."
  },
  {
   "property": "C35",
   "status": "proved",
   "theorems": [
    "C35_inverse",
    "C35_numbers",
    "C35_symbols"
   ],
   "note": "Exhaustive over the two finite tables, which is every input the lookups accept."
  },
  {
   "property": "C36",
   "status": "proved",
   "theorems": [
    "C36_first_four",
    "C36_last_three_refuted",
    "C36_merged",
    "C36_five_of_seven"
   ],
   "note": "The claim is false for every parameter set; what the script contains is proved."
  },
  {
   "property": "C37",
   "status": "proved",
   "theorems": [
    "C37_supercell_copies",
    "C37_defined",
    "C37_origin",
    "C37_box_symmetric"
   ],
   "note": "Distinct shifts covering exactly the centred box; order and elements of every copy; corner of the box."
  },
  {
   "property": "C38",
   "status": "proved",
   "theorems": [
    "C38_owned_are_original",
    "C38_even_refuted"
   ],
   "note": "All-odd scalings: owned atoms are the original ones in order; witness for an even scaling."
  },
  {
   "property": "C39",
   "status": "proved",
   "theorems": [
    "C39_chains",
    "C39_success_iff"
   ],
   "note": "Chains terminate and hold exactly the atoms of the bin; success iff all bin numbers in range."
  },
  {
   "property": "C40",
   "status": "proved",
   "theorems": [
    "C40_bins_in_range",
    "C40_axis_exact",
    "C40_far_face_refuted",
    "C40_unwrapped_refuted"
   ],
   "note": "In-range theorem plus exact one-axis criterion; witnesses for a missed neighbour and an out-of-bounds write. Exact reals, no rounding."
  },
  {
   "property": "C41",
   "status": "proved",
   "theorems": [
    "C41_exact",
    "C41_close_atoms_refuted"
   ],
   "note": "Exact shell over the supercell for every bin size; witness for dropped close atoms. Exact reals."
  },
  {
   "property": "C42",
   "status": "proved",
   "theorems": [
    "C42_periodic_neighbours"
   ],
   "note": "Sound and complete against the periodic-neighbour specification for every pbc choice. Exact reals."
  },
  {
   "property": "C43",
   "status": "proved",
   "theorems": [
    "C43_enough_bins",
    "C43_default_bins",
    "C43_custom_bins_refuted",
    "C43_partial_pbc_refuted"
   ],
   "note": "Enough bins implies duplicate-free; default bins always suffice for aligned periodicity; two refutation witnesses."
  },
  {
   "property": "C44",
   "status": "proved",
   "theorems": [
    "C44_symmetric"
   ],
   "note": "Opposite displacement listed for the partner."
  },
  {
   "property": "C45",
   "status": "proved",
   "theorems": [
    "C45_sorted",
    "C45_contract_satisfiable"
   ],
   "note": "For any sort meeting the std::sort contract; the contract is satisfiable and the comparator is a strict weak order."
  },
  {
   "property": "C46",
   "status": "proved",
   "theorems": [
    "C46_arrays",
    "C46_slots",
    "C46_max_width",
    "C46_max_typed",
    "C46_last_row_overflow",
    "C46_spill_refuted"
   ],
   "note": "Row contents against the periodic-neighbour specification; widths; overflow as out-of-bounds error and spill witness."
  },
  {
   "property": "C47",
   "status": "proved",
   "theorems": [
    "C47_plateaus",
    "C47_range",
    "C47_decreasing",
    "C47_derivative",
    "C47_twice",
    "C47_basis"
   ],
   "note": "Real arithmetic. Includes the second derivative and the switching function of basis.h."
  },
  {
   "property": "C48",
   "status": "proved",
   "theorems": [
    "C48_centre",
    "C48_neighbour",
    "C48_opposite",
    "C48_beyond_cutoff"
   ],
   "note": "Real arithmetic. All twelve entries at every nonzero displacement, both radii included."
  },
  {
   "property": "C49",
   "status": "proved",
   "theorems": [
    "C49_slots_unique",
    "C49_env_layout",
    "C49_pw_layout",
    "C49_prim_layout",
    "C49_last_writer",
    "C49_surplus_next_type",
    "C49_surplus_next_centre",
    "C49_surplus_outside"
   ],
   "note": "With enough reserved slots the layout is exact for values, derivatives, relative coordinates and indices. With a surplus neighbour the overwritten slot is characterised (next type, next centre, outside the table)."
  },
  {
   "property": "C50",
   "status": "proved",
   "theorems": [
    "C50_pair_block",
    "C50_block_matrix",
    "C50_offsets",
    "C50_too_small",
    "C50_reservation_is_max",
    "C50_automatic_complete"
   ],
   "note": "Static functions, arbitrary per-neighbour payload. Too small reservations stop with the assertion; the automatic reservation is always sufficient."
  },
  {
   "property": "C51",
   "status": "proved",
   "theorems": [
    "C51_chebyshev",
    "C51_bounded",
    "C51_outside",
    "C51_switched",
    "C51_mtp_polynomials",
    "C51_mtp_values",
    "C51_mtp_derivative"
   ],
   "note": "Values characterised by V_n(cos t) = cos(n t); derivative tables on the closed interval; stale array contents are irrelevant."
  },
  {
   "property": "C52",
   "status": "proved",
   "theorems": [
    "C52_switch_jumps",
    "C52_documented",
    "C52_derivative_elsewhere",
    "C52_values_jump"
   ],
   "note": "The factor and every radial value jump at the inner radius; derivative table right elsewhere."
  },
  {
   "property": "C53",
   "status": "proved",
   "theorems": [
    "C53_sound",
    "C53_complete"
   ],
   "note": "Every listed combination has the requested total level and every multiset of that level is listed; the library sort is an arbitrary function that orders by descending nu."
  },
  {
   "property": "C54",
   "status": "proved",
   "theorems": [
    "C54_once",
    "C54_more_than_once",
    "C54_basis_repeats_iff"
   ],
   "note": "A combination is listed exactly once iff its moments of equal level are equal; the basis of maximal level L repeats combinations exactly for L >= 18 (finding)."
  },
  {
   "property": "C55",
   "status": "proved",
   "theorems": [
    "C55_scalar",
    "C55_kept_scalar",
    "C55_all_scalars_kept_refuted"
   ],
   "note": "Every kept combination contracts to a scalar; the converse fails, some scalar combinations are dropped (refuted, level 20)."
  },
  {
   "property": "C56",
   "status": "proved",
   "theorems": [
    "C56_channels",
    "C56_check_agrees",
    "C56_below_two"
   ],
   "note": "Number of radial channels reported equals the number needed, for levels from 2 on; below 2 one channel is reported although nothing is kept."
  },
  {
   "property": "C57",
   "status": "proved",
   "theorems": [
    "C57_lower_bound",
    "C57_upper_bound",
    "C57_empty_range",
    "C57_range_query"
   ],
   "note": "Both searches and the range query built from them; iterations are bounded explicitly."
  },
  {
   "property": "C58",
   "status": "proved",
   "theorems": [
    "C58_address",
    "C58_programs",
    "C58_copy_breaks",
    "C58_failed_construction",
    "C58_failed_resize_breaks"
   ],
   "note": "All addresses, sizes and histories of construction, resize, access and destruction; the two histories that break ownership are exhibited."
  },
  {
   "property": "C59",
   "status": "proved",
   "theorems": [
    "C59_programs",
    "C59_no_leak",
    "C59_leak_refuted",
    "C59_move_assign_breaks",
    "C59_self_assign_breaks",
    "C59_shrinking_assign_breaks"
   ],
   "note": "All programs built from loading, copying, moving and destroying are safe and copies are equal and independent; move assignment, self assignment and shrinking copy assignment are shown to release memory twice."
  },
  {
   "property": "C60",
   "status": "proved",
   "theorems": [
    "C60_outer_power",
    "C60_short_vector"
   ],
   "note": "All ranks >= 1, any multiplication."
  },
  {
   "property": "C61",
   "status": "proved",
   "theorems": [
    "C61_radial_gradient"
   ],
   "note": "One neighbour at a time; excludes the distance at which the value jumps (C52)."
  },
  {
   "property": "C62",
   "status": "proved",
   "theorems": [
    "C62_in_table",
    "C62_images",
    "C62_images_refuted",
    "C62_counts",
    "C62_slab",
    "C62_first_row",
    "C62_slabs_refuted",
    "C62_too_wide"
   ],
   "note": "Positive parts proved; the overwritten width, the empty table and the tilted box are proved as failures."
  },
  {
   "property": "C63",
   "status": "proved",
   "theorems": [
    "C63_assembled",
    "C63_missing_neighbour",
    "C63_rejected",
    "C63_all_neighbours_refuted"
   ],
   "note": "The code's behaviour is characterised for all element lists; the claim that all neighbour elements appear is refuted with a witness. The module imports one that is not in the repository (see the findings in DESIGN.md), so it cannot be imported as it stands."
  },
  {
   "property": "C64",
   "status": "proved",
   "theorems": [
    "C64_type_files",
    "C64_elements_refuted"
   ],
   "note": "The full characterisation of the files plus the refutation of the claim that they name the elements."
  },
  {
   "property": "C65",
   "status": "proved",
   "theorems": [
    "C65_reading",
    "C65_two_spins_fail"
   ],
   "note": "Round trip for every table; failing check for two spins."
  },
  {
   "property": "C66",
   "status": "proved",
   "theorems": [
    "C66_flags",
    "C66_slab",
    "C66_middle_missed_refuted",
    "C66_false_flag_refuted",
    "C66_no_atoms"
   ],
   "note": "Exact flags; soundness for axis-aligned cells; both failures by witness."
  },
  {
   "property": "C67",
   "status": "proved",
   "theorems": [
    "C67_rotation_invariant",
    "C67_order_invariant",
    "C67_group_formula",
    "C67_defined"
   ],
   "note": "All combinations, neighbours, orthogonal maps and permutations; closed formula for single-group combinations."
  },
  {
   "property": "C68",
   "status": "proved",
   "theorems": [
    "C68_padding_inert",
    "C68_padding_counts_refuted"
   ],
   "note": "Inert for a positive inner cutoff; counted for inner cutoff zero (witness)."
  },
  {
   "property": "C69",
   "status": "proved",
   "theorems": [
    "C69_own_row",
    "C69_missing_row",
    "C69_rows_distinct",
    "C69_unchecked_species_refuted",
    "C69_negative_species"
   ],
   "note": "Own row, error beyond the table, injectivity; clash for unchecked species (witness)."
  },
  {
   "property": "C70",
   "status": "proved",
   "theorems": [
    "C70_structure",
    "C70_bounds",
    "C70_table"
   ],
   "note": "All crystals, with symmetry in the two elements, bounds, and the table-level mean."
  },
  {
   "property": "C71",
   "status": "proved",
   "theorems": [
    "C71_steps",
    "C71_sign",
    "C71_centroid_steps",
    "C71_translation",
    "C71_relation",
    "C71_intensity",
    "C71_origin_refuted",
    "C71_periodic_refuted",
    "C71_few_processors",
    "C71_mismatch",
    "C71_mismatch_refuted"
   ],
   "note": "Step values, sign, centroid variant, translation, intensity; origin, periodicity, processor count and mismatched frames as witnesses or error theorems."
  },
  {
   "property": "C72",
   "status": "proved",
   "theorems": [
    "C72_different",
    "C72_equal",
    "C72_equal_one_centre",
    "C72_mean_refuted",
    "C72_order_refuted",
    "C72_filter",
    "C72_filter_equal"
   ],
   "note": "Exact sums for different and equal elements; factor (n-1)/(n+1) and order parameter defect; filter by angle."
  },
  {
   "property": "C73",
   "status": "proved",
   "theorems": [
    "C73_distances",
    "C73_symmetric",
    "C73_periodic_refuted"
   ],
   "note": "Per-frame distance, symmetry; periodic failure by witness."
  },
  {
   "property": "C74",
   "status": "proved",
   "theorems": [
    "C74_enumeration",
    "C74_missing"
   ],
   "note": "Exact set and no repetition for all levels; the missing combination characterised."
  },
  {
   "property": "C75",
   "status": "proved",
   "theorems": [
    "C75_untouched",
    "C75_kept",
    "C75_in_order",
    "C75_kept_once_refuted",
    "C75_orders_refuted",
    "C75_enumerated_fails"
   ],
   "note": "Exact multiplicities for all lists; failures as witnesses."
  },
  {
   "property": "C76",
   "status": "proved",
   "theorems": [
    "C76_comparison",
    "C76_arranged"
   ],
   "note": "Comparison, order and multiplicities for every sorted arrangement."
  },
  {
   "property": "C77",
   "status": "proved",
   "theorems": [
    "C77_structures",
    "C77_fractional",
    "C77_edges",
    "C77_any_decomposition"
   ],
   "note": "All draws with positive strained volume; independence of the QR routine; edge and displacement bounds; a concrete QR routine is constructed."
  },
  {
   "property": "C78",
   "status": "proved",
   "theorems": [
    "C78_negative",
    "C78_handedness",
    "C78_half_refuted"
   ],
   "note": "Refused arguments, handedness, sharpness of one half."
  },
  {
   "property": "C79",
   "status": "proved",
   "theorems": [
    "C79_points",
    "C79_paths",
    "C79_blocks",
    "C79_total",
    "C79_rejected",
    "C79_neighbours",
    "C79_shortcut_refuted"
   ],
   "note": "Points, paths, blocks, totality, refused input; joined points refuted."
  },
  {
   "property": "C80",
   "status": "proved",
   "theorems": [
    "C80_spacing",
    "C80_boxes",
    "C80_exactly_aligned",
    "C80_hexagonal",
    "C80_spacing_refuted"
   ],
   "note": "Spacing for aligned lattices, exact characterisation, refuted for hexagonal cells."
  },
  {
   "property": "C81",
   "status": "proved",
   "theorems": [
    "C81_element_sums",
    "C81_excess",
    "C81_sulfur_silicon_refuted",
    "C81_defined",
    "C81_total",
    "C81_orbitals",
    "C81_heading"
   ],
   "note": "Own sums under separation, exact excess otherwise, witness."
  },
  {
   "property": "C82",
   "status": "proved",
   "theorems": [
    "C82_element_weights",
    "C82_potassium_refuted",
    "C82_units",
    "C82_missing_column",
    "C82_orbital",
    "C82_orbital_values",
    "C82_sulfur_osmium_refuted"
   ],
   "note": "Element weights, potassium, units, orbital selection."
  },
  {
   "property": "C83",
   "status": "proved",
   "theorems": [
    "C83_bands",
    "C83_numbers",
    "C83_one_band_refuted",
    "C83_even_split",
    "C83_uneven_refuted"
   ],
   "note": "Equal bands, counts, single band refused, uneven bands refuted."
  },
  {
   "property": "C84",
   "status": "proved",
   "theorems": [
    "C84_life",
    "C84_dimensions",
    "C84_other_sizes",
    "C84_show"
   ],
   "note": "Contents, release, other sizes, printing; any number of dimensions."
  },
  {
   "property": "C85",
   "status": "proved",
   "theorems": [
    "C85_env_independent",
    "C85_env_narrower",
    "C85_narrower_refuted",
    "C85_env_last_wider",
    "C85_wider_refuted",
    "C85_pw_independent",
    "C85_prim_independent",
    "C85_pw_failing"
   ],
   "note": "Equal, narrower and wider structures; pair operators; failing structures."
  },
  {
   "property": "C86",
   "status": "proved",
   "theorems": [
    "C86_programs",
    "C86_independent",
    "C86_copy",
    "C86_assignment",
    "C86_self_assignment_breaks",
    "C86_nothing_lost",
    "C86_zero_factor_breaks",
    "C86_enlarged_inside",
    "C86_enlarged_twice_refuted"
   ],
   "note": "All programs over constructions, copies, assignments, enlargements and destructions; exceptions shown by cases."
  },
  {
   "property": "C87",
   "status": "proved",
   "theorems": [
    "C87_arrays",
    "C87_indices_are_rows",
    "C87_natoms",
    "C87_statistics",
    "C87_columns_differ_refuted",
    "C87_rows_not_sites_refuted"
   ],
   "note": "Columns of all four arrays, rejection of narrow widths, row numbers; two refuted readings with witnesses. The module imports one that is not in the repository (see the findings in DESIGN.md), so it cannot be imported as it stands."
  },
  {
   "property": "C88",
   "status": "proved",
   "theorems": [
    "C88_saved",
    "C88_missing",
    "C88_layers_lost_refuted",
    "C88_not_saved_refuted"
   ],
   "note": "Contents of the file read back, missing parameters; the two consequences of the wrong loop bound with witnesses."
  },
  {
   "property": "C89",
   "status": "proved",
   "theorems": [
    "C89_result",
    "C89_no_atoms",
    "C89_too_short",
    "C89_int64_refuted",
    "C89_fortran_refuted",
    "C89_leak_refuted",
    "C89_leak_grows"
   ],
   "note": "Full contents of the result from C42 - C46, failures on wrong arguments, leak of the neighbour table; memory of the C++ objects is not part of this model."
  },
  {
   "property": "C90",
   "status": "proved",
   "theorems": [
    "C90_programs",
    "C90_independent",
    "C90_copy",
    "C90_assignment",
    "C90_self_assignment_breaks",
    "C90_nothing_lost",
    "C90_no_atoms",
    "C90_zero_cutoff_breaks"
   ],
   "note": "All programs over constructions, copies, assignments and destructions; calculations are arbitrary functions; self-assignment and cutoff 0 characterised as failures. Assumes that the assignment operator of BasicStructureInfo, which lacks its return statement (undefined behaviour), returns normally."
  },
  {
   "property": "C91",
   "status": "proved",
   "theorems": [
    "C91_index",
    "C91_comparison",
    "C91_componentwise",
    "C91_vector_space",
    "C91_division",
    "C91_dot",
    "C91_schwarz",
    "C91_volume",
    "C91_cross",
    "C91_cross_zero",
    "C91_right_handed",
    "C91_in_place",
    "C91_printed"
   ],
   "note": "All operators of Vec3 over real numbers; rounding and division by 0 are outside the model."
  },
  {
   "property": "C92",
   "status": "proved",
   "theorems": [
    "C92_dos_file",
    "C92_dos_columns",
    "C92_dos_broken_file",
    "C92_set_grid",
    "C92_nothing_there",
    "C92_default_shared",
    "C92_default_refuted",
    "C92_default_kept",
    "C92_vext_file",
    "C92_vext_type",
    "C92_vext_count_refuted"
   ],
   "note": "What is violated is proved as such: C92_dos_broken_file, C92_default_refuted, C92_vext_count_refuted."
  },
  {
   "property": "C93",
   "status": "proved",
   "theorems": [
    "C93_values",
    "C93_usable",
    "C93_shapes",
    "C93_order",
    "C93_rejected",
    "C93_bad_index",
    "C93_no_centers",
    "C93_free_columns",
    "C93_widths_refuted",
    "C93_roundtrip",
    "C93_missing"
   ],
   "note": "The reading that statistics depend on the structures only is refuted: C93_widths_refuted. The module imports one that is not in the repository, see DESIGN.md."
  },
  {
   "property": "C94",
   "status": "proved",
   "theorems": [
    "C94_polynomials",
    "C94_checked_polynomials",
    "C94_radial",
    "C94_checked_radial",
    "C94_independent",
    "C94_rejected",
    "C94_default_breaks",
    "C94_to_itself_loses",
    "C94_to_itself_breaks",
    "C94_from_empty_breaks",
    "C94_of_empty",
    "C94_empty_breaks",
    "C94_memory_refuted",
    "C94_real_radial",
    "C94_real_checked_radial",
    "C94_real_polynomials",
    "C94_real_checked_polynomials"
   ],
   "note": "Programs without a meaning for values are characterised as failing: C94_default_breaks, C94_to_itself_loses, C94_to_itself_breaks, C94_from_empty_breaks, C94_empty_breaks, C94_memory_refuted."
  },
  {
   "property": "C95",
   "status": "proved",
   "theorems": [
    "C95_programs",
    "C95_tables",
    "C95_arrays_stay",
    "C95_arguments",
    "C95_blank_fails",
    "C95_memory_refuted"
   ],
   "note": "The refused and failing calls are C95_arguments and C95_blank_fails; the memory that is never given back is C95_memory_refuted."
  },
  {
   "property": "C96",
   "status": "proved",
   "theorems": [
    "C96_forces",
    "C96_motion",
    "C96_no_torque",
    "C96_rotated",
    "C96_outside",
    "C96_inner_radius_fails"
   ],
   "note": "The positions where a neighbour is exactly at the inner radius are excluded; C96_inner_radius_fails shows why."
  },
  {
   "property": "C97",
   "status": "proved",
   "theorems": [
    "C97_coefficients"
   ],
   "note": "A coefficient row that no neighbour uses has gradient zero in the model, an undefined one in libtorch."
  },
  {
   "property": "C98",
   "status": "proved",
   "theorems": [
    "C98_row",
    "C98_places",
    "C98_atoms_together_fails",
    "C98_refused",
    "C98_zero_width_refuted"
   ],
   "note": "The silent loss with a width of zero is C98_zero_width_refuted."
  },
  {
   "property": "C99",
   "status": "proved",
   "theorems": [
    "C99_dictionary",
    "C99_missing"
   ],
   "note": "The averages and deviations are not arguments of the model because the code does not read them."
  },
  {
   "property": "C100",
   "status": "proved",
   "theorems": [
    "C100_save_fails",
    "C100_batch_fails",
    "C100_folder_names",
    "C100_accepted",
    "C100_call"
   ],
   "note": "The expected behaviour is refuted for all inputs; the lines after the failing calls are arbitrary functions in the model."
  },
  {
   "property": "C101",
   "status": "proved",
   "theorems": [
    "C101_count",
    "C101_elements",
    "C101_enough",
    "C101_refused",
    "C101_empty"
   ],
   "note": ""
  },
  {
   "property": "C102",
   "status": "proved",
   "theorems": [
    "C102_programs",
    "C102_independent",
    "C102_assignment",
    "C102_copy_breaks",
    "C102_copy",
    "C102_self_assignment_breaks",
    "C102_nothing_lost",
    "C102_empty_copy_breaks",
    "C102_no_neighbours_breaks"
   ],
   "note": ""
  },
  {
   "property": "C103",
   "status": "proved",
   "theorems": [
    "C103_block",
    "C103_table",
    "C103_automatic_block",
    "C103_automatic_table",
    "C103_short_block_breaks",
    "C103_short_table_breaks",
    "C103_number_of_centres",
    "C103_extra_centres_refuted"
   ],
   "note": ""
  },
  {
   "property": "C104",
   "status": "proved",
   "theorems": [
    "C104_generate",
    "C104_deriv",
    "C104_generate_into",
    "C104_deriv_into_refuted",
    "C104_programs",
    "C104_memory_refuted"
   ],
   "note": ""
  },
  {
   "property": "C105",
   "status": "proved",
   "theorems": [
    "C105_unchanged",
    "C105_body",
    "C105_header_refuted",
    "C105_says",
    "C105_missing",
    "C105_fermi_refuted",
    "C105_kpoints_refuted",
    "C105_report_refuted"
   ],
   "note": ""
  },
  {
   "property": "C106",
   "status": "proved",
   "theorems": [
    "C106_tables",
    "C106_number_refuted",
    "C106_blank_refuted"
   ],
   "note": ""
  },
  {
   "property": "C107",
   "status": "proved",
   "theorems": [
    "C107_series",
    "C107_bounds",
    "C107_refused",
    "C107_options_refuted"
   ],
   "note": ""
  },
  {
   "property": "C108",
   "status": "proved",
   "theorems": [
    "C108_read",
    "C108_late_element",
    "C108_names",
    "C108_saved",
    "C108_again_fails"
   ],
   "note": ""
  },
  {
   "property": "C109",
   "status": "proved",
   "theorems": [
    "C109_collection",
    "C109_saved",
    "C109_uneven_fails",
    "C109_virials_refuted",
    "C109_unavailable_refuted"
   ],
   "note": ""
  }
 ]
}