# Assumptions of each theorem

Output of `Print Assumptions` for every theorem named in MANIFEST.json, grouped by the axioms listed. All of them are axioms of the Coq standard library.

## Closed under the global context (269 theorems)

C01_frames_partition, C01_cut_unique, C01_no_separator, C02_random_access, C03_single_vs_all, C03_content, C03_labels, C04_magmoms_never, C04_no_magmoms_field, C05_from_str_raises, C05_structures_unavailable, C06_bulk_energy_new_header, C06_bulk_energy_old_header, C06_frame_energy_new_header, C06_frame_energy_old_header_fails, C06_readers_agree_refuted, C07_bulk_reader, C07_bulk_counts, C07_frame_virial_text, C07_uneven_rows_raise, C07_virials_complete_iff, C07_virial_origin, C07_aligned_iff_prefix, C07_virials_aligned_refuted, C08_round_trip, C08_last_block, C08_read, C08_first_line, C08_moments_needed, C08_reread_refuted, C12_stable_by_element, C12_unique, C12_idempotent, C13_species_kept_iff_grouped, C13_success_iff_listed, C13_unlisted_raises, C13_sites_kept_together_refuted, C14_correct_iff, C14_only_loses, C14_keeps_real_atoms_refuted, C15_counts, C15_counts_in_given_order, C17_table, C18_width_and_count, C18_per_element, C18_unknown_element, C18_count_refuted, C19_all_pairs, C19_default_refuted, C19_rejected, C19_unpadded_refuted, C20_create, C20_name_unusable, C21_on_cutoff_kept, C23_extract, C23_expand, C23_advertised_width, C23_advertised_width_refuted, C25_saved, C25_zero, C25_names, C25_negative, C25_mixed_sizes, C26_parts, C26_whole, C26_zero, C26_exists, C26_negative, C27_together, C27_merged, C27_counts, C27_counts_refuted, C27_saved, C28_indices, C28_late_element_fails, C29_selected, C29_guard, C29_unguarded, C29_empty, C29_slice, C29_uneven_virials, C29_selection_saved_refuted, C30_metal, C30_cbm, C30_vbm, C30_exact, C30_rounding, C30_cbm_first, C30_vbm_first, C30_gap, C30_gap_positive, C30_gap_infinite, C30_no_levels, C30_no_rows, C30_fermi, C30_fermi_short, C30_file_fermi_refuted, C31_last, C31_direct, C31_shared_missed_refuted, C31_shared_listed_refuted, C31_band_zero_refuted, C31_direct_refuted, C33_object_refuted, C35_inverse, C35_numbers, C35_symbols, C36_first_four, C36_last_three_refuted, C36_merged, C36_five_of_seven, C37_box_symmetric, C39_chains, C39_success_iff, C46_max_width, C46_max_typed, C49_slots_unique, C49_prim_layout, C49_surplus_next_type, C49_surplus_next_centre, C50_reservation_is_max, C53_sound, C53_complete, C54_once, C54_more_than_once, C54_basis_repeats_iff, C55_scalar, C55_kept_scalar, C55_all_scalars_kept_refuted, C56_channels, C56_check_agrees, C56_below_two, C58_address, C58_programs, C58_copy_breaks, C58_failed_construction, C58_failed_resize_breaks, C59_programs, C59_no_leak, C59_leak_refuted, C59_move_assign_breaks, C59_self_assign_breaks, C59_shrinking_assign_breaks, C60_outer_power, C60_short_vector, C63_assembled, C63_missing_neighbour, C63_rejected, C63_all_neighbours_refuted, C64_type_files, C64_elements_refuted, C65_reading, C65_two_spins_fail, C66_no_atoms, C69_own_row, C69_missing_row, C69_rows_distinct, C69_unchecked_species_refuted, C69_negative_species, C74_enumeration, C74_missing, C75_untouched, C75_kept, C75_in_order, C75_kept_once_refuted, C75_orders_refuted, C75_enumerated_fails, C76_comparison, C76_arranged, C81_total, C81_orbitals, C81_heading, C82_sulfur_osmium_refuted, C83_even_split, C84_life, C84_dimensions, C84_other_sizes, C84_show, C85_prim_independent, C86_programs, C86_independent, C86_copy, C86_assignment, C86_self_assignment_breaks, C86_nothing_lost, C86_zero_factor_breaks, C86_enlarged_inside, C86_enlarged_twice_refuted, C87_natoms, C88_saved, C88_missing, C88_layers_lost_refuted, C88_not_saved_refuted, C89_leak_refuted, C89_leak_grows, C90_programs, C90_independent, C90_copy, C90_assignment, C90_self_assignment_breaks, C90_nothing_lost, C90_no_atoms, C90_zero_cutoff_breaks, C91_index, C91_printed, C92_dos_file, C92_dos_columns, C92_dos_broken_file, C92_set_grid, C92_nothing_there, C92_default_shared, C92_default_refuted, C92_default_kept, C92_vext_file, C92_vext_type, C92_vext_count_refuted, C93_shapes, C93_no_centers, C93_roundtrip, C93_missing, C94_polynomials, C94_checked_polynomials, C94_radial, C94_checked_radial, C94_independent, C94_rejected, C94_default_breaks, C94_to_itself_loses, C94_to_itself_breaks, C94_from_empty_breaks, C94_of_empty, C94_empty_breaks, C94_memory_refuted, C98_places, C98_atoms_together_fails, C100_save_fails, C100_folder_names, C100_accepted, C100_call, C102_programs, C102_independent, C102_assignment, C102_copy_breaks, C102_copy, C102_self_assignment_breaks, C102_nothing_lost, C102_empty_copy_breaks, C102_no_neighbours_breaks, C105_unchanged, C105_body, C105_header_refuted, C105_says, C105_missing, C105_fermi_refuted, C105_kpoints_refuted, C105_report_refuted, C106_tables, C106_number_refuted, C106_blank_refuted, C108_read, C108_late_element, C108_names, C108_saved, C108_again_fails, C109_collection, C109_saved, C109_uneven_fails, C109_virials_refuted, C109_unavailable_refuted

## `ClassicalDedekindReals.sig_forall_dec` (26 theorems)

C37_supercell_copies, C37_defined, C37_origin, C46_slots, C46_last_row_overflow, C50_pair_block, C50_block_matrix, C50_offsets, C50_too_small, C50_automatic_complete, C81_defined, C91_componentwise, C103_block, C103_table, C103_automatic_block, C103_automatic_table, C103_short_block_breaks, C103_short_table_breaks, C103_number_of_centres, C103_extra_centres_refuted, C104_generate, C104_deriv, C104_generate_into, C104_deriv_into_refuted, C104_programs, C104_memory_refuted

## `ClassicalDedekindReals.sig_forall_dec`, `FunctionalExtensionality.functional_extensionality_dep` (83 theorems)

C09_success_iff_odd, C09_even_fails, C09_length, C10_exact_images, C10_originals_first, C11_key_indices, C16_first_image, C19_padding, C21_inner, C21_smooth_below_cutoff, C21_left_limit, C21_jump, C21_same_as_cpp, C24_inverse, C24_derivative, C38_owned_are_original, C38_even_refuted, C40_bins_in_range, C40_axis_exact, C45_contract_satisfiable, C46_spill_refuted, C47_plateaus, C47_derivative, C47_twice, C47_basis, C51_outside, C51_mtp_derivative, C52_switch_jumps, C52_documented, C52_derivative_elsewhere, C52_values_jump, C57_lower_bound, C57_upper_bound, C57_empty_range, C57_range_query, C62_in_table, C62_images, C62_images_refuted, C62_counts, C62_slab, C62_first_row, C62_slabs_refuted, C62_too_wide, C70_table, C71_translation, C71_mismatch, C71_mismatch_refuted, C79_points, C79_paths, C79_neighbours, C79_shortcut_refuted, C80_boxes, C81_element_sums, C81_excess, C81_sulfur_silicon_refuted, C82_element_weights, C82_potassium_refuted, C82_units, C82_missing_column, C82_orbital, C82_orbital_values, C83_bands, C83_numbers, C83_one_band_refuted, C83_uneven_refuted, C91_comparison, C91_vector_space, C91_division, C91_dot, C91_schwarz, C91_volume, C91_cross, C91_cross_zero, C91_right_handed, C91_in_place, C94_real_radial, C94_real_checked_radial, C94_real_polynomials, C94_real_checked_polynomials, C95_arrays_stay, C95_arguments, C95_blank_fails, C95_memory_refuted

## `ClassicalDedekindReals.sig_forall_dec`, `ClassicalDedekindReals.sig_not_dec`, `FunctionalExtensionality.functional_extensionality_dep` (142 theorems)

C17_structure, C17_complete, C17_small_supercell_refuted, C17_unsorted_refuted, C18_structure, C19_indices, C22_derivative, C22_at_cutoff, C22_beyond_cutoff_refuted, C24_floor, C24_values, C24_mean_close, C24_normalized, C32_steps, C32_monotone, C32_rejected, C32_bohr, C32_short_segment_refuted, C33_mesh, C33_positive, C33_falling, C33_growing_refuted, C33_spacing, C33_zero, C33_unbounded, C33_negative_refuted, C34_symmetric, C34_entry, C34_crystal, C34_even_small, C34_phantom_refuted, C34_even_large, C34_nonpositive, C34_negative_cutoff, C40_far_face_refuted, C40_unwrapped_refuted, C41_exact, C41_close_atoms_refuted, C42_periodic_neighbours, C43_enough_bins, C43_default_bins, C43_custom_bins_refuted, C43_partial_pbc_refuted, C44_symmetric, C45_sorted, C46_arrays, C48_centre, C48_neighbour, C48_opposite, C48_beyond_cutoff, C49_env_layout, C49_pw_layout, C49_last_writer, C49_surplus_outside, C51_chebyshev, C51_switched, C51_mtp_polynomials, C51_mtp_values, C61_radial_gradient, C66_flags, C66_slab, C66_middle_missed_refuted, C66_false_flag_refuted, C67_rotation_invariant, C67_order_invariant, C67_group_formula, C67_defined, C68_padding_inert, C68_padding_counts_refuted, C70_structure, C70_bounds, C71_steps, C71_sign, C71_centroid_steps, C71_relation, C71_origin_refuted, C71_periodic_refuted, C71_few_processors, C73_distances, C73_symmetric, C73_periodic_refuted, C77_structures, C77_fractional, C77_edges, C77_any_decomposition, C78_negative, C78_handedness, C78_half_refuted, C79_blocks, C79_total, C79_rejected, C80_spacing, C80_exactly_aligned, C80_hexagonal, C80_spacing_refuted, C85_env_independent, C85_env_narrower, C85_narrower_refuted, C85_env_last_wider, C85_wider_refuted, C85_pw_independent, C85_pw_failing, C87_arrays, C87_indices_are_rows, C87_statistics, C87_columns_differ_refuted, C87_rows_not_sites_refuted, C89_result, C89_no_atoms, C89_too_short, C89_int64_refuted, C89_fortran_refuted, C93_values, C93_usable, C93_order, C93_rejected, C93_bad_index, C93_free_columns, C93_widths_refuted, C95_programs, C96_forces, C96_motion, C96_no_torque, C96_rotated, C96_outside, C96_inner_radius_fails, C97_coefficients, C98_row, C98_refused, C98_zero_width_refuted, C99_dictionary, C99_missing, C100_batch_fails, C101_count, C101_elements, C101_enough, C101_refused, C101_empty, C107_series, C107_bounds, C107_refused, C107_options_refuted

## `ClassicalDedekindReals.sig_forall_dec`, `ClassicalDedekindReals.sig_not_dec`, `Classical_Prop.classic`, `FunctionalExtensionality.functional_extensionality_dep` (12 theorems)

C47_range, C47_decreasing, C51_bounded, C71_intensity, C72_different, C72_equal, C72_equal_one_centre, C72_mean_refuted, C72_order_refuted, C72_filter, C72_filter_equal, C95_tables
