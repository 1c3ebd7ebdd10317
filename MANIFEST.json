{
 "claims": [
  {
   "property": "C01",
   "status": "proved",
   "theorems": [
    "C01_partitions_exact",
    "C01_set_order_irrelevant"
   ],
   "note": "all n>=1, all set orders"
  },
  {
   "property": "C02",
   "status": "proved",
   "theorems": [
    "C02_linked_exact",
    "C02_unlinked_exact",
    "C02_ones",
    "C02_split",
    "C02_mixed_exact"
   ],
   "note": "all n>=1"
  },
  {
   "property": "C03",
   "status": "proved",
   "theorems": [
    "C03_unique_permutations",
    "C03_set_order_irrelevant"
   ],
   "note": "all finite sequences of integers; element type generic lemma in ProofsHelper"
  },
  {
   "property": "C04",
   "status": "proved",
   "theorems": [
    "C04_vecc_all_compositions",
    "C04_unsupported_orders"
   ],
   "note": "all supported orders (1..6; others raise, also proved), all truncation levels, default and optimised code"
  },
  {
   "property": "C05",
   "status": "proved",
   "theorems": [
    "C05_mixed_compositions",
    "C05_veci_single"
   ],
   "note": "all supported orders, all truncation levels"
  },
  {
   "property": "C06",
   "status": "proved",
   "theorems": [
    "C06_w_subscripts"
   ],
   "note": "W calls here; dt calls in PropertiesDt"
  },
  {
   "property": "C07",
   "status": "proved",
   "theorems": [
    "C07_dt_names_bound",
    "C07_vemx_names_bound",
    "C07_vecc_names_bound",
    "C07_w_names_bound"
   ],
   "note": "all helpers and the W function, any truncation"
  },
  {
   "property": "C08",
   "status": "proved",
   "theorems": [
    "C08_vemx_paths_aligned",
    "C08_vecc_paths_aligned",
    "C08_vecc_without_doubles",
    "C08_triples_without_doubles_refuted"
   ],
   "note": "all flags with singles (vemx) / doubles (vecc); without doubles nothing is consumed at a truncation level; triples without doubles is refuted by C08_triples_without_doubles_refuted"
  },
  {
   "property": "C09",
   "status": "partial",
   "theorems": [
    "C09_master_order6",
    "C09_master_exact",
    "C09_master_refuted",
    "C09_vemx_index",
    "C09_vecc_index"
   ],
   "note": "refuted as stated; exact characterisation proved (C09_master_exact and C83), indices proved to exist; the property as stated fails for modules generated with a smaller maximum order (C09_master_refuted)"
  },
  {
   "property": "C10",
   "status": "proved",
   "theorems": [
    "C10_linked_leibniz",
    "C10_unlinked_leibniz",
    "C10_dt_amplitude",
    "C10_unsupported_orders"
   ],
   "note": "all orders 2..6 (1..6 for the amplitude function), default and optimised code; all other orders raise"
  },
  {
   "property": "C11",
   "status": "proved",
   "theorems": [
    "C11_dt_paths_aligned",
    "C11_arbitrary_flags_refuted"
   ],
   "note": "all truncation levels; arbitrary flags refuted by C11_arbitrary_flags_refuted"
  },
  {
   "property": "C12",
   "status": "proved",
   "theorems": [
    "C12_residual_terms_exact",
    "C12_rank4_order4_raises",
    "C12_rank10_refuted"
   ],
   "note": "exact domain; outside it generation raises or is wrong, also proved"
  },
  {
   "property": "C13",
   "status": "proved",
   "theorems": [
    "C13_residual_prefactor_exact"
   ],
   "note": "equivalence: right value unless h^2 and order >= 5"
  },
  {
   "property": "C14",
   "status": "partial",
   "theorems": [
    "C14_each_term_once_partial",
    "C14_h2_refuted",
    "C14_order7_raises",
    "C14_rank3_raises"
   ],
   "note": "refuted as stated at orders 2 and 3 (C14_h2_refuted); the exact form is C84; proved for all other orders the generator accepts, for any flags and any available W; orders >= 7 and ranks >= 3 raise"
  },
  {
   "property": "C15",
   "status": "partial",
   "theorems": [
    "C15_residual_labels_partial",
    "C15_order5_refuted"
   ],
   "note": "refuted as stated at orders 5 and 6 (C15_order5_refuted); the exact form is C85; proved for orders <= 4; orders >= 7 raise"
  },
  {
   "property": "C16",
   "status": "proved",
   "theorems": [
    "C16_ground_state_latex"
   ],
   "note": "all maximum orders, all set orders; theorem about the products and powers, text by rendering (golden checked)"
  },
  {
   "property": "C17",
   "status": "proved",
   "theorems": [
    "C17_groups_exact",
    "C17_labels_exact",
    "C17_every_label_printed",
    "C17_excited_line_exact",
    "C17_connected_amplitude_refuted"
   ],
   "note": "all (m, n), all set orders; the missing connected amplitude is C17_connected_amplitude_refuted"
  },
  {
   "property": "C18",
   "status": "proved",
   "theorems": [
    "C18_verification_exact",
    "C18_extra_key_refuted"
   ],
   "note": "all dictionaries from enum or string keys to integers; tolerance of extra keys shown by C18_extra_key_refuted"
  },
  {
   "property": "C19",
   "status": "proved",
   "theorems": [
    "C19_save_load",
    "C19_load_valid"
   ],
   "note": "through the written text; json.loads modelled for flat objects of integers"
  },
  {
   "property": "C20",
   "status": "proved",
   "theorems": [
    "C20_driver_sound",
    "C20_driver_complete",
    "C20_values_accepted"
   ],
   "note": "all argument combinations; argparse itself is not modelled"
  },
  {
   "property": "C21",
   "status": "proved",
   "theorems": [
    "C21_paths_exact"
   ],
   "note": "equivalence, so it also says which requests overwrite each other"
  },
  {
   "property": "C22",
   "status": "proved",
   "theorems": [
    "C22_eT_operators",
    "C22_eT_expansion",
    "C22_projection_operators",
    "C22_hamiltonian_operators",
    "C22_cluster_operators",
    "C22_taylor_products",
    "C22_z_operators"
   ],
   "note": "all rank limits and orders; order 0 of the e^T series raises"
  },
  {
   "property": "C23",
   "status": "proved",
   "theorems": [
    "C23_terms_are_contractions"
   ],
   "note": "all projections, truncations with CC rank >= 1 (the validation requires it), all set orders"
  },
  {
   "property": "C24",
   "status": "proved",
   "theorems": [
    "C24_no_contraction_missed"
   ],
   "note": "as C23"
  },
  {
   "property": "C25",
   "status": "proved",
   "theorems": [
    "C25_no_contraction_twice"
   ],
   "note": "as C23"
  },
  {
   "property": "C26",
   "status": "proved",
   "theorems": [
    "C26_groups_partition"
   ],
   "note": "as C23; also proves that the GenericException of the separation is never raised"
  },
  {
   "property": "C27",
   "status": "proved",
   "theorems": [
    "C27_f_terms_removed"
   ],
   "note": "as C23"
  },
  {
   "property": "C28",
   "status": "proved",
   "theorems": [
    "C28_cancelling_python",
    "C28_cancelling_texts",
    "C28_cancelling_sorted",
    "C28_value_unchanged"
   ],
   "note": "all lists, all set orders; the sorting variant of the eT code is covered by ProofsPrefactor.simplify_sorted_spec"
  },
  {
   "property": "C29",
   "status": "proved",
   "theorems": [
    "C29_prefactor",
    "C29_prefactor_text",
    "C29_bare_hamiltonian"
   ],
   "note": "every term"
  },
  {
   "property": "C30",
   "status": "proved",
   "theorems": [
    "C30_labels_consistent",
    "C30_letters"
   ],
   "note": "every contraction with at most 6 amplitudes, Hamiltonian rank at most 10, projection rank at most 8, which covers all accepted truncations"
  },
  {
   "property": "C31",
   "status": "proved",
   "theorems": [
    "C31_code_keeps_last_of_slot",
    "C31_every_term_written_refuted"
   ],
   "note": "exact characterisation; the claim that every term reaches the code is refuted (C31_every_term_written_refuted)"
  },
  {
   "property": "C32",
   "status": "proved",
   "theorems": [
    "C32_calls_of_a_term",
    "C32_calls_different_refuted"
   ],
   "note": "exact characterisation; single amplitude case refuted (C32_calls_different_refuted)"
  },
  {
   "property": "C33",
   "status": "proved",
   "theorems": [
    "C33_paths_consumed_in_order"
   ],
   "note": "all flags, accepted truncations with Hamiltonian rank at most 5 (rank 6 cannot be generated, C46)"
  },
  {
   "property": "C34",
   "status": "proved",
   "theorems": [
    "C34_equation",
    "C34_lines",
    "C34_refuted",
    "C34_file"
   ],
   "note": "exact text of every equation and of the file; 'every term is printed' is refuted (C34_refuted) and C34_lines says exactly which terms are missing"
  },
  {
   "property": "C35",
   "status": "proved",
   "theorems": [
    "C35_left_hand_side"
   ],
   "note": "exact text, projection rank at most 10"
  },
  {
   "property": "C36",
   "status": "proved",
   "theorems": [
    "C36_terms_exact",
    "C36_terms_of_ansatz",
    "C36_recorded_once",
    "C36_fails_exactly"
   ],
   "note": "any lists of operators and the operators of the ansatz; h z, z h and z h z"
  },
  {
   "property": "C37",
   "status": "proved",
   "theorems": [
    "C37_sum",
    "C37_lines",
    "C37_parentheses",
    "C37_once_refuted",
    "C37_balanced_refuted"
   ],
   "note": "exact text; 'every term once' holds below 14 terms and for lengths 3 modulo 7, refuted otherwise (C37_once_refuted), parentheses refuted (C37_balanced_refuted, in the file)"
  },
  {
   "property": "C38",
   "status": "proved",
   "theorems": [
    "C38_labels",
    "C38_ground_letters",
    "C38_summed_refuted",
    "C38_free_refuted"
   ],
   "note": "exact bound 5 summed and 7 free letters; refuted beyond (C38_summed_refuted, C38_free_refuted: the truncations of this ansatz are not validated)"
  },
  {
   "property": "C39",
   "status": "proved",
   "theorems": [
    "C39_terms_consistent",
    "C39_positions_refuted",
    "C39_two_amplitudes_refuted"
   ],
   "note": "every Taylor order, any Hamiltonian, any ground state Z, amplitudes t_1 (the validation accepts no others); refuted for amplitudes of rank 2 (C39_two_amplitudes_refuted) and position by position (C39_positions_refuted)"
  },
  {
   "property": "C40",
   "status": "proved",
   "theorems": [
    "C40_terms_exact",
    "C40_operators_of_ansatz",
    "C40_two_amplitudes_refuted",
    "C40_code_adds"
   ],
   "note": "terms: every Taylor order with t_1; code: every truncation with 1 <= CC <= 8 (accepted: 1..6), both sides, all flags; amplitudes of rank 2 refuted"
  },
  {
   "property": "C41",
   "status": "proved",
   "theorems": [
    "C41_bare_term_missing",
    "C41_refuted"
   ],
   "note": "the claim is false for every truncation and projection: C41_bare_term_missing is the general negation, C41_refuted a witness"
  },
  {
   "property": "C42",
   "status": "proved",
   "theorems": [
    "C42_only_derivative_left_out"
   ],
   "note": "both sides, every truncation with 1 <= CC <= 8"
  },
  {
   "property": "C43",
   "status": "proved",
   "theorems": [
    "C43_calls_well_formed"
   ],
   "note": "everything that is added, both sides, all flags"
  },
  {
   "property": "C44",
   "status": "proved",
   "theorems": [
    "C44_prefactor"
   ],
   "note": "every emitted term, any operators, every Taylor order with t_1"
  },
  {
   "property": "C45",
   "status": "proved",
   "theorems": [
    "C45_guards",
    "C45_larger_amplitude_refuted",
    "C45_text"
   ],
   "note": "every list of terms whose amplitude ranks are at most CC (larger: C45_larger_amplitude_refuted); C45_text: the printed text read as python"
  },
  {
   "property": "C46",
   "status": "proved",
   "theorems": [
    "C46_eT_python",
    "C46_eT_python_refuted",
    "C46_full_cc_python",
    "C46_full_cc_python_refuted"
   ],
   "note": "python code of the full coupled cluster and e^T ansatz: exact condition over accepted truncations; the claim itself is refuted (C46_full_cc_python_refuted, C46_eT_python_refuted)"
  },
  {
   "property": "C47",
   "status": "proved",
   "theorems": [
    "C47_sum_printed",
    "C47_first_occurrences"
   ],
   "note": "every list of terms, every width, both sides, with and without duplicates"
  },
  {
   "property": "C48",
   "status": "proved",
   "theorems": [
    "C48_expansion_kept",
    "C48_refuted"
   ],
   "note": "expansions of the generator; for other expansions refuted (C48_refuted)"
  },
  {
   "property": "C49",
   "status": "proved",
   "theorems": [
    "C49_symmetrizer_axes"
   ],
   "note": "all orders"
  },
  {
   "property": "C50",
   "status": "proved",
   "theorems": [
    "C50_flags",
    "C50_rank_flag_refuted"
   ],
   "note": "all flags; the guard by rank is refuted (C50_rank_flag_refuted)"
  },
  {
   "property": "C51",
   "status": "proved",
   "theorems": [
    "C51_axis_order"
   ],
   "note": "ground state code, the only code the generator writes"
  },
  {
   "property": "C52",
   "status": "proved",
   "theorems": [
    "C52_optimised_equals_default"
   ],
   "note": "all flags"
  },
  {
   "property": "C53",
   "status": "proved",
   "theorems": [
    "C53_code_sound"
   ],
   "note": "all flags"
  },
  {
   "property": "C54",
   "status": "proved",
   "theorems": [
    "C54_summed_indices"
   ],
   "note": "read off the text"
  },
  {
   "property": "C55",
   "status": "proved",
   "theorems": [
    "C55_fully_connected",
    "C55_unlinked",
    "C55_linked",
    "C55_linked_refuted"
   ],
   "note": "fully connected and unlinked: as stated; linked: exact condition, refuted otherwise (C55_linked_refuted)"
  },
  {
   "property": "C56",
   "status": "proved",
   "theorems": [
    "C56_one_kind",
    "C56_sides_refuted"
   ],
   "note": "one kind of operator: C56_one_kind; mixed projections refuted (C56_sides_refuted)"
  },
  {
   "property": "C57",
   "status": "proved",
   "theorems": [
    "C57_latex_success",
    "C57_refuted"
   ],
   "note": "equivalence over accepted truncations; C57_refuted is the failing case"
  },
  {
   "property": "C58",
   "status": "proved",
   "theorems": [
    "C58_prefactor",
    "C58_simplified"
   ],
   "note": "every contraction"
  },
  {
   "property": "C59",
   "status": "proved",
   "theorems": [
    "C59_file",
    "C59_excited_states_refused",
    "C59_rank_nine_refused"
   ],
   "note": "within the stated ranks; outside them C38 refutes the text"
  },
  {
   "property": "C60",
   "status": "proved",
   "theorems": [
    "C60_derivative_letters",
    "C60_shared_out_refuted"
   ],
   "note": "exact condition, refuted otherwise (C60_shared_out_refuted)"
  },
  {
   "property": "C61",
   "status": "proved",
   "theorems": [
    "C61_free_letters_disagree"
   ],
   "note": "the claim is false for every contraction; C61_free_letters_disagree is the general negation"
  },
  {
   "property": "C62",
   "status": "proved",
   "theorems": [
    "C62_one_reading",
    "C62_program"
   ],
   "note": "every truncation with 1 <= CC <= 8 and amplitudes t_1 (the validation accepts CC <= 6); the reader of python text is SpecPython.v"
  },
  {
   "property": "C63",
   "status": "proved",
   "theorems": [
    "C63_file_text",
    "C63_kinds_differ"
   ],
   "note": "exact text of every equation and of the file, projections up to rank 8 (C66: no others can be written)"
  },
  {
   "property": "C64",
   "status": "proved",
   "theorems": [
    "C64_printed_prefactor",
    "C64_same_as_python",
    "C64_refuted"
   ],
   "note": "every contraction; agreement with python: exact condition, refuted otherwise (C64_refuted)"
  },
  {
   "property": "C65",
   "status": "proved",
   "theorems": [
    "C65_letters",
    "C65_enough_letters",
    "C65_refuted"
   ],
   "note": "read off the text; exact bound, refuted beyond it for an accepted truncation (C65_refuted)"
  },
  {
   "property": "C66",
   "status": "proved",
   "theorems": [
    "C66_written",
    "C66_errors",
    "C66_accepted"
   ],
   "note": "equivalence for all truncations with amplitudes t_1, and for accepted truncations"
  },
  {
   "property": "C67",
   "status": "proved",
   "theorems": [
    "C67_one_derivative"
   ],
   "note": "every contraction"
  },
  {
   "property": "C68",
   "status": "proved",
   "theorems": [
    "C68_free_letters_disagree"
   ],
   "note": "the claim is false for every contraction; C68_free_letters_disagree is the general negation"
  },
  {
   "property": "C69",
   "status": "proved",
   "theorems": [
    "C69_full_cc_program"
   ],
   "note": "the text is read by the reader of python text of SpecPython.v; every truncation that can be written (C46)"
  },
  {
   "property": "C70",
   "status": "proved",
   "theorems": [
    "C70_full_cc_functions"
   ],
   "note": "about the printed text; which calls a term has is einsum_calls of the model, described by C30 and C32"
  },
  {
   "property": "C71",
   "status": "proved",
   "theorems": [
    "C71_all_paths_indexes_a_list"
   ],
   "note": "every generated file"
  },
  {
   "property": "C72",
   "status": "proved",
   "theorems": [
    "C72_w_program"
   ],
   "note": "all orders"
  },
  {
   "property": "C73",
   "status": "proved",
   "theorems": [
    "C73_w_default_functions"
   ],
   "note": "about the printed text; all level truncations"
  },
  {
   "property": "C74",
   "status": "proved",
   "theorems": [
    "C74_w_optimized_functions"
   ],
   "note": "about the printed text; the conditions `not truncation.x` and `truncation.x` are opposite"
  },
  {
   "property": "C75",
   "status": "proved",
   "theorems": [
    "C75_w_master_function"
   ],
   "note": "about the printed text"
  },
  {
   "property": "C76",
   "status": "proved",
   "theorems": [
    "C76_dt_program"
   ],
   "note": "all orders"
  },
  {
   "property": "C77",
   "status": "proved",
   "theorems": [
    "C77_dt_default_functions"
   ],
   "note": "about the printed text; all truth values of the conditions"
  },
  {
   "property": "C78",
   "status": "proved",
   "theorems": [
    "C78_dt_optimized_functions"
   ],
   "note": "about the printed text; the conditions `not truncation.x` and `truncation.x` are opposite"
  },
  {
   "property": "C79",
   "status": "proved",
   "theorems": [
    "C79_dt_callers"
   ],
   "note": "about the printed text"
  },
  {
   "property": "C80",
   "status": "proved",
   "theorems": [
    "C80_residual_program"
   ],
   "note": "all orders and ranks"
  },
  {
   "property": "C81",
   "status": "proved",
   "theorems": [
    "C81_residual_functions"
   ],
   "note": "about the printed text; the exceptions are C82"
  },
  {
   "property": "C82",
   "status": "proved",
   "theorems": [
    "C82_residual_h2_refuted",
    "C82_residual_labels_refuted"
   ],
   "note": "the claim is false; the two theorems say exactly when and how, for all truth values of the conditions"
  },
  {
   "property": "C83",
   "status": "proved",
   "theorems": [
    "C83_master_undefined_exactly"
   ],
   "note": "equivalence, all maximum orders and flags"
  },
  {
   "property": "C84",
   "status": "proved",
   "theorems": [
    "C84_residual_terms_exactly"
   ],
   "note": "the exact form of C14"
  },
  {
   "property": "C85",
   "status": "proved",
   "theorems": [
    "C85_residual_labels_exactly"
   ],
   "note": "the exact form of C15"
  },
  {
   "property": "C86",
   "status": "proved",
   "theorems": [
    "C86_w_names"
   ],
   "note": "all set orders, orders and truth values; names and calls are read off the text by SpecNames"
  },
  {
   "property": "C87",
   "status": "proved",
   "theorems": [
    "C87_dt_names",
    "C87_residual_names",
    "C87_dt_calls_residuals"
   ],
   "note": "names of both modules and the calls between them"
  },
  {
   "property": "C88",
   "status": "proved",
   "theorems": [
    "C88_symmetrizer"
   ],
   "note": "all maximum orders"
  },
  {
   "property": "C89",
   "status": "proved",
   "theorems": [
    "C89_w_symmetrizer_calls",
    "C89_dt_symmetrizer_calls",
    "C89_residual_symmetrizer_calls"
   ],
   "note": "equivalences: the calls fit exactly when there are none"
  },
  {
   "property": "C90",
   "status": "proved",
   "theorems": [
    "C90_workflow"
   ],
   "note": "both variants of compute_w_operators, levels up to four"
  },
  {
   "property": "C91",
   "status": "proved",
   "theorems": [
    "C91_one_of_each_place"
   ],
   "note": "about the printed text, without functions of the model; strengthens C70"
  },
  {
   "property": "C92",
   "status": "proved",
   "theorems": [
    "C92_reading_unique",
    "C92_ground_state_typeset",
    "C92_ground_state_typeset_exactly"
   ],
   "note": "by a reader of TeX text (SpecTex); equivalence with maximum order <= 9"
  },
  {
   "property": "C93",
   "status": "proved",
   "theorems": [
    "C93_thermal_not_typeset",
    "C93_thermal_content",
    "C93_thermal_content_exactly"
   ],
   "note": "the first sentence is false at every order (C93_thermal_not_typeset); the rest is an equivalence"
  },
  {
   "property": "C94",
   "status": "proved",
   "theorems": [
    "C94_full_cc_names"
   ],
   "note": "all set orders, truncations and truth values"
  },
  {
   "property": "C95",
   "status": "proved",
   "theorems": [
    "C95_eT_names",
    "C95_paths_unused"
   ],
   "note": "both sides and all truncations; C95_paths_unused is the exact form of the last part, which is false as stated"
  },
  {
   "property": "C96",
   "status": "proved",
   "theorems": [
    "C96_run_succeeds",
    "C96_run_writes",
    "C96_run_fails",
    "C96_truncations_file"
   ],
   "note": "all arguments and files; argparse, the log file and two spellings of one path are not modelled"
  },
  {
   "property": "C97",
   "status": "proved",
   "theorems": [
    "C97_replay",
    "C97_every_saved_file_can_be_replayed_refuted"
   ],
   "note": "exact: the replay succeeds exactly for values within the bounds; the unrestricted form is refuted by C97_every_saved_file_can_be_replayed_refuted"
  },
  {
   "property": "C98",
   "status": "proved",
   "theorems": [
    "C98_flags_without_effect",
    "C98_left_hand_side_is_the_right_one",
    "C98_one_path_per_text_refuted"
   ],
   "note": "all arguments; the last part is false as stated (C98_one_path_per_text_refuted)"
  },
  {
   "property": "C99",
   "status": "proved",
   "theorems": [
    "C99_full_cc_document",
    "C99_z_t_document",
    "C99_eT_document"
   ],
   "note": "the reader SpecTexDoc stands for LaTeX"
  },
  {
   "property": "C100",
   "status": "proved",
   "theorems": [
    "C100_run_writes_a_document"
   ],
   "note": "all arguments"
  },
  {
   "property": "C101",
   "status": "proved",
   "theorems": [
    "C101_ground_state_w_document"
   ],
   "note": "all orders and former contents"
  },
  {
   "property": "C102",
   "status": "proved",
   "theorems": [
    "C102_thermal_file_is_no_document",
    "C102_where_it_applies",
    "C102_thermal_file_is_a_document_refuted",
    "C102_second_run_same_file_refuted"
   ],
   "note": "the expected opposite is refuted for every order: C102_thermal_file_is_a_document_refuted, C102_second_run_same_file_refuted"
  },
  {
   "property": "C103",
   "status": "proved",
   "theorems": [
    "C103_full_cc_truncated",
    "C103_projections_truncated",
    "C103_z_t_truncated",
    "C103_eT_truncated"
   ],
   "note": "all three ansatz; e^T with amplitudes of rank one, order by order"
  },
  {
   "property": "C104",
   "status": "proved",
   "theorems": [
    "C104_runtime_truncations",
    "C104_larger_file",
    "C104_linear_refuted"
   ],
   "note": "exact form with the exception for H0 = 1: C104_linear_refuted shows that the exception is there"
  },
  {
   "property": "C105",
   "status": "proved",
   "theorems": [
    "C105_command_line",
    "C105_order",
    "C105_requests",
    "C105_dashed_values"
   ],
   "note": "the parser is that of python 3.9 (argparse), for words of one-byte characters"
  },
  {
   "property": "C106",
   "status": "proved",
   "theorems": [
    "C106_remove_f",
    "C106_false_keeps_f_terms_refuted"
   ],
   "note": "exact form; C106_false_keeps_f_terms_refuted shows what -rf False does"
  },
  {
   "property": "C107",
   "status": "proved",
   "theorems": [
    "C107_end_to_end",
    "C107_log_in_place_of_truncations"
   ],
   "note": "the messages of the log are arbitrary; C107_log_in_place_of_truncations is the other case"
  },
  {
   "property": "C108",
   "status": "proved",
   "theorems": [
    "C108_reproducible",
    "C108_sharp_latex",
    "C108_sharp_python",
    "C108_sharp_rank_four",
    "C108_same_contractions_refuted"
   ],
   "note": "sets of numbers and of tuples of numbers keep their order between runs of the same python; beyond the bound C108_sharp_* and C108_same_contractions_refuted"
  },
  {
   "property": "C109",
   "status": "proved",
   "theorems": [
    "C109_unknown_words",
    "C109_loose_values",
    "C109_not_a_number",
    "C109_ambiguous_words",
    "C109_help"
   ],
   "note": "the words read as options are given by the specification option_word (SpecRefused.v)"
  },
  {
   "property": "C110",
   "status": "proved",
   "theorems": [
    "C110_complete",
    "C110_lost"
   ],
   "note": "both directions: complete below the bound, a missing contraction named at every truncation beyond it (H <= 5; H = 6 raises IndexError, C46)"
  },
  {
   "property": "C111",
   "status": "proved",
   "theorems": [
    "C111_smaller_cluster",
    "C111_run_time",
    "C111_smaller_hamiltonian_refuted"
   ],
   "note": "exact set of contractions for all smaller conditions; the part of the claim about the Hamiltonian is refuted in general"
  },
  {
   "property": "C112",
   "status": "proved",
   "theorems": [
    "C112_python_computes_latex",
    "C112_how_often",
    "C112_once_refuted"
   ],
   "note": "term by term; how often each term is added is given exactly and the claim that it is once is refuted"
  },
  {
   "property": "C113",
   "status": "proved",
   "theorems": [
    "C113_module",
    "C113_document_and_module"
   ],
   "note": "whole program, from the words to the files"
  },
  {
   "property": "C114",
   "status": "proved",
   "theorems": [
    "C114_w_value",
    "C114_w_value_optimized"
   ],
   "note": "exact numbers; the sum before symmetrize_tensor is called"
  },
  {
   "property": "C115",
   "status": "proved",
   "theorems": [
    "C115_value",
    "C115_value_complete",
    "C115_one_number"
   ],
   "note": "exact numbers; default functions (the optimised ones make the same calls, C52)"
  },
  {
   "property": "C116",
   "status": "proved",
   "theorems": [
    "C116_symmetrizer_value"
   ],
   "note": "exact numbers"
  },
  {
   "property": "C117",
   "status": "proved",
   "theorems": [
    "C117_residual_value",
    "C117_residual_complete",
    "C117_residual_missing",
    "C117_residual_refused"
   ],
   "note": "exact numbers; up to order four, above it numpy refuses the statements; the missing h^2 term is stated as a number"
  },
  {
   "property": "C118",
   "status": "proved",
   "theorems": [
    "C118_dt_value",
    "C118_dt_value_optimized",
    "C118_dt_is_derivative_of_w"
   ],
   "note": "exact numbers; what is subtracted before symmetrize_tensor is called (C89, C116)"
  },
  {
   "property": "C119",
   "status": "proved",
   "theorems": [
    "C119_eT_value",
    "C119_eT_equation"
   ],
   "note": "exact numbers; amplitudes t_1 (the only ones the ansatz accepts)"
  },
  {
   "property": "C120",
   "status": "proved",
   "theorems": [
    "C120_displaced_operators"
   ],
   "note": "right hand side; exact numbers"
  },
  {
   "property": "C121",
   "status": "proved",
   "theorems": [
    "C121_symmetric_w",
    "C121_symmetric_w_orders",
    "C121_symmetric_w_optimized"
   ],
   "note": "all orders; symmetric amplitudes; exact numbers"
  },
  {
   "property": "C122",
   "status": "proved",
   "theorems": [
    "C122_residual_acts"
   ],
   "note": "orders up to four (numpy refuses the others, C117); operators whose terms are really added"
  },
  {
   "property": "C123",
   "status": "proved",
   "theorems": [
    "C123_equation_of_motion",
    "C123_equation_of_motion_optimized"
   ],
   "note": "orders up to four inside the truncation; exact numbers"
  },
  {
   "property": "C124",
   "status": "proved",
   "theorems": [
    "C124_displaced_derivative"
   ],
   "note": "all truncations and arrays; left hand side, series long enough"
  },
  {
   "property": "C125",
   "status": "proved",
   "theorems": [
    "C125_printed_w",
    "C125_printed_w_optimized",
    "C125_commuting_needed"
   ],
   "note": "all orders; commuting symmetric amplitudes; a witness that they must commute"
  },
  {
   "property": "C126",
   "status": "proved",
   "theorems": [
    "C126_both_sides"
   ],
   "note": "all accepted settings of both runs; linear T; series long enough"
  },
  {
   "property": "C127",
   "status": "proved",
   "theorems": [
    "C127_no_equation",
    "C127_paths_refuted"
   ],
   "note": "all files, groups and conditions; the optimised paths are refuted"
  },
  {
   "property": "C128",
   "status": "proved",
   "theorems": [
    "C128_reads_one_file",
    "C128_last_run",
    "C128_any_order"
   ],
   "note": "all sequences of runs"
  },
  {
   "property": "C129",
   "status": "proved",
   "theorems": [
    "C129_adjustment",
    "C129_against_code",
    "C129_lower_indices_refuted"
   ],
   "note": "all numbers of indices; z with at most one lower index, refuted for more"
  },
  {
   "property": "C130",
   "status": "proved",
   "theorems": [
    "C130_partitions",
    "C130_partitions_refuted",
    "C130_lists",
    "C130_dictionary",
    "C130_one_refuted",
    "C130_names_refuted"
   ],
   "note": "all n; that the lists are all partitions is refuted for every n >= 6"
  },
  {
   "property": "C131",
   "status": "proved",
   "theorems": [
    "C131_choices",
    "C131_as_printed",
    "C131_as_printed_refuted"
   ],
   "note": "agreement as printed is refuted for all truncations with two amplitudes and a Hamiltonian with operators"
  },
  {
   "property": "C132",
   "status": "proved",
   "theorems": [
    "C132_hz_value"
   ],
   "note": "projections without creation operators (the e^T module has no others)"
  },
  {
   "property": "C133",
   "status": "proved",
   "theorems": [
    "C133_document_and_module"
   ],
   "note": "LaTeX run first, then the python run; the log is not one of the files"
  },
  {
   "property": "C134",
   "status": "proved",
   "theorems": [
    "C134_lines",
    "C134_errors",
    "C134_other_n_refuted"
   ],
   "note": "names of amplitudes have at least two characters (they begin with t_)"
  },
  {
   "property": "C135",
   "status": "proved",
   "theorems": [
    "C135_joined_options",
    "C135_same_run",
    "C135_long_flags_refuted"
   ],
   "note": "joining of flags with several letters is refuted"
  },
  {
   "property": "C136",
   "status": "proved",
   "theorems": [
    "C136_left_hand_side"
   ],
   "note": "projections with up to ten indices: there are ten letters"
  },
  {
   "property": "C137",
   "status": "proved",
   "theorems": [
    "C137_any_layout",
    "C137_repeated_names"
   ],
   "note": "all layouts of flat objects of integers"
  },
  {
   "property": "C138",
   "status": "proved",
   "theorems": [
    "C138_same_run"
   ],
   "note": "all command lines with -p"
  },
  {
   "property": "C139",
   "status": "proved",
   "theorems": [
    "C139_values_or_file"
   ],
   "note": "values within the documented bounds"
  },
  {
   "property": "C140",
   "status": "proved",
   "theorems": [
    "C140_bad_file_refused"
   ],
   "note": "files whose names are truncation keys"
  }
 ]
}