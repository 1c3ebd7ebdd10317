{"id": "C01", "title": "Partition enumeration is exact", "statement": "generate_partitions_of_n(n) returns every integer partition of n exactly once, each written in non-increasing order, and the list itself is in strictly descending lexicographic order.", "quantifier": "every n >= 1", "why_tests_cant": "Tests list a few small n by hand; the number of partitions grows without bound and a missing or repeated partition at a larger n silently drops or doubles a term of every W / dt equation.", "anchors": ["helper_funcs.py:_partitions", "helper_funcs.py:generate_partitions_of_n"]}
{"id": "C02", "title": "Connected / linked / unlinked split of the partitions", "statement": "For each n, the connected partition (n,), the linked-disconnected list and the unlinked-disconnected list are pairwise disjoint, contain no repetitions and together are exactly all partitions of n; a partition is linked-disconnected iff it has at least two parts and at most one part larger than 1, and unlinked-disconnected iff at least two parts are larger than 1.", "quantifier": "every n >= 1 and every partition of n", "why_tests_cant": "The code decides with the numerical trick n - max(p) + 1 == len(p) and a set difference; unit tests check n <= 6 only and cannot show that the trick coincides with the documented meaning for every n.", "anchors": ["helper_funcs.py:generate_mixed_partitions_of_n", "helper_funcs.py:generate_linked_disconnected_partitions_of_n", "helper_funcs.py:generate_un_linked_disconnected_partitions_of_n"]}
{"id": "C03", "title": "unique_permutations is the sorted list of distinct rearrangements", "statement": "unique_permutations(xs) contains a sequence iff it is a rearrangement of xs, contains no sequence twice, and is sorted ascending.", "quantifier": "every finite sequence xs of comparable items", "why_tests_cant": "Set iteration order is unspecified and inputs with repeated items collapse; only a proof covers every multiplicity pattern and every set ordering.", "anchors": ["helper_funcs.py:unique_permutations"]}
{"id": "C04", "title": "VECC W operator contains every ordered product once", "statement": "Under the VECC ansatz the generated W operator of order n adds, for every composition (n1,...,nk) of n whose parts are all enabled by the runtime truncation flags, the product t_{n1} * ... * t_{nk} exactly once with prefactor 1/(k! n1! ... nk!), and nothing else (flags monotone: a rank is enabled only if all lower ranks are).", "quantifier": "every order 1 <= n <= 6 accepted by the generator, every monotone assignment of the truncation flags; at the partition level every n", "why_tests_cant": "The products come from three different generated functions (VECI line, mixed function, VECC function) guarded by run-time flags; a test compares text for one n and cannot show that the union is the Taylor expansion of the exponential for each flag combination.", "anchors": ["code_w_equations.py:_write_w_function_strings", "code_w_equations.py:_generate_vemx_contributions", "code_w_equations.py:_generate_vecc_contributions", "code_w_equations.py:_generate_w_operator_prefactor"]}
{"id": "C05", "title": "Mixed (VECI/CC) W operator contains exactly the mixed products", "statement": "Under the VE_MIXED ansatz the generated W operator of order n adds exactly the compositions of n with at most one part larger than 1 (each once, with prefactor 1/(k! n1! ... nk!)), restricted to enabled ranks.", "quantifier": "every order 1 <= n <= 6, every monotone truncation flag assignment", "why_tests_cant": "Same as for the VECC operator: it is a statement on the set of all generated calls under all run-time flags.", "anchors": ["code_w_equations.py:_generate_vemx_contributions", "code_w_equations.py:_write_w_function_strings"]}
{"id": "C06", "title": "W / dt einsum subscripts are well formed", "statement": "In every einsum call generated for a W operator or a dt amplitude the subscripts of operand j have exactly the rank of that operand, the surface labels form a matrix chain a..b of distinct intermediate letters, every mode letter of the output occurs in exactly one operand and in the output order, and no intermediate surface letter equals a mode letter or an output letter.", "quantifier": "every composition of every order the generator accepts (order <= 6), every operand position", "why_tests_cant": "Malformed subscripts are only visible when the generated file is executed with numpy on data; unit tests compare text and have pinned only small orders.", "anchors": ["code_w_equations.py:_generate_surface_index", "code_w_equations.py:_generate_mode_index", "code_w_equations.py:_w_einsum_list", "code_dt_equations.py:_generate_disconnected_einsum_function_call_list"]}
{"id": "C07", "title": "Every amplitude used by a generated W / dt function was unpacked there", "statement": "Each generated mixed, VECC, linked or unlinked function names only amplitudes which its own unpacking line binds (t_i ... up to its bound), so running it never raises NameError or unpacks too few names.", "quantifier": "every order and every partition handled by the function", "why_tests_cant": "The unpack ranges (order, order-1, order-2) are written independently of the partition lists; a too short range fails only when the particular generated function is executed.", "anchors": ["code_w_equations.py:_construct_vemx_contributions_definition", "code_w_equations.py:_construct_vecc_contributions_definition", "code_w_equations.py:_construct_w_function_definition", "code_dt_equations.py:_construct_linked_disconnected_definition", "code_dt_equations.py:_construct_un_linked_disconnected_definition"]}
{"id": "C08", "title": "Optimised W functions consume exactly the paths computed for them", "statement": "When compute_w_operators_optimized runs with the path lists produced by compute_optimized_vemx_paths / compute_optimized_vecc_paths for the same flags, the k-th next() call of each order uses the contraction expression built for exactly that product (same subscripts, same operand shapes) and the list is consumed completely, never exhausted early.", "quantifier": "every order 2..6; vemx: every assignment of truncation flags with singles enabled; vecc: every assignment with doubles enabled, or with no rank above singles (triples without doubles is refuted)", "why_tests_cant": "Producer and consumer are generated by different functions and are only tied by position in a list at run time under flags; no text comparison checks the alignment.", "anchors": ["code_w_equations.py:_optimized_w_einsum_list", "code_w_equations.py:_contracted_expressions", "code_w_equations.py:_write_optimized_vemx_paths_function", "code_w_equations.py:_write_optimized_vecc_paths_function"]}
{"id": "C09", "title": "The W master function only calls functions that were generated", "statement": "For the file produced with maximum order m, compute_w_operators and compute_w_operators_optimized call only _calculate_order_k functions that the file defines and index only existing entries of the path lists.", "quantifier": "every maximum order m accepted by generate_w_operators_string, every truncation flag assignment", "why_tests_cant": "It is a property of the generated program under all flags, not of the text compared by tests at m = 6 (or the small m pinned).", "anchors": ["code_w_equations.py:_write_master_w_compute_function", "code_w_equations.py:generate_w_operators_string"]}
{"id": "C10", "title": "dt functions implement the product rule", "statement": "The linked and unlinked disconnected functions of order n add, for each disconnected composition of n with the corresponding classification, the sum over every position of the product in which exactly that factor is replaced by its derivative, with the same prefactor as the W operator product - i.e. exactly the time derivative of the disconnected part of W.", "quantifier": "every order 2 <= n <= 6, every composition, every position", "why_tests_cant": "Leibniz rule over every product; tests pin the text of two orders.", "anchors": ["code_dt_equations.py:_generate_disconnected_einsum_function_call_list", "code_dt_equations.py:_generate_disconnected_einsum_operands_list", "code_dt_equations.py:_write_linked_disconnected_strings", "code_dt_equations.py:_write_un_linked_disconnected_strings"]}
{"id": "C11", "title": "Optimised dt functions consume exactly the paths computed for them", "statement": "solve_<name>_equations_optimized of order n, run with the lists returned by compute_optimized_paths for the same truncation flags, calls next() once per path computed for order n, in the same order and with the same shapes; the epsilon path taken is the one built for order n.", "quantifier": "every order 1..6 and every truncation level, i.e. flags in which each rank is enabled only together with all lower ranks (arbitrary flags are refuted)", "why_tests_cant": "The path functions guard each partition by a run-time flag while the consumers do not; alignment depends on flags at run time.", "anchors": ["code_dt_equations.py:_contracted_expressions", "code_dt_equations.py:_write_optimized_linked_paths_function", "code_dt_equations.py:_write_optimized_unlinked_paths_function", "code_dt_equations.py:_write_optimized_epsilon_paths_function", "code_dt_equations.py:_write_master_dt_amplitude_function"]}
{"id": "C12", "title": "Residual term list is exact", "statement": "For every order p the residual data contain exactly one term for each Hamiltonian operator h^m_n with m <= p, carrying h's (m, n) and a W operator with p - m external and n contracted indices.", "quantifier": "every p >= 0 for Hamiltonian rank <= 3, and p <= 3 for rank <= 9; rank >= 4 with p >= 4 raises, rank 10 is wrong (both also proved)", "why_tests_cant": "The (m, n) values are recovered by counting letters in a label string built elsewhere; only a proof covers all p and ranks.", "anchors": ["code_residual_equations.py:generate_residual_string_list", "code_residual_equations.py:generate_h_term", "code_residual_equations.py:generate_w_term"]}
{"id": "C13", "title": "Residual prefactors have the right value", "statement": "The prefactor printed for h^m_n in the order-p residual evaluates to C(p-m+n, n) / ((p-m+n)! m!).", "quantifier": "every order p >= 0, every operator of the quadratic Hamiltonian - with the one exception of h^2 from order 5 on, where the value is wrong (the theorem is an equivalence)", "why_tests_cant": "The number passes through string formatting, string simplification and re-parsing; a wrong branch appears only at orders that tests do not pin.", "anchors": ["code_residual_equations.py:construct_prefactor", "code_residual_equations.py:simplified_prefactor", "code_residual_equations.py:generate_p_term"]}
{"id": "C14", "title": "Each residual function adds each of its terms exactly once", "statement": "Executing the generated calculate_order_p_residual with the quadratic flag set and every W operator available adds each term of the residual exactly once.", "quantifier": "every order p >= 0", "why_tests_cant": "Which statements run depends on the generated if/else structure; golden-text tests pinned the structure itself.", "anchors": ["code_residual_equations.py:write_residual_function_string", "code_residual_equations.py:_same_w_order_term_list"]}
{"id": "C15", "title": "Residual einsum subscripts match the tensors", "statement": "In each residual einsum call the number of subscripts of h, W and the output equals the rank of the tensor, contracted indices occur in h and W only and external indices occur once in the inputs and once in the output.", "quantifier": "every order p >= 0 and every operator of the quadratic Hamiltonian", "why_tests_cant": "Index alphabets are fixed-length lists sliced with Python slices that truncate silently.", "anchors": ["code_residual_equations.py:_generate_einsum_h_indices", "code_residual_equations.py:_generate_einsum_w_indices", "code_residual_equations.py:_generate_einsum_ouput_indices", "code_residual_equations.py:_residual_terms_einsum"]}
{"id": "C16", "title": "Ground state W LaTeX lists each partition with its multiplicity prefactor", "statement": "ground_state_w_equations_latex prints for each order n <= max every partition of n exactly once, as the product of its distinct parts with the multiplicities as exponents, and the prefactor's value is 1 / (product of the factorials of the multiplicities), i.e. the number of distinct orderings divided by the factorial of the length.", "quantifier": "every maximum order and every partition", "why_tests_cant": "Unbounded in n; the multiplicity dictionary is built by a destructive loop.", "anchors": ["latex_w_equations.py:ground_state_w_equations_latex", "latex_w_equations.py:count_items", "latex_w_equations.py:generate_w_prefactor"]}
{"id": "C17", "title": "Excited state W groups are exactly the multisets of amplitudes", "statement": "generate_t_terms_group for W^m_n returns each multiset of non-trivial amplitudes t^a_b whose upper indices add up to m and lower indices to n exactly once, ordered by length, and the thermal W LaTeX prints, for every label W^m_n with m >= 1 and m + n up to the maximum, each of them once with the prefactor (number of orderings)/(number of factors)! - all but the single connected amplitude t^m_n with n >= 1, which it never prints.", "quantifier": "every (m, n) other than (0, 0)", "why_tests_cant": "Generate-and-filter through a Python set; tests pin max order 2.", "anchors": ["latex_w_equations.py:generate_t_terms_group", "latex_w_equations.py:excited_state_w_equations_latex"]}
{"id": "C18", "title": "Truncation validation accepts exactly the documented dictionaries", "statement": "Each verification function accepts a truncation dictionary iff all its keys are truncation keys and each key of the ansatz is present with a value between 1 and the published maximum; otherwise it raises. (Additional keys of another ansatz are tolerated.)", "quantifier": "every dictionary from truncation keys to integers, each of the three ansatz", "why_tests_cant": "Domain is all dictionaries; tests try a handful of failing examples.", "anchors": ["truncations.py:__verify_keys", "truncations.py:_verify_zhz_truncations", "truncations.py:_verify_fcc_truncations", "truncations.py:_verify_eT_z_t_truncations"]}
{"id": "C19", "title": "Saving then loading truncations is the identity", "statement": "Writing a valid truncation dictionary with save and reading the file back yields the same dictionary; anything loaded successfully is valid for the ansatz determined by its size.", "quantifier": "every valid truncation dictionary of each ansatz", "why_tests_cant": "Round trip law over the whole domain, including the key renaming between enum and string.", "anchors": ["truncations.py:_save_to_JSON", "truncations.py:_load_from_JSON", "truncations.py:load_trunc_from_JSON"]}
{"id": "C20", "title": "Driver arguments determine ansatz and truncations", "statement": "driver maps a list of 3, 4 or 5 integers to the truncation dictionary of the corresponding ansatz with the values in the documented key order, rejects other lengths, and the dispatcher calls the generator of that ansatz and no other.", "quantifier": "every list of integers and every combination of the command line flags", "why_tests_cant": "Decision table over all argument combinations.", "anchors": ["termfactory/driver.py:_make_trunc", "driver.py:main", "_glue_.py:_generate_python", "_glue_.py:_generate_latex", "truncation_keys.py:TruncationsKeys.key_list_type"]}
{"id": "C21", "title": "Different requests write different files", "statement": "Two requests have the same default path exactly when they agree in ansatz, kind (LaTeX/python) and side and, for python code of the exponential ansatz, in all truncations, otherwise in the ground-state and f-term flags. (So outputs of different truncations of the other generators overwrite each other.)", "quantifier": "every pair of requests", "why_tests_cant": "Injectivity over all pairs of configurations.", "anchors": ["_glue_.py:_generate_python", "_glue_.py:_generate_latex"]}
{"id": "C22", "title": "Operator generators enumerate the documented operators", "statement": "The projection, Hamiltonian, cluster (S / T) and Z operator generators return exactly the operators with upper and lower counts allowed by the rank limits, each exactly once, with consistent name, rank, m and n; the k-th Taylor term contains exactly the k-fold products of cluster operators.", "quantifier": "every rank limit and every Taylor order", "why_tests_cant": "Unbounded family of lists; tests compare rank 1 and 2.", "anchors": ["latex_full_cc.py:generate_omega_operator", "latex_full_cc.py:generate_full_cc_hamiltonian_operator", "latex_full_cc.py:generate_s_operator", "latex_full_cc.py:generate_s_taylor_expansion", "latex_zhz.py:generate_z_operator", "latex_eT_zhz.py:generate_eT_operator", "latex_eT_zhz.py:generate_eT_taylor_expansion"]}
{"id": "C23", "title": "Full CC: every emitted term is a valid contraction", "statement": "Each labelled term produced for a projection operator, a Hamiltonian operator and a product of amplitudes describes a complete contraction: every upper index of every operator is paired with a lower index of another operator, no amplitude contracts with another amplitude or itself, and the index counts stored on the projection, the Hamiltonian and each amplitude agree pairwise.", "quantifier": "every projection, Hamiltonian, and Taylor term, any rank", "why_tests_cant": "Combinatorial enumeration of contraction patterns for all ranks; unit tests compare short lists.", "anchors": ["latex_full_cc.py:_filter_out_valid_s_terms", "latex_full_cc.py:_generate_valid_s_n_operator_permutations", "latex_full_cc.py:_generate_all_valid_t_connection_permutations", "latex_full_cc.py:_generate_all_omega_h_connection_permutations", "latex_full_cc.py:_generate_explicit_connections"]}
{"id": "C24", "title": "Full CC: no valid contraction is missed", "statement": "Every complete contraction pattern between the projection, a Hamiltonian operator and a product of cluster amplitudes occurs among the emitted terms, up to the order of the amplitudes.", "quantifier": "every projection, Hamiltonian, Taylor term and contraction pattern", "why_tests_cant": "Completeness of an enumeration filtered by several heuristics (self-joining tests, balance tests) can not be sampled.", "anchors": ["latex_full_cc.py:_filter_out_valid_s_terms", "latex_full_cc.py:_omega_joining_with_itself", "latex_full_cc.py:_h_joining_with_itself", "latex_full_cc.py:_t_joining_with_t_terms"]}
{"id": "C25", "title": "Full CC: no contraction is emitted twice", "statement": "For a given projection, Hamiltonian operator and amplitude multiset no two emitted terms describe the same contraction pattern up to reordering of the amplitudes.", "quantifier": "every projection, Hamiltonian and Taylor term", "why_tests_cant": "Duplicates are removed by sorting and a Python set whose ordering is unspecified; double counting is a wrong equation but no test notices for ranks not pinned.", "anchors": ["latex_full_cc.py:_remove_duplicate_s_permutations", "latex_full_cc.py:_filter_out_valid_s_terms"]}
{"id": "C26", "title": "Full CC: fully connected / linked / unlinked classes partition the terms", "statement": "Each emitted term lands in exactly one of the three lists; it is fully connected iff every amplitude shares an index with the Hamiltonian, unlinked disconnected iff one amplitude shares no index with the Hamiltonian and takes all indices of the projection operator, linked disconnected iff some amplitude shares no index with the Hamiltonian but none of those takes the whole projection; the relative order is kept and no term is lost or duplicated by the separation.", "quantifier": "every list of terms produced by the term generator", "why_tests_cant": "Case analysis over all possible connection patterns.", "anchors": ["latex_full_cc.py:_seperate_s_terms_by_connection"]}
{"id": "C27", "title": "Removing f terms removes exactly the projection-Hamiltonian contractions", "statement": "With f-term removal enabled the remaining list is exactly the terms in which no creation operator of the projection is contracted with the Hamiltonian, in the original order.", "quantifier": "every term list", "why_tests_cant": "A filter on all terms; tests use one list.", "anchors": ["latex_full_cc.py:_remove_f_zero_terms", "code_full_cc.py:_generate_full_cc_einsums"]}
{"id": "C28", "title": "Prefactor simplification preserves the value", "statement": "Cancelling common factors between numerator and denominator lists takes the same factors out of both lists, so the rational value is unchanged, leaves no common factor, and returns the lists unchanged when they have no factor in common.", "quantifier": "every pair of factor lists", "why_tests_cant": "Law over all lists with arbitrary multiplicities.", "anchors": ["latex_full_cc.py:_simplify_full_cc_python_prefactor", "code_full_cc.py:_simplify_full_cc_python_prefactor", "code_eT_zhz.py:_simplify_eT_zhz_python_prefactor"]}
{"id": "C29", "title": "Full CC python prefactor equals the documented formula", "statement": "For each term the numeric prefactor printed in the python code equals x! / (h.m! h.n! k!), with x the number of different amplitudes contracted with the Hamiltonian and k the number of amplitudes, with common factorials cancelled; a bare Hamiltonian term has prefactor 1.", "quantifier": "every term", "why_tests_cant": "String assembled prefactors; value must hold for all ranks.", "anchors": ["code_full_cc.py:_build_full_cc_python_prefactor"]}
{"id": "C30", "title": "Full CC einsum labels are consistent", "statement": "In every full CC einsum call every summation letter occurs exactly twice, once on the Hamiltonian and once on one amplitude; every external letter occurs exactly once on the inputs and once in the output; the number of letters on every operand equals its tensor rank; electronic letters form a chain a c, c d, ..., x b.", "quantifier": "every term emitted for any truncation accepted by the validation", "why_tests_cant": "Letters are sliced from fixed alphabets with silently truncating slices, so the claim depends on the largest term of each truncation.", "anchors": ["code_full_cc.py:_full_cc_einsum_electronic_components", "code_full_cc.py:_full_cc_einsum_vibrational_components", "code_full_cc.py:_build_h_term_python_labels", "code_full_cc.py:_build_t_term_python_labels"]}
{"id": "C31", "title": "Full CC python: every term reaches the generated code", "statement": "The function generated for the fully connected / linked / unlinked list adds every bare Hamiltonian term, and contains the calls of exactly those other terms that are the last of their list with their Hamiltonian flag, amplitude flag and printed prefactor. (That every term reaches the code is false: a term is overwritten by a later one with the same flags and prefactor; a refuting truncation is proved.)", "quantifier": "every term list", "why_tests_cant": "Needs a correspondence between all terms and all emitted lines; pinned goldens contain the loss.", "anchors": ["code_full_cc.py:_write_cc_einsum_python_from_list"]}
{"id": "C32", "title": "Full CC python: calls of one term are pairwise different", "statement": "The einsum calls emitted for a term with two or more amplitudes are k! pairwise different calls, one for each order of the k amplitudes. (For a single amplitude the same call is repeated (rank of the projection)! times, so the claim is false without the condition; both facts are proved.)", "quantifier": "every term", "why_tests_cant": "Loops over permutations whose loop variable may or may not be used; visible only as repeated numerically identical contributions.", "anchors": ["code_full_cc.py:_write_cc_einsum_python_from_list", "code_full_cc.py:_multiple_perms_logic"]}
{"id": "C33", "title": "Full CC optimised functions consume exactly the paths computed for them", "statement": "Under any run-time truncation flags the sequence of next() calls made by each optimised full CC function has the same length and order, and the same operand shapes, as the list built by the corresponding path function.", "quantifier": "every term list and every flag assignment", "why_tests_cant": "Positional protocol between two generated programs under run-time flags.", "anchors": ["code_full_cc.py:_write_cc_einsum_python_from_list", "code_full_cc.py:_write_cc_optimized_paths_from_list"]}
{"id": "C34", "title": "Full CC LaTeX prints every term once", "statement": "The equation text printed for a projection contains every requested contraction exactly once, in the group of its connection, with its prefactor, f factors and indices, whatever the number of terms. (Refuted for 14 or more fully connected terms, where the last (number modulo 7) terms are missing; everything else is proved.)", "quantifier": "every list of terms, any length", "why_tests_cant": "Line splitting depends on the length modulo the split width; tests pin one short and one long list.", "anchors": ["latex_full_cc.py:_make_latex", "latex_full_cc.py:_write_cc_latex_from_lists"]}
{"id": "C35", "title": "Full CC left hand side enumerates all disconnected derivatives", "statement": "The left hand side printed for a projection operator contains each multiset of amplitudes matching the projection exactly once, with the derivative taken once for each factor position.", "quantifier": "every projection operator", "why_tests_cant": "Generate and filter through a set for unbounded rank.", "anchors": ["latex_full_cc.py:_generate_left_hand_side"]}
{"id": "C36", "title": "HZ / zhz: emitted terms are exactly the valid contractions", "statement": "The z-symmetric term generator emits exactly the complete contraction patterns between the projection, the Hamiltonian and the left/right Z operators (no Z contracts with itself; left-left or right-right contractions never occur), each exactly once.", "quantifier": "every projection, Hamiltonian and Z operator pair of any rank", "why_tests_cant": "Soundness, completeness and uniqueness of an enumeration over all ranks.", "anchors": ["latex_zhz.py:_filter_out_valid_z_terms", "latex_zhz.py:_generate_valid_z_n_operator_permutations", "latex_zhz.py:_generate_all_valid_z_connection_permutations", "latex_zhz.py:_generate_all_o_h_z_connection_permutations", "latex_zhz.py:_generate_explicit_z_connections"]}
{"id": "C37", "title": "zhz LaTeX prints every term once", "statement": "The z-symmetric LaTeX for a list of terms contains every term exactly once, in order, with balanced parentheses, whatever the number of terms.", "quantifier": "every list of terms, any length", "why_tests_cant": "Depends on length modulo the split width for every length.", "anchors": ["latex_zhz.py:_prepare_second_z_latex", "latex_zhz.py:_prepare_third_z_latex", "latex_zhz.py:_prepare_fourth_z_latex"]}
{"id": "C38", "title": "zhz LaTeX labels are never truncated", "statement": "For every truncation accepted for the zhz ansatz each label printed on h and z carries as many letters as the contraction has indices.", "quantifier": "every accepted truncation and every term", "why_tests_cant": "Fixed alphabets with silently truncating slices; only the largest terms overflow.", "anchors": ["latex_zhz.py:_build_h_term_latex_labels", "common_imports.py:z_summation_indices"]}
{"id": "C39", "title": "e^T HZ: emitted terms are valid contractions", "statement": "Every term emitted by the e^T H Z term generator is a complete contraction pattern: counts on the projection, every t, the Hamiltonian and Z agree pairwise (for the amplitudes and Z up to the order of the amplitudes) and add up to the operator ranks.", "quantifier": "every projection, Taylor term, Hamiltonian and Z operator within ground state truncations", "why_tests_cant": "Enumeration code keeps state across loop iterations (lists not reset, loop variables leaking); an interleaving of iterations cannot be covered by samples.", "anchors": ["latex_eT_zhz.py:_filter_out_valid_eTz_terms", "latex_eT_zhz.py:_generate_all_o_eT_h_z_connection_permutations", "latex_eT_zhz.py:_generate_explicit_eT_z_connections"]}
{"id": "C40", "title": "e^T HZ: every valid contraction is emitted", "statement": "For the ground state every complete contraction pattern of projection, t_1 amplitudes, Hamiltonian and Z (no t-t contraction) is represented by at least one emitted term and by exactly one printed einsum call per guard.", "quantifier": "every ground-state projection, Taylor order, Hamiltonian and Z operator", "why_tests_cant": "Completeness over all ranks in the presence of leaking loop state.", "anchors": ["latex_eT_zhz.py:_filter_out_valid_eTz_terms", "code_eT_zhz.py:_write_third_eTz_einsum_python"]}
{"id": "C41", "title": "e^T HZ right hand side contains the bare h_0 z_n term", "statement": "The generated right hand side of the order-n amplitude contains the contribution h^0_0 * z^n (no amplitudes), like every other H Z contraction.", "quantifier": "every truncation and every projection order n not above the Z rank", "why_tests_cant": "Goldens pin the absence; the term is removed by code meant for the left hand side only.", "anchors": ["code_eT_zhz.py:_generate_eT_zhz_einsums"]}
{"id": "C42", "title": "e^T HZ left hand side drops only the derivative being solved for", "statement": "On the left hand side exactly the single term 1 * 1 * d(z^n)/dtau is left out of the equation of order n.", "quantifier": "every truncation and every projection order", "why_tests_cant": "List mutation while iterating; must hold for all lists.", "anchors": ["code_eT_zhz.py:_generate_eT_zhz_einsums"]}
{"id": "C43", "title": "e^T HZ einsum calls are well formed", "statement": "In every generated einsum call the number of subscript groups equals the number of operands, every group's length equals the rank of its tensor, summation letters occur exactly twice, external letters once in the inputs and once in the output, and the output has the rank of the projection.", "quantifier": "every term for every accepted truncation, both sides", "why_tests_cant": "Empty groups are pruned from the subscripts independently of the operand list; letters come from fixed alphabets with truncating slices.", "anchors": ["code_eT_zhz.py:_eT_zhz_einsum_vibrational_components", "code_eT_zhz.py:_eT_zhz_einsum_electronic_components", "code_eT_zhz.py:_write_third_eTz_einsum_python"]}
{"id": "C44", "title": "e^T HZ prefactor has the documented value and its assertion never fires", "statement": "For each emitted term the printed prefactor equals binomials for external and H-Z labels times H-Z permutations over h.m! h.n! z.m! (in lowest terms), and the internal assertion that all labels were accounted for never fails.", "quantifier": "every emitted term", "why_tests_cant": "Requires the index balance of every emitted term.", "anchors": ["code_eT_zhz.py:_build_eT_zhz_python_prefactor"]}
{"id": "C45", "title": "e^T HZ guards: every line runs under exactly its own truncation guards", "statement": "In the generated function every einsum line is nested under the h, t and z guards of its own Hamiltonian order, amplitude rank and Z rank (order zero unguarded), no line is lost or duplicated by the bucketing, and no guard is printed without a body, so the file is syntactically valid.", "quantifier": "every list of terms, both sides", "why_tests_cant": "A statement on the whole bucketing / printing pipeline for all lists.", "anchors": ["code_eT_zhz.py:_write_third_eTz_einsum_python", "code_eT_zhz.py:_collect_z_contributions", "code_eT_zhz.py:_handle_multiline_same_prefactor"]}
{"id": "C46", "title": "Every accepted truncation can be generated", "statement": "For each truncation dictionary accepted by the validation, generation of python code finishes without an exception.", "quantifier": "every accepted truncation dictionary of each ansatz", "why_tests_cant": "The accepted domain is a product of ranges, and failures come from fixed-size tag tables indexed by rank.", "anchors": ["truncations.py", "code_eT_zhz.py:_write_third_eTz_einsum_python", "code_full_cc.py:_write_cc_einsum_python_from_list", "latex_full_cc.py:prepare_condensed_terms", "code_w_equations.py:hamiltonian_order_tag"]}
{"id": "C47", "title": "e^T LaTeX prints every distinct term once", "statement": "The e^T LaTeX for a list of terms contains each distinct term string exactly once in order of first occurrence, for any number of terms.", "quantifier": "every list of terms, any length", "why_tests_cant": "Depends on length modulo split width and on duplicate suppression for every list.", "anchors": ["latex_eT_zhz.py:_prepare_third_eTz_latex"]}
{"id": "C48", "title": "Ground-state amplitude filter keeps exactly the ground-state products", "statement": "remove_all_excited_state_t_terms keeps exactly the Taylor terms whose amplitudes all have no annihilation part.", "quantifier": "every Taylor expansion", "why_tests_cant": "Deletes a count of elements from the front of each list 'hoping they are at the front'; only holds for some orders of the list.", "anchors": ["code_eT_zhz.py:remove_all_excited_state_t_terms"]}
{"id": "C49", "title": "The symmetriser sums every mode permutation once", "statement": "The generated symmetrising function of order n adds the transpose of the tensor for every permutation of its n mode axes exactly once (n! terms) and never moves the two surface axes.", "quantifier": "every order n", "why_tests_cant": "The number of terms is n!; a test can list orders up to 3 by hand.", "anchors": ["helper_funcs.py:build_symmetrizing_function"]}
{"id": "C50", "title": "Full CC python: which truncation flags guard a call", "statement": "A generated full CC function makes a call under a given set of run-time flags exactly when it makes it under all flags, the flag of max(h.m, h.n) is set (or that number is 0) and the flag of the largest amplitude rank is set. (It is not the flag of the Hamiltonian rank h.m + h.n: refuted by h^1_1.)", "quantifier": "every accepted truncation with Hamiltonian rank at most 5, every projection operator, all flags", "why_tests_cant": "Relates the nesting of printed if statements to the operands of each call for all flag assignments.", "anchors": ["code_full_cc.py:_write_cc_einsum_python_from_list"]}
{"id": "C51", "title": "Full CC python: uniform axis order of the tensors", "statement": "In all calls of the ground state code h_args[(m, n)] is subscripted with its n summed letters first and then m letters of the result, and each t_args entry with its summed letters before its letters of the result, so one storage convention for h and t fits all calls.", "quantifier": "every accepted truncation with Hamiltonian rank at most 5, every projection operator", "why_tests_cant": "A convention over all generated calls; a single deviating call silently contracts the wrong axes.", "anchors": ["code_full_cc.py:_build_h_term_python_labels", "code_full_cc.py:_build_t_term_python_labels"]}
{"id": "C52", "title": "Full CC python: default and optimised functions compute the same sum", "statement": "Under all run-time flags the optimised function adds the same bare terms as the default function and makes the same calls with the same prefactors and operands in the same order.", "quantifier": "every accepted truncation with Hamiltonian rank at most 5, every projection operator, all flags", "why_tests_cant": "Equality of two generated programs under all flags.", "anchors": ["code_full_cc.py:_write_cc_einsum_python_from_list", "code_full_cc.py:_generate_full_cc_compute_functions"]}
{"id": "C53", "title": "Full CC python: every executed call is a requested contraction with the right prefactor", "statement": "Under any flags every einsum call executed by a generated function contracts the indices of a contraction that belongs to the truncation (ranks, number of amplitudes, no projection creation operator on the Hamiltonian) and its printed prefactor is x! / (h.m! h.n! k!).", "quantifier": "every accepted truncation with Hamiltonian rank at most 5, every projection operator, all flags", "why_tests_cant": "End to end statement from truncation numbers to executed calls.", "anchors": ["code_full_cc.py:_generate_full_cc_einsums", "code_full_cc.py:_write_cc_einsum_python_from_list"]}
{"id": "C54", "title": "Full CC LaTeX: summed indices are contracted once", "statement": "Read off the printed text, every summed letter of a printed term stands once in an upper and once in a lower position, and a term with n summed indices uses the first n letters of the alphabet.", "quantifier": "every term printed for any truncation, in all three groups", "why_tests_cant": "Property of the printed text of all terms of all truncations; a wrong offset shows only for particular contractions.", "anchors": ["latex_full_cc.py:_build_h_term_latex_labels", "latex_full_cc.py:_build_t_term_latex_labels"]}
{"id": "C55", "title": "Full CC LaTeX: free indices match the projection", "statement": "Every printed term, together with its common factor, carries the first (rank) free letters exactly once each. (Proved for fully connected and unlinked terms; for linked disconnected terms it holds exactly when not both h and the connected amplitudes carry free indices, refuted otherwise.)", "quantifier": "every term printed for any truncation", "why_tests_cant": "Depends on how the label offset of the common factor combines with those of h and t for every contraction.", "anchors": ["latex_full_cc.py:prepare_condensed_terms", "latex_full_cc.py:_build_t_term_latex"]}
{"id": "C56", "title": "Full CC LaTeX: a free index stays on its side", "statement": "Within one equation a free letter stands always above or always below. (True for projections with operators of one kind; refuted for mixed projections, where the same letter is upper in one term and lower in another.)", "quantifier": "every projection operator", "why_tests_cant": "Compares the positions of a letter over all terms of an equation.", "anchors": ["latex_full_cc.py:_build_h_term_latex_labels", "latex_full_cc.py:_build_t_term_latex_labels"]}
{"id": "C57", "title": "Full CC LaTeX: which accepted truncations can be written", "statement": "For a truncation accepted by the validation the LaTeX file is written exactly when the amplitude rank or the projection rank is at most 3; otherwise generation ends in NotImplementedError.", "quantifier": "every accepted truncation, every flag", "why_tests_cant": "All 6^4 truncations and all options; the large ones take too long to run in tests.", "anchors": ["latex_full_cc.py:generate_full_cc_latex", "latex_full_cc.py:prepare_condensed_terms"]}
{"id": "C58", "title": "HZ LaTeX: prefactor of a product h z", "statement": "The prefactor printed in front of a product of the Hamiltonian and the right Z equals one over the product of the factorials of the numbers of contracted pairs of every kind (h-projection, h-Z, Z-projection, creation and annihilation separately).", "quantifier": "every contraction of any rank", "why_tests_cant": "The prefactor is assembled from binomials and factorials with many branches (only numbers above 1 are printed).", "anchors": ["latex_zhz.py:_build_hz_latex_prefactor"]}
{"id": "C59", "title": "HZ LaTeX: which files are written and what they contain", "statement": "For the ground state, with Hamiltonian or Z rank at most 5 and projections of rank at most 7, the file is written and holds for every projection, in order of rank, the t equation and the z equation with h alone, every contraction of h with Z once, and the products of dt/dtau and z; with excited states generation always ends in NotImplementedError, and with rank 9 projections in IndexError.", "quantifier": "all truncation ranks, both values of remove_f_terms", "why_tests_cant": "End to end statement from truncation numbers to the characters of the file.", "anchors": ["latex_zhz.py:generate_z_t_symmetric_latex", "latex_zhz.py:_generate_z_symmetric_latex_equations"]}
{"id": "C60", "title": "HZ LaTeX: letters of dt/dtau and z", "statement": "In every printed product of dt/dtau and z the letters of the annihilation operators of the projection are shared out between t and z. (True exactly when the projection has no creation operator or z no index; refuted for mixed projections.)", "quantifier": "every projection and every number of indices on z", "why_tests_cant": "The overlap appears only for mixed projections; no test compares letters.", "anchors": ["latex_zhz.py:_build_fifth_z_term"]}
{"id": "C61", "title": "HZ LaTeX: the terms of an equation have the same free indices", "statement": "All terms of one z equation carry the free letters of its left hand side. (Refuted: the free letters of a product h z are never among those of the left hand side.)", "quantifier": "every projection of rank at least 1", "why_tests_cant": "Compares the letters of different terms of one equation.", "anchors": ["latex_zhz.py:_build_hz_term_latex_labels", "latex_zhz.py:_build_first_z_term"]}
{"id": "C62", "title": "e^T python: the generated file is a complete program", "statement": "The text generate_eT_zhz_python writes, read as python (indentation, brackets, comments, documentation strings), is a program that on import executes exactly its five imports and defines, for every projection with p annihilation operators up to the cluster and projection ranks, default and optimised, the functions of the terms without and with amplitudes and the function of the residual, each once and nothing else; executing the ground state branch of a terms function under any truth values of the printed conditions adds exactly the enabled contractions of the ansatz, each once with its value; the residual function allocates a tensor with p mode axes and calls both with the arguments they are defined with.", "quantifier": "all truncations the generator can write, both sides, all truth values of the conditions", "why_tests_cant": "A statement about the meaning of the complete text for every truncation; tests compare a few recorded files character by character.", "anchors": ["code_eT_zhz.py:generate_eT_zhz_python", "code_eT_zhz.py:_generate_eT_zhz_python_file_contents", "code_eT_zhz.py:_construct_eT_zhz_compute_function", "code_eT_zhz.py:_write_master_eT_zhz_compute_function", "code_eT_zhz.py:_write_third_eTz_einsum_python"]}
{"id": "C63", "title": "e^T LaTeX: which terms a file contains", "statement": "The LaTeX file has one section for every number of annihilation operators of the projection up to the cluster and projection ranks, in this order with its heading, the t equation and the z equation; the equation has exactly one term for every kind of contraction the truncation allows (numbers of pairs of z, H, the amplitudes and the projection), all texts being different, on one line or in lines of four.", "quantifier": "all truncation ranks with amplitudes t_1, both sides, both values of remove_f_terms", "why_tests_cant": "End to end statement from truncation numbers to the characters of the file; that the suppression of duplicates removes no other term depends on every pair of contractions.", "anchors": ["latex_eT_zhz.py:generate_eT_z_t_symmetric_latex", "latex_eT_zhz.py:_generate_eT_z_symmetric_latex_equations", "latex_eT_zhz.py:_prepare_third_eTz_latex"]}
{"id": "C64", "title": "e^T LaTeX: prefactor of a term and agreement with the python code", "statement": "The fraction printed in front of a term is one over the factorials of the numbers of pairs of z and H with the projection, of z with H, and of the number of amplitudes. (It equals the prefactor of the generated python code exactly when z and H are not both paired with amplitudes; refuted otherwise, because contractions with the same text are printed once.)", "quantifier": "every contraction of any rank and number of amplitudes", "why_tests_cant": "The prefactor is assembled from binomials and factorials with many branches; no test compares the two generators.", "anchors": ["latex_eT_zhz.py:_build_eThz_latex_prefactor", "code_eT_zhz.py:_build_eT_zhz_python_prefactor"]}
{"id": "C65", "title": "e^T LaTeX: letters of the pairs", "statement": "Read off the printed text, every summed pair carries the same letter once above and once below, different pairs different letters, and the pairs with the projection carry the first free letters once each, above. (True for at most five summed and seven free pairs; otherwise letters are missing, refuted for an accepted truncation.)", "quantifier": "every contraction of any rank and number of amplitudes, both sides", "why_tests_cant": "Property of the printed text of all terms; a wrong offset shows only for particular contractions.", "anchors": ["latex_eT_zhz.py:_build_eT_term_latex_labels", "latex_eT_zhz.py:_build_eT_hz_term_latex_labels", "latex_eT_zhz.py:_build_eT_right_z_term"]}
{"id": "C66", "title": "e^T LaTeX: which files are written", "statement": "With amplitudes t_1 the file is written exactly for the ground state, Taylor order at least 1 and projections of rank at most 8; otherwise generation ends in NotImplementedError (excited states) or IndexError. So every truncation accepted by the validation can be written for the ground state and none with excited states.", "quantifier": "all truncations, both sides, all flags", "why_tests_cant": "All accepted truncations and all options; the large ones take too long to run in tests.", "anchors": ["latex_eT_zhz.py:generate_eT_z_t_symmetric_latex"]}
{"id": "C67", "title": "e^T LaTeX: time derivatives", "statement": "Every printed term of the left hand side contains exactly one time derivative (of the amplitude in place of H, or of z), and no contraction on the right hand side contains one.", "quantifier": "every contraction of any rank and number of amplitudes", "why_tests_cant": "Depends on branches for operators of rank 0 in two functions that have to agree.", "anchors": ["latex_eT_zhz.py:_build_eT_hz_term_latex_labels", "latex_eT_zhz.py:_build_eT_right_z_term"]}
{"id": "C68", "title": "e^T LaTeX: the terms of an equation have the same free indices", "statement": "All terms of one z equation carry the free letters of its left hand side. (Refuted: the free letters of a contraction are never among those of the left hand side and of h alone.)", "quantifier": "every projection of rank 1 to 7, every contraction", "why_tests_cant": "Compares the letters of different terms of one equation.", "anchors": ["latex_eT_zhz.py:_build_eT_right_z_term", "latex_eT_zhz.py:generate_eT_z_t_symmetric_latex"]}
{"id": "C69", "title": "Full CC python: the generated file is a complete program", "statement": "The text generate_full_cc_python writes, read as python, is a program that on import executes exactly its five imports and defines, for every projection operator up to the cluster and projection ranks, the functions of the three groups of terms and of the amplitude (default and optimised), the functions of the optimised paths of the groups and of the projection, and one function for all paths, each once and nothing else; the amplitude functions allocate a tensor of the rank of the projection, take the three path lists in the order in which the path function of the projection returns them, and call the three group functions with the arguments they are defined with.", "quantifier": "all truncations the generator can write, every iteration order of the sets", "why_tests_cant": "A statement about the complete text for every truncation; tests compare a few recorded files character by character.", "anchors": ["code_full_cc.py:generate_full_cc_python", "code_full_cc.py:_generate_full_cc_python_file_contents", "code_full_cc.py:_write_master_full_cc_compute_function", "code_full_cc.py:_write_grouped_optimized_paths_function", "code_full_cc.py:_wrap_full_cc_generation", "code_import_statements_module.py:full_cc_import_statements"]}
{"id": "C70", "title": "Full CC python: what the functions of the file do", "statement": "For every projection operator and each of the groups fully connected, linked and unlinked: executing the printed statements of the default function under any truth values of the printed conditions adds requested contractions of that group with correct subscripts and prefactor, each under its flags, namely those of the last term of each place; the optimised function makes the same additions in the same order with the next entry of its path list; the path function builds exactly this list, with the shapes of the operands.", "quantifier": "all truncations the generator can write, all truth values of the conditions, every iteration order of the sets", "why_tests_cant": "Connects three generated functions and the truncation to the characters of the file, for all combinations of flags.", "anchors": ["code_full_cc.py:_generate_full_cc_compute_functions", "code_full_cc.py:_generate_optimized_paths_functions", "code_full_cc.py:_write_cc_einsum_python_from_list", "code_full_cc.py:_write_cc_optimized_paths_from_list"]}
{"id": "C71", "title": "Full CC python: the function of all paths fails", "statement": "In every generated file compute_all_optimized_paths assigns to the entry (m, n) of an empty list as its first action (and then to one entry per projection operator), so that calling it raises a TypeError instead of returning the dictionary its documentation string promises.", "quantifier": "all truncations the generator can write", "why_tests_cant": "No test calls the generated function; the statement is about all generated files.", "anchors": ["code_full_cc.py:_write_optimized_master_paths_function"]}
{"id": "C72", "title": "W operators: the generated file is a complete program", "statement": "generate_w_operator_equations_file writes a file exactly for the orders up to six; its text, read as python, is a program that on import executes exactly its imports and defines, for every order up to the maximum, the functions of the vemx contributions, of the vecc contributions and of the W operator (default and optimised), the two functions of all operators and the two functions of optimised paths, each once, in this order, and nothing else.", "quantifier": "every maximum order, every iteration order of the sets of permutations", "why_tests_cant": "A statement about the complete text; tests compare recorded output.", "anchors": ["code_w_equations.py:generate_w_operator_equations_file", "code_w_equations.py:generate_w_operators_string", "code_import_statements_module.py:w_equations_import_statements"]}
{"id": "C73", "title": "W operators: what the default functions of the file add", "statement": "Executing the printed statements of _calculate_order_k_w_operator, and of the functions it calls, under any level truncation and any ansatz, makes an array of the shape of order k and adds each product of amplitudes inside the truncation and the ansatz whose ranks sum to k, once, with its weight in the exponential, with the subscripts of a matrix product and with every amplitude unpacked, and nothing else; it returns the symmetrised array.", "quantifier": "every order up to the maximum, all level truncations and ansatz flags, every iteration order of the sets", "why_tests_cant": "Connects two generated functions and the truncation to the characters of the file, for all combinations of flags.", "anchors": ["code_w_equations.py:_write_w_function_strings", "code_w_equations.py:_generate_vemx_contributions", "code_w_equations.py:_generate_vecc_contributions"]}
{"id": "C74", "title": "W operators: the optimised functions of the file", "statement": "The path functions of the file return, for each order, lists of contraction expressions with which the optimised function of that order adds the same products with the same weights as the default function, in the same order; each expression has the subscripts and the shapes of the product it is used for, and the lists are used up.", "quantifier": "every order up to the maximum, all level truncations and ansatz flags, every iteration order of the sets", "why_tests_cant": "Order and number of the entries of two lists built by one function and consumed by another, as they are printed.", "anchors": ["code_w_equations.py:_write_optimized_vemx_paths_function", "code_w_equations.py:_write_optimized_vecc_paths_function", "code_w_equations.py:_generate_vecc_contributions"]}
{"id": "C75", "title": "W operators: the function of all operators of the file", "statement": "compute_w_operators (default and optimised) raises without singles; otherwise, without quintuples, it calls the functions of the orders 1..n the truncation needs, hands each its own path lists, and returns w_1..w_n and None up to six values; with quintuples it raises NotImplementedError. The functions it calls are in the file exactly for the orders up to the maximum order of the file.", "quantifier": "all truth values of the conditions (level truncations for the last case), both variants", "why_tests_cant": "Control flow with early returns over five flags; tests compare the text only.", "anchors": ["code_w_equations.py:_write_master_w_compute_function"]}
{"id": "C76", "title": "Time derivatives: the generated file is a complete program", "statement": "generate_dt_amplitude_equations_file writes a file exactly for the orders up to six; its text, read as python, is a program that on import executes exactly its imports and defines, for every order up to the maximum, the functions of the linked and of the un-linked disconnected terms, of the amplitude and the solve function of the caller (default and optimised), the function of all optimised paths and the functions of the epsilon, linked and unlinked paths, each once, in this order, and nothing else.", "quantifier": "every maximum order, every iteration order of the sets of permutations", "why_tests_cant": "A statement about the complete text; tests compare recorded output.", "anchors": ["code_dt_equations.py:generate_dt_amplitude_equations_file", "code_dt_equations.py:generate_dt_amplitude_string", "code_import_statements_module.py:dt_equations_import_statements"]}
{"id": "C77", "title": "Time derivatives: what the default functions of the file subtract", "statement": "Executing the printed statements of _calculate_order_k_dt_amplitude, and of the functions it calls, under any truth values of the ansatz flags, takes the residual of order k, subtracts the product of W_k and epsilon over k! and, for each disconnected product of amplitudes of the ansatz whose ranks sum to k and each of its factors, the product with that factor replaced by its derivative, once, with the weight of the product in the exponential, with the subscripts of a matrix product and with every operand unpacked, and nothing else; it returns the symmetrised difference.", "quantifier": "every order up to the maximum, all truth values of the conditions, every iteration order of the sets", "why_tests_cant": "Connects three generated functions and the ansatz to the characters of the file, for all combinations of flags.", "anchors": ["code_dt_equations.py:_write_dt_amplitude_strings", "code_dt_equations.py:_write_linked_disconnected_strings", "code_dt_equations.py:_write_un_linked_disconnected_strings"]}
{"id": "C78", "title": "Time derivatives: the optimised functions of the file", "statement": "The path functions of the file return, for each order inside the truncation, the contraction expression for the product with epsilon and the two lists with which the optimised function of that order subtracts the same products with the same weights as the default function, in the same order; each expression has the subscripts and the shapes of the product it is used for, and the lists are used up.", "quantifier": "every order up to the maximum, all level truncations containing the order, all ansatz flags, every iteration order of the sets", "why_tests_cant": "Order and number of the entries of three lists built by one function and consumed by another, as they are printed.", "anchors": ["code_dt_equations.py:_write_optimized_linked_paths_function", "code_dt_equations.py:_write_optimized_unlinked_paths_function", "code_dt_equations.py:_write_optimized_epsilon_paths_function", "code_dt_equations.py:_write_dt_amplitude_strings"]}
{"id": "C79", "title": "Time derivatives: the functions a caller uses", "statement": "compute_optimized_paths of the file returns the epsilon, linked and unlinked lists in the order in which solve_<rank>_equations_optimized unpacks them; solve_<rank>_equations (default and optimised) is in the file exactly for the orders up to the maximum, raises when its rank is outside the truncation, and otherwise returns the amplitude the function of its order computes from the same arguments, the optimised one with the entries of the three lists that belong to its order.", "quantifier": "every maximum order, every rank, all truth values of the conditions, both variants", "why_tests_cant": "Indices and argument orders that have to agree between functions, for every rank.", "anchors": ["code_dt_equations.py:_write_master_dt_amplitude_function", "code_dt_equations.py:_write_optimized_master_paths_function"]}
{"id": "C80", "title": "Residuals: the generated file is a complete program", "statement": "generate_residual_equations_file writes a file exactly for orders up to six and Hamiltonians of rank up to two; its text, read as python, is a program that on import executes exactly its two imports and defines calculate_order_p_residual for p = 0 up to the maximum order, each once, in this order, and nothing else.", "quantifier": "every maximum order and Hamiltonian rank", "why_tests_cant": "A statement about the complete text and about which inputs are refused; tests compare recorded output for a few inputs.", "anchors": ["code_residual_equations.py:generate_residual_equations_file", "code_residual_equations.py:generate_python_code_for_residual_functions", "code_import_statements_module.py:residual_equations_import_statements"]}
{"id": "C81", "title": "Residuals: what the functions of the file add", "statement": "Executing the printed statements of calculate_order_p_residual for p up to four, under any truth values of the conditions, makes an array of the shape of order p, asserts that the truncation has the rank, and adds the term of each h^m_n of the Hamiltonian with m <= p whose W operator was handed over (quadratic ones only when the truncation is quadratic), once, with coefficient 1/((p-m)! n! m!) and the labels of the contraction, and nothing else. (With the exception of C82.)", "quantifier": "all orders up to four, all truth values of the conditions, all Hamiltonian ranks; orders two and three for linear Hamiltonians", "why_tests_cant": "Nested conditions on which W operators are None, for all combinations, read off the printed text.", "anchors": ["code_residual_equations.py:write_residual_function_string", "code_residual_equations.py:_residual_terms_einsum"]}
{"id": "C82", "title": "Residuals: the defects of the printed functions", "statement": "Every printed residual function adds each of its terms whenever its W operator is handed over, with one label per axis. (False: with a quadratic Hamiltonian the functions of orders two and three print the h^2 term in the else of another term and so add it exactly when the W operator of order p+2 is missing; at orders five and six every executed einsum has fewer labels than its W operator and the result have axes.)", "quantifier": "all truth values of the conditions", "why_tests_cant": "No test runs the generated functions with a None operator or at these orders.", "anchors": ["code_residual_equations.py:write_residual_function_string", "code_residual_equations.py:_generate_einsum_w_indices", "code_residual_equations.py:_generate_einsum_ouput_indices"]}
{"id": "C83", "title": "W master function: exactly when it calls something that does not exist", "statement": "compute_w_operators of the file produced with maximum order m calls a function that the file does not define exactly when the truncation has singles and asks for an order above m (three for singles, four, five and six with doubles, triples and quadruples).", "quantifier": "every maximum order and every flag assignment", "why_tests_cant": "The failure depends on the combination of the maximum order of the file and the flags of a later call.", "anchors": ["code_w_equations.py:_write_master_w_compute_function", "code_w_equations.py:generate_w_operators_string"]}
{"id": "C84", "title": "Residuals: exactly which terms are added", "statement": "For all orders the generator accepts, calculate_order_p_residual adds each term whose W operator is handed over (quadratic ones under the quadratic flag) exactly once, with one exception: at orders two and three the h^2 term is added exactly when the truncation is quadratic and the W operator of order p+2 is missing.", "quantifier": "all accepted orders and Hamiltonian ranks, all flags, every choice of the W operators that are None", "why_tests_cant": "All combinations of available operators, orders and flags.", "anchors": ["code_residual_equations.py:write_residual_function_string", "code_residual_equations.py:_same_w_order_term_list"]}
{"id": "C85", "title": "Residuals: exactly which labels are right", "statement": "Every einsum executed by calculate_order_p_residual has the labels of the contraction it stands for if and only if p is at most four.", "quantifier": "all accepted orders and Hamiltonian ranks, all flags, every choice of the W operators that are None", "why_tests_cant": "Index alphabets are fixed-length lists sliced with Python slices that truncate silently.", "anchors": ["code_residual_equations.py:_generate_einsum_h_indices", "code_residual_equations.py:_generate_einsum_w_indices", "code_residual_equations.py:_generate_einsum_ouput_indices"]}
{"id": "C86", "title": "W operators: the names and calls of the generated module", "statement": "Whatever the truth values of its conditions, no function of the generated module of the W operators reads a name that is not a parameter, an import, a function of the module, a builtin or bound by an earlier executed statement, except that compute_w_operators and its optimised variant read the functions of the orders above the generated one; functions of the module are called with as many arguments as they have parameters. All names are bound exactly when the module has all six orders.", "quantifier": "all set orders, all maximum orders, all truth values of the conditions", "why_tests_cant": "A NameError shows up only on the branch that reads the name; tests compare text and never run the generated modules.", "anchors": ["code_w_equations.py:generate_w_operator_equations_file"]}
{"id": "C87", "title": "Time derivatives and residuals: the names and calls of the generated modules", "statement": "In the generated modules of the time derivatives and of the residuals every name is bound when it is read and every function is called with as many arguments as it has parameters. The functions of residual_equations that the module of the derivatives up to order M calls exist in the residual module generated up to order M', with as many parameters as arguments are passed, exactly when M <= M'.", "quantifier": "all set orders, all orders and Hamiltonian ranks, all truth values of the conditions", "why_tests_cant": "The two modules are generated by different functions with separate orders; only the pair of them shows whether the calls fit.", "anchors": ["code_dt_equations.py:generate_dt_amplitude_equations_file", "code_residual_equations.py:generate_residual_equations_file"]}
{"id": "C88", "title": "Symmetriser: the generated function", "statement": "The text of build_symmetrizing_function(max_order) is a python function symmetrize_tensor(tensor, order) that returns tensors of order zero and one unchanged, for the orders two to max_order adds the tensor transposed by every order of its mode axes, each once with the two surface axes in place, and above max_order returns an array of zeros.", "quantifier": "all maximum orders, all orders", "why_tests_cant": "There are n! transpositions for order n, and the maximum order is unbounded.", "anchors": ["helper_funcs.py:build_symmetrizing_function"]}
{"id": "C89", "title": "Symmetriser: exactly when the calls of the generated modules fit it", "statement": "The generated modules call symmetrize_tensor with as many arguments as build_symmetrizing_function gives it parameters exactly when they do not call it at all: W operators up to order one, no time derivatives, and all residual modules. (All other modules pass the number of modes, the tensor and the order to a function of two parameters.)", "quantifier": "all set orders, all maximum orders", "why_tests_cant": "The caller and the callee are printed by different functions and never imported together in the repository.", "anchors": ["helper_funcs.py:build_symmetrizing_function", "code_w_equations.py:_write_w_function_strings", "code_dt_equations.py:_write_dt_amplitude_strings"]}
{"id": "C90", "title": "From the W operators to the residuals", "statement": "For a truncation of a level up to four, the values returned by compute_w_operators are enough for the residual functions of the orders of the truncation, and when they are handed over the function of order p adds the terms of all h^m_n with m <= p, quadratic ones when the truncation is quadratic, with the one exception that the h^2 term is never added at orders two and three.", "quantifier": "all set orders, all file orders, truncation levels, flags, both variants", "why_tests_cant": "Which W operators are None is decided by one generated module and tested by another.", "anchors": ["code_w_equations.py:_write_master_w_compute_function", "code_residual_equations.py:write_residual_function_string"]}
{"id": "C91", "title": "Full CC python: exactly which contractions a file adds", "statement": "For each projection operator, the default functions of the three groups in the printed file add, under any flags, the Hamiltonian operators that contract with the projection alone, each once, and of the requested contractions of the group with amplitudes exactly one for each place (Hamiltonian flag, amplitude flag and printed prefactor), with a prefactor of the right value and with einsum calls that compute this contraction: (m+n)! equal calls for a single amplitude, one call for each order of several amplitudes.", "quantifier": "all set orders, all truncations that can be written, all projection operators, all flags", "why_tests_cant": "Which terms overwrite each other depends on the truncation and on set orders; the number of truncations and flags is unbounded for testing.", "anchors": ["code_full_cc.py:generate_full_cc_python", "code_full_cc.py:_write_cc_einsum_python_from_list", "code_full_cc.py:_build_full_cc_python_prefactor"]}
{"id": "C92", "title": "W operator LaTeX: what TeX typesets in the ground state equations", "statement": "TeX reads the text of the ground state W equations as one align environment with a row for each order. The row of order n is the sum, symmetrised from order two on, of one product for each partition of n, with the multiplicities as powers and a prefactor of orderings over factorial. This holds exactly for maximum orders up to nine (the power ten is printed as ^10, of which TeX raises the first digit only); a text has one reading.", "quantifier": "all set orders, all maximum orders", "why_tests_cant": "Tests compare the printed text; what TeX makes of it (braces, scripts, empty lines) is not looked at, and orders above a few are never generated.", "anchors": ["latex_w_equations.py:ground_state_w_equations_latex", "latex_w_equations.py:generate_w_prefactor"]}
{"id": "C93", "title": "W operator LaTeX: what TeX typesets in the thermal equations", "statement": "The thermal W equations can be typeset. (False: at every order there is an empty line inside the equation environment, which TeX rejects.) Without the empty lines TeX reads a row for each label of W, with one product for each canonical contribution except the connected amplitude, right powers and right prefactor, exactly for maximum orders up to nine.", "quantifier": "all set orders, all maximum orders", "why_tests_cant": "Tests compare the printed text; what TeX makes of it is not looked at, and orders above a few are never generated.", "anchors": ["latex_w_equations.py:excited_state_w_equations_latex"]}
{"id": "C94", "title": "Full CC python: the names and calls of the generated module", "statement": "In the module that generate_full_cc_python writes, whatever the flags of the caller, no function reads a name that is not a parameter, a name bound before, an import, a function of the module or a builtin; and each call of a function of the module passes as many arguments as it has parameters.", "quantifier": "all set orders, all truncations that can be written, all functions, all flags", "why_tests_cant": "A misspelt name in a branch fails only when the branch runs with these flags; the generated functions are never called in the repository.", "anchors": ["code_full_cc.py:generate_full_cc_python", "code_full_cc.py:_write_master_full_cc_compute_function", "code_full_cc.py:_write_optimized_master_paths_function"]}
{"id": "C95", "title": "e^T python: the names and calls of the generated modules", "statement": "In both modules of the e^T ansatz, whatever the flags of the caller, no function reads a name that is not bound, and each call of a function of the module passes as many arguments as it has parameters. The optimised functions of the terms use the contraction paths they are given. (The last is false: their code is that of the default functions and never reads the parameter opt_einsum.)", "quantifier": "both sides, all truncations with 1 <= CC <= 8, all flags", "why_tests_cant": "A misspelt name in a branch fails only when the branch runs with these flags, and ignored paths change the run time only.", "anchors": ["code_eT_zhz.py:generate_eT_zhz_python", "code_eT_zhz.py:_write_master_eT_zhz_compute_function", "code_eT_zhz.py:_construct_eT_zhz_compute_function"]}
{"id": "C96", "title": "Driver: which files a run writes", "statement": "A run of the driver ends without exception exactly when its arguments are consistent and the request is one that can be written. It then writes the header and the equations, or the python module, of the requested ansatz, truncations and flags into the path of the request, and no other file except ../truncs.json. A run that fails writes no file except ../truncs.json, which is overwritten exactly when three, four or five values stand after -t and no path is given, also when the run then fails.", "quantifier": "all arguments, all files present before, all set orders", "why_tests_cant": "A run joins the argument handling, the verification, the generators and the headers; each combination of truncations and flags is a different run and tests execute none of them.", "anchors": ["driver.py:main block", "_glue_.py:generate_latex", "_glue_.py:generate_python", "reference_latex_headers.py"]}
{"id": "C97", "title": "Driver: the saved truncations can be used again", "statement": "After a successful run with values after -t, a run with -p ../truncs.json and the same other arguments succeeds and leaves every file as it is. (This holds exactly when the values are within the documented bounds. The z_t ansatz also runs with values outside of them; the saved file is then refused with an AssertionError.)", "quantifier": "all arguments, all files present before, all set orders", "why_tests_cant": "Needs the text written and the text read by a second run to agree for all integers, and the generators to give the same text again.", "anchors": ["driver.py:main block", "truncations.py:save_trunc_to_JSON", "truncations.py:load_trunc_from_JSON"]}
{"id": "C98", "title": "Driver: flags that make no difference", "statement": "The text of full coupled cluster python depends on the truncations only, -lhs changes the text of the e^T ansatz only, and -rf does not change e^T python. For full coupled cluster and z_t, -lhs writes the text of the right hand side into the path of the left hand side. Different texts go to different paths. (The last is false: e^T python with and without -es has one path and two texts.)", "quantifier": "all arguments, all files present before, all set orders", "why_tests_cant": "The absence of an effect has to hold for all truncations, a test sees single ones.", "anchors": ["driver.py:main block", "_glue_.py:generate_latex", "_glue_.py:generate_python", "code_eT_zhz.py:generate_eT_zhz_python"]}
{"id": "C99", "title": "LaTeX: the equation documents can be processed", "statement": "The documents of the full coupled cluster, z_t and e^T ansatz (header and equations) are processed by LaTeX without an error: all commands are defined where they are used, braces, environments, formulas and \\left and \\right close in order, no atom has two superscripts or two subscripts, there is no empty line in a formula, and the alignment characters fit.", "quantifier": "all truncations that can be written, both sides, all flags, all set orders", "why_tests_cant": "One term with an unusual number of labels can break the document; tests compare few small texts and never run LaTeX.", "anchors": ["latex_full_cc.py:generate_full_cc_latex", "latex_zhz.py:generate_z_t_symmetric_latex", "latex_eT_zhz.py:generate_eT_z_t_symmetric_latex", "reference_latex_headers.py"]}
{"id": "C100", "title": "Driver: a LaTeX file written by a run is a document", "statement": "Whenever a run of the driver asks for LaTeX and ends without exception, the file in the path of the request is a document that LaTeX processes without an error.", "quantifier": "all arguments, all files present before, all set orders", "why_tests_cant": "Joins argument handling, headers and all equations; no test runs LaTeX on the output.", "anchors": ["driver.py:main block", "_glue_.py:generate_latex", "reference_latex_headers.py"]}
{"id": "C101", "title": "LaTeX of the ground state W operators: the file is a document", "statement": "The file that ground_state_w_equations_latex writes is a document that LaTeX processes without an error, for every order, and does not depend on what the file held before.", "quantifier": "all orders, all set orders, all former contents", "why_tests_cant": "The orders are unbounded and LaTeX is not run by tests.", "anchors": ["latex_w_equations.py:ground_state_w_equations_latex"]}
{"id": "C102", "title": "LaTeX of the thermal W operators: no sequence of runs makes a document", "statement": "However often and with whatever orders excited_state_w_equations_latex is run, starting without a file or with a file that begins with any header of the project (such as the file of the ground state), the file it leaves has no \\begin{document} and cannot be processed: a new file gets the equations alone, and of an existing file only the first 29 lines are kept. The second run on a new file leaves another file than the first.", "quantifier": "all orders, all sequences of runs, all set orders, no file or any file that starts with a header of the project", "why_tests_cant": "The result depends on the files left by former runs, of which there are arbitrarily many.", "anchors": ["latex_w_equations.py:excited_state_w_equations_latex", "reference_latex_headers.py"]}
{"id": "C103", "title": "Lowering a truncation leaves out exactly the terms beyond it", "statement": "For full coupled cluster, z_t and e^T (amplitudes of rank one) the terms of an equation for smaller truncations are exactly the terms of the equation for larger truncations that use no operator beyond the smaller ones (rank of h, number and rank of amplitudes, rank of z, no lower indices for the ground state), each as often. The same holds for the projections that have equations.", "quantifier": "all pairs of truncations of which one is not larger than the other, all projections, all set orders", "why_tests_cant": "Compares two runs for unboundedly many pairs of truncations; stored outputs exist for few truncations.", "anchors": ["latex_full_cc.py:_filter_out_valid_s_terms", "latex_zhz.py:_filter_out_valid_z_terms", "latex_eT_zhz.py:_filter_out_valid_eTz_terms"]}
{"id": "C104", "title": "e^T python: running a larger file with smaller truncations", "statement": "A file generated for large truncations that is run with the conditions of smaller truncations H0 and CC0 adds exactly the contractions of H0 and CC0, i.e. those the smaller file adds. (For H0 = 1 on the right hand side this is false: h^1_1, of rank two, stands under the condition h_at_least_linear; this is the only exception.)", "quantifier": "all truncations H and CC up to 5, all e, all smaller H0 and CC0, all projections, both sides, with and without optimised paths", "why_tests_cant": "The conditions are checked when the generated code runs, in a program that is not part of the project; all combinations of generated and requested truncations matter.", "anchors": ["code_eT_zhz.py:_write_third_eTz_einsum_python", "code_eT_zhz.py:generate_eT_zhz_python"]}
{"id": "C105", "title": "Command line: words are read as the settings they write", "statement": "Settings written with any of the spellings the parser offers (short or long names, abbreviations of long names, -e and -r, values as the next word, after an equals sign or, for -a and -p, joined to the name; decimal numbers with sign and leading zeros) are read as exactly these settings, of repeated ones the last; the order of different settings makes no difference; every request without the text \"--\" can be asked for and no other; after an option with a text, a word that begins with a dash (and is neither a number nor has a blank) is refused.", "quantifier": "all lists of settings, all spellings, all texts and numbers, all requests", "why_tests_cant": "Infinitely many command lines; the tests call the generators directly and never the parser.", "anchors": ["driver.py:prepare_parsed_arguments"]}
{"id": "C106", "title": "Command line: which words remove the f terms", "statement": "The f terms are removed exactly when the last -rf (or --remove_f_terms) of the command line has a text that is not empty. (So \"-rf False\" removes them, which is refuted as the meaning of the words.)", "quantifier": "all lists of settings, all files", "why_tests_cant": "All texts after -rf matter; no test runs the driver.", "anchors": ["driver.py:prepare_parsed_arguments", "driver.py:main block"]}
{"id": "C107", "title": "Command line to file: the program from its words to its files", "statement": "For words that write settings, and a log file that is not the file of the truncations, the program ends without exception exactly when the settings ask for something that can be written; the file of the request then has the document or module asked for (unless it is also the log file), and no other file is touched except those of the truncations and of the log. If the log file is the file of the truncations given with -p, the program always fails and the truncations are lost.", "quantifier": "all lists of settings and spellings, all files present before, all set orders, all texts of the log", "why_tests_cant": "Joins the parser, the log, the truncations and all generators; no test runs the program.", "anchors": ["driver.py:main block", "driver.py:prepare_parsed_arguments", "log_conf.py:get_filebased_logger", "_glue_.py"]}
{"id": "C108", "title": "The same request gives the same text in every run of python", "statement": "The text that is generated for a request does not depend on the order in which python iterates sets of strings (which changes with the hash seed from run to run), except for full coupled cluster with truncations beyond a stated bound; for the bound it is shown that the texts really differ there. Beyond the bound not only the order of factors changes: at H=5, CC=3, S=2, P=3 the python code contains the contraction of h^3_2 with t^2 or not, depending on the hash seed, since calls are kept under the text of the prefactor.", "quantifier": "all requests (ansatz, kind of output, truncations, flags), all orders of the sets of strings", "why_tests_cant": "The order of a set of strings is fixed within one run of the tests and in most test environments; the stored outputs are of truncations below the bound.", "anchors": ["code_full_cc.py:_simplify_full_cc_python_prefactor", "latex_full_cc.py:_simplify_full_cc_python_prefactor", "code_full_cc.py:_write_cc_einsum_python_from_list", "_glue_.py:generate_python"]}
{"id": "C109", "title": "Command line: what the program does not understand it refuses before touching any file", "statement": "A word that begins with a dash (before any \"--\") and is not read as an option, whatever stands around it; a word no option takes, in front or after any setting but -t; a word after -t that begins with a letter or a dot; and the words that could be two options (exactly -lh and those beginning with --=) end the program in the parser, with every file, the log included, as it was. Asking for the help text among settings shows it and does nothing else.", "quantifier": "all words around them, all files present before", "why_tests_cant": "Infinitely many command lines; no test runs the parser.", "anchors": ["driver.py:prepare_parsed_arguments", "driver.py:main block"]}
{"id": "C110", "title": "Full CC python: for which truncations no contraction is lost", "statement": "The generated python of the full coupled cluster equations adds every requested contraction exactly once (with its prefactor and calls that compute it) unless the truncations reach one of: H>=3, CC>=2, S>=2, P>=1; H>=2, CC>=3, S>=2, P>=3; H>=1, CC>=3, S>=3, P>=3; H>=1, CC>=4, S>=2, P>=4. At all of these some requested contraction of some projection is not in the code under any flags, since another contraction with the same flags and the same printed prefactor takes its place. (So every cubic Hamiltonian with double excitations loses a term.)", "quantifier": "all truncations the program accepts with H <= 5, all set orders, all flags", "why_tests_cant": "The stored outputs contain the loss themselves; a test that compares text cannot see that a term is missing.", "anchors": ["code_full_cc.py:_write_cc_einsum_python_from_list", "code_full_cc.py:_generate_full_cc_einsums", "code_full_cc.py:generate_full_cc_python"]}
{"id": "C111", "title": "Full CC python: running a larger file with smaller truncations", "statement": "A full coupled cluster file generated for larger truncations (at which nothing is lost) and run with the conditions of a smaller coupled cluster truncation adds exactly the contractions of the smaller truncation, each once. With the conditions of a smaller Hamiltonian H0 it adds exactly the contractions of h^m_n with m <= H0 and n <= H0, so that the same claim for the Hamiltonian is refuted: h^1_H0, of rank H0 + 1, is always added; and the h that contracts with the projection alone stands under no condition.", "quantifier": "all truncations the program accepts at which nothing is lost (C110), all smaller truncations, all set orders", "why_tests_cant": "A relation between a file and its use with all smaller truncations; the tests never run generated code.", "anchors": ["code_full_cc.py:_write_cc_einsum_python_from_list", "code_full_cc.py:_generate_full_cc_einsums"]}
{"id": "C112", "title": "Full CC: the python code computes the LaTeX equations", "statement": "For the same truncations (where nothing is lost, C110) the python functions of each projection and group compute exactly the terms of the LaTeX equation of this projection for the ground state without f terms: the same Hamiltonian operators without amplitudes, and for every other term, and no other, calls that contract it, each with a prefactor equal to the printed fraction. A term is added once exactly when it has one amplitude and the projection at most one operator; otherwise (m + n)! times by the same call (one amplitude) or once for each order of its amplitudes. (So \"each printed term is added once\" is refuted for every file with projections of rank two.)", "quantifier": "all truncations the program accepts at which nothing is lost, all projections, all set orders of both generators", "why_tests_cant": "Relates the texts of two generators term by term; no test compares them.", "anchors": ["code_full_cc.py:generate_full_cc_python", "latex_full_cc.py:generate_full_cc_latex", "code_full_cc.py:_write_cc_einsum_python_from_list"]}
{"id": "C113", "title": "From the command line to the contractions: full CC document and module", "statement": "When the program is run from the command line for python of the full coupled cluster ansatz and ends well, the file it leaves is a module that adds every requested contraction once if the truncations lose nothing (C110), and misses one otherwise. When it is run for the LaTeX document (ground state, f terms removed) and then for the python module with the same truncations, both files are there afterwards, and the functions of the module compute the terms of every equation of the document, group by group.", "quantifier": "all spellings of the settings, all files present before, all accepted truncations, all set orders, all texts of the log", "why_tests_cant": "Joins the command line, two runs of the program and the meaning of two kinds of output; no test runs the program or compares the two outputs.", "anchors": ["driver.py:main block", "_glue_.py:generate_python", "_glue_.py:generate_latex", "code_full_cc.py:generate_full_cc_python", "latex_full_cc.py:generate_full_cc_latex"]}
{"id": "C114", "title": "W operators: the numbers the generated functions compute", "statement": "Let T be the cluster operator: for r modes the matrix of the amplitude of rank r divided by r!, for the ranks of the truncation. Whatever arrays of the right shapes the amplitudes are, numpy accepts every einsum call that the generated function of W of order k makes, and the weighted sum of their values at states a, b and modes i1..ik is the (a, b) entry of the part of exp(T) with these modes, the modes dealt out in order (VECC); of exp(T) to first order in the amplitudes of rank two and more (VE_MIXED); of T itself (VECI). The functions that use prepared expressions compute the same, with the lists of expressions the module computes.", "quantifier": "all orders up to six, all truncation levels, all ansatz flags, all numbers of states and modes, all amplitudes over any commutative ring with 1/n, all set orders", "why_tests_cant": "A test runs finitely many numbers, and only after executing the generated module, which no test does.", "anchors": ["code_w_equations.py:generate_w_operator_equations_file", "code_w_equations.py:_generate_vemx_contributions", "code_w_equations.py:_generate_vecc_contributions", "code_w_equations.py:_w_einsum_list", "code_w_equations.py:_write_w_function_strings"]}
{"id": "C115", "title": "Full CC: the numbers the generated functions compute", "statement": "Whatever arrays with two axes of states and one axis of modes for each index the caller passes in h_args and t_args, and whatever the truncation flags, numpy accepts every einsum call that the generated functions of a projection make, the results have the axes of the projection, and the numbers added to R are the sum over the requested contractions that the flags leave of x!/(m! n! k!) (x different amplitudes on h^m_n, k amplitudes) times the contraction: the matrices of h and of the amplitudes multiplied, summed over the modes of the indices of h that meet amplitudes, the modes of the projection dealt out first to h and then to the amplitudes; for several amplitudes the sum over their orders in the product, for one amplitude (m + n)! times the product. At truncations that lose nothing (C110) every requested contraction is in the sum once; at others one of each place.", "quantifier": "all truncations the program accepts, all projections, all flags, all numbers of states and modes, all arrays over any commutative ring with 1/n, all set orders", "why_tests_cant": "A test runs finitely many numbers, and only after executing the generated module, which no test does.", "anchors": ["code_full_cc.py:generate_full_cc_python", "code_full_cc.py:_write_cc_einsum_python_from_list", "code_full_cc.py:_full_cc_einsum_vibrational_components", "code_full_cc.py:_multiple_perms_logic"]}
{"id": "C116", "title": "Symmetriser: the numbers the generated function computes", "statement": "For a tensor with two surface axes and k mode axes of one length, k from two to the highest order of the generated symmetrize_tensor, numpy accepts every transposition the function makes, none changes the shape, and the returned array is at every index the sum of the tensor over all k! orders of the mode indices. So the returned array does not change when the mode indices change their order, and where the tensor already had this symmetry it is k! times the tensor (it is a sum, not an average).", "quantifier": "all highest orders, all orders of the tensor up to them, all numbers of states and modes, all tensors over any commutative ring", "why_tests_cant": "The function that writes the symmetriser is excluded from the tests, and a test would check single arrays.", "anchors": ["helper_funcs.py:build_symmetrizing_function"]}
{"id": "C117", "title": "Residuals: the numbers the generated functions compute", "statement": "Whatever arrays of the right shapes the caller passes for the operators h^m_n and the W operators, numpy accepts every statement the residual function of an order p <= 4 executes, each adds an array with the axes of the residual, and the sum at states a, b and modes i1..ip is the sum over the operators h^m_n whose terms are added (C81, C82) of 1/((p-m)! n! m!) times the (a, b) entry of the matrix product of h^m_n and W, n modes summed over, the first m of i1..ip on h and the others on W (W without modes is the identity). For quadratic Hamiltonians at orders two and three exactly the number 1/(2! (p-2)!) h^2 W is missing when W of order p + 2 is given. At orders five and six numpy refuses every statement.", "quantifier": "all orders, ranks of the Hamiltonian and flags the program accepts, all numbers of states and modes, all arrays over any commutative ring with 1/n", "why_tests_cant": "A test runs finitely many numbers, and only after executing the generated module, which no test does.", "anchors": ["code_residual_equations.py:generate_residual_equations_file", "code_residual_equations.py:write_residual_function_string", "code_residual_equations.py:_residual_terms_einsum", "code_residual_equations.py:construct_prefactor"]}
{"id": "C118", "title": "Time derivatives of the amplitudes: the numbers the generated functions subtract", "statement": "Whatever arrays of the right shapes the caller passes for the amplitudes, their time derivatives, the W operators and epsilon, numpy accepts every product the function of order k subtracts from the residual, each has the axes of the residual, and at states a, b and modes i1..ik what is subtracted is the (a, b) entry of W epsilon / k! plus the time derivative (product rule) of the terms of exp(T) with two and more factors that the ansatz keeps (all for VECC, at most linear in ranks two and more for VE_MIXED, none for VECI). For orders inside the truncation this is W epsilon / k! + dW/dt - (dt_k/dt) / k!, with the W that the generated W functions compute. The functions with prepared expressions subtract the same numbers.", "quantifier": "all orders up to six, all flags, all numbers of states and modes, all arrays over any commutative ring with 1/n, all set orders", "why_tests_cant": "A test runs finitely many numbers, and only after executing the generated module, which no test does; the relation to dW/dt joins two generated modules.", "anchors": ["code_dt_equations.py:generate_dt_amplitude_equations_file", "code_dt_equations.py:_generate_disconnected_einsum_function_call_list", "code_dt_equations.py:_write_dt_amplitude_strings", "code_w_equations.py:generate_w_operator_equations_file"]}
{"id": "C119", "title": "The generated e^T functions compute the contractions of the ansatz, as numbers", "statement": "Given arrays of the right shapes in the dictionaries passed to a function add_m0_n<p>_HZ_terms, add_m0_n<p>_eT_HZ_terms (or compute_m0_n<p>_..._LHS), default or optimized, numpy.einsum accepts every call, every result has the shape of the residual, and the numbers added to the residual are the sum of the contractions of projection, amplitudes t_1, H and z (on the left hand side the time derivatives) that the ansatz and the truncation object of the caller allow, each divided by the factorials of the numbers of pairs of the same kind. The equation of a projection therefore lacks exactly h^0_0 z^p / p! of the sum of all contractions.", "quantifier": "for all sides, modes of the generator, truncations of H, of z (up to 8) and of the Taylor series, all projections, all truncation flags, all arrays over any commutative ring with division by positive integers, all numbers of states and modes, all entries", "why_tests_cant": "a test evaluates one file with one set of random arrays and compares with another program up to rounding; it cannot show that prefactors, index letters and truncations together give the right numbers for all of them", "anchors": ["termfactory/code_eT_zhz.py: _write_third_eTz_einsum_python, _build_eT_zhz_python_prefactor, _generate_eT_zhz_einsums, generate_eT_zhz_python"]}
{"id": "C120", "title": "The e^T equations are those of displaced operators", "statement": "If the Taylor series of e^T is generated at least up to the sum of the truncations of H and z, then the numbers that the two right hand side functions of a projection add, together with the missing term h^0_0 z^p / p!, are those of H times z without amplitudes in which the coefficients of H and of z are replaced by their Taylor series in t_1 (the creation operators displaced by t).", "quantifier": "for all truncations, projections, arrays over any commutative ring with division by positive integers, numbers of states and modes and entries", "why_tests_cant": "the identity involves all orders of the series and all contractions at once; a test sees one finite sum", "anchors": ["termfactory/code_eT_zhz.py: _generate_eT_zhz_einsums, generate_eT_zhz_python", "termfactory/latex_eT_zhz.py: generate_eT_taylor_expansion"]}
{"id": "C121", "title": "W operators: after symmetrisation they are the derivatives of exp(T)", "statement": "If the amplitudes the caller passes do not depend on the order of their modes, then applying the generated symmetriser to the W operator of order k that the generated function sums up gives, at every entry, the derivative of exp(T) with respect to the k modes: the sum over all ways to deal the k modes out to j amplitudes of the matrix product of these amplitudes, over j! (to first order in the amplitudes of rank two and more for VE_MIXED, the amplitude of rank k for VECI). No factorials of ranks are left over.", "quantifier": "all orders and truncations, all flags, all numbers of states and modes, all symmetric amplitudes over any commutative ring with 1/n, all set orders", "why_tests_cant": "The statement joins two generated modules and all orders of the modes; a test of one module sees neither, and no test runs generated code.", "anchors": ["code_w_equations.py:generate_w_operator_equations_file", "helper_funcs.py:build_symmetrizing_function"]}
{"id": "C122", "title": "Residuals: after symmetrisation they are the Hamiltonian acting on W", "statement": "If h^2 and the W operators the caller passes do not depend on the order of their modes, then the sum over all orders of the p modes of what the residual function of order p <= 4 adds is the sum over the operators h^m_n whose terms are added (C117) of 1/n! times the sum over all choices of m of the p modes for h, the others on W, with n modes of W annihilated by h.", "quantifier": "all orders up to four, ranks of the Hamiltonian and flags the program accepts, all numbers of states and modes, all symmetric arrays over any commutative ring with 1/n", "why_tests_cant": "The factorials of the residual are right only together with the symmetrisation; a test of the residual text cannot see this.", "anchors": ["code_residual_equations.py:generate_residual_equations_file", "code_residual_equations.py:construct_prefactor"]}
{"id": "C123", "title": "Equation of motion: the generated modules together propagate W", "statement": "Let the amplitudes, their derivatives, the W operators and h^2 not depend on the order of the modes. The derivative of the amplitude of order k <= 4 inside the truncation is what the generated functions compute (the residual of order k less what the function of the time derivative subtracts, summed over the orders of the modes) exactly when the symmetrised W of order k obeys dW/dt = H W - W epsilon, with dW/dt by the product rule from the amplitudes and their derivatives (C121) and H W of C122.", "quantifier": "all orders up to four, all three ansatzes, all flags, all numbers of states and modes, all symmetric arrays over any commutative ring with 1/n, all set orders", "why_tests_cant": "It joins three generated modules and their factorials for all arrays; a test of one module with one set of numbers cannot settle it.", "anchors": ["code_dt_equations.py:generate_dt_amplitude_equations_file", "code_residual_equations.py:generate_residual_equations_file", "code_w_equations.py:generate_w_operator_equations_file"]}
{"id": "C124", "title": "The left hand side of the e^T equations is the derivative of displaced operators", "statement": "If the Taylor series of e^T is generated at least up to the sum of the truncations of T and z, then the numbers that the two left hand side functions of a projection add, together with the missing term dz^p / p!, are those of dz/dtau + dT/dtau z without amplitudes in which the coefficients of dz/dtau, dT/dtau and z are replaced by their Taylor series in the conjugate t_1.", "quantifier": "for all truncations (z up to 8), lengths of the series, projections, with and without optimized functions and ground state, all arrays of the right shapes over any ring with 1/n, all states and modes, when the caller allows all contractions", "why_tests_cant": "tests compare the text of some functions with stored text; which numbers they compute together, for arbitrary arrays, no test checks", "anchors": ["termfactory/code_eT_zhz.py", "termfactory/latex_eT_zhz.py"]}
{"id": "C125", "title": "W operators: the LaTeX document and the python module agree as numbers", "statement": "If the amplitudes commute as matrices (for instance for one electronic state) and do not depend on the order of their modes, then for every order k the W operator that the generated VECC function sums up, summed over the orders of the modes, equals the right hand side of the row of order k that TeX typesets from the ground state equations, where a symmetrised product is the sum over all ways to deal the modes out to its factors. For amplitudes that do not commute the two differ from order three on: the module takes both orders of t^2 t^1 with 1/2, the document prints one.", "quantifier": "all maximum orders that can be typeset, all module orders, truncations and orders of sets, default and optimized functions, all numbers of states and modes, all commuting symmetric amplitudes over any commutative ring with 1/n", "why_tests_cant": "the two outputs are made by separate code with different prefactors (the document has no factorials of ranks); no test relates their meanings", "anchors": ["latex_w_equations.py:ground_state_w_equations_latex", "latex_w_equations.py:generate_w_prefactor", "code_w_equations.py:generate_w_operator_equations_file"]}
{"id": "C126", "title": "e^T ansatz: two runs of the program leave both sides of the equation", "statement": "If `python driver.py` is run for python code of the e^T ansatz twice with the same truncations, once with -lhs and once without, both runs end without an error, linear T is requested and the series of e^T is at least as long as the sum of the truncations of H and z, then both modules are in the file system afterwards and, for every projection up to the truncations, the functions of the two modules (with the bare term of the left hand side, C41) compute dz/dtau + dT/dtau z and H z with operators displaced by the conjugate t_1.", "quantifier": "all command lines, working directories and earlier contents of the file system, all truncations the program accepts, all set orders, default and optimized functions, all numbers of states and modes, all arrays over any commutative ring with 1/n", "why_tests_cant": "it joins argument parsing, file names, both generators and the numbers their functions compute; tests call the pieces one at a time and do not run generated code", "anchors": ["termfactory/driver.py:69-155", "code_eT_zhz.py:generate_eT_zhz_python", "namedtuple_defines.py"]}
{"id": "C127", "title": "Full CC python: the functions of the optimised paths make calls without equations", "statement": "A user of the optimised functions first calls compute_m.._n.._.._optimized_paths. In every generated module, whatever the truncation conditions, the function of a group does nothing when the default function of the group makes no einsum call, and otherwise every statement it runs calls oe.contract_expression with shapes only, without the equation string that the library needs as first argument. So the claim that the paths of a module can be computed is refuted for every module with linear H and T (the first group of the projection (0,0) makes such a call when all conditions hold).", "quantifier": "all truncations the generator accepts, all projections and groups, all truth values of the conditions, all set orders", "why_tests_cant": "tests compare the text of a few small outputs with stored text and never run generated code, so the missing argument is in the stored text too", "anchors": ["code_full_cc.py:_write_cc_optimized_paths_from_list", "code_full_cc.py:_generate_optimized_paths_functions"]}
{"id": "C128", "title": "Several runs: files do not depend on history or on the order of runs", "statement": "A run of the program depends on no file but the one named with -p: from two states of the files that agree on it the run ends in the same way and every file has the same text afterwards or is as it was. After any sequence of runs without -p each file has exactly the text that the last run that writes it gives it when run alone in an empty directory, or what it had before; so a file to which all runs that write it give the same text does not depend on the order of the runs or on repetitions.", "quantifier": "all command lines, all sequences of runs (of any length, successful or not), all earlier contents of the files, all set orders and log texts", "why_tests_cant": "a test sees one sequence of runs in one directory; dependence on left-over files or on the order shows only in others", "anchors": ["termfactory/driver.py:69-155", "_glue_.py", "truncations.py"]}
{"id": "C129", "title": "compute_prefactor_adjustment: the factor of a term from its permutations", "statement": "For a Hamiltonian term and a z operator all of whose indices are placed (on the projection, on each other or on amplitudes) and z with at most one lower index, compute_prefactor_adjustment does not fail and returns 1/(m_lhs! m_r! n_lhs! n_r! z.m_lhs!) whatever the indices on amplitudes; for linear amplitudes this is the prefactor that the generator in use computes (_build_eT_zhz_python_prefactor) times the orders of the indices on amplitudes. For z with two lower indices the same formula is refuted: lower indices of z are not treated as upper ones.", "quantifier": "all numbers of indices of all kinds", "why_tests_cant": "the result is a product of binomial coefficients under guards; a test checks some numbers", "anchors": ["code_eT_zhz.py:compute_prefactor_adjustment", "code_eT_zhz.py:_build_eT_zhz_python_prefactor"]}
{"id": "C130", "title": "The lists of ranks for a product of amplitudes", "statement": "_generate_t_lists(n) is documented to give the lists of numbers with sum n. For 2 <= n <= 5 the result holds every partition of n exactly once; for every n >= 6 a partition is missing; for n = 1 the result is [[2], [1]], and for n = 0 max() raises ValueError. For every n >= 2 the lists are exactly those with all parts but one equal to 1, and those with all but two parts equal to 1 of which the smaller is 2. _generate_t_terms_dictionary has exactly these as keys, with the names t_i, t_ij, ... as values; the names are cut at six letters, so ranks six and seven get one name.", "quantifier": "for all n >= 2 (and n >= 6 for the missing partition)", "why_tests_cant": "a test looks at a few n, and the example in the documentation string is one for which the result is right", "anchors": ["termfactory/code_w_equations.py:20-37", "termfactory/code_w_equations.py:40-68", "termfactory/code_w_equations.py:71-86"]}
{"id": "C131", "title": "e^T ansatz: the LaTeX document and the python module as numbers", "statement": "For the same truncations, the sum printed in the section of the document for a projection equals what the two functions of the module add for that projection (plus the bare term h_0 z_n, which they leave out), for all arrays of the right shapes, if every printed term is counted as often as there are choices of the amplitudes that are paired with z. Read as it is printed, the sum equals that of the module if at most one amplitude is allowed or the Hamiltonian has no operators; for all other truncations there are arrays for which the document and the module give different numbers.", "quantifier": "for all accepted truncations, both sides of the equation, all projections, default and optimised functions, all arrays over any ring with fractions", "why_tests_cant": "the printed fractions and the generated prefactors come from two functions, and a test that compares texts with golden files does not see that their values differ", "anchors": ["latex_eT_zhz.py:_build_eThz_latex_prefactor", "code_eT_zhz.py:_build_eT_zhz_python_prefactor"]}
{"id": "C132", "title": "z ansatz: the LaTeX document is the part without amplitudes of the e^T module", "statement": "For the same truncations of H and z, the sum of products h z that the document of the z ansatz prints for a projection with annihilation operators only equals, for all arrays of the right shapes, what the function add_..._HZ_terms of the e^T module (right hand side) computes, plus the bare term h_0 z_n that it leaves out: the same contractions, each with the same value of the printed fraction and the generated prefactor.", "quantifier": "for all truncations for which both files are written (z up to rank 5, or up to 7 with H up to 5), all projections without creation operators, default and optimised functions, all arrays over any ring with fractions", "why_tests_cant": "the two ansaetze are implemented in separate modules that enumerate contractions and compute prefactors with different functions; no test compares them", "anchors": ["latex_zhz.py:generate_z_t_symmetric_latex", "latex_zhz.py:_build_hz_latex_prefactor", "code_eT_zhz.py:generate_eT_zhz_python"]}
{"id": "C133", "title": "e^T ansatz: the document and the module of two runs of the program agree as numbers", "statement": "If the program is run for a LaTeX document of the e^T ansatz and then for the python module, with the same truncations and the same side of the equation, and both runs end well, then both files are there afterwards; for every projection the document prints one term for each kind of contraction, and the functions of the module compute the printed sum, each term taken as often as there are choices of the amplitudes that are paired with z.", "quantifier": "for all command lines of the two runs, all earlier contents of the files, all set orders and log texts, all truncations, both sides, all projections, all arrays over any ring with fractions", "why_tests_cant": "the agreement goes through the command line, the driver, two generators and the meaning of two languages; tests compare texts of single functions", "anchors": ["termfactory/driver.py:69-155", "_glue_.py", "latex_eT_zhz.py:generate_eT_z_t_symmetric_latex", "code_eT_zhz.py:generate_eT_zhz_python"]}
{"id": "C134", "title": "Lines of a w function with permutations of indices", "statement": "_permutation_function and _write_permutations: for products of amplitudes with n modes in all, each with as many amplitudes as there are fixed parts, and groups of n characters, neither function fails; one line is written for each group of characters, and each einsum call in it spreads the characters over its operands: a subscript is the fixed part followed by one character for each mode of its amplitude, no character is lost or used twice. There is one call for each product, and only one call in all if every amplitude has one mode. _permutation_function fails exactly when a product has more amplitudes than there are fixed parts (IndexError) or when there are no products and n is the number of fixed parts (UnboundLocalError). For another n than the number of modes the claim is refuted: the call has subscripts of one product and names of another.", "quantifier": "for all products, fixed parts, groups of characters and n", "why_tests_cant": "no test calls these functions; one that did would use names of one or two ranks", "anchors": ["termfactory/code_w_equations.py:87-113", "termfactory/code_w_equations.py:116-131"]}
{"id": "C135", "title": "Command line: options joined in one word", "statement": "A word in which the flags of one letter (-s, -c) are joined, in any number and order, and after them perhaps one more option of one letter with its value in the next words or joined to it (-cst 1 2 3, -cpfile), is read as the same options written apart, and the run of the program is the same: same files, same ending. For flags with more letters this is refuted: -clhs asks for a log file named hs and for the right hand side, -ces is refused, and -cp=x names the file =x.", "quantifier": "for all command lines made of such words and of all spellings of single options, all files", "why_tests_cant": "the number of combinations is unbounded, and a test of the program uses one spelling", "anchors": ["driver.py:18-49", "termfactory/driver.py:69-155"]}
{"id": "C136", "title": "Left hand sides for amplitudes of one electronic state", "statement": "_generate_t_symmetric_left_hand_side(omega): the text is the sum of the derivatives of all products of amplitudes that match the projection. Every multiset of amplitudes whose upper and lower indices add up to those of the projection stands there once, short products first; of each product the derivative of each factor is printed in turn; the letters are different and in order, and every amplitude has the index of the state after its lower indices.", "quantifier": "for all projections with up to ten indices (the number of letters) and all set orders", "why_tests_cant": "no test calls this function; the products are collected in a set whose order changes between runs", "anchors": ["latex_zhz.py:171-271"]}
{"id": "C137", "title": "Truncation files in any layout", "statement": "A truncation file written by hand loads as its items say: for every valid dictionary of an ansatz and every layout of its items as a JSON object (items in any order; spaces, tabs, carriage returns and line ends in any number before and after every brace, name, colon, number and comma), load_trunc_from_JSON returns this dictionary with the items in the order of the file. If a name stands in the file more than once, its last value counts.", "quantifier": "for all three ansaetze, all valid dictionaries, all orders of the items and all layouts", "why_tests_cant": "there is no bound on the number of blanks or on their places; tests read files that the program wrote itself", "anchors": ["termfactory/truncations.py:load_trunc_from_JSON", "termfactory/truncations.py:_load_from_JSON"]}
{"id": "C138", "title": "A run does not depend on how the truncation file is written", "statement": "If the program is run twice with the same words, the truncations being read from a file (-p), and the two contents of this file give the same value to each name of the ansatz - in any layout, in any order of the items, with or without repeated names - then both runs end in the same way (well, or with the same exception), and afterwards every file other than the truncation file has the same contents.", "quantifier": "for all command lines with -p, all pairs of valid truncation files with the same values, all other files, all set orders and log texts; the log file must be another file", "why_tests_cant": "there is no bound on the layouts, and the dictionary that the generators get has its items in another order", "anchors": ["termfactory/driver.py:69-155", "termfactory/truncations.py:_load_from_JSON", "_glue_.py"]}
{"id": "C139", "title": "Values after -t and a truncation file are the same request", "statement": "A run with values after -t, and a run with -p and a file which gives these values to the documented names of the ansatz (in any layout and order), all other settings being the same, end in the same way and leave the same contents in every file except ../truncs.json.", "quantifier": "for all command lines in all spellings, all values within the documented bounds, all layouts of the file, all other files, all set orders and log texts; the log file must not be the truncation file", "why_tests_cant": "two ways to ask for the same equations go through different code; a test compares them for one list of values at most", "anchors": ["termfactory/driver.py:_make_trunc", "termfactory/driver.py:69-155", "termfactory/truncations.py:_load_from_JSON"]}
{"id": "C140", "title": "A truncation file with wrong names or values is refused", "statement": "If the truncation file given with -p is an object (in any layout) whose names are truncation keys, but its names are not exactly those of one ansatz, or the last value of a name is out of its bounds, then the run ends with an AssertionError or an Exception and no file is changed except the log.", "quantifier": "for all command lines with -p, all such files, all other files, all set orders and log texts; the log file must not be the truncation file", "why_tests_cant": "there is no bound on the values or the layouts, and a test of single functions does not show that nothing is written", "anchors": ["termfactory/driver.py:69-155", "termfactory/truncations.py:_load_from_JSON", "termfactory/truncations.py:__verify_keys"]}
