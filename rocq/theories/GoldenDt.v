(** The model's text against the repository's recorded outputs
    (/repo/tests/deep/files/test_code_dt_equations).  Tests of the model's
    faithfulness, not proofs of properties. *)
From Verif Require Import PyBase ModelHelper ModelW ModelDt GoldenW.

(* text of /repo/tests/deep/files/test_code_dt_equations/generate_dt_amplitude_string_out.py *)
Definition golden_dt_string_2 : string :=
"# --------------------------------------------------------------------------- #
# ---------------------------- DEFAULT FUNCTIONS ---------------------------- #
# --------------------------------------------------------------------------- #

# ---------------------------- DISCONNECTED TERMS ---------------------------- #

def _order_1_linked_disconnected_terms(A, N, trunc, t_args, dt_args):
    """"""Exists for error checking.""""""
    raise Exception(
        ""the first possible purely VECI/CC term is (1, 1) or (dt_i * t_i)""
        ""which requires a residual of at least 2nd order""
    )

def _order_2_linked_disconnected_terms(A, N, trunc, t_args, dt_args):
    """"""Calculate all uniquely linked disconnected terms generated from the wave operator ansatz.
    This means for order 5 we include terms such as (4, 1), (3, 1, 1), (2, 1, 1, 1), (1, 1, 1, 1, 1)
    But not terms (5), (3, 2), (2, 2, 1)
    """"""
    # unpack the `t_args` and 'dt_args'
    t_i, *unusedargs = t_args
    dt_i, *unusedargs = dt_args
    # Creating the 2nd order return array
    linked_disconnected_terms = np.zeros((A, A, N, N), dtype=complex)
    # the (1, 1) term
    linked_disconnected_terms += 1/factorial(2) * (
        np.einsum('aci, cbj->abij', dt_i, t_i) +
        np.einsum('aci, cbj->abij', t_i, dt_i)
    )

    return linked_disconnected_terms

def _order_1_un_linked_disconnected_terms(A, N, trunc, t_args, dt_args):
    """"""Exists for error checking.""""""
    raise Exception(
        ""the first possible purely VECC term is (2, 2) or (dt_ij * t_ij)""
        ""which requires a residual of at least 4th order""
    )

def _order_2_un_linked_disconnected_terms(A, N, trunc, t_args, dt_args):
    """"""Exists for error checking.""""""
    raise Exception(
        ""the first possible purely VECC term is (2, 2) or (dt_ij * t_ij)""
        ""which requires a residual of at least 4th order""
    )

# ---------------------------- dt AMPLITUDES ---------------------------- #

def _calculate_order_1_dt_amplitude(A, N, ansatz, trunc, epsilon, h_args, t_args, dt_args, w_args):
    """"""Calculate the derivative of the 1 t-amplitude for use in the calculation of the residuals.""""""
    # unpack the `w_args`
    w_i, *unusedargs = w_args
    # Calculate the 1st order residual
    residual = residual_equations.calculate_order_1_residual(A, N, trunc, h_args, w_args)
    # subtract the epsilon term (which is R_0)
    residual -= 1/factorial(1) * np.einsum('aci,cb->abi', w_i, epsilon)

    # subtract the disconnected terms
    if ansatz.VECI:
        pass  # veci does not include any disconnected terms
    elif ansatz.VE_MIXED:
        pass  # no linked disconnected terms for order < 2
    elif ansatz.VECC:
        pass  # no un-linked disconnected terms for order < 4

    # Symmetrize the residual operator
    dt_i = symmetrize_tensor(N, residual, order=1)
    return dt_i

def _calculate_order_2_dt_amplitude(A, N, ansatz, trunc, epsilon, h_args, t_args, dt_args, w_args):
    """"""Calculate the derivative of the 2 t-amplitude for use in the calculation of the residuals.""""""
    # unpack the `w_args`
    w_i, w_ij, *unusedargs = w_args
    # Calculate the 2nd order residual
    residual = residual_equations.calculate_order_2_residual(A, N, trunc, h_args, w_args)
    # subtract the epsilon term (which is R_0)
    residual -= 1/factorial(2) * np.einsum('acij,cb->abij', w_ij, epsilon)

    # subtract the disconnected terms
    if ansatz.VECI:
        pass  # veci does not include any disconnected terms
    elif ansatz.VE_MIXED:
        residual -= _order_2_linked_disconnected_terms(A, N, trunc, t_args, dt_args)
    elif ansatz.VECC:
        residual -= _order_2_linked_disconnected_terms(A, N, trunc, t_args, dt_args)
        pass  # no un-linked disconnected terms for order < 4

    # Symmetrize the residual operator
    dt_ij = symmetrize_tensor(N, residual, order=2)
    return dt_ij

# ---------------------------- WRAPPER FUNCTIONS ---------------------------- #

def solve_singles_equations(A, N, ansatz, trunc, epsilon, h_args, t_args, dt_args, w_args):
    """"""Compute the change in the t_i term (singles)""""""

    if not trunc.singles:
        raise Exception(
            ""It appears that singles is not true, this cannot be.""
            ""Something went terribly wrong!!!""
        )
    dt_i = _calculate_order_1_dt_amplitude(A, N, ansatz, trunc, epsilon, h_args, t_args, dt_args, w_args)
    return dt_i

def solve_doubles_equations(A, N, ansatz, trunc, epsilon, h_args, t_args, dt_args, w_args):
    """"""Compute the change in the t_ij term (doubles)""""""

    if not trunc.doubles:
        raise Exception(
            ""It appears that doubles is not true, this cannot be.""
            ""Something went terribly wrong!!!""
        )
    dt_ij = _calculate_order_2_dt_amplitude(A, N, ansatz, trunc, epsilon, h_args, t_args, dt_args, w_args)
    return dt_ij

# --------------------------------------------------------------------------- #
# --------------------------- OPTIMIZED FUNCTIONS --------------------------- #
# --------------------------------------------------------------------------- #

# ---------------------------- DISCONNECTED TERMS ---------------------------- #

def _order_1_linked_disconnected_terms_optimized(A, N, trunc, t_args, dt_args, opt_linked_path_list):
    """"""Exists for error checking.""""""
    raise Exception(
        ""the first possible purely VECI/CC term is (1, 1) or (dt_i * t_i)""
        ""which requires a residual of at least 2nd order""
    )

def _order_2_linked_disconnected_terms_optimized(A, N, trunc, t_args, dt_args, opt_linked_path_list):
    """"""Calculate all uniquely linked disconnected terms generated from the wave operator ansatz.
    This means for order 5 we include terms such as (4, 1), (3, 1, 1), (2, 1, 1, 1)
    But not terms (5), (3, 2), (2, 2, 1), (1, 1, 1, 1, 1)
    Uses optimized summation paths generate using `contract_expression` from the `opt_einsum` library.
    """"""
    # unpack the `t_args` and 'dt_args'
    t_i, *unusedargs = t_args
    dt_i, *unusedargs = dt_args
    # make an iterable out of the `opt_linked_path_list`
    optimized_einsum = iter(opt_linked_path_list)
    # Creating the 2nd order return array
    linked_disconnected_terms = np.zeros((A, A, N, N), dtype=complex)
    # the (1, 1) term
    linked_disconnected_terms += 1/factorial(2) * (
        next(optimized_einsum)(dt_i, t_i) +
        next(optimized_einsum)(t_i, dt_i)
    )

    return linked_disconnected_terms

def _order_1_un_linked_disconnected_terms_optimized(A, N, trunc, t_args, dt_args, opt_unlinked_path_list):
    """"""Exists for error checking.""""""
    raise Exception(
        ""the first possible purely VECC term is (2, 2) or (dt_ij * t_ij)""
        ""which requires a residual of at least 4th order""
    )

def _order_2_un_linked_disconnected_terms_optimized(A, N, trunc, t_args, dt_args, opt_unlinked_path_list):
    """"""Exists for error checking.""""""
    raise Exception(
        ""the first possible purely VECC term is (2, 2) or (dt_ij * t_ij)""
        ""which requires a residual of at least 4th order""
    )

# ---------------------------- dt AMPLITUDES ---------------------------- #

def _calculate_order_1_dt_amplitude_optimized(A, N, ansatz, trunc, epsilon, h_args, t_args, dt_args, w_args, opt_epsilon, opt_linked_path_list, opt_unlinked_path_list):
    """"""Calculate the derivative of the 1 t-amplitude for use in the calculation of the residuals.
    Uses optimized summation paths generate using `contract_expression` from the `opt_einsum` library.
    """"""
    # unpack the `w_args`
    w_i, *unusedargs = w_args
    # Calculate the 1st order residual
    residual = residual_equations.calculate_order_1_residual(A, N, trunc, h_args, w_args)
    # subtract the epsilon term (which is R_0)
    residual -= 1/factorial(1) * opt_epsilon(w_i, epsilon)

    # subtract the disconnected terms
    if ansatz.VECI:
        pass  # veci does not include any disconnected terms
    elif ansatz.VE_MIXED:
        pass  # no linked disconnected terms for order < 2
    elif ansatz.VECC:
        pass  # no un-linked disconnected terms for order < 4

    # Symmetrize the residual operator
    dt_i = symmetrize_tensor(N, residual, order=1)
    return dt_i

def _calculate_order_2_dt_amplitude_optimized(A, N, ansatz, trunc, epsilon, h_args, t_args, dt_args, w_args, opt_epsilon, opt_linked_path_list, opt_unlinked_path_list):
    """"""Calculate the derivative of the 2 t-amplitude for use in the calculation of the residuals.
    Uses optimized summation paths generate using `contract_expression` from the `opt_einsum` library.
    """"""
    # unpack the `w_args`
    w_i, w_ij, *unusedargs = w_args
    # Calculate the 2nd order residual
    residual = residual_equations.calculate_order_2_residual(A, N, trunc, h_args, w_args)
    # subtract the epsilon term (which is R_0)
    residual -= 1/factorial(2) * opt_epsilon(w_ij, epsilon)

    # subtract the disconnected terms
    if ansatz.VECI:
        pass  # veci does not include any disconnected terms
    elif ansatz.VE_MIXED:
        residual -= _order_2_linked_disconnected_terms_optimized(A, N, trunc, t_args, dt_args, opt_linked_path_list)
    elif ansatz.VECC:
        residual -= _order_2_linked_disconnected_terms_optimized(A, N, trunc, t_args, dt_args, opt_linked_path_list)
        pass  # no un-linked disconnected terms for order < 4

    # Symmetrize the residual operator
    dt_ij = symmetrize_tensor(N, residual, order=2)
    return dt_ij

# ---------------------------- WRAPPER FUNCTIONS ---------------------------- #

def solve_singles_equations_optimized(A, N, ansatz, trunc, epsilon, h_args, t_args, dt_args, w_args, opt_path_list):
    """"""Compute the change in the t_i term (singles)""""""

    if not trunc.singles:
        raise Exception(
            ""It appears that singles is not true, this cannot be.""
            ""Something went terribly wrong!!!""
        )

    # unpack the opt_einsum path's
    opt_epsilon_path_list, opt_linked_path_list, opt_unlinked_path_list = opt_path_list

    dt_i = _calculate_order_1_dt_amplitude_optimized(
        A, N, ansatz, trunc, epsilon, h_args, t_args, dt_args, w_args,
        opt_epsilon_path_list[0], opt_linked_path_list[0], opt_unlinked_path_list[0]
    )
    return dt_i

def solve_doubles_equations_optimized(A, N, ansatz, trunc, epsilon, h_args, t_args, dt_args, w_args, opt_path_list):
    """"""Compute the change in the t_ij term (doubles)""""""

    if not trunc.doubles:
        raise Exception(
            ""It appears that doubles is not true, this cannot be.""
            ""Something went terribly wrong!!!""
        )

    # unpack the opt_einsum path's
    opt_epsilon_path_list, opt_linked_path_list, opt_unlinked_path_list = opt_path_list

    dt_ij = _calculate_order_2_dt_amplitude_optimized(
        A, N, ansatz, trunc, epsilon, h_args, t_args, dt_args, w_args,
        opt_epsilon_path_list[1], opt_linked_path_list[1], opt_unlinked_path_list[1]
    )
    return dt_ij

# ---------------------------- OPTIMIZED PATHS FUNCTION ---------------------------- #

def compute_optimized_paths(A, N, truncation):
    """"""Calculate all optimized paths for the `opt_einsum` calls.""""""

    epsilon_opt_paths = compute_optimized_epsilon_paths(A, N, truncation)
    linked_opt_paths = compute_optimized_linked_paths(A, N, truncation)
    unlinked_opt_paths = compute_optimized_unlinked_paths(A, N, truncation)

    all_opt_paths = [epsilon_opt_paths, linked_opt_paths, unlinked_opt_paths]

    return all_opt_paths


def compute_optimized_epsilon_paths(A, N, truncation):
    """"""Calculate optimized paths for the constant/epsilon einsum calls up to `highest_order`.""""""

    epsilon_path_list = []

    if truncation.singles:
        epsilon_path_list.append(oe.contract_expression('aci,cb->abi', (A, A, N), (A, A)))

    if truncation.doubles:
        epsilon_path_list.append(oe.contract_expression('acij,cb->abij', (A, A, N, N), (A, A)))

    return epsilon_path_list


def compute_optimized_linked_paths(A, N, truncation):
    """"""Calculate optimized paths for the linked-disconnected einsum calls up to `highest_order`.""""""

    order_1_list, order_2_list, order_3_list = [], [], []
    order_4_list, order_5_list, order_6_list = [], [], []

    if truncation.singles:
        order_2_list.extend([
            oe.contract_expression('aci, cbj->abij', (A, A, N), (A, A, N)),
            oe.contract_expression('aci, cbj->abij', (A, A, N), (A, A, N)),
        ])

    return [order_1_list, order_2_list]


def compute_optimized_unlinked_paths(A, N, truncation):
    """"""Calculate optimized paths for the unlinked-disconnected einsum calls up to `highest_order`.""""""

    order_1_list, order_2_list, order_3_list = [], [], []
    order_4_list, order_5_list, order_6_list = [], [], []

    if not truncation.doubles:
        log.warning('Did not calculate optimized unlinked paths of the dt amplitudes')
        return [[], [], [], [], [], []]

    return [order_1_list, order_2_list, order_3_list]

"%string.

(* text of /repo/tests/deep/files/test_code_dt_equations/write_optimized_linked_paths_function_out.py *)
Definition golden_dt_linked_paths_5 : string :=
"
def compute_optimized_linked_paths(A, N, truncation):
    """"""Calculate optimized paths for the linked-disconnected einsum calls up to `highest_order`.""""""

    order_1_list, order_2_list, order_3_list = [], [], []
    order_4_list, order_5_list, order_6_list = [], [], []

    if truncation.singles:
        order_2_list.extend([
            oe.contract_expression('aci, cbj->abij', (A, A, N), (A, A, N)),
            oe.contract_expression('aci, cbj->abij', (A, A, N), (A, A, N)),
        ])

    if truncation.doubles:
        order_3_list.extend([
            oe.contract_expression('aci, cbjk->abijk', (A, A, N), (A, A, N, N)),
            oe.contract_expression('aci, cbjk->abijk', (A, A, N), (A, A, N, N)),
            oe.contract_expression('acij, cbk->abijk', (A, A, N, N), (A, A, N)),
            oe.contract_expression('acij, cbk->abijk', (A, A, N, N), (A, A, N)),
        ])

    if truncation.singles:
        order_3_list.extend([
            oe.contract_expression('aci, cdj, dbk->abijk', (A, A, N), (A, A, N), (A, A, N)),
            oe.contract_expression('aci, cdj, dbk->abijk', (A, A, N), (A, A, N), (A, A, N)),
            oe.contract_expression('aci, cdj, dbk->abijk', (A, A, N), (A, A, N), (A, A, N)),
        ])

    if truncation.triples:
        order_4_list.extend([
            oe.contract_expression('aci, cbjkl->abijkl', (A, A, N), (A, A, N, N, N)),
            oe.contract_expression('aci, cbjkl->abijkl', (A, A, N), (A, A, N, N, N)),
            oe.contract_expression('acijk, cbl->abijkl', (A, A, N, N, N), (A, A, N)),
            oe.contract_expression('acijk, cbl->abijkl', (A, A, N, N, N), (A, A, N)),
        ])

    if truncation.doubles:
        order_4_list.extend([
            oe.contract_expression('aci, cdj, dbkl->abijkl', (A, A, N), (A, A, N), (A, A, N, N)),
            oe.contract_expression('aci, cdj, dbkl->abijkl', (A, A, N), (A, A, N), (A, A, N, N)),
            oe.contract_expression('aci, cdj, dbkl->abijkl', (A, A, N), (A, A, N), (A, A, N, N)),
            oe.contract_expression('aci, cdjk, dbl->abijkl', (A, A, N), (A, A, N, N), (A, A, N)),
            oe.contract_expression('aci, cdjk, dbl->abijkl', (A, A, N), (A, A, N, N), (A, A, N)),
            oe.contract_expression('aci, cdjk, dbl->abijkl', (A, A, N), (A, A, N, N), (A, A, N)),
            oe.contract_expression('acij, cdk, dbl->abijkl', (A, A, N, N), (A, A, N), (A, A, N)),
            oe.contract_expression('acij, cdk, dbl->abijkl', (A, A, N, N), (A, A, N), (A, A, N)),
            oe.contract_expression('acij, cdk, dbl->abijkl', (A, A, N, N), (A, A, N), (A, A, N)),
        ])

    if truncation.singles:
        order_4_list.extend([
            oe.contract_expression('aci, cdj, dek, ebl->abijkl', (A, A, N), (A, A, N), (A, A, N), (A, A, N)),
            oe.contract_expression('aci, cdj, dek, ebl->abijkl', (A, A, N), (A, A, N), (A, A, N), (A, A, N)),
            oe.contract_expression('aci, cdj, dek, ebl->abijkl', (A, A, N), (A, A, N), (A, A, N), (A, A, N)),
            oe.contract_expression('aci, cdj, dek, ebl->abijkl', (A, A, N), (A, A, N), (A, A, N), (A, A, N)),
        ])

    if truncation.quadruples:
        order_5_list.extend([
            oe.contract_expression('aci, cbjklm->abijklm', (A, A, N), (A, A, N, N, N, N)),
            oe.contract_expression('aci, cbjklm->abijklm', (A, A, N), (A, A, N, N, N, N)),
            oe.contract_expression('acijkl, cbm->abijklm', (A, A, N, N, N, N), (A, A, N)),
            oe.contract_expression('acijkl, cbm->abijklm', (A, A, N, N, N, N), (A, A, N)),
        ])

    if truncation.triples:
        order_5_list.extend([
            oe.contract_expression('aci, cdj, dbklm->abijklm', (A, A, N), (A, A, N), (A, A, N, N, N)),
            oe.contract_expression('aci, cdj, dbklm->abijklm', (A, A, N), (A, A, N), (A, A, N, N, N)),
            oe.contract_expression('aci, cdj, dbklm->abijklm', (A, A, N), (A, A, N), (A, A, N, N, N)),
            oe.contract_expression('aci, cdjkl, dbm->abijklm', (A, A, N), (A, A, N, N, N), (A, A, N)),
            oe.contract_expression('aci, cdjkl, dbm->abijklm', (A, A, N), (A, A, N, N, N), (A, A, N)),
            oe.contract_expression('aci, cdjkl, dbm->abijklm', (A, A, N), (A, A, N, N, N), (A, A, N)),
            oe.contract_expression('acijk, cdl, dbm->abijklm', (A, A, N, N, N), (A, A, N), (A, A, N)),
            oe.contract_expression('acijk, cdl, dbm->abijklm', (A, A, N, N, N), (A, A, N), (A, A, N)),
            oe.contract_expression('acijk, cdl, dbm->abijklm', (A, A, N, N, N), (A, A, N), (A, A, N)),
        ])

    if truncation.doubles:
        order_5_list.extend([
            oe.contract_expression('aci, cdj, dek, eblm->abijklm', (A, A, N), (A, A, N), (A, A, N), (A, A, N, N)),
            oe.contract_expression('aci, cdj, dek, eblm->abijklm', (A, A, N), (A, A, N), (A, A, N), (A, A, N, N)),
            oe.contract_expression('aci, cdj, dek, eblm->abijklm', (A, A, N), (A, A, N), (A, A, N), (A, A, N, N)),
            oe.contract_expression('aci, cdj, dek, eblm->abijklm', (A, A, N), (A, A, N), (A, A, N), (A, A, N, N)),
            oe.contract_expression('aci, cdj, dekl, ebm->abijklm', (A, A, N), (A, A, N), (A, A, N, N), (A, A, N)),
            oe.contract_expression('aci, cdj, dekl, ebm->abijklm', (A, A, N), (A, A, N), (A, A, N, N), (A, A, N)),
            oe.contract_expression('aci, cdj, dekl, ebm->abijklm', (A, A, N), (A, A, N), (A, A, N, N), (A, A, N)),
            oe.contract_expression('aci, cdj, dekl, ebm->abijklm', (A, A, N), (A, A, N), (A, A, N, N), (A, A, N)),
            oe.contract_expression('aci, cdjk, del, ebm->abijklm', (A, A, N), (A, A, N, N), (A, A, N), (A, A, N)),
            oe.contract_expression('aci, cdjk, del, ebm->abijklm', (A, A, N), (A, A, N, N), (A, A, N), (A, A, N)),
            oe.contract_expression('aci, cdjk, del, ebm->abijklm', (A, A, N), (A, A, N, N), (A, A, N), (A, A, N)),
            oe.contract_expression('aci, cdjk, del, ebm->abijklm', (A, A, N), (A, A, N, N), (A, A, N), (A, A, N)),
            oe.contract_expression('acij, cdk, del, ebm->abijklm', (A, A, N, N), (A, A, N), (A, A, N), (A, A, N)),
            oe.contract_expression('acij, cdk, del, ebm->abijklm', (A, A, N, N), (A, A, N), (A, A, N), (A, A, N)),
            oe.contract_expression('acij, cdk, del, ebm->abijklm', (A, A, N, N), (A, A, N), (A, A, N), (A, A, N)),
            oe.contract_expression('acij, cdk, del, ebm->abijklm', (A, A, N, N), (A, A, N), (A, A, N), (A, A, N)),
        ])

    if truncation.singles:
        order_5_list.extend([
            oe.contract_expression('aci, cdj, dek, efl, fbm->abijklm', (A, A, N), (A, A, N), (A, A, N), (A, A, N), (A, A, N)),
            oe.contract_expression('aci, cdj, dek, efl, fbm->abijklm', (A, A, N), (A, A, N), (A, A, N), (A, A, N), (A, A, N)),
            oe.contract_expression('aci, cdj, dek, efl, fbm->abijklm', (A, A, N), (A, A, N), (A, A, N), (A, A, N), (A, A, N)),
            oe.contract_expression('aci, cdj, dek, efl, fbm->abijklm', (A, A, N), (A, A, N), (A, A, N), (A, A, N), (A, A, N)),
            oe.contract_expression('aci, cdj, dek, efl, fbm->abijklm', (A, A, N), (A, A, N), (A, A, N), (A, A, N), (A, A, N)),
        ])

    return [order_1_list, order_2_list, order_3_list, order_4_list, order_5_list]
"%string.

(* text of /repo/tests/deep/files/test_code_dt_equations/write_optimized_unlinked_paths_function_out.py *)
Definition golden_dt_unlinked_paths_5 : string :=
"
def compute_optimized_unlinked_paths(A, N, truncation):
    """"""Calculate optimized paths for the unlinked-disconnected einsum calls up to `highest_order`.""""""

    order_1_list, order_2_list, order_3_list = [], [], []
    order_4_list, order_5_list, order_6_list = [], [], []

    if not truncation.doubles:
        log.warning('Did not calculate optimized unlinked paths of the dt amplitudes')
        return [[], [], [], [], [], []]

    if truncation.doubles:
        order_4_list.extend([
            oe.contract_expression('acij, cbkl->abijkl', (A, A, N, N), (A, A, N, N)),
            oe.contract_expression('acij, cbkl->abijkl', (A, A, N, N), (A, A, N, N)),
        ])

    if truncation.triples:
        order_5_list.extend([
            oe.contract_expression('acij, cbklm->abijklm', (A, A, N, N), (A, A, N, N, N)),
            oe.contract_expression('acij, cbklm->abijklm', (A, A, N, N), (A, A, N, N, N)),
            oe.contract_expression('acijk, cblm->abijklm', (A, A, N, N, N), (A, A, N, N)),
            oe.contract_expression('acijk, cblm->abijklm', (A, A, N, N, N), (A, A, N, N)),
        ])

    if truncation.doubles:
        order_5_list.extend([
            oe.contract_expression('aci, cdjk, dblm->abijklm', (A, A, N), (A, A, N, N), (A, A, N, N)),
            oe.contract_expression('aci, cdjk, dblm->abijklm', (A, A, N), (A, A, N, N), (A, A, N, N)),
            oe.contract_expression('aci, cdjk, dblm->abijklm', (A, A, N), (A, A, N, N), (A, A, N, N)),
            oe.contract_expression('acij, cdk, dblm->abijklm', (A, A, N, N), (A, A, N), (A, A, N, N)),
            oe.contract_expression('acij, cdk, dblm->abijklm', (A, A, N, N), (A, A, N), (A, A, N, N)),
            oe.contract_expression('acij, cdk, dblm->abijklm', (A, A, N, N), (A, A, N), (A, A, N, N)),
            oe.contract_expression('acij, cdkl, dbm->abijklm', (A, A, N, N), (A, A, N, N), (A, A, N)),
            oe.contract_expression('acij, cdkl, dbm->abijklm', (A, A, N, N), (A, A, N, N), (A, A, N)),
            oe.contract_expression('acij, cdkl, dbm->abijklm', (A, A, N, N), (A, A, N, N), (A, A, N)),
        ])

    return [order_1_list, order_2_list, order_3_list, order_4_list, order_5_list]
"%string.

(* text of /repo/tests/deep/files/test_code_dt_equations/write_optimized_epsilon_paths_function_out.py *)
Definition golden_dt_eps_5 : string :=
"
def compute_optimized_epsilon_paths(A, N, truncation):
    """"""Calculate optimized paths for the constant/epsilon einsum calls up to `highest_order`.""""""

    epsilon_path_list = []

    if truncation.singles:
        epsilon_path_list.append(oe.contract_expression('aci,cb->abi', (A, A, N), (A, A)))

    if truncation.doubles:
        epsilon_path_list.append(oe.contract_expression('acij,cb->abij', (A, A, N, N), (A, A)))

    if truncation.triples:
        epsilon_path_list.append(oe.contract_expression('acijk,cb->abijk', (A, A, N, N, N), (A, A)))

    if truncation.quadruples:
        epsilon_path_list.append(oe.contract_expression('acijkl,cb->abijkl', (A, A, N, N, N, N), (A, A)))

    if truncation.quintuples:
        epsilon_path_list.append(oe.contract_expression('acijklm,cb->abijklm', (A, A, N, N, N, N, N), (A, A)))

    return epsilon_path_list
"%string.

(* text of /repo/tests/deep/files/test_code_dt_equations/write_un_linked_disconnected_strings_high_order_einsum_out.py *)
Definition golden_dt_unlinked_opt : string :=
"
def _order_5_un_linked_disconnected_terms_optimized(A, N, trunc, t_args, dt_args, opt_unlinked_path_list):
    """"""Calculate all uniquely un-linked disconnected terms generated from the wave operator ansatz.
    This means for order 5 we include terms such as (3, 2), (2, 2, 1)
    But not terms (5), (4, 1), (3, 1, 1), (2, 1, 1, 1), (1, 1, 1, 1, 1)
    Uses optimized summation paths generate using `contract_expression` from the `opt_einsum` library.
    """"""
    # unpack the `t_args` and 'dt_args'
    t_i, t_ij, t_ijk, t_ijkl, *unusedargs = t_args
    dt_i, dt_ij, dt_ijk, dt_ijkl, *unusedargs = dt_args
    # make an iterable out of the `opt_unlinked_path_list`
    optimized_einsum = iter(opt_unlinked_path_list)
    # Creating the 5th order return array
    un_linked_disconnected_terms = np.zeros((A, A, N, N, N, N, N), dtype=complex)
    # the (3, 2) term
    un_linked_disconnected_terms += 1/(factorial(2) * factorial(3) * factorial(2)) * (
        next(optimized_einsum)(dt_ij, t_ijk) +
        next(optimized_einsum)(t_ij, dt_ijk) +
        next(optimized_einsum)(dt_ijk, t_ij) +
        next(optimized_einsum)(t_ijk, dt_ij)
    )
    # the (2, 2, 1) term
    un_linked_disconnected_terms += 1/(factorial(3) * factorial(2) * factorial(2)) * (
        next(optimized_einsum)(dt_i, t_ij, t_ij) +
        next(optimized_einsum)(t_i, dt_ij, t_ij) +
        next(optimized_einsum)(t_i, t_ij, dt_ij) +
        next(optimized_einsum)(dt_ij, t_i, t_ij) +
        next(optimized_einsum)(t_ij, dt_i, t_ij) +
        next(optimized_einsum)(t_ij, t_i, dt_ij) +
        next(optimized_einsum)(dt_ij, t_ij, t_i) +
        next(optimized_einsum)(t_ij, dt_ij, t_i) +
        next(optimized_einsum)(t_ij, t_ij, dt_i)
    )

    return un_linked_disconnected_terms
"%string.

(* text of /repo/tests/deep/files/test_code_dt_equations/write_un_linked_disconnected_strings_high_order_out.py *)
Definition golden_dt_unlinked : string :=
"
def _order_5_un_linked_disconnected_terms(A, N, trunc, t_args, dt_args):
    """"""Calculate all uniquely un-linked disconnected terms generated from the wave operator ansatz.
    This means for order 5 we include terms such as (3, 2), (2, 2, 1)
    But not terms (5), (4, 1), (3, 1, 1), (2, 1, 1, 1), (1, 1, 1, 1, 1)
    """"""
    # unpack the `t_args` and 'dt_args'
    t_i, t_ij, t_ijk, t_ijkl, *unusedargs = t_args
    dt_i, dt_ij, dt_ijk, dt_ijkl, *unusedargs = dt_args
    # Creating the 5th order return array
    un_linked_disconnected_terms = np.zeros((A, A, N, N, N, N, N), dtype=complex)
    # the (3, 2) term
    un_linked_disconnected_terms += 1/(factorial(2) * factorial(3) * factorial(2)) * (
        np.einsum('acij, cbklm->abijklm', dt_ij, t_ijk) +
        np.einsum('acij, cbklm->abijklm', t_ij, dt_ijk) +
        np.einsum('acijk, cblm->abijklm', dt_ijk, t_ij) +
        np.einsum('acijk, cblm->abijklm', t_ijk, dt_ij)
    )
    # the (2, 2, 1) term
    un_linked_disconnected_terms += 1/(factorial(3) * factorial(2) * factorial(2)) * (
        np.einsum('aci, cdjk, dblm->abijklm', dt_i, t_ij, t_ij) +
        np.einsum('aci, cdjk, dblm->abijklm', t_i, dt_ij, t_ij) +
        np.einsum('aci, cdjk, dblm->abijklm', t_i, t_ij, dt_ij) +
        np.einsum('acij, cdk, dblm->abijklm', dt_ij, t_i, t_ij) +
        np.einsum('acij, cdk, dblm->abijklm', t_ij, dt_i, t_ij) +
        np.einsum('acij, cdk, dblm->abijklm', t_ij, t_i, dt_ij) +
        np.einsum('acij, cdkl, dbm->abijklm', dt_ij, t_ij, t_i) +
        np.einsum('acij, cdkl, dbm->abijklm', t_ij, dt_ij, t_i) +
        np.einsum('acij, cdkl, dbm->abijklm', t_ij, t_ij, dt_i)
    )

    return un_linked_disconnected_terms
"%string.

(* text of /repo/tests/deep/files/test_code_dt_equations/write_dt_amplitude_strings_high_order_out.py *)
Definition golden_dt_amp_hi : string :=
"
def _calculate_order_5_dt_amplitude(A, N, ansatz, trunc, epsilon, h_args, t_args, dt_args, w_args):
    """"""Calculate the derivative of the 5 t-amplitude for use in the calculation of the residuals.""""""
    # unpack the `w_args`
    w_i, w_ij, w_ijk, w_ijkl, w_ijklm, *unusedargs = w_args
    # Calculate the 5th order residual
    residual = residual_equations.calculate_order_5_residual(A, N, trunc, h_args, w_args)
    # subtract the epsilon term (which is R_0)
    residual -= 1/factorial(5) * np.einsum('acijklm,cb->abijklm', w_ijklm, epsilon)

    # subtract the disconnected terms
    if ansatz.VECI:
        pass  # veci does not include any disconnected terms
    elif ansatz.VE_MIXED:
        residual -= _order_5_linked_disconnected_terms(A, N, trunc, t_args, dt_args)
    elif ansatz.VECC:
        residual -= _order_5_linked_disconnected_terms(A, N, trunc, t_args, dt_args)
        residual -= _order_5_un_linked_disconnected_terms(A, N, trunc, t_args, dt_args)

    # Symmetrize the residual operator
    dt_ijklm = symmetrize_tensor(N, residual, order=5)
    return dt_ijklm
"%string.


Example golden_dt_module : same_text (generate_dt_amplitude_string ident 2) golden_dt_string_2 = true.
Proof. vm_compute. reflexivity. Qed.
Example golden_dt_linked_paths :
  same_text (do b <- optimized_linked_paths ident 5; Ok (render_linked_paths b)) golden_dt_linked_paths_5 = true.
Proof. vm_compute. reflexivity. Qed.
Example golden_dt_unlinked_paths :
  same_text (do b <- optimized_unlinked_paths ident 5; Ok (render_unlinked_paths b)) golden_dt_unlinked_paths_5 = true.
Proof. vm_compute. reflexivity. Qed.
Example golden_dt_epsilon_paths :
  same_text (do b <- epsilon_paths 5; Ok (render_epsilon_paths b)) golden_dt_eps_5 = true.
Proof. vm_compute. reflexivity. Qed.
Example golden_dt_unlinked_5 :
  same_text (do f <- write_un_linked_disconnected ident 5 false; Ok (render_dt_fun true 5 false f)) golden_dt_unlinked = true.
Proof. vm_compute. reflexivity. Qed.
Example golden_dt_unlinked_opt_5 :
  same_text (do f <- write_un_linked_disconnected ident 5 true; Ok (render_dt_fun true 5 true f)) golden_dt_unlinked_opt = true.
Proof. vm_compute. reflexivity. Qed.
Example golden_dt_amplitude_5 :
  same_text (do f <- write_dt_amplitude 5 false; Ok (render_dt_amplitude 5 false f)) golden_dt_amp_hi = true.
Proof. vm_compute. reflexivity. Qed.
