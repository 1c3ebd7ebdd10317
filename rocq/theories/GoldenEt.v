(** The model's text against the repository's recorded outputs
    (/repo/tests/deep/files/test_code_eT_zhz).  Tests of the model's
    faithfulness, not proofs of properties. *)
From Verif Require Import PyBase ModelHelper ModelW ModelFullCC ModelFullCCPy ModelZhz ModelEt ModelEtPy GoldenW.

(* text of /repo/tests/deep/files/test_code_eT_zhz/eT_zhz_eqs_RHS_H(1)_P(1)_T(1)_exp(2)_Z(2).py *)
Definition golden_eT_0 : string :=
"# system imports
from math import factorial

# third party imports
import numpy as np
import opt_einsum as oe

# local imports
from .symmetrize import symmetrize_tensor
from ..log_conf import log

# ------------------------------------------------------------------------------------------------------------- #
# --------------------------------------------- DEFAULT FUNCTIONS --------------------------------------------- #
# ------------------------------------------------------------------------------------------------------------- #

# --------------------------------------------- INDIVIDUAL TERMS --------------------------------------------- #


# -------------- operator(name='', rank=0, m=0, n=0) TERMS -------------- #
def add_m0_n0_HZ_terms(R, ansatz, truncation, t_args, h_args, z_args):
    """""" Calculate the operator(name='', rank=0, m=0, n=0) HZ terms.
    These terms have no vibrational contribution from the e^T operator.
    This reduces the number of possible non-zero permutations of creation/annihilation operators.
    """"""

    if ansatz.ground_state:
        if truncation.h_at_least_linear:
            if truncation.z_at_least_linear:
                R += np.einsum('aci, ci -> a', h_args[(0, 1)], z_args[(1, 0)])
    else:
        raise NotImplementedError('Hot Band amplitudes not implemented!')

    return


def add_m0_n0_eT_HZ_terms(R, ansatz, truncation, t_args, h_args, z_args):
    """""" Calculate the operator(name='', rank=0, m=0, n=0) eT_HZ terms.
    These terms include the vibrational contributions from the e^T operator.
    This increases the number of possible non-zero permutations of creation/annihilation operators.
    """"""

    if ansatz.ground_state:
        if truncation.t_singles:
            if truncation.z_at_least_linear:
                R += np.einsum('i, ac, ci -> a', t_args[(0, 1)], h_args[(0, 0)], z_args[(1, 0)])
            if truncation.z_at_least_quadratic:
                R += (1 / 2) * np.einsum('i, j, ac, cij -> a', t_args[(0, 1)], t_args[(0, 1)], h_args[(0, 0)], z_args[(2, 0)])

        if truncation.h_at_least_linear:
            if truncation.t_singles:
                R += np.einsum('i, aci, c -> a', t_args[(0, 1)], h_args[(1, 0)], z_args[(0, 0)])
                if truncation.z_at_least_linear:
                    R += np.einsum('i, j, acj, ci -> a', t_args[(0, 1)], t_args[(0, 1)], h_args[(1, 0)], z_args[(1, 0)])
                if truncation.z_at_least_quadratic:
                    R += np.einsum('i, acj, cij -> a', t_args[(0, 1)], h_args[(0, 1)], z_args[(2, 0)])
    else:
        raise NotImplementedError('Hot Band amplitudes not implemented!')

    return

# --------------------------------------------------------------------------- #
# ---------------------------- RANK  1 FUNCTIONS ---------------------------- #
# --------------------------------------------------------------------------- #


# -------------- operator(name='b', rank=1, m=0, n=1) TERMS -------------- #
def add_m0_n1_HZ_terms(R, ansatz, truncation, t_args, h_args, z_args):
    """""" Calculate the operator(name='b', rank=1, m=0, n=1) HZ terms.
    These terms have no vibrational contribution from the e^T operator.
    This reduces the number of possible non-zero permutations of creation/annihilation operators.
    """"""

    if ansatz.ground_state:
        if truncation.h_at_least_linear:
            R += np.einsum('acz, c -> az', h_args[(1, 0)], z_args[(0, 0)])
            if truncation.z_at_least_quadratic:
                R += np.einsum('aci, ciz -> az', h_args[(0, 1)], z_args[(2, 0)])
    else:
        raise NotImplementedError('Hot Band amplitudes not implemented!')

    return


def add_m0_n1_eT_HZ_terms(R, ansatz, truncation, t_args, h_args, z_args):
    """""" Calculate the operator(name='b', rank=1, m=0, n=1) eT_HZ terms.
    These terms include the vibrational contributions from the e^T operator.
    This increases the number of possible non-zero permutations of creation/annihilation operators.
    """"""

    if ansatz.ground_state:
        if truncation.t_singles:
            if truncation.z_at_least_quadratic:
                R += np.einsum('i, ac, ciz -> az', t_args[(0, 1)], h_args[(0, 0)], z_args[(2, 0)])

        if truncation.h_at_least_linear:
            if truncation.t_singles:
                if truncation.z_at_least_linear:
                    R += (
                        np.einsum('i, acz, ci -> az', t_args[(0, 1)], h_args[(1, 0)], z_args[(1, 0)]) +
                        np.einsum('i, aci, cz -> az', t_args[(0, 1)], h_args[(1, 0)], z_args[(1, 0)])
                    )
                if truncation.z_at_least_quadratic:
                    R += np.einsum('i, j, acj, ciz -> az', t_args[(0, 1)], t_args[(0, 1)], h_args[(1, 0)], z_args[(2, 0)])
                    R += (1 / 2) * np.einsum('i, j, acz, cij -> az', t_args[(0, 1)], t_args[(0, 1)], h_args[(1, 0)], z_args[(2, 0)])
    else:
        raise NotImplementedError('Hot Band amplitudes not implemented!')

    return


# --------------------------------------------- RESIDUAL FUNCTIONS --------------------------------------------- #
def compute_m0_n0_amplitude(A, N, ansatz, truncation, t_args, h_args, z_args):
    """"""Compute the operator(name='', rank=0, m=0, n=0) amplitude.""""""
    truncation.confirm_at_least_singles()

    # the residual tensor
    R = np.zeros(shape=(A), dtype=complex)

    # add the terms
    add_m0_n0_HZ_terms(R, ansatz, truncation, t_args, h_args, z_args)
    add_m0_n0_eT_HZ_terms(R, ansatz, truncation, t_args, h_args, z_args)
    return R


def compute_m0_n1_amplitude(A, N, ansatz, truncation, t_args, h_args, z_args):
    """"""Compute the operator(name='b', rank=1, m=0, n=1) amplitude.""""""
    truncation.confirm_at_least_singles()

    # the residual tensor
    R = np.zeros(shape=(A, N), dtype=complex)

    # add the terms
    add_m0_n1_HZ_terms(R, ansatz, truncation, t_args, h_args, z_args)
    add_m0_n1_eT_HZ_terms(R, ansatz, truncation, t_args, h_args, z_args)
    return R

# ------------------------------------------------------------------------------------------------------------- #
# -------------------------------------------- OPTIMIZED FUNCTIONS -------------------------------------------- #
# ------------------------------------------------------------------------------------------------------------- #

# --------------------------------------------- INDIVIDUAL TERMS --------------------------------------------- #


# -------------- operator(name='', rank=0, m=0, n=0) TERMS -------------- #
def add_m0_n0_HZ_terms_optimized(R, ansatz, truncation, t_args, h_args, z_args, opt_einsum):
    """""" Optimized calculation of the operator(name='', rank=0, m=0, n=0) HZ terms.
    These terms have no vibrational contribution from the e^T operator.
    This reduces the number of possible non-zero permutations of creation/annihilation operators.
    """"""

    if ansatz.ground_state:
        if truncation.h_at_least_linear:
            if truncation.z_at_least_linear:
                R += np.einsum('aci, ci -> a', h_args[(0, 1)], z_args[(1, 0)])
    else:
        raise NotImplementedError('Hot Band amplitudes not implemented!')

    return


def add_m0_n0_eT_HZ_terms_optimized(R, ansatz, truncation, t_args, h_args, z_args, opt_einsum):
    """""" Optimized calculation of the operator(name='', rank=0, m=0, n=0) eT_HZ terms.
    These terms include the vibrational contributions from the e^T operator.
    This increases the number of possible non-zero permutations of creation/annihilation operators.
    """"""

    if ansatz.ground_state:
        if truncation.t_singles:
            if truncation.z_at_least_linear:
                R += np.einsum('i, ac, ci -> a', t_args[(0, 1)], h_args[(0, 0)], z_args[(1, 0)])
            if truncation.z_at_least_quadratic:
                R += (1 / 2) * np.einsum('i, j, ac, cij -> a', t_args[(0, 1)], t_args[(0, 1)], h_args[(0, 0)], z_args[(2, 0)])

        if truncation.h_at_least_linear:
            if truncation.t_singles:
                R += np.einsum('i, aci, c -> a', t_args[(0, 1)], h_args[(1, 0)], z_args[(0, 0)])
                if truncation.z_at_least_linear:
                    R += np.einsum('i, j, acj, ci -> a', t_args[(0, 1)], t_args[(0, 1)], h_args[(1, 0)], z_args[(1, 0)])
                if truncation.z_at_least_quadratic:
                    R += np.einsum('i, acj, cij -> a', t_args[(0, 1)], h_args[(0, 1)], z_args[(2, 0)])
    else:
        raise NotImplementedError('Hot Band amplitudes not implemented!')

    return

# --------------------------------------------------------------------------- #
# ---------------------------- RANK  1 FUNCTIONS ---------------------------- #
# --------------------------------------------------------------------------- #


# -------------- operator(name='b', rank=1, m=0, n=1) TERMS -------------- #
def add_m0_n1_HZ_terms_optimized(R, ansatz, truncation, t_args, h_args, z_args, opt_einsum):
    """""" Optimized calculation of the operator(name='b', rank=1, m=0, n=1) HZ terms.
    These terms have no vibrational contribution from the e^T operator.
    This reduces the number of possible non-zero permutations of creation/annihilation operators.
    """"""

    if ansatz.ground_state:
        if truncation.h_at_least_linear:
            R += np.einsum('acz, c -> az', h_args[(1, 0)], z_args[(0, 0)])
            if truncation.z_at_least_quadratic:
                R += np.einsum('aci, ciz -> az', h_args[(0, 1)], z_args[(2, 0)])
    else:
        raise NotImplementedError('Hot Band amplitudes not implemented!')

    return


def add_m0_n1_eT_HZ_terms_optimized(R, ansatz, truncation, t_args, h_args, z_args, opt_einsum):
    """""" Optimized calculation of the operator(name='b', rank=1, m=0, n=1) eT_HZ terms.
    These terms include the vibrational contributions from the e^T operator.
    This increases the number of possible non-zero permutations of creation/annihilation operators.
    """"""

    if ansatz.ground_state:
        if truncation.t_singles:
            if truncation.z_at_least_quadratic:
                R += np.einsum('i, ac, ciz -> az', t_args[(0, 1)], h_args[(0, 0)], z_args[(2, 0)])

        if truncation.h_at_least_linear:
            if truncation.t_singles:
                if truncation.z_at_least_linear:
                    R += (
                        np.einsum('i, acz, ci -> az', t_args[(0, 1)], h_args[(1, 0)], z_args[(1, 0)]) +
                        np.einsum('i, aci, cz -> az', t_args[(0, 1)], h_args[(1, 0)], z_args[(1, 0)])
                    )
                if truncation.z_at_least_quadratic:
                    R += np.einsum('i, j, acj, ciz -> az', t_args[(0, 1)], t_args[(0, 1)], h_args[(1, 0)], z_args[(2, 0)])
                    R += (1 / 2) * np.einsum('i, j, acz, cij -> az', t_args[(0, 1)], t_args[(0, 1)], h_args[(1, 0)], z_args[(2, 0)])
    else:
        raise NotImplementedError('Hot Band amplitudes not implemented!')

    return


# --------------------------------------------- RESIDUAL FUNCTIONS --------------------------------------------- #
def compute_m0_n0_amplitude_optimized(A, N, ansatz, truncation, t_args, h_args, z_args, opt_paths):
    """"""Compute the operator(name='', rank=0, m=0, n=0) amplitude.""""""
    truncation.confirm_at_least_singles()

    # the residual tensor
    R = np.zeros(shape=(A), dtype=complex)

    # unpack the optimized paths
    optimized_HZ_paths, optimized_eT_HZ_paths = opt_paths

    # add the terms
    add_m0_n0_HZ_terms_optimized(R, ansatz, truncation, t_args, h_args, z_args, optimized_HZ_paths)
    add_m0_n0_eT_HZ_terms_optimized(R, ansatz, truncation, t_args, h_args, z_args, optimized_eT_HZ_paths)
    return R


def compute_m0_n1_amplitude_optimized(A, N, ansatz, truncation, t_args, h_args, z_args, opt_paths):
    """"""Compute the operator(name='b', rank=1, m=0, n=1) amplitude.""""""
    truncation.confirm_at_least_singles()

    # the residual tensor
    R = np.zeros(shape=(A, N), dtype=complex)

    # unpack the optimized paths
    optimized_HZ_paths, optimized_eT_HZ_paths = opt_paths

    # add the terms
    add_m0_n1_HZ_terms_optimized(R, ansatz, truncation, t_args, h_args, z_args, optimized_HZ_paths)
    add_m0_n1_eT_HZ_terms_optimized(R, ansatz, truncation, t_args, h_args, z_args, optimized_eT_HZ_paths)
    return R


# --------------------------------------------- OPTIMIZED PATHS FUNCTION --------------------------------------------- #"%string.
Example golden_eT_0_matches :
  same_text (generate_eT_zhz_python RHS true 1 2 1 2 1) golden_eT_0 = true.
Proof. vm_compute. reflexivity. Qed.

(* text of /repo/tests/deep/files/test_code_eT_zhz/eT_zhz_eqs_LHS_H(1)_P(1)_T(1)_exp(1)_Z(2).py *)
Definition golden_eT_1 : string :=
"# system imports
from math import factorial

# third party imports
import numpy as np
import opt_einsum as oe

# local imports
from .symmetrize import symmetrize_tensor
from ..log_conf import log

# ------------------------------------------------------------------------------------------------------------- #
# --------------------------------------------- DEFAULT FUNCTIONS --------------------------------------------- #
# ------------------------------------------------------------------------------------------------------------- #

# --------------------------------------------- INDIVIDUAL TERMS --------------------------------------------- #


# -------------- operator(name='', rank=0, m=0, n=0) TERMS -------------- #
def compute_m0_n0_HZ_LHS(Z, ansatz, truncation, t_conj, dT, z_args, dz_args):
    """""" Calculate the operator(name='', rank=0, m=0, n=0) HZ terms.
    These terms have no vibrational contribution from the e^T operator.
    This reduces the number of possible non-zero permutations of creation/annihilation operators.
    """"""

    if ansatz.ground_state:
        pass  # no valid terms here
    else:
        raise NotImplementedError('Hot Band amplitudes not implemented!')

    return


def compute_m0_n0_eT_HZ_LHS(Z, ansatz, truncation, t_conj, dT, z_args, dz_args):
    """""" Calculate the operator(name='', rank=0, m=0, n=0) eT_HZ terms.
    These terms include the vibrational contributions from the e^T operator.
    This increases the number of possible non-zero permutations of creation/annihilation operators.
    """"""

    if ansatz.ground_state:
        if truncation.t_singles:
            if truncation.z_at_least_linear:
                Z += np.einsum('i, ci -> c', t_conj[(0, 1)], dz_args[(1, 0)])

        if truncation.h_at_least_linear:
            if truncation.t_singles:
                Z += np.einsum('i, i, c -> c', t_conj[(0, 1)], dT[(1, 0)], z_args[(0, 0)])
    else:
        raise NotImplementedError('Hot Band amplitudes not implemented!')

    return

# --------------------------------------------------------------------------- #
# ---------------------------- RANK  1 FUNCTIONS ---------------------------- #
# --------------------------------------------------------------------------- #


# -------------- operator(name='b', rank=1, m=0, n=1) TERMS -------------- #
def compute_m0_n1_HZ_LHS(Z, ansatz, truncation, t_conj, dT, z_args, dz_args):
    """""" Calculate the operator(name='b', rank=1, m=0, n=1) HZ terms.
    These terms have no vibrational contribution from the e^T operator.
    This reduces the number of possible non-zero permutations of creation/annihilation operators.
    """"""

    if ansatz.ground_state:
        if truncation.h_at_least_linear:
            Z += np.einsum('z, c -> cz', dT[(1, 0)], z_args[(0, 0)])
    else:
        raise NotImplementedError('Hot Band amplitudes not implemented!')

    return


def compute_m0_n1_eT_HZ_LHS(Z, ansatz, truncation, t_conj, dT, z_args, dz_args):
    """""" Calculate the operator(name='b', rank=1, m=0, n=1) eT_HZ terms.
    These terms include the vibrational contributions from the e^T operator.
    This increases the number of possible non-zero permutations of creation/annihilation operators.
    """"""

    if ansatz.ground_state:
        if truncation.t_singles:
            if truncation.z_at_least_quadratic:
                Z += np.einsum('i, ciz -> cz', t_conj[(0, 1)], dz_args[(2, 0)])

        if truncation.h_at_least_linear:
            if truncation.t_singles:
                if truncation.z_at_least_linear:
                    Z += (
                        np.einsum('i, z, ci -> cz', t_conj[(0, 1)], dT[(1, 0)], z_args[(1, 0)]) +
                        np.einsum('i, i, cz -> cz', t_conj[(0, 1)], dT[(1, 0)], z_args[(1, 0)])
                    )
    else:
        raise NotImplementedError('Hot Band amplitudes not implemented!')

    return


# --------------------------------------------- RESIDUAL FUNCTIONS --------------------------------------------- #
def compute_m0_n0_amplitude(A, N, ansatz, truncation, t_conj, dT, z_args, dz_args):
    """"""Compute the operator(name='', rank=0, m=0, n=0) amplitude.""""""
    truncation.confirm_at_least_singles()

    # the residual tensor
    dz = np.zeros(shape=(A), dtype=complex)

    # compute the terms
    compute_m0_n0_HZ_LHS(dz, ansatz, truncation, t_conj, dT, z_args, dz_args)
    compute_m0_n0_eT_HZ_LHS(dz, ansatz, truncation, t_conj, dT, z_args, dz_args)
    return dz


def compute_m0_n1_amplitude(A, N, ansatz, truncation, t_conj, dT, z_args, dz_args):
    """"""Compute the operator(name='b', rank=1, m=0, n=1) amplitude.""""""
    truncation.confirm_at_least_singles()

    # the residual tensor
    dz = np.zeros(shape=(A, N), dtype=complex)

    # compute the terms
    compute_m0_n1_HZ_LHS(dz, ansatz, truncation, t_conj, dT, z_args, dz_args)
    compute_m0_n1_eT_HZ_LHS(dz, ansatz, truncation, t_conj, dT, z_args, dz_args)
    return dz

# ------------------------------------------------------------------------------------------------------------- #
# -------------------------------------------- OPTIMIZED FUNCTIONS -------------------------------------------- #
# ------------------------------------------------------------------------------------------------------------- #

# --------------------------------------------- INDIVIDUAL TERMS --------------------------------------------- #


# -------------- operator(name='', rank=0, m=0, n=0) TERMS -------------- #
def compute_m0_n0_HZ_LHS_optimized(Z, ansatz, truncation, t_conj, dT, z_args, dz_args, opt_einsum):
    """""" Optimized calculation of the operator(name='', rank=0, m=0, n=0) HZ terms.
    These terms have no vibrational contribution from the e^T operator.
    This reduces the number of possible non-zero permutations of creation/annihilation operators.
    """"""

    if ansatz.ground_state:
        pass  # no valid terms here
    else:
        raise NotImplementedError('Hot Band amplitudes not implemented!')

    return


def compute_m0_n0_eT_HZ_LHS_optimized(Z, ansatz, truncation, t_conj, dT, z_args, dz_args, opt_einsum):
    """""" Optimized calculation of the operator(name='', rank=0, m=0, n=0) eT_HZ terms.
    These terms include the vibrational contributions from the e^T operator.
    This increases the number of possible non-zero permutations of creation/annihilation operators.
    """"""

    if ansatz.ground_state:
        if truncation.t_singles:
            if truncation.z_at_least_linear:
                Z += np.einsum('i, ci -> c', t_conj[(0, 1)], dz_args[(1, 0)])

        if truncation.h_at_least_linear:
            if truncation.t_singles:
                Z += np.einsum('i, i, c -> c', t_conj[(0, 1)], dT[(1, 0)], z_args[(0, 0)])
    else:
        raise NotImplementedError('Hot Band amplitudes not implemented!')

    return

# --------------------------------------------------------------------------- #
# ---------------------------- RANK  1 FUNCTIONS ---------------------------- #
# --------------------------------------------------------------------------- #


# -------------- operator(name='b', rank=1, m=0, n=1) TERMS -------------- #
def compute_m0_n1_HZ_LHS_optimized(Z, ansatz, truncation, t_conj, dT, z_args, dz_args, opt_einsum):
    """""" Optimized calculation of the operator(name='b', rank=1, m=0, n=1) HZ terms.
    These terms have no vibrational contribution from the e^T operator.
    This reduces the number of possible non-zero permutations of creation/annihilation operators.
    """"""

    if ansatz.ground_state:
        if truncation.h_at_least_linear:
            Z += np.einsum('z, c -> cz', dT[(1, 0)], z_args[(0, 0)])
    else:
        raise NotImplementedError('Hot Band amplitudes not implemented!')

    return


def compute_m0_n1_eT_HZ_LHS_optimized(Z, ansatz, truncation, t_conj, dT, z_args, dz_args, opt_einsum):
    """""" Optimized calculation of the operator(name='b', rank=1, m=0, n=1) eT_HZ terms.
    These terms include the vibrational contributions from the e^T operator.
    This increases the number of possible non-zero permutations of creation/annihilation operators.
    """"""

    if ansatz.ground_state:
        if truncation.t_singles:
            if truncation.z_at_least_quadratic:
                Z += np.einsum('i, ciz -> cz', t_conj[(0, 1)], dz_args[(2, 0)])

        if truncation.h_at_least_linear:
            if truncation.t_singles:
                if truncation.z_at_least_linear:
                    Z += (
                        np.einsum('i, z, ci -> cz', t_conj[(0, 1)], dT[(1, 0)], z_args[(1, 0)]) +
                        np.einsum('i, i, cz -> cz', t_conj[(0, 1)], dT[(1, 0)], z_args[(1, 0)])
                    )
    else:
        raise NotImplementedError('Hot Band amplitudes not implemented!')

    return


# --------------------------------------------- RESIDUAL FUNCTIONS --------------------------------------------- #
def compute_m0_n0_amplitude_optimized(A, N, ansatz, truncation, t_conj, dT, z_args, dz_args, opt_paths):
    """"""Compute the operator(name='', rank=0, m=0, n=0) amplitude.""""""
    truncation.confirm_at_least_singles()

    # the residual tensor
    dz = np.zeros(shape=(A), dtype=complex)

    # unpack the optimized paths
    optimized_HZ_paths, optimized_eT_HZ_paths = opt_paths

    # compute the terms
    compute_m0_n0_HZ_LHS_optimized(dz, ansatz, truncation, t_conj, dT, z_args, dz_args, optimized_HZ_paths)
    compute_m0_n0_eT_HZ_LHS_optimized(dz, ansatz, truncation, t_conj, dT, z_args, dz_args, optimized_eT_HZ_paths)
    return dz


def compute_m0_n1_amplitude_optimized(A, N, ansatz, truncation, t_conj, dT, z_args, dz_args, opt_paths):
    """"""Compute the operator(name='b', rank=1, m=0, n=1) amplitude.""""""
    truncation.confirm_at_least_singles()

    # the residual tensor
    dz = np.zeros(shape=(A, N), dtype=complex)

    # unpack the optimized paths
    optimized_HZ_paths, optimized_eT_HZ_paths = opt_paths

    # compute the terms
    compute_m0_n1_HZ_LHS_optimized(dz, ansatz, truncation, t_conj, dT, z_args, dz_args, optimized_HZ_paths)
    compute_m0_n1_eT_HZ_LHS_optimized(dz, ansatz, truncation, t_conj, dT, z_args, dz_args, optimized_eT_HZ_paths)
    return dz


# --------------------------------------------- OPTIMIZED PATHS FUNCTION --------------------------------------------- #"%string.
Example golden_eT_1_matches :
  same_text (generate_eT_zhz_python LHS true 1 2 1 1 1) golden_eT_1 = true.
Proof. vm_compute. reflexivity. Qed.

(* text of /repo/tests/deep/files/test_code_eT_zhz/eT_zhz_eqs_RHS_H(2)_P(2)_T(1)_exp(2)_Z(2).py *)
Definition golden_eT_2 : string :=
"# system imports
from math import factorial

# third party imports
import numpy as np
import opt_einsum as oe

# local imports
from .symmetrize import symmetrize_tensor
from ..log_conf import log

# ------------------------------------------------------------------------------------------------------------- #
# --------------------------------------------- DEFAULT FUNCTIONS --------------------------------------------- #
# ------------------------------------------------------------------------------------------------------------- #

# --------------------------------------------- INDIVIDUAL TERMS --------------------------------------------- #


# -------------- operator(name='', rank=0, m=0, n=0) TERMS -------------- #
def add_m0_n0_HZ_terms(R, ansatz, truncation, t_args, h_args, z_args):
    """""" Calculate the operator(name='', rank=0, m=0, n=0) HZ terms.
    These terms have no vibrational contribution from the e^T operator.
    This reduces the number of possible non-zero permutations of creation/annihilation operators.
    """"""

    if ansatz.ground_state:
        if truncation.h_at_least_linear:
            if truncation.z_at_least_linear:
                R += np.einsum('aci, ci -> a', h_args[(0, 1)], z_args[(1, 0)])

        if truncation.h_at_least_quadratic:
            if truncation.z_at_least_quadratic:
                R += (1 / 2) * np.einsum('acij, cij -> a', h_args[(0, 2)], z_args[(2, 0)])
    else:
        raise NotImplementedError('Hot Band amplitudes not implemented!')

    return


def add_m0_n0_eT_HZ_terms(R, ansatz, truncation, t_args, h_args, z_args):
    """""" Calculate the operator(name='', rank=0, m=0, n=0) eT_HZ terms.
    These terms include the vibrational contributions from the e^T operator.
    This increases the number of possible non-zero permutations of creation/annihilation operators.
    """"""

    if ansatz.ground_state:
        if truncation.t_singles:
            if truncation.z_at_least_linear:
                R += np.einsum('i, ac, ci -> a', t_args[(0, 1)], h_args[(0, 0)], z_args[(1, 0)])
            if truncation.z_at_least_quadratic:
                R += (1 / 2) * np.einsum('i, j, ac, cij -> a', t_args[(0, 1)], t_args[(0, 1)], h_args[(0, 0)], z_args[(2, 0)])

        if truncation.h_at_least_linear:
            if truncation.t_singles:
                R += np.einsum('i, aci, c -> a', t_args[(0, 1)], h_args[(1, 0)], z_args[(0, 0)])
                if truncation.z_at_least_linear:
                    R += (
                        np.einsum('i, acij, cj -> a', t_args[(0, 1)], h_args[(1, 1)], z_args[(1, 0)]) +
                        np.einsum('i, j, acj, ci -> a', t_args[(0, 1)], t_args[(0, 1)], h_args[(1, 0)], z_args[(1, 0)])
                    )
                if truncation.z_at_least_quadratic:
                    R += (
                        np.einsum('i, acj, cij -> a', t_args[(0, 1)], h_args[(0, 1)], z_args[(2, 0)]) +
                        np.einsum('i, j, acjk, cik -> a', t_args[(0, 1)], t_args[(0, 1)], h_args[(1, 1)], z_args[(2, 0)])
                    )

        if truncation.h_at_least_quadratic:
            if truncation.t_singles:
                R += (1 / 2) * np.einsum('i, j, acij, c -> a', t_args[(0, 1)], t_args[(0, 1)], h_args[(2, 0)], z_args[(0, 0)])
    else:
        raise NotImplementedError('Hot Band amplitudes not implemented!')

    return

# --------------------------------------------------------------------------- #
# ---------------------------- RANK  1 FUNCTIONS ---------------------------- #
# --------------------------------------------------------------------------- #


# -------------- operator(name='b', rank=1, m=0, n=1) TERMS -------------- #
def add_m0_n1_HZ_terms(R, ansatz, truncation, t_args, h_args, z_args):
    """""" Calculate the operator(name='b', rank=1, m=0, n=1) HZ terms.
    These terms have no vibrational contribution from the e^T operator.
    This reduces the number of possible non-zero permutations of creation/annihilation operators.
    """"""

    if ansatz.ground_state:
        if truncation.h_at_least_linear:
            R += np.einsum('acz, c -> az', h_args[(1, 0)], z_args[(0, 0)])
            if truncation.z_at_least_linear:
                R += np.einsum('aciz, ci -> az', h_args[(1, 1)], z_args[(1, 0)])
            if truncation.z_at_least_quadratic:
                R += np.einsum('aci, ciz -> az', h_args[(0, 1)], z_args[(2, 0)])

    else:
        raise NotImplementedError('Hot Band amplitudes not implemented!')

    return


def add_m0_n1_eT_HZ_terms(R, ansatz, truncation, t_args, h_args, z_args):
    """""" Calculate the operator(name='b', rank=1, m=0, n=1) eT_HZ terms.
    These terms include the vibrational contributions from the e^T operator.
    This increases the number of possible non-zero permutations of creation/annihilation operators.
    """"""

    if ansatz.ground_state:
        if truncation.t_singles:
            if truncation.z_at_least_quadratic:
                R += np.einsum('i, ac, ciz -> az', t_args[(0, 1)], h_args[(0, 0)], z_args[(2, 0)])

        if truncation.h_at_least_linear:
            if truncation.t_singles:
                if truncation.z_at_least_linear:
                    R += (
                        np.einsum('i, acz, ci -> az', t_args[(0, 1)], h_args[(1, 0)], z_args[(1, 0)]) +
                        np.einsum('i, aci, cz -> az', t_args[(0, 1)], h_args[(1, 0)], z_args[(1, 0)])
                    )
                if truncation.z_at_least_quadratic:
                    R += (
                        np.einsum('i, acij, cjz -> az', t_args[(0, 1)], h_args[(1, 1)], z_args[(2, 0)]) +
                        np.einsum('i, acjz, cij -> az', t_args[(0, 1)], h_args[(1, 1)], z_args[(2, 0)]) +
                        np.einsum('i, j, acj, ciz -> az', t_args[(0, 1)], t_args[(0, 1)], h_args[(1, 0)], z_args[(2, 0)])
                    )
                    R += (1 / 2) * np.einsum('i, j, acz, cij -> az', t_args[(0, 1)], t_args[(0, 1)], h_args[(1, 0)], z_args[(2, 0)])

        if truncation.h_at_least_quadratic:
            if truncation.t_singles:
                R += np.einsum('i, aciz, c -> az', t_args[(0, 1)], h_args[(2, 0)], z_args[(0, 0)])
                if truncation.z_at_least_linear:
                    R += np.einsum('i, j, acjz, ci -> az', t_args[(0, 1)], t_args[(0, 1)], h_args[(2, 0)], z_args[(1, 0)])
                    R += (1 / 2) * np.einsum('i, j, acij, cz -> az', t_args[(0, 1)], t_args[(0, 1)], h_args[(2, 0)], z_args[(1, 0)])
    else:
        raise NotImplementedError('Hot Band amplitudes not implemented!')

    return

# --------------------------------------------------------------------------- #
# ---------------------------- RANK  2 FUNCTIONS ---------------------------- #
# --------------------------------------------------------------------------- #


# -------------- operator(name='bb', rank=2, m=0, n=2) TERMS -------------- #
def add_m0_n2_HZ_terms(R, ansatz, truncation, t_args, h_args, z_args):
    """""" Calculate the operator(name='bb', rank=2, m=0, n=2) HZ terms.
    These terms have no vibrational contribution from the e^T operator.
    This reduces the number of possible non-zero permutations of creation/annihilation operators.
    """"""

    if ansatz.ground_state:
        if truncation.h_at_least_linear:
            if truncation.z_at_least_linear:
                R += np.einsum('acz, cy -> azy', h_args[(1, 0)], z_args[(1, 0)])
            if truncation.z_at_least_quadratic:
                R += np.einsum('aciz, ciy -> azy', h_args[(1, 1)], z_args[(2, 0)])

        if truncation.h_at_least_quadratic:
            R += (1 / 2) * np.einsum('aczy, c -> azy', h_args[(2, 0)], z_args[(0, 0)])
    else:
        raise NotImplementedError('Hot Band amplitudes not implemented!')

    return


def add_m0_n2_eT_HZ_terms(R, ansatz, truncation, t_args, h_args, z_args):
    """""" Calculate the operator(name='bb', rank=2, m=0, n=2) eT_HZ terms.
    These terms include the vibrational contributions from the e^T operator.
    This increases the number of possible non-zero permutations of creation/annihilation operators.
    """"""

    if ansatz.ground_state:
        if truncation.h_at_least_linear:
            if truncation.t_singles:
                if truncation.z_at_least_quadratic:
                    R += np.einsum('i, acz, ciy -> azy', t_args[(0, 1)], h_args[(1, 0)], z_args[(2, 0)])
                    R += (1 / 2) * np.einsum('i, aci, czy -> azy', t_args[(0, 1)], h_args[(1, 0)], z_args[(2, 0)])

        if truncation.h_at_least_quadratic:
            if truncation.t_singles:
                if truncation.z_at_least_linear:
                    R += np.einsum('i, aciz, cy -> azy', t_args[(0, 1)], h_args[(2, 0)], z_args[(1, 0)])
                    R += (1 / 2) * np.einsum('i, aczy, ci -> azy', t_args[(0, 1)], h_args[(2, 0)], z_args[(1, 0)])
                if truncation.z_at_least_quadratic:
                    R += np.einsum('i, j, acjz, ciy -> azy', t_args[(0, 1)], t_args[(0, 1)], h_args[(2, 0)], z_args[(2, 0)])
                    R += (1 / 4) * (
                        np.einsum('i, j, aczy, cij -> azy', t_args[(0, 1)], t_args[(0, 1)], h_args[(2, 0)], z_args[(2, 0)]) +
                        np.einsum('i, j, acij, czy -> azy', t_args[(0, 1)], t_args[(0, 1)], h_args[(2, 0)], z_args[(2, 0)])
                    )
    else:
        raise NotImplementedError('Hot Band amplitudes not implemented!')

    return


# --------------------------------------------- RESIDUAL FUNCTIONS --------------------------------------------- #
def compute_m0_n0_amplitude(A, N, ansatz, truncation, t_args, h_args, z_args):
    """"""Compute the operator(name='', rank=0, m=0, n=0) amplitude.""""""
    truncation.confirm_at_least_singles()

    # the residual tensor
    R = np.zeros(shape=(A), dtype=complex)

    # add the terms
    add_m0_n0_HZ_terms(R, ansatz, truncation, t_args, h_args, z_args)
    add_m0_n0_eT_HZ_terms(R, ansatz, truncation, t_args, h_args, z_args)
    return R


def compute_m0_n1_amplitude(A, N, ansatz, truncation, t_args, h_args, z_args):
    """"""Compute the operator(name='b', rank=1, m=0, n=1) amplitude.""""""
    truncation.confirm_at_least_singles()

    # the residual tensor
    R = np.zeros(shape=(A, N), dtype=complex)

    # add the terms
    add_m0_n1_HZ_terms(R, ansatz, truncation, t_args, h_args, z_args)
    add_m0_n1_eT_HZ_terms(R, ansatz, truncation, t_args, h_args, z_args)
    return R


def compute_m0_n2_amplitude(A, N, ansatz, truncation, t_args, h_args, z_args):
    """"""Compute the operator(name='bb', rank=2, m=0, n=2) amplitude.""""""
    truncation.confirm_at_least_singles()
    truncation.confirm_at_least_doubles()

    # the residual tensor
    R = np.zeros(shape=(A, N, N), dtype=complex)

    # add the terms
    add_m0_n2_HZ_terms(R, ansatz, truncation, t_args, h_args, z_args)
    add_m0_n2_eT_HZ_terms(R, ansatz, truncation, t_args, h_args, z_args)
    return R

# ------------------------------------------------------------------------------------------------------------- #
# -------------------------------------------- OPTIMIZED FUNCTIONS -------------------------------------------- #
# ------------------------------------------------------------------------------------------------------------- #

# --------------------------------------------- INDIVIDUAL TERMS --------------------------------------------- #


# -------------- operator(name='', rank=0, m=0, n=0) TERMS -------------- #
def add_m0_n0_HZ_terms_optimized(R, ansatz, truncation, t_args, h_args, z_args, opt_einsum):
    """""" Optimized calculation of the operator(name='', rank=0, m=0, n=0) HZ terms.
    These terms have no vibrational contribution from the e^T operator.
    This reduces the number of possible non-zero permutations of creation/annihilation operators.
    """"""

    if ansatz.ground_state:
        if truncation.h_at_least_linear:
            if truncation.z_at_least_linear:
                R += np.einsum('aci, ci -> a', h_args[(0, 1)], z_args[(1, 0)])

        if truncation.h_at_least_quadratic:
            if truncation.z_at_least_quadratic:
                R += (1 / 2) * np.einsum('acij, cij -> a', h_args[(0, 2)], z_args[(2, 0)])
    else:
        raise NotImplementedError('Hot Band amplitudes not implemented!')

    return


def add_m0_n0_eT_HZ_terms_optimized(R, ansatz, truncation, t_args, h_args, z_args, opt_einsum):
    """""" Optimized calculation of the operator(name='', rank=0, m=0, n=0) eT_HZ terms.
    These terms include the vibrational contributions from the e^T operator.
    This increases the number of possible non-zero permutations of creation/annihilation operators.
    """"""

    if ansatz.ground_state:
        if truncation.t_singles:
            if truncation.z_at_least_linear:
                R += np.einsum('i, ac, ci -> a', t_args[(0, 1)], h_args[(0, 0)], z_args[(1, 0)])
            if truncation.z_at_least_quadratic:
                R += (1 / 2) * np.einsum('i, j, ac, cij -> a', t_args[(0, 1)], t_args[(0, 1)], h_args[(0, 0)], z_args[(2, 0)])

        if truncation.h_at_least_linear:
            if truncation.t_singles:
                R += np.einsum('i, aci, c -> a', t_args[(0, 1)], h_args[(1, 0)], z_args[(0, 0)])
                if truncation.z_at_least_linear:
                    R += (
                        np.einsum('i, acij, cj -> a', t_args[(0, 1)], h_args[(1, 1)], z_args[(1, 0)]) +
                        np.einsum('i, j, acj, ci -> a', t_args[(0, 1)], t_args[(0, 1)], h_args[(1, 0)], z_args[(1, 0)])
                    )
                if truncation.z_at_least_quadratic:
                    R += (
                        np.einsum('i, acj, cij -> a', t_args[(0, 1)], h_args[(0, 1)], z_args[(2, 0)]) +
                        np.einsum('i, j, acjk, cik -> a', t_args[(0, 1)], t_args[(0, 1)], h_args[(1, 1)], z_args[(2, 0)])
                    )

        if truncation.h_at_least_quadratic:
            if truncation.t_singles:
                R += (1 / 2) * np.einsum('i, j, acij, c -> a', t_args[(0, 1)], t_args[(0, 1)], h_args[(2, 0)], z_args[(0, 0)])
    else:
        raise NotImplementedError('Hot Band amplitudes not implemented!')

    return

# --------------------------------------------------------------------------- #
# ---------------------------- RANK  1 FUNCTIONS ---------------------------- #
# --------------------------------------------------------------------------- #


# -------------- operator(name='b', rank=1, m=0, n=1) TERMS -------------- #
def add_m0_n1_HZ_terms_optimized(R, ansatz, truncation, t_args, h_args, z_args, opt_einsum):
    """""" Optimized calculation of the operator(name='b', rank=1, m=0, n=1) HZ terms.
    These terms have no vibrational contribution from the e^T operator.
    This reduces the number of possible non-zero permutations of creation/annihilation operators.
    """"""

    if ansatz.ground_state:
        if truncation.h_at_least_linear:
            R += np.einsum('acz, c -> az', h_args[(1, 0)], z_args[(0, 0)])
            if truncation.z_at_least_linear:
                R += np.einsum('aciz, ci -> az', h_args[(1, 1)], z_args[(1, 0)])
            if truncation.z_at_least_quadratic:
                R += np.einsum('aci, ciz -> az', h_args[(0, 1)], z_args[(2, 0)])

    else:
        raise NotImplementedError('Hot Band amplitudes not implemented!')

    return


def add_m0_n1_eT_HZ_terms_optimized(R, ansatz, truncation, t_args, h_args, z_args, opt_einsum):
    """""" Optimized calculation of the operator(name='b', rank=1, m=0, n=1) eT_HZ terms.
    These terms include the vibrational contributions from the e^T operator.
    This increases the number of possible non-zero permutations of creation/annihilation operators.
    """"""

    if ansatz.ground_state:
        if truncation.t_singles:
            if truncation.z_at_least_quadratic:
                R += np.einsum('i, ac, ciz -> az', t_args[(0, 1)], h_args[(0, 0)], z_args[(2, 0)])

        if truncation.h_at_least_linear:
            if truncation.t_singles:
                if truncation.z_at_least_linear:
                    R += (
                        np.einsum('i, acz, ci -> az', t_args[(0, 1)], h_args[(1, 0)], z_args[(1, 0)]) +
                        np.einsum('i, aci, cz -> az', t_args[(0, 1)], h_args[(1, 0)], z_args[(1, 0)])
                    )
                if truncation.z_at_least_quadratic:
                    R += (
                        np.einsum('i, acij, cjz -> az', t_args[(0, 1)], h_args[(1, 1)], z_args[(2, 0)]) +
                        np.einsum('i, acjz, cij -> az', t_args[(0, 1)], h_args[(1, 1)], z_args[(2, 0)]) +
                        np.einsum('i, j, acj, ciz -> az', t_args[(0, 1)], t_args[(0, 1)], h_args[(1, 0)], z_args[(2, 0)])
                    )
                    R += (1 / 2) * np.einsum('i, j, acz, cij -> az', t_args[(0, 1)], t_args[(0, 1)], h_args[(1, 0)], z_args[(2, 0)])

        if truncation.h_at_least_quadratic:
            if truncation.t_singles:
                R += np.einsum('i, aciz, c -> az', t_args[(0, 1)], h_args[(2, 0)], z_args[(0, 0)])
                if truncation.z_at_least_linear:
                    R += np.einsum('i, j, acjz, ci -> az', t_args[(0, 1)], t_args[(0, 1)], h_args[(2, 0)], z_args[(1, 0)])
                    R += (1 / 2) * np.einsum('i, j, acij, cz -> az', t_args[(0, 1)], t_args[(0, 1)], h_args[(2, 0)], z_args[(1, 0)])
    else:
        raise NotImplementedError('Hot Band amplitudes not implemented!')

    return

# --------------------------------------------------------------------------- #
# ---------------------------- RANK  2 FUNCTIONS ---------------------------- #
# --------------------------------------------------------------------------- #


# -------------- operator(name='bb', rank=2, m=0, n=2) TERMS -------------- #
def add_m0_n2_HZ_terms_optimized(R, ansatz, truncation, t_args, h_args, z_args, opt_einsum):
    """""" Optimized calculation of the operator(name='bb', rank=2, m=0, n=2) HZ terms.
    These terms have no vibrational contribution from the e^T operator.
    This reduces the number of possible non-zero permutations of creation/annihilation operators.
    """"""

    if ansatz.ground_state:
        if truncation.h_at_least_linear:
            if truncation.z_at_least_linear:
                R += np.einsum('acz, cy -> azy', h_args[(1, 0)], z_args[(1, 0)])
            if truncation.z_at_least_quadratic:
                R += np.einsum('aciz, ciy -> azy', h_args[(1, 1)], z_args[(2, 0)])

        if truncation.h_at_least_quadratic:
            R += (1 / 2) * np.einsum('aczy, c -> azy', h_args[(2, 0)], z_args[(0, 0)])
    else:
        raise NotImplementedError('Hot Band amplitudes not implemented!')

    return


def add_m0_n2_eT_HZ_terms_optimized(R, ansatz, truncation, t_args, h_args, z_args, opt_einsum):
    """""" Optimized calculation of the operator(name='bb', rank=2, m=0, n=2) eT_HZ terms.
    These terms include the vibrational contributions from the e^T operator.
    This increases the number of possible non-zero permutations of creation/annihilation operators.
    """"""

    if ansatz.ground_state:
        if truncation.h_at_least_linear:
            if truncation.t_singles:
                if truncation.z_at_least_quadratic:
                    R += np.einsum('i, acz, ciy -> azy', t_args[(0, 1)], h_args[(1, 0)], z_args[(2, 0)])
                    R += (1 / 2) * np.einsum('i, aci, czy -> azy', t_args[(0, 1)], h_args[(1, 0)], z_args[(2, 0)])

        if truncation.h_at_least_quadratic:
            if truncation.t_singles:
                if truncation.z_at_least_linear:
                    R += np.einsum('i, aciz, cy -> azy', t_args[(0, 1)], h_args[(2, 0)], z_args[(1, 0)])
                    R += (1 / 2) * np.einsum('i, aczy, ci -> azy', t_args[(0, 1)], h_args[(2, 0)], z_args[(1, 0)])
                if truncation.z_at_least_quadratic:
                    R += np.einsum('i, j, acjz, ciy -> azy', t_args[(0, 1)], t_args[(0, 1)], h_args[(2, 0)], z_args[(2, 0)])
                    R += (1 / 4) * (
                        np.einsum('i, j, aczy, cij -> azy', t_args[(0, 1)], t_args[(0, 1)], h_args[(2, 0)], z_args[(2, 0)]) +
                        np.einsum('i, j, acij, czy -> azy', t_args[(0, 1)], t_args[(0, 1)], h_args[(2, 0)], z_args[(2, 0)])
                    )
    else:
        raise NotImplementedError('Hot Band amplitudes not implemented!')

    return


# --------------------------------------------- RESIDUAL FUNCTIONS --------------------------------------------- #
def compute_m0_n0_amplitude_optimized(A, N, ansatz, truncation, t_args, h_args, z_args, opt_paths):
    """"""Compute the operator(name='', rank=0, m=0, n=0) amplitude.""""""
    truncation.confirm_at_least_singles()

    # the residual tensor
    R = np.zeros(shape=(A), dtype=complex)

    # unpack the optimized paths
    optimized_HZ_paths, optimized_eT_HZ_paths = opt_paths

    # add the terms
    add_m0_n0_HZ_terms_optimized(R, ansatz, truncation, t_args, h_args, z_args, optimized_HZ_paths)
    add_m0_n0_eT_HZ_terms_optimized(R, ansatz, truncation, t_args, h_args, z_args, optimized_eT_HZ_paths)
    return R


def compute_m0_n1_amplitude_optimized(A, N, ansatz, truncation, t_args, h_args, z_args, opt_paths):
    """"""Compute the operator(name='b', rank=1, m=0, n=1) amplitude.""""""
    truncation.confirm_at_least_singles()

    # the residual tensor
    R = np.zeros(shape=(A, N), dtype=complex)

    # unpack the optimized paths
    optimized_HZ_paths, optimized_eT_HZ_paths = opt_paths

    # add the terms
    add_m0_n1_HZ_terms_optimized(R, ansatz, truncation, t_args, h_args, z_args, optimized_HZ_paths)
    add_m0_n1_eT_HZ_terms_optimized(R, ansatz, truncation, t_args, h_args, z_args, optimized_eT_HZ_paths)
    return R


def compute_m0_n2_amplitude_optimized(A, N, ansatz, truncation, t_args, h_args, z_args, opt_paths):
    """"""Compute the operator(name='bb', rank=2, m=0, n=2) amplitude.""""""
    truncation.confirm_at_least_singles()
    truncation.confirm_at_least_doubles()

    # the residual tensor
    R = np.zeros(shape=(A, N, N), dtype=complex)

    # unpack the optimized paths
    optimized_HZ_paths, optimized_eT_HZ_paths = opt_paths

    # add the terms
    add_m0_n2_HZ_terms_optimized(R, ansatz, truncation, t_args, h_args, z_args, optimized_HZ_paths)
    add_m0_n2_eT_HZ_terms_optimized(R, ansatz, truncation, t_args, h_args, z_args, optimized_eT_HZ_paths)
    return R


# --------------------------------------------- OPTIMIZED PATHS FUNCTION --------------------------------------------- #"%string.
Example golden_eT_2_matches :
  same_text (generate_eT_zhz_python RHS true 2 2 1 2 2) golden_eT_2 = true.
Proof. vm_compute. reflexivity. Qed.

(* text of /repo/tests/deep/files/test_code_eT_zhz/eT_zhz_eqs_LHS_H(2)_P(3)_T(1)_exp(2)_Z(3).py *)
Definition golden_eT_3 : string :=
"# system imports
from math import factorial

# third party imports
import numpy as np
import opt_einsum as oe

# local imports
from .symmetrize import symmetrize_tensor
from ..log_conf import log

# ------------------------------------------------------------------------------------------------------------- #
# --------------------------------------------- DEFAULT FUNCTIONS --------------------------------------------- #
# ------------------------------------------------------------------------------------------------------------- #

# --------------------------------------------- INDIVIDUAL TERMS --------------------------------------------- #


# -------------- operator(name='', rank=0, m=0, n=0) TERMS -------------- #
def compute_m0_n0_HZ_LHS(Z, ansatz, truncation, t_conj, dT, z_args, dz_args):
    """""" Calculate the operator(name='', rank=0, m=0, n=0) HZ terms.
    These terms have no vibrational contribution from the e^T operator.
    This reduces the number of possible non-zero permutations of creation/annihilation operators.
    """"""

    if ansatz.ground_state:
        pass  # no valid terms here
    else:
        raise NotImplementedError('Hot Band amplitudes not implemented!')

    return


def compute_m0_n0_eT_HZ_LHS(Z, ansatz, truncation, t_conj, dT, z_args, dz_args):
    """""" Calculate the operator(name='', rank=0, m=0, n=0) eT_HZ terms.
    These terms include the vibrational contributions from the e^T operator.
    This increases the number of possible non-zero permutations of creation/annihilation operators.
    """"""

    if ansatz.ground_state:
        if truncation.t_singles:
            if truncation.z_at_least_linear:
                Z += np.einsum('i, ci -> c', t_conj[(0, 1)], dz_args[(1, 0)])
            if truncation.z_at_least_quadratic:
                Z += (1 / 2) * np.einsum('i, j, cij -> c', t_conj[(0, 1)], t_conj[(0, 1)], dz_args[(2, 0)])

        if truncation.h_at_least_linear:
            if truncation.t_singles:
                Z += np.einsum('i, i, c -> c', t_conj[(0, 1)], dT[(1, 0)], z_args[(0, 0)])
                if truncation.z_at_least_linear:
                    Z += np.einsum('i, j, j, ci -> c', t_conj[(0, 1)], t_conj[(0, 1)], dT[(1, 0)], z_args[(1, 0)])

        if truncation.h_at_least_quadratic:
            if truncation.t_singles:
                Z += (1 / 2) * np.einsum('i, j, ij, c -> c', t_conj[(0, 1)], t_conj[(0, 1)], dT[(2, 0)], z_args[(0, 0)])
    else:
        raise NotImplementedError('Hot Band amplitudes not implemented!')

    return

# --------------------------------------------------------------------------- #
# ---------------------------- RANK  1 FUNCTIONS ---------------------------- #
# --------------------------------------------------------------------------- #


# -------------- operator(name='b', rank=1, m=0, n=1) TERMS -------------- #
def compute_m0_n1_HZ_LHS(Z, ansatz, truncation, t_conj, dT, z_args, dz_args):
    """""" Calculate the operator(name='b', rank=1, m=0, n=1) HZ terms.
    These terms have no vibrational contribution from the e^T operator.
    This reduces the number of possible non-zero permutations of creation/annihilation operators.
    """"""

    if ansatz.ground_state:
        if truncation.h_at_least_linear:
            Z += np.einsum('z, c -> cz', dT[(1, 0)], z_args[(0, 0)])

    else:
        raise NotImplementedError('Hot Band amplitudes not implemented!')

    return


def compute_m0_n1_eT_HZ_LHS(Z, ansatz, truncation, t_conj, dT, z_args, dz_args):
    """""" Calculate the operator(name='b', rank=1, m=0, n=1) eT_HZ terms.
    These terms include the vibrational contributions from the e^T operator.
    This increases the number of possible non-zero permutations of creation/annihilation operators.
    """"""

    if ansatz.ground_state:
        if truncation.t_singles:
            if truncation.z_at_least_quadratic:
                Z += np.einsum('i, ciz -> cz', t_conj[(0, 1)], dz_args[(2, 0)])
            if truncation.z_at_least_cubic:
                Z += (1 / 2) * np.einsum('i, j, cijz -> cz', t_conj[(0, 1)], t_conj[(0, 1)], dz_args[(3, 0)])

        if truncation.h_at_least_linear:
            if truncation.t_singles:
                if truncation.z_at_least_linear:
                    Z += (
                        np.einsum('i, z, ci -> cz', t_conj[(0, 1)], dT[(1, 0)], z_args[(1, 0)]) +
                        np.einsum('i, i, cz -> cz', t_conj[(0, 1)], dT[(1, 0)], z_args[(1, 0)])
                    )
                if truncation.z_at_least_quadratic:
                    Z += np.einsum('i, j, j, ciz -> cz', t_conj[(0, 1)], t_conj[(0, 1)], dT[(1, 0)], z_args[(2, 0)])
                    Z += (1 / 2) * np.einsum('i, j, z, cij -> cz', t_conj[(0, 1)], t_conj[(0, 1)], dT[(1, 0)], z_args[(2, 0)])

        if truncation.h_at_least_quadratic:
            if truncation.t_singles:
                Z += np.einsum('i, iz, c -> cz', t_conj[(0, 1)], dT[(2, 0)], z_args[(0, 0)])
                if truncation.z_at_least_linear:
                    Z += np.einsum('i, j, jz, ci -> cz', t_conj[(0, 1)], t_conj[(0, 1)], dT[(2, 0)], z_args[(1, 0)])
                    Z += (1 / 2) * np.einsum('i, j, ij, cz -> cz', t_conj[(0, 1)], t_conj[(0, 1)], dT[(2, 0)], z_args[(1, 0)])
    else:
        raise NotImplementedError('Hot Band amplitudes not implemented!')

    return

# --------------------------------------------------------------------------- #
# ---------------------------- RANK  2 FUNCTIONS ---------------------------- #
# --------------------------------------------------------------------------- #


# -------------- operator(name='bb', rank=2, m=0, n=2) TERMS -------------- #
def compute_m0_n2_HZ_LHS(Z, ansatz, truncation, t_conj, dT, z_args, dz_args):
    """""" Calculate the operator(name='bb', rank=2, m=0, n=2) HZ terms.
    These terms have no vibrational contribution from the e^T operator.
    This reduces the number of possible non-zero permutations of creation/annihilation operators.
    """"""

    if ansatz.ground_state:
        if truncation.h_at_least_linear:
            if truncation.z_at_least_linear:
                Z += np.einsum('z, cy -> czy', dT[(1, 0)], z_args[(1, 0)])

        if truncation.h_at_least_quadratic:
            Z += (1 / 2) * np.einsum('zy, c -> czy', dT[(2, 0)], z_args[(0, 0)])
    else:
        raise NotImplementedError('Hot Band amplitudes not implemented!')

    return


def compute_m0_n2_eT_HZ_LHS(Z, ansatz, truncation, t_conj, dT, z_args, dz_args):
    """""" Calculate the operator(name='bb', rank=2, m=0, n=2) eT_HZ terms.
    These terms include the vibrational contributions from the e^T operator.
    This increases the number of possible non-zero permutations of creation/annihilation operators.
    """"""

    if ansatz.ground_state:
        if truncation.t_singles:
            if truncation.z_at_least_cubic:
                Z += (1 / 2) * np.einsum('i, cizy -> czy', t_conj[(0, 1)], dz_args[(3, 0)])

        if truncation.h_at_least_linear:
            if truncation.t_singles:
                if truncation.z_at_least_quadratic:
                    Z += np.einsum('i, z, ciy -> czy', t_conj[(0, 1)], dT[(1, 0)], z_args[(2, 0)])
                    Z += (1 / 2) * np.einsum('i, i, czy -> czy', t_conj[(0, 1)], dT[(1, 0)], z_args[(2, 0)])
                if truncation.z_at_least_cubic:
                    Z += (1 / 2) * (
                        np.einsum('i, j, j, cizy -> czy', t_conj[(0, 1)], t_conj[(0, 1)], dT[(1, 0)], z_args[(3, 0)]) +
                        np.einsum('i, j, z, cijy -> czy', t_conj[(0, 1)], t_conj[(0, 1)], dT[(1, 0)], z_args[(3, 0)])
                    )

        if truncation.h_at_least_quadratic:
            if truncation.t_singles:
                if truncation.z_at_least_linear:
                    Z += np.einsum('i, iz, cy -> czy', t_conj[(0, 1)], dT[(2, 0)], z_args[(1, 0)])
                    Z += (1 / 2) * np.einsum('i, zy, ci -> czy', t_conj[(0, 1)], dT[(2, 0)], z_args[(1, 0)])
                if truncation.z_at_least_quadratic:
                    Z += np.einsum('i, j, jz, ciy -> czy', t_conj[(0, 1)], t_conj[(0, 1)], dT[(2, 0)], z_args[(2, 0)])
                    Z += (1 / 4) * (
                        np.einsum('i, j, zy, cij -> czy', t_conj[(0, 1)], t_conj[(0, 1)], dT[(2, 0)], z_args[(2, 0)]) +
                        np.einsum('i, j, ij, czy -> czy', t_conj[(0, 1)], t_conj[(0, 1)], dT[(2, 0)], z_args[(2, 0)])
                    )
    else:
        raise NotImplementedError('Hot Band amplitudes not implemented!')

    return

# --------------------------------------------------------------------------- #
# ---------------------------- RANK  3 FUNCTIONS ---------------------------- #
# --------------------------------------------------------------------------- #


# -------------- operator(name='bbb', rank=3, m=0, n=3) TERMS -------------- #
def compute_m0_n3_HZ_LHS(Z, ansatz, truncation, t_conj, dT, z_args, dz_args):
    """""" Calculate the operator(name='bbb', rank=3, m=0, n=3) HZ terms.
    These terms have no vibrational contribution from the e^T operator.
    This reduces the number of possible non-zero permutations of creation/annihilation operators.
    """"""

    if ansatz.ground_state:
        if truncation.h_at_least_linear:
            if truncation.z_at_least_quadratic:
                Z += (1 / 2) * np.einsum('z, cyx -> czyx', dT[(1, 0)], z_args[(2, 0)])

        if truncation.h_at_least_quadratic:
            if truncation.z_at_least_linear:
                Z += (1 / 2) * np.einsum('zy, cx -> czyx', dT[(2, 0)], z_args[(1, 0)])
    else:
        raise NotImplementedError('Hot Band amplitudes not implemented!')

    return


def compute_m0_n3_eT_HZ_LHS(Z, ansatz, truncation, t_conj, dT, z_args, dz_args):
    """""" Calculate the operator(name='bbb', rank=3, m=0, n=3) eT_HZ terms.
    These terms include the vibrational contributions from the e^T operator.
    This increases the number of possible non-zero permutations of creation/annihilation operators.
    """"""

    if ansatz.ground_state:
        if truncation.h_at_least_linear:
            if truncation.t_singles:
                if truncation.z_at_least_cubic:
                    Z += (1 / 2) * np.einsum('i, z, ciyx -> czyx', t_conj[(0, 1)], dT[(1, 0)], z_args[(3, 0)])
                    Z += (1 / 6) * np.einsum('i, i, czyx -> czyx', t_conj[(0, 1)], dT[(1, 0)], z_args[(3, 0)])

        if truncation.h_at_least_quadratic:
            if truncation.t_singles:
                if truncation.z_at_least_quadratic:
                    Z += (1 / 2) * (
                        np.einsum('i, zy, cix -> czyx', t_conj[(0, 1)], dT[(2, 0)], z_args[(2, 0)]) +
                        np.einsum('i, iz, cyx -> czyx', t_conj[(0, 1)], dT[(2, 0)], z_args[(2, 0)])
                    )
                if truncation.z_at_least_cubic:
                    Z += (1 / 12) * np.einsum('i, j, ij, czyx -> czyx', t_conj[(0, 1)], t_conj[(0, 1)], dT[(2, 0)], z_args[(3, 0)])
                    Z += (1 / 2) * np.einsum('i, j, jz, ciyx -> czyx', t_conj[(0, 1)], t_conj[(0, 1)], dT[(2, 0)], z_args[(3, 0)])
                    Z += (1 / 4) * np.einsum('i, j, zy, cijx -> czyx', t_conj[(0, 1)], t_conj[(0, 1)], dT[(2, 0)], z_args[(3, 0)])
    else:
        raise NotImplementedError('Hot Band amplitudes not implemented!')

    return


# --------------------------------------------- RESIDUAL FUNCTIONS --------------------------------------------- #
def compute_m0_n0_amplitude(A, N, ansatz, truncation, t_conj, dT, z_args, dz_args):
    """"""Compute the operator(name='', rank=0, m=0, n=0) amplitude.""""""
    truncation.confirm_at_least_singles()

    # the residual tensor
    dz = np.zeros(shape=(A), dtype=complex)

    # compute the terms
    compute_m0_n0_HZ_LHS(dz, ansatz, truncation, t_conj, dT, z_args, dz_args)
    compute_m0_n0_eT_HZ_LHS(dz, ansatz, truncation, t_conj, dT, z_args, dz_args)
    return dz


def compute_m0_n1_amplitude(A, N, ansatz, truncation, t_conj, dT, z_args, dz_args):
    """"""Compute the operator(name='b', rank=1, m=0, n=1) amplitude.""""""
    truncation.confirm_at_least_singles()

    # the residual tensor
    dz = np.zeros(shape=(A, N), dtype=complex)

    # compute the terms
    compute_m0_n1_HZ_LHS(dz, ansatz, truncation, t_conj, dT, z_args, dz_args)
    compute_m0_n1_eT_HZ_LHS(dz, ansatz, truncation, t_conj, dT, z_args, dz_args)
    return dz


def compute_m0_n2_amplitude(A, N, ansatz, truncation, t_conj, dT, z_args, dz_args):
    """"""Compute the operator(name='bb', rank=2, m=0, n=2) amplitude.""""""
    truncation.confirm_at_least_singles()
    truncation.confirm_at_least_doubles()

    # the residual tensor
    dz = np.zeros(shape=(A, N, N), dtype=complex)

    # compute the terms
    compute_m0_n2_HZ_LHS(dz, ansatz, truncation, t_conj, dT, z_args, dz_args)
    compute_m0_n2_eT_HZ_LHS(dz, ansatz, truncation, t_conj, dT, z_args, dz_args)
    return dz


def compute_m0_n3_amplitude(A, N, ansatz, truncation, t_conj, dT, z_args, dz_args):
    """"""Compute the operator(name='bbb', rank=3, m=0, n=3) amplitude.""""""
    truncation.confirm_at_least_singles()
    truncation.confirm_at_least_doubles()
    truncation.confirm_at_least_triples()

    # the residual tensor
    dz = np.zeros(shape=(A, N, N, N), dtype=complex)

    # compute the terms
    compute_m0_n3_HZ_LHS(dz, ansatz, truncation, t_conj, dT, z_args, dz_args)
    compute_m0_n3_eT_HZ_LHS(dz, ansatz, truncation, t_conj, dT, z_args, dz_args)
    return dz

# ------------------------------------------------------------------------------------------------------------- #
# -------------------------------------------- OPTIMIZED FUNCTIONS -------------------------------------------- #
# ------------------------------------------------------------------------------------------------------------- #

# --------------------------------------------- INDIVIDUAL TERMS --------------------------------------------- #


# -------------- operator(name='', rank=0, m=0, n=0) TERMS -------------- #
def compute_m0_n0_HZ_LHS_optimized(Z, ansatz, truncation, t_conj, dT, z_args, dz_args, opt_einsum):
    """""" Optimized calculation of the operator(name='', rank=0, m=0, n=0) HZ terms.
    These terms have no vibrational contribution from the e^T operator.
    This reduces the number of possible non-zero permutations of creation/annihilation operators.
    """"""

    if ansatz.ground_state:
        pass  # no valid terms here
    else:
        raise NotImplementedError('Hot Band amplitudes not implemented!')

    return


def compute_m0_n0_eT_HZ_LHS_optimized(Z, ansatz, truncation, t_conj, dT, z_args, dz_args, opt_einsum):
    """""" Optimized calculation of the operator(name='', rank=0, m=0, n=0) eT_HZ terms.
    These terms include the vibrational contributions from the e^T operator.
    This increases the number of possible non-zero permutations of creation/annihilation operators.
    """"""

    if ansatz.ground_state:
        if truncation.t_singles:
            if truncation.z_at_least_linear:
                Z += np.einsum('i, ci -> c', t_conj[(0, 1)], dz_args[(1, 0)])
            if truncation.z_at_least_quadratic:
                Z += (1 / 2) * np.einsum('i, j, cij -> c', t_conj[(0, 1)], t_conj[(0, 1)], dz_args[(2, 0)])

        if truncation.h_at_least_linear:
            if truncation.t_singles:
                Z += np.einsum('i, i, c -> c', t_conj[(0, 1)], dT[(1, 0)], z_args[(0, 0)])
                if truncation.z_at_least_linear:
                    Z += np.einsum('i, j, j, ci -> c', t_conj[(0, 1)], t_conj[(0, 1)], dT[(1, 0)], z_args[(1, 0)])

        if truncation.h_at_least_quadratic:
            if truncation.t_singles:
                Z += (1 / 2) * np.einsum('i, j, ij, c -> c', t_conj[(0, 1)], t_conj[(0, 1)], dT[(2, 0)], z_args[(0, 0)])
    else:
        raise NotImplementedError('Hot Band amplitudes not implemented!')

    return

# --------------------------------------------------------------------------- #
# ---------------------------- RANK  1 FUNCTIONS ---------------------------- #
# --------------------------------------------------------------------------- #


# -------------- operator(name='b', rank=1, m=0, n=1) TERMS -------------- #
def compute_m0_n1_HZ_LHS_optimized(Z, ansatz, truncation, t_conj, dT, z_args, dz_args, opt_einsum):
    """""" Optimized calculation of the operator(name='b', rank=1, m=0, n=1) HZ terms.
    These terms have no vibrational contribution from the e^T operator.
    This reduces the number of possible non-zero permutations of creation/annihilation operators.
    """"""

    if ansatz.ground_state:
        if truncation.h_at_least_linear:
            Z += np.einsum('z, c -> cz', dT[(1, 0)], z_args[(0, 0)])

    else:
        raise NotImplementedError('Hot Band amplitudes not implemented!')

    return


def compute_m0_n1_eT_HZ_LHS_optimized(Z, ansatz, truncation, t_conj, dT, z_args, dz_args, opt_einsum):
    """""" Optimized calculation of the operator(name='b', rank=1, m=0, n=1) eT_HZ terms.
    These terms include the vibrational contributions from the e^T operator.
    This increases the number of possible non-zero permutations of creation/annihilation operators.
    """"""

    if ansatz.ground_state:
        if truncation.t_singles:
            if truncation.z_at_least_quadratic:
                Z += np.einsum('i, ciz -> cz', t_conj[(0, 1)], dz_args[(2, 0)])
            if truncation.z_at_least_cubic:
                Z += (1 / 2) * np.einsum('i, j, cijz -> cz', t_conj[(0, 1)], t_conj[(0, 1)], dz_args[(3, 0)])

        if truncation.h_at_least_linear:
            if truncation.t_singles:
                if truncation.z_at_least_linear:
                    Z += (
                        np.einsum('i, z, ci -> cz', t_conj[(0, 1)], dT[(1, 0)], z_args[(1, 0)]) +
                        np.einsum('i, i, cz -> cz', t_conj[(0, 1)], dT[(1, 0)], z_args[(1, 0)])
                    )
                if truncation.z_at_least_quadratic:
                    Z += np.einsum('i, j, j, ciz -> cz', t_conj[(0, 1)], t_conj[(0, 1)], dT[(1, 0)], z_args[(2, 0)])
                    Z += (1 / 2) * np.einsum('i, j, z, cij -> cz', t_conj[(0, 1)], t_conj[(0, 1)], dT[(1, 0)], z_args[(2, 0)])

        if truncation.h_at_least_quadratic:
            if truncation.t_singles:
                Z += np.einsum('i, iz, c -> cz', t_conj[(0, 1)], dT[(2, 0)], z_args[(0, 0)])
                if truncation.z_at_least_linear:
                    Z += np.einsum('i, j, jz, ci -> cz', t_conj[(0, 1)], t_conj[(0, 1)], dT[(2, 0)], z_args[(1, 0)])
                    Z += (1 / 2) * np.einsum('i, j, ij, cz -> cz', t_conj[(0, 1)], t_conj[(0, 1)], dT[(2, 0)], z_args[(1, 0)])
    else:
        raise NotImplementedError('Hot Band amplitudes not implemented!')

    return

# --------------------------------------------------------------------------- #
# ---------------------------- RANK  2 FUNCTIONS ---------------------------- #
# --------------------------------------------------------------------------- #


# -------------- operator(name='bb', rank=2, m=0, n=2) TERMS -------------- #
def compute_m0_n2_HZ_LHS_optimized(Z, ansatz, truncation, t_conj, dT, z_args, dz_args, opt_einsum):
    """""" Optimized calculation of the operator(name='bb', rank=2, m=0, n=2) HZ terms.
    These terms have no vibrational contribution from the e^T operator.
    This reduces the number of possible non-zero permutations of creation/annihilation operators.
    """"""

    if ansatz.ground_state:
        if truncation.h_at_least_linear:
            if truncation.z_at_least_linear:
                Z += np.einsum('z, cy -> czy', dT[(1, 0)], z_args[(1, 0)])

        if truncation.h_at_least_quadratic:
            Z += (1 / 2) * np.einsum('zy, c -> czy', dT[(2, 0)], z_args[(0, 0)])
    else:
        raise NotImplementedError('Hot Band amplitudes not implemented!')

    return


def compute_m0_n2_eT_HZ_LHS_optimized(Z, ansatz, truncation, t_conj, dT, z_args, dz_args, opt_einsum):
    """""" Optimized calculation of the operator(name='bb', rank=2, m=0, n=2) eT_HZ terms.
    These terms include the vibrational contributions from the e^T operator.
    This increases the number of possible non-zero permutations of creation/annihilation operators.
    """"""

    if ansatz.ground_state:
        if truncation.t_singles:
            if truncation.z_at_least_cubic:
                Z += (1 / 2) * np.einsum('i, cizy -> czy', t_conj[(0, 1)], dz_args[(3, 0)])

        if truncation.h_at_least_linear:
            if truncation.t_singles:
                if truncation.z_at_least_quadratic:
                    Z += np.einsum('i, z, ciy -> czy', t_conj[(0, 1)], dT[(1, 0)], z_args[(2, 0)])
                    Z += (1 / 2) * np.einsum('i, i, czy -> czy', t_conj[(0, 1)], dT[(1, 0)], z_args[(2, 0)])
                if truncation.z_at_least_cubic:
                    Z += (1 / 2) * (
                        np.einsum('i, j, j, cizy -> czy', t_conj[(0, 1)], t_conj[(0, 1)], dT[(1, 0)], z_args[(3, 0)]) +
                        np.einsum('i, j, z, cijy -> czy', t_conj[(0, 1)], t_conj[(0, 1)], dT[(1, 0)], z_args[(3, 0)])
                    )

        if truncation.h_at_least_quadratic:
            if truncation.t_singles:
                if truncation.z_at_least_linear:
                    Z += np.einsum('i, iz, cy -> czy', t_conj[(0, 1)], dT[(2, 0)], z_args[(1, 0)])
                    Z += (1 / 2) * np.einsum('i, zy, ci -> czy', t_conj[(0, 1)], dT[(2, 0)], z_args[(1, 0)])
                if truncation.z_at_least_quadratic:
                    Z += np.einsum('i, j, jz, ciy -> czy', t_conj[(0, 1)], t_conj[(0, 1)], dT[(2, 0)], z_args[(2, 0)])
                    Z += (1 / 4) * (
                        np.einsum('i, j, zy, cij -> czy', t_conj[(0, 1)], t_conj[(0, 1)], dT[(2, 0)], z_args[(2, 0)]) +
                        np.einsum('i, j, ij, czy -> czy', t_conj[(0, 1)], t_conj[(0, 1)], dT[(2, 0)], z_args[(2, 0)])
                    )
    else:
        raise NotImplementedError('Hot Band amplitudes not implemented!')

    return

# --------------------------------------------------------------------------- #
# ---------------------------- RANK  3 FUNCTIONS ---------------------------- #
# --------------------------------------------------------------------------- #


# -------------- operator(name='bbb', rank=3, m=0, n=3) TERMS -------------- #
def compute_m0_n3_HZ_LHS_optimized(Z, ansatz, truncation, t_conj, dT, z_args, dz_args, opt_einsum):
    """""" Optimized calculation of the operator(name='bbb', rank=3, m=0, n=3) HZ terms.
    These terms have no vibrational contribution from the e^T operator.
    This reduces the number of possible non-zero permutations of creation/annihilation operators.
    """"""

    if ansatz.ground_state:
        if truncation.h_at_least_linear:
            if truncation.z_at_least_quadratic:
                Z += (1 / 2) * np.einsum('z, cyx -> czyx', dT[(1, 0)], z_args[(2, 0)])

        if truncation.h_at_least_quadratic:
            if truncation.z_at_least_linear:
                Z += (1 / 2) * np.einsum('zy, cx -> czyx', dT[(2, 0)], z_args[(1, 0)])
    else:
        raise NotImplementedError('Hot Band amplitudes not implemented!')

    return


def compute_m0_n3_eT_HZ_LHS_optimized(Z, ansatz, truncation, t_conj, dT, z_args, dz_args, opt_einsum):
    """""" Optimized calculation of the operator(name='bbb', rank=3, m=0, n=3) eT_HZ terms.
    These terms include the vibrational contributions from the e^T operator.
    This increases the number of possible non-zero permutations of creation/annihilation operators.
    """"""

    if ansatz.ground_state:
        if truncation.h_at_least_linear:
            if truncation.t_singles:
                if truncation.z_at_least_cubic:
                    Z += (1 / 2) * np.einsum('i, z, ciyx -> czyx', t_conj[(0, 1)], dT[(1, 0)], z_args[(3, 0)])
                    Z += (1 / 6) * np.einsum('i, i, czyx -> czyx', t_conj[(0, 1)], dT[(1, 0)], z_args[(3, 0)])

        if truncation.h_at_least_quadratic:
            if truncation.t_singles:
                if truncation.z_at_least_quadratic:
                    Z += (1 / 2) * (
                        np.einsum('i, zy, cix -> czyx', t_conj[(0, 1)], dT[(2, 0)], z_args[(2, 0)]) +
                        np.einsum('i, iz, cyx -> czyx', t_conj[(0, 1)], dT[(2, 0)], z_args[(2, 0)])
                    )
                if truncation.z_at_least_cubic:
                    Z += (1 / 12) * np.einsum('i, j, ij, czyx -> czyx', t_conj[(0, 1)], t_conj[(0, 1)], dT[(2, 0)], z_args[(3, 0)])
                    Z += (1 / 2) * np.einsum('i, j, jz, ciyx -> czyx', t_conj[(0, 1)], t_conj[(0, 1)], dT[(2, 0)], z_args[(3, 0)])
                    Z += (1 / 4) * np.einsum('i, j, zy, cijx -> czyx', t_conj[(0, 1)], t_conj[(0, 1)], dT[(2, 0)], z_args[(3, 0)])
    else:
        raise NotImplementedError('Hot Band amplitudes not implemented!')

    return


# --------------------------------------------- RESIDUAL FUNCTIONS --------------------------------------------- #
def compute_m0_n0_amplitude_optimized(A, N, ansatz, truncation, t_conj, dT, z_args, dz_args, opt_paths):
    """"""Compute the operator(name='', rank=0, m=0, n=0) amplitude.""""""
    truncation.confirm_at_least_singles()

    # the residual tensor
    dz = np.zeros(shape=(A), dtype=complex)

    # unpack the optimized paths
    optimized_HZ_paths, optimized_eT_HZ_paths = opt_paths

    # compute the terms
    compute_m0_n0_HZ_LHS_optimized(dz, ansatz, truncation, t_conj, dT, z_args, dz_args, optimized_HZ_paths)
    compute_m0_n0_eT_HZ_LHS_optimized(dz, ansatz, truncation, t_conj, dT, z_args, dz_args, optimized_eT_HZ_paths)
    return dz


def compute_m0_n1_amplitude_optimized(A, N, ansatz, truncation, t_conj, dT, z_args, dz_args, opt_paths):
    """"""Compute the operator(name='b', rank=1, m=0, n=1) amplitude.""""""
    truncation.confirm_at_least_singles()

    # the residual tensor
    dz = np.zeros(shape=(A, N), dtype=complex)

    # unpack the optimized paths
    optimized_HZ_paths, optimized_eT_HZ_paths = opt_paths

    # compute the terms
    compute_m0_n1_HZ_LHS_optimized(dz, ansatz, truncation, t_conj, dT, z_args, dz_args, optimized_HZ_paths)
    compute_m0_n1_eT_HZ_LHS_optimized(dz, ansatz, truncation, t_conj, dT, z_args, dz_args, optimized_eT_HZ_paths)
    return dz


def compute_m0_n2_amplitude_optimized(A, N, ansatz, truncation, t_conj, dT, z_args, dz_args, opt_paths):
    """"""Compute the operator(name='bb', rank=2, m=0, n=2) amplitude.""""""
    truncation.confirm_at_least_singles()
    truncation.confirm_at_least_doubles()

    # the residual tensor
    dz = np.zeros(shape=(A, N, N), dtype=complex)

    # unpack the optimized paths
    optimized_HZ_paths, optimized_eT_HZ_paths = opt_paths

    # compute the terms
    compute_m0_n2_HZ_LHS_optimized(dz, ansatz, truncation, t_conj, dT, z_args, dz_args, optimized_HZ_paths)
    compute_m0_n2_eT_HZ_LHS_optimized(dz, ansatz, truncation, t_conj, dT, z_args, dz_args, optimized_eT_HZ_paths)
    return dz


def compute_m0_n3_amplitude_optimized(A, N, ansatz, truncation, t_conj, dT, z_args, dz_args, opt_paths):
    """"""Compute the operator(name='bbb', rank=3, m=0, n=3) amplitude.""""""
    truncation.confirm_at_least_singles()
    truncation.confirm_at_least_doubles()
    truncation.confirm_at_least_triples()

    # the residual tensor
    dz = np.zeros(shape=(A, N, N, N), dtype=complex)

    # unpack the optimized paths
    optimized_HZ_paths, optimized_eT_HZ_paths = opt_paths

    # compute the terms
    compute_m0_n3_HZ_LHS_optimized(dz, ansatz, truncation, t_conj, dT, z_args, dz_args, optimized_HZ_paths)
    compute_m0_n3_eT_HZ_LHS_optimized(dz, ansatz, truncation, t_conj, dT, z_args, dz_args, optimized_eT_HZ_paths)
    return dz


# --------------------------------------------- OPTIMIZED PATHS FUNCTION --------------------------------------------- #"%string.
Example golden_eT_3_matches :
  same_text (generate_eT_zhz_python LHS true 2 3 1 2 3) golden_eT_3 = true.
Proof. vm_compute. reflexivity. Qed.

