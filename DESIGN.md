# Formal model of termfactory: design

Plan, written before the proofs.  Updated as the model grows; the state of each
claim is in `MANIFEST.json`.

## Method

termfactory is a program that prints programs (python/einsum) and LaTeX.  The
model is a set of total, computable Gallina functions that mirror the python
functions branch by branch: integers are `nat` (all counts in the code are
non-negative; subtraction that may go negative is modelled in `Z` or guarded),
python lists/tuples are `list`, dictionaries are association lists in insertion
order, exceptions are values of a result type, sliced index alphabets keep
python's silently truncating slices, and the iteration order of a python `set`
is a Section variable (an oracle returning some permutation of the distinct
elements), so theorems hold for every order.

Every definition cites `/repo/termfactory/<file>:<lines>`.

Specifications are separate small definitions (`Spec*.v`): partitions,
compositions, multisets, contraction patterns, rational values, "a letter occurs
exactly twice", evaluation of a guarded statement list, etc.  They do not use
model helper functions.

Files `Model*.v` hold models only, `Spec*.v` specifications, `Proofs*.v`
lemmas, `Properties*.v` the theorems of the claims (each `exact lemma`, with
`Print Assumptions` beneath and non-vacuity `Example`s beside), and `Golden*.v`
compare the model's output with text pinned by the repo's own tests (these are
tests of the model's faithfulness, not proofs).

If a claim is false of the faithful model, the claim's text is kept, a
`..._refuted` theorem gives the witness and a `..._partial` (or an exact
characterisation) says what does hold.

## Plan for each property

| id | modelled | how proved |
|----|----------|------------|
| C01, C02 | `_partitions`, mixed/linked/unlinked (sets with order oracle) | strong induction on n; specification = non-increasing list of positive numbers with sum n |
| C03 | `unique_permutations` | permutations of a list are complete; sort/dedup lemmas |
| C04, C05 | partitions -> guarded product list of each generated W function; runtime flags as a boolean function of the rank | union of the three sources is a permutation of the list of compositions |
| C06 | surface/mode index strings | chain lemma, concatenation of the mode slices = the first n letters |
| C07 | unpack ranges | max part of a linked partition <= n-1, of an unlinked one <= n-2 |
| C08, C11 | path functions and consumers as runs over flags | equality of the two flattened lists for all flags satisfying the guard; refutation for non monotone flags where it applies |
| C09 | calls of the master function, definitions of the file | refuted for m < 6, exact for m = 6 |
| C10 | operand lists with one dt | Leibniz: list of (composition, position) |
| C12-C15 | string labels, counting, string prefactor pipeline, guarded statements | induction on p for label counting; finite/closed form for prefactor; evaluation of statements; refutations where false |
| C16, C17 | `count_items`, prefactor, group enumeration | multiset specification |
| C18-C21 | verify, JSON (as association list of strings), driver decision table, path strings | case analysis, round trip |
| C22 | generators | membership + NoDup, induction on order for Taylor products |
| C23-C25 | full CC term pipeline, function by function | membership characterised against an independent contraction-pattern specification |
| C26, C27 | classification, f removal | case analysis/filter |
| C28, C29 | simplify, prefactor | rational value of factor lists |
| C30 | label builders | letter occurrence counts via offsets; alphabets bounded by truncation |
| C31, C32 | bucket writer | refutations and what remains |
| C33 | einsum writer and path writer | equality of flattened lists |
| C34, C37, C47 | line splitting | arithmetic on slices; exact loss/duplication |
| C35 | LHS | multiset enumeration |
| C36, C38 | zhz pipeline | as for full CC |
| C39-C46, C48 | eT pipeline incl. leaking loop state, python writer | as above |
| C50-C53 | full CC python bodies as guarded sums | from the bucket invariant and C30 |
| C58-C61 | prefactor, file and letters of the zhz LaTeX | binomial identities; finite check over the letters of rank <= 8; text composition |
| C62 | the text of the e^T file, read by a reader of python text (`SpecPython.v`) | lemmas that compose pieces of text; a text has one reading |
| C47, C63-C68 | text of the e^T LaTeX: sums, terms, equations, file | closed form of the printed text for every kind of contraction; the text determines the kind; letters and derivatives are read off the text |
| C69-C71 | the text of the full CC python file, read by the same reader | the bodies of C31-C33 and C52 composed with lemmas for each kind of printed function |
| C72-C75 | the text of the file of the W operators, read by the same reader (`SpecSumText.v`, `SpecWText.v`) | fixed pieces are read by an executable reader proved sound (`ProofsParse.v`); sums and lists of paths by lemmas for any number of calls |
| C76-C79 | the text of the file of the time derivatives (`SpecDtText.v`) | as for C72-C75; the sums are those of C10 and C11 |
| C80-C82 | the text of the file of the residuals (`SpecResidualText.v`) | the 21 files that can be written are read by the executable reader; the statements are linked to the statements of C14 for all truth values of the conditions |
| C83-C85 | models of C09, C14 and C15 | the exact forms of the three properties that are false as first written |
| C86, C87 | the programs of C72-C82 with a reader of names and calls (`SpecNames.v`, `SpecModules.v`) | a checker of names and calls proved sound for all truth values; the programs do not depend on set orders, so the orders 0 to 6 are finitely many programs |
| C88, C89 | text of the symmetriser (`ModelSymmetrize.v`) | lemmas that compose pieces of text, for every maximum order; calls as in C86 |
| C90 | the programs of C75 and C81-C82 | the values returned by one function decide the conditions of the other |
| C91 | the program of C69-C71 (`SpecFullCCPlaces.v`) | C70 with the calls and prefactors replaced by their meaning (C29, C30, C32) |
| C92, C93 | text of the W LaTeX, read by a reader of TeX text (`SpecTex.v`, `SpecTexW.v`) | tokens of appended texts; math lists of each printed piece; a text has one reading |
| C94, C95 | the programs of C69-C71 and C62, read by `SpecNames.v` | names and calls of a line put together from pieces (`ProofsNamesText.v`); the lines that depend on the projection only are finitely many |
| C96-C98 | `run` (`ModelRun.v`): files before to files after and how the run ends, joining driver, verification, generators and headers | the error and content theorems of each generator; the JSON round trip; the paths of C21 |
| C99-C102 | the documents read by a reader of LaTeX documents (`SpecTexDoc.v`); the W files with what was there before (`ModelWFile.v`) | a text is read piece by piece with a stack of what is open; the texts of C34, C59, C63; tokens of the thermal text have no \begin{document} |
| C103 | which recorded terms are within smaller truncations (`SpecTruncated.v`) | the lists are compared as sets through C23-C25, C36, C40, both without repetition, so one is a permutation of the part of the other |
| C104 | the conditions of a caller with smaller truncations (`SpecRuntime.v`), executed with the reader of python | the contractions under the conditions (C62) compared with those of the smaller truncations; H0 = 1 refuted |
| C105 | the parser of the command line with the options of driver.py (`ModelCommandLine.v`) | `SpecCommandLine.v`: settings and their spellings; a group of words at a time, numbers and texts for all values; the image by an invariant |
| C106, C107 | parser, log file and run joined (`ModelMain.v`) | runs that differ in one other file; C96 carried to the words |
| C109 | parser and `ModelMain.v` | the second loop never gives back a request once a word is left over; the first loop never forgets an unknown word; names enumerated |
| C112 | the programs of C69-C71 and the LaTeX of C34 (`SpecFullCCAgree.v`) | C110 gives one chosen contraction for each requested one, C34 one term; the two lists are matched by the sorted amplitudes |
| C113 | the program of C107 and the modules of C110, C112 | `run` hands the truncations of the request to `generate_full_cc_python`, so C110 and C112 hold of the text in the file; the two target paths differ (C21) |
| C114 | `SpecEinsum`: numpy.einsum on arrays over any commutative ring with 1/n (sum over the letters that are not in the result of the product of the entries); `SpecWValue`: T, exp(T) as series in lists of modes | a chain of subscripts is a product of matrices (`chain_einsum`); powers are sums over the compositions (C73), term by term with weights 1/(j! n1! ... nj!) |
| C115 | `SpecFullCCValue`: contractions as sums over lists of modes of products of matrices, on the einsum of C114 | the exact letters of each call (`calls_exact`) and `chain_einsum`; values of letters become lists of modes (`letters_modes`); printed prefactors are read as numbers; the list of C110, or C91 where something is lost |
| C116 | `SpecSymmetrizeValue`: numpy.transpose (axis i of the result is axis axes[i] of the argument) | the orders of the axes of C88 give each order of the mode indices once (`orders_read`), sums do not depend on the order |
| C117 | `SpecResidualValue`: statements of the residual functions as additions of arrays, on the einsum of C114; h^m_n times W projected on modes | labels of C81 with `chain_einsum`; the operators of `residual_file_sums` |
| C118 | `SpecDtValue`: numbers with a time derivative (product rule) are again a ring with 1/n, so exp(T) over them has the derivative of exp(T) as second part | the product rule for products of matrices (`sm_mprod`), the compositions of C114, the list of C77 |
| C119 | `SpecEtValue`: the calls that C62 shows the functions to make get the meaning of numpy.einsum (SpecEinsum.v) on arrays over any `scalars` (exact arithmetic instead of complex floats) | the contributions of a function correspond one to one to the kinds of contractions (numbers of pairs, `realised_class`); each call is evaluated for arbitrary distinct letters (`general_entry`) |
| C120 | `SpecEtValue`: coefficients of H and z displaced by t (right hand side; the left hand side is C124) | rearranging the finite sums of C119: the contractions with x amplitudes on z and y on H are the terms of the product of two Taylor series |
| C121 | `SpecSymmetricW`: modes dealt out to the factors (`deals`), exponential with this product; symmetric amplitudes; the array handed to the symmetriser is the one the W function sums up (the calls of the modules pass an extra N, C89) | summing a product that cuts the modes over all their orders is the product of the sums that deals them out (induction by inserting one mode); with C114 and C116 |
| C122 | `SpecSymmetricW`: h^m_n creates m of the modes, annihilates n of W | the same for the cut after m modes, with C117 |
| C123 | numbers with a time derivative (`SpecDtValue`), W of C121 over them | C118 summed over the orders, C121 over dual numbers, C122 |
| C124 | `SpecEtLeft`: dz/dtau + dT/dtau z with coefficients displaced by the conjugate t_1 | as C120, with the two kinds of terms of the left hand side separated |
| C125 | `SpecPrintedW`: number of a typeset row (`SpecTexW`): prefactor times the product dealt out to the modes in printed order; commuting amplitudes | C92 (what TeX reads), C121; powers of T as sums over compositions, grouped by partitions; adjacent factors exchanged by dealing to three |
| C126 | `SpecEtRun`: what the equation of a generated e^T module is as numbers; the driver and main models of C96/C107 | the files of the two runs (C96, C107; the log file is another one), C120 and C124 for their contents |
| C127 | `SpecPathCalls`: a call of contract_expression that starts with a shape and has no quote | C70 gives the statements of the path functions as entries of shapes; texts of shapes have no quotes |
| C128 | `SpecBuilds`: runs in turn, runs alone; the main model of C107 with any log text per run | every run writes a set of texts that depends on the file of -p only, over what was there; induction over the runs |
| C129 | `ModelAdjust`: compute_prefactor_adjustment with its fraction exact (the code returns a float) | binomial coefficients of three kinds of indices multiply to factorials |
| C130 | ModelTLists.v (`_next_list`, `_generate_t_lists` with the `while` loop as fuel `n`, out of fuel a separate value; `_generate_t_terms_dictionary`); SpecTLists.v: `partition_of`, `few_large_parts`, `amplitude_name` | ProofsTLists.v: closed form of the loop (the last list is one large part after ones), then of the sorting pass; counterexample `[1,...,1,3,3]` for every n >= 6; no unreachable case: the theorems state that fuel suffices |
| C131 | SpecEtBoth.v: `prints_sum` (where the sum stands in the document, its terms), `printed_value` (printed fraction times the contraction; powers of f are 1; terms without enough letters stand for their contraction; the terms outside the sum, h alone and dt/dtau z, are not counted), `ways` | ProofsEtBoth.v: C63 gives the kinds, C119 the numbers of the module, both are the same list of kinds; arrays that are zero except for H and z of rank one isolate the kind that differs |
| C132 | SpecZhzValue.v: `prints_hz_sum` (where the sum stands in the document), `hz_value` (printed fraction times h z, powers of f are 1) | ProofsZhzValue.v: C59 gives the contractions of the document, C119 the numbers of the module; a bijection between contractions of the ground state and kinds of pairs without amplitudes |
| C133 | nothing new: SpecEtBoth.v for the files, SpecCommandLine.v and SpecMain.v for the runs | ProofsEtBothRun.v: a run that ends well has called the generator with the values asked for (as for C126); the second run does not touch the document; C131 for the two texts |
| C134 | ModelPermutations.v; SpecPermutations.v: `spread` (characters cut into consecutive pieces), `calls_of` | ProofsPermutations.v: the innermost loop keeps the operands done and the characters used; with as many fixed parts as characters all ranks are one, so subscripts do not depend on the product |
| C135 | SpecJoined.v: `joins` (words with joined options) | ProofsJoined.v: induction over the letters of the word (`joined`), then over the words as for C105; found by a mutant that no theorem noticed |
| C136 | ModelZhzLeft.v; SpecZhzLeft.v: `state_lhs_text` | ProofsZhzLeft.v: the groups are those of C17 and C35, the letters those of C35 with the index of the state |
| C137 | ModelTrunc.v (`lex`, `json_loads`); SpecJson.v: `object_layout` | ProofsJson.v: blanks give no token and a number ends at the first character that is no digit; repeated names by induction over the items |
| C138 | ModelMain.v; SpecJsonRun.v: `good_file` | ProofsJsonRun.v: request and text use the dictionary only through the values of its keys and its length |
| C139 | ModelMain.v; SpecTrunc.v: `documented`, SpecJsonRun.v | ProofsJsonValues.v: both dictionaries have the same values, then as for C138 |
| C140 | ModelMain.v; SpecJsonRun.v: `good_file` | ProofsJsonBad.v: what loads is valid (C19) and has the last values of the file, so the file is good; the exceptions by cases |
| C111 | the program of C69-C71 (`SpecFullCCRunTime.v`) | the contractions of C110 filtered by the place of each |
| C110 | the program of C69-C71 (`SpecFullCCComplete.v`) | C91, where a place names one contraction only: printed prefactors are read back as numbers, the contractions of the largest truncations below the bound are listed and compared (every requested one is in the list, lemma `bags_all`); beyond the bound two contractions of one place are written down and a call is shown to determine its contraction |
| C108 | the set orders of ModelRun | the only set of strings whose order is used is that of the cancelling; two different factors left means h^m_n with m, n >= 2, and the counting of indices gives the bound |
| C54-C57 | text of the full CC LaTeX, scanned for its indices | reader lemmas over the structure of a printed term |

## Trusted base

* Coq 8.16.1's kernel, including its `vm_compute` evaluator.
* Axioms: every property theorem has a `Print Assumptions` beneath it; each one
  prints "Closed under the global context".  (`coqchk` lists seven
  `Coq.ssr.ssrunder.*` constants of the standard library because the library
  file is loaded; no theorem depends on them.)
* The reading of the python source into Gallina.  Each definition cites its
  file and lines; `Golden*.v` compare the rendered text with the repository's
  recorded outputs.
* Oracles, always universally quantified: the iteration order of a python
  `set` (`set_order so := forall l, Permutation l (so l)`), the file system of
  the command line driver (`file : string -> option string`).
* The meaning given to generated programs (`run...` functions in the `Spec*.v`
  files): a generated function is a sequence of guarded additions of
  `prefactor * einsum(...)`; numpy and opt_einsum are not executed, the index
  structure of the subscripts is what is specified.
* The meaning of numpy.einsum in `SpecEinsum.v` (C114 and later): subscripts of one
  letter for each axis, the letters that are not in the result are summed over;
  numbers are exact (a commutative ring with 1/n), not floating point numbers.
* The reader of python text in `SpecPython.v` (C45, C62, C69-C82): physical lines,
  comments, quotes, brackets, documentation strings, indentation, `if`/`elif`/`else`
  and `def`.  It is a small part of python's grammar: it does not check which kind of
  bracket closes which, nor what is inside a statement on one line.  A backslash at
  the end of a line is removed together with the line break (`joined`, C80-C82).
  Conditions are texts with a truth value; where a file prints both a condition and
  its negation (C74, C75, C78) the hypothesis `negations` says that they are opposite.
  What printed statements mean (`adds`, `computes`, `returns_lists` in
  `SpecSumText.v`) is trusted likewise: a statement is recognised by its whole text.
* The reader of names and calls in `SpecNames.v` (C86, C87, C89, C94, C95): words, strings,
  attributes, keyword arguments and assignments to plain names.  The names of the
  module are bound for every function, also for those printed before the
  definition (python looks them up at the call).  It does not know comprehensions,
  `global` or default values; the generated modules have none.

* The reader of TeX text in `SpecTex.v` (C92, C93): the usual category codes, control
  sequences, braces, scripts, comments, blanks, empty lines.  Control sequences are
  not expanded: a macro and its arguments are an atom and the groups behind it.

* The reader of LaTeX documents in `SpecTexDoc.v` (C99 - C102): the table of the
  commands of LaTeX and of the packages amsmath, physics, simplewick, dsfont, bm and
  color, with their arguments; macros of the header count as what their body is in a
  formula. Everything not described there is an error.

## What is modelled

| file of /repo/termfactory | model | parts |
|---|---|---|
| helper_funcs.py | ModelHelper | partitions, unique permutations, named lines, axes of the symmetriser |
| helper_funcs.py 18-42 | ModelSymmetrize | the text of the symmetriser |
| code_w_equations.py | ModelW | all generating functions, text and structure |
| code_w_equations.py 20-86 | ModelTLists | lists of ranks and their names (called by nothing in the repository) |
| code_w_equations.py 87-131 | ModelPermutations | lines with permutations of indices (called by nothing in the repository) |
| code_dt_equations.py | ModelDt | all generating functions |
| code_residual_equations.py | ModelResidual | all generating functions |
| latex_w_equations.py | ModelLatexW, ModelWFile | ground and excited state W equations, and the files they are written to (lines end with a line feed) |
| truncations.py, driver.py | ModelTrunc | key checks, JSON text (flat objects of integers; other values that python's json accepts, such as 2.0 or true, and names written with escapes are refused by the model), dispatch, output paths |
| driver.py, _glue_.py, reference_latex_headers.py | ModelRun, ModelHeaders | a whole run: truncations, request, text with header, files written |
| latex_full_cc.py (terms) | ModelFullCC | operators, Taylor expansion, contraction enumeration, filtering, separation |
| latex_full_cc.py (text) | ModelFullCCLatex | labels, prefactors, the three groups, left hand sides, whole file text |
| latex_zhz.py | ModelZhz | operators, contraction enumeration, labels, prefactors, whole file text (not: the unused second and fourth sums of the file, which are commented out; their functions are modelled) |
| latex_zhz.py 171-271 | ModelZhzLeft | left hand sides for one electronic state (called by nothing in the repository) |
| latex_eT_zhz.py (terms) | ModelEt | amplitudes, Taylor expansion, contraction enumeration, duplicate removal (no left Z: never passed) |
| latex_eT_zhz.py (text) | ModelEtLatex | prefactors, labels, sums, whole file text, both sides (not: the header, the unused functions of left Z, the uncoloured labels no caller asks for) |
| code_eT_zhz.py | ModelEtPy | subscripts, prefactors, calls, buckets, guards, functions, whole file text |
| code_full_cc.py | ModelPrefactor, ModelFullCCPy | labels, prefactors, calls, buckets, paths, whole file text |
| driver.py 18-49, 71-79, log_conf.py | ModelCommandLine, ModelMain | the parser (argparse of python 3.9: options, values, abbreviations, joined options, "--"; words of one-byte characters), the log file (not its messages) |

Not modelled: the messages of the log, help and errors, actual file writes (ModelRun: a map from paths,
compared as texts, to texts; opening a file always succeeds), numpy / opt_einsum,
profiling code, python string encodings.

## Where the code and the property as first written disagree

Each line names the theorem that shows it.

* `C08_triples_without_doubles_refuted`: path lists and consumers of W differ
  when the triples flag is set without the doubles flag.
* `C09_master_refuted`: the W master function calls functions above the
  generated maximum order.
* `C11_arbitrary_flags_refuted`: the same for dt.
* `C14_h2_refuted`, `C15_order5_refuted`: residual code with h^2 and residual
  prefactors/labels at orders 5 and 6.
* `C89_w_symmetrizer_calls`, `C89_dt_symmetrizer_calls`: the generated modules call
  symmetrize_tensor(N, tensor, order=k), helper_funcs.py 21 defines
  symmetrize_tensor(tensor, order).
* `C88_symmetrizer`: above the maximum order (5 by default) the symmetriser returns
  zeros, while W operators go up to order 6.
* `C90_workflow`: with the operators of compute_w_operators the h^2 term is never
  added at orders two and three.
* `C17_connected_amplitude_refuted`: a connected amplitude is skipped in the
  excited state W LaTeX.
* `C92_ground_state_typeset_exactly`: powers are printed without braces, so from
  order 10 on TeX raises only the first digit.
* `C93_thermal_not_typeset`: empty lines inside the equation environment.
* Not a theorem: when the file of the thermal equations does not exist it is written
  without header and `\end{document}` (latex_w_equations.py 248-265).
* `C135_long_flags_refuted`: -clhs is -c with a log file named hs (the option -lhs begins
  like -l), -ces is refused.
* `C18_extra_key_refuted`: extra enum keys are accepted.
* `C31_every_term_written_refuted`: code_full_cc.py 411 and 870 reset the bucket
  of (h flag, t flag, prefactor) for every term, so an earlier term is lost.
* `C32_calls_different_refuted`: code_full_cc.py 434-444 loops over permutations
  of the external letters but prints the same string each time.
* `C46_full_cc_python_refuted`: `hamiltonian_order_tag` has no entry for rank 6,
  which the validation accepts.
* `C50_rank_flag_refuted`: Hamiltonian terms are guarded by max(m, n).
* `C34_refuted`: latex_full_cc.py 1282-1295 prints only full lines of seven when
  a sum is broken, so the last terms of a sum of 14 or more are dropped.
* `C55_linked_refuted`: linked disconnected terms of rank 3 skip a free letter
  (the offset of the projection indices on h is added twice).
* `C56_sides_refuted`: a free letter is upper in one term, lower in another.
* `C57_refuted`: rank 4 equations with linked terms raise NotImplementedError.
* `C37_once_refuted`, `C37_balanced_refuted`: latex_zhz.py 1225-1242, 1429-1446 and
  1525-1545 print a wrong last line when a sum is broken, and 1446 forgets the
  closing parenthesis.
* `C38_summed_refuted`, `C38_free_refuted`: five and seven letters are not enough
  for ranks that are not rejected.
* `C60_shared_out_refuted`: latex_zhz.py 1657 takes the letters of z from the end
  of all letters instead of the end of the annihilation letters.
* `C61_free_letters_disagree`: products h z use y, x, w ... as free letters, the
  rest of the equation i, j, k ...
* Not a theorem: the left hand side of a z equation (latex_zhz.py 1833-1840) is
  z with upper indices only, also for creation operators of the projection.
* `C71_all_paths_indexes_a_list`: code_full_cc.py 1202 generates a master path
  function that indexes an empty list with tuples.
* `C127_no_equation`, `C127_paths_refuted`: the generated contract_expression
  calls of the full coupled cluster modules have no subscripts, so the path
  functions cannot run as written (that the library then fails is not modelled).
  C33 and C70 are about the order and shapes of the entries.
* `C131_as_printed_refuted`: the document divides by the factorial of the number
  of amplitudes but prints contractions that only differ in the choice of the
  amplitudes once, so its sum is smaller than that of the module (cf. C64).
* `C130_partitions_refuted`, `C130_one_refuted`, `C130_names_refuted`:
  `_generate_t_lists` misses partitions from 6 on and is wrong for 1, and the
  names of its dictionary are cut at six letters. Nothing calls these functions.
* `C39_positions_refuted`: in terms of the e^T ansatz the amplitudes are
  sorted and the entries of Z are not, so they only agree up to order.
* `C39_two_amplitudes_refuted`, `C40_two_amplitudes_refuted`: the list of Z
  connections is not reset between permutations (latex_eT_zhz.py 900 and the
  list `annotated_z_permutations`), which gives contradictory terms or an
  exception for amplitudes of rank 2.  The validation only accepts rank 1.
* `C41_bare_term_missing`: code_eT_zhz.py 1702-1710 removes the first term with
  h of rank 0 and z of the rank of the projection on both sides; on the right
  hand side that is h_0 z_n, not something the equation is solved for.
* `C45_larger_amplitude_refuted`: amplitudes above the CC rank would be lost
  (the validation only accepts rank 1).
* `C46_eT_python_refuted`: the tag lists end at rank 5, the validation accepts
  rank 6 for the Hamiltonian and for z.
* `C48_refuted`: `remove_all_excited_state_t_terms` deletes from the front of
  the lists, whatever is there.
* Not a theorem: the branch for excited states (code_eT_zhz.py 1792-1798) works
  on the lists the ground state branch has already filtered in place, so both
  branches are the same (lemma `excited_branch` in ProofsEtFile.v); line 1726
  passes 'RHS' on both sides.
* `C64_refuted`: latex_eT_zhz.py prints 1/q! for q amplitudes and drops terms
  with the same text, so the C(q, x) contractions with x of the amplitudes
  paired with z count once; code_eT_zhz.py has the factor.
* `C65_refuted`: five letters for summed pairs, up to eight amplitudes are
  accepted.
* `C68_free_letters_disagree`: as in latex_zhz.py (C61).
* Not a theorem: latex_eT_zhz.py 1516 prints `\mathds1` where the amplitudes print
  `\mathds{1}`; the amplitudes are `\bs` on the left hand side and `\bt` on the right,
  the derivative on the left hand side is one of `\bt`.
* `C95_paths_unused`: the optimised functions of the terms of the e^T ansatz take
  the list `opt_einsum` and never read it; they repeat the default code
  (code_eT_zhz.py, `_construct_eT_zhz_compute_function`).
* `C97_every_saved_file_can_be_replayed_refuted`: the driver saves the values after
  -t without verifying them and the z_t generator does not verify them either, so a
  successful run may save a file that `-p` refuses.
* C96: `../truncs.json` is overwritten even when the run then fails.
* C98: for full coupled cluster and z_t the file named special_LHS has the text of the
  right hand side; `C98_one_path_per_text_refuted`: e^T python with and without -es
  has one path and two texts.
* `C104_linear_refuted`: in e^T python h^1_1 stands under `h_at_least_linear`, so a caller
  with a linear Hamiltonian still adds it.
* `C106_false_keeps_f_terms_refuted`: `-rf False` removes the f terms (type=bool).
* `C108_same_contractions_refuted`: the cancelling of factors (`_simplify_full_cc_python_prefactor`)
  lists what is left in the order of a set of strings, which changes with the hash seed of
  python, and the code keeps calls under the text of the prefactor.  At H=5, CC=3, S=2, P=3
  the prefactors of h^3_2 t^2 and h^2_3 t^2 t^2 have the same text for one order of the set,
  and then the first of them is lost.  So two runs of the same command can write programs that
  compute different residuals.
* `C111_smaller_hamiltonian_refuted`: the conditions on h in full CC python compare
  max(m, n), not m + n, so a caller with a smaller Hamiltonian H0 still adds h^1_H0.
* `C112_once_refuted`: the python code adds the term h_0 t^2 of the second equation twice
  (in general a term with one amplitude (m+n)! times, with k amplitudes k! times), each time
  with the fraction that LaTeX prints once.
* `C110_lost`: beyond the bound of C110 the python code of full CC lacks a requested
  contraction.  The smallest case is a cubic Hamiltonian with doubles and two powers of S:
  h^1_2 t^2 and h^0_2 t^1 t^2 have the same flags and the same prefactor 1/2!, and only the
  last of them is written.
* `C107_log_in_place_of_truncations`: the log file is emptied before the truncations are
  read, so `-p x -l x` destroys x.
* `C105_requests`: the values after -t may be none (`-t--`); then _make_trunc raises.
* `C102_thermal_file_is_a_document_refuted`: excited_state_w_equations_latex writes a new
  file without header, and keeps 29 lines of an old one, two less than up to
  \begin{document}; `C102_second_run_same_file_refuted`: it is not idempotent.
