# Formal model of plaschem / pygmo_fwork in Coq 8.16

The code in `/repo` is modelled function by function as executable (or, where
real analysis is needed, real-valued) Gallina definitions under
`rocq/theories/`.  Python exceptions are values (`Err`), mutating methods
return the new state together with the outcome, so a method that raises after
it has mutated its object is visible as such.

## Conventions

* Python dictionaries with insertion order and pandas Series are association
  lists; masks (`pd.Series` of booleans over ids) are functions from ids.
* Floats are exact: `Q`/`Qc`/`R`, plus explicit infinities and NaN where the
  code can see them.  IEEE rounding is not modelled.
* `float('...')`, `str(float)`, pyvalem's formula parser, the ODE solver, yaml,
  csv and xml (de)serialisation, the file system and the random generator are
  oracles: arguments of the model; whatever is assumed about them is an
  explicit premise of the theorem.
* Strings are byte strings (Coq `string`).

## File layout

`X.v` = model of module X, `XSpec.v`/definitions marked "spec" = independent
vocabulary of the statements, `XProofs.v` = lemmas, `Props*.v` = property
theorems only (each closed by `exact`, followed by `Print Assumptions`) with
non-vacuity examples.

## Plan per property

| id | model | proof |
|----|-------|-------|
| C01 C02 C03 C07 | `Chemistry.v`: masks, `disable` with fuelled cascade (fuel = number of enabled items + 1, shown sufficient) | closure by inversion of the last cascade step; maximality by induction over the cascade with an arbitrary competing closed pair; rollback by case analysis; confluence from maximality |
| C04 C05 C06 | `step`/`run` over an `op` type | invariant by induction on the operation list |
| C08 | `copy` as constructor call plus state transfer | equality of states; refutation for the neutral subclass |
| C09 C10 C11 | attribute record standing for the yaml file | round trip by symbolic execution of `load (dump s)`; refutations by computation |
| C12 C13 C14 C15 C16 C17 | getters as filters/maps over species and reactions | list lemmas; refutations by computation |
| C18 C20 C21 C24 | `Reactions.v` | induction over lists; invariants over attribute assignments |
| C19 | sums over reactions of net stoichiometry | exchange of finite sums over R |
| C22 C23 | `Species.v` | string induction, case analysis |
| C25 C26 C27 | `Classification.v` | decision tree case analysis; digit encoding arithmetic over Z |
| C28 C29 C30 | `Xml.v` on an element tree | round trip, invariants over builder operations |
| C31 | `Latex.v` decimal strings | digit-list arithmetic |
| C32 C33 | `ModelParameters.v` | case analysis over the key list |
| C34 | `InitialN.v` over R | sums |
| C35 - C39 | `Equations.v` over R, division by zero explicit | real algebra |
| C40 C41 C42 | `Results.v` | induction over rows |
| C43 | `GlobalModel.v` state machine with file-system map | invariant |
| C44 | `Errors.v` over R | real algebra |
| C45 C46 C47 C48 | `Graph.v` | Dijkstra invariant; residual graph invariant, cut |
| C49 | `Reduction.v` state machine with oracle back-end | invariant, measure |
| C50 C51 | `Morris.v` | induction over the permutation; real algebra |
| C52 | as C01 | both directions of the disable result by induction over the cascade |
| C53 C54 | as C22, C20 | refutations by computation |
| C55 - C58 | `ClassMeaning.v` says what each type and category means | case analysis over the decision tree |
| C59 | histories of graph calls | induction over the history |
| C60 - C62 | `ChemGraph.v`, `ChemRanking.v` | best path = C45/C46 lifted to the ranking frame |
| C63 | as C50 | refutation by computation |
| C64 - C69 | `MorrisRun.v`: atomic file actions, crash points and interleavings as schedules | invariants over schedules |
| C70 C71 | `MorrisStats.v` | difference quotients, sorting |
| C72 - C74 | as C40, C44 | refutations, case analysis |
| C75 - C80 | `GlobalModel.v` with a file system and a trace of atomic writes | invariant over calls and crash points |
| C81 - C88 | `Reduction.v` | refutations of invariants by computation of a history |
| C89 - C92 | `ModelParams.v` | refutations by computation |
| C93 - C101 | as C35 | real analysis over the extended reals |
| C102 - C104 | `Views.v`, `Rates.v` | sums, case analysis |
| C105 | `Links.v`: entry j of each array belongs to the j-th reaction | list lemmas |
| C106 - C112 | `Xml.v` | invariants over builder calls, refutations |
| C113 - C116 | `Latex.v` | chains of string replacements by induction over the text |
| C117 C120 C122 | `Neutral.v` | each term of the neutral right-hand side equals the general one when all charges and electron counts vanish |
| C118 C119 C121 C123 | `Solution.v` | list lemmas on columns, composition with C34, invariant over series of runs |
| C124 - C129 | `Workspace.v`: configuration, directories, readers, histories over the file system of `GlobalModel.v` | invariants over histories with crash points, refutations by computation |
| C130 | `Report.v` on top of `Rates.v` | sorting lemmas, composition with C42 |
| C131 - C133 | `PrettyPrint.v`: arrays as labelled lists of cells with colours | painting loops as maps, composition with the invariant of chemistries |
| C134 - C137 | `Hpem.v`: the regular expressions as functions with backtracking, `HpemSpec.v`: what a file says | matching lemmas, then composition with the XML round trip |
| C138 - C141 | `Qdb.v`: database objects as records, lumped reactions as trees, `QdbSpec.v`: what the database says | induction over trees, composition with the XML round trip and builder invariant |
| C142 | `Classification.v`, `ClassSpec.v`: order by places in the list of species | properties of the stable sort over histories |
| C143 - C147 | `AttrTable.v`: tables as labelled rows of coloured cells; `AttrSpec.v`: saved and returned values, layout | composition with the invariant of chemistries, classification and alignment; refutations by computation |
| C148 - C149 | `RateCoef.v`: the law over extended reals | composition with the arrays of C105 and the independence of histories of the equations; real analysis |
| C150 - C152 | `RateCoef.v`, `RateSpec.v`: HPEM names | induction over lists and texts; composition with the HPEM import |
| C153 - C159 | `TexTable.v`: tables as records changed by calls; `TexSpec.v`: what was said last, nesting of LaTeX as a relation | induction over calls, over lines and over the chains of replacements; refutations by computation |
| C160 - C163 | `Compare.v`: figures as lists of drawings; `CompareSpec.v`: what belongs to a run, as relations on histories | composition with the histories of C49 (rows that stay remove more and more); induction over runs and rows; refutations by computation |
| C164 - C167 | `RunCompare.v`: the comparison over the model of the workspace; `RunCompareSpec.v`: rows, labels and percentages as relations | induction over runs and columns; refutations by computation |
| C168 - C172 | `RecordsSpec.v`: accepted values and units as inductive relations, the value said last as a relation on sequences of calls | induction over calls from the end; case analysis over attributes and types; refutations by computation |
| C173 - C178 | `GraphInit.v`: the constructor of ChemistryGraph over the model of the chemistry and the frames; `GraphInitSpec.v`: fitting frames, the data held and influence between species, all in terms of the chemistry | invariant of reachable chemistries (C11 - C17); composition with the graphs and rankings of C48 and C60 and with the check of run_reduction; refutations by computation |
| C179 - C181 | `Diagnose.v`: Model.diagnose over the equations with their cached arrays; `DiagnoseSpec.v`: the quantities, their shapes and the calls they stand for, rows as relations | composition with the independence of the caches (C37), induction over time steps; refutations for every solution that meets a stated condition |
| C182 | `RankSpec.v`: largest flows; paths, widths and products as in C45 - C46 | composition of C45 - C47 with the maximum over rows, a uniform bound on the number of augmenting paths |
| C183 | `ChainSpec.v`: the rows of a history as an inductive relation with the solution kept last | induction over the calls of the iterator; comparison of two solvers step by step |
| C184 | `ScoresSpec.v`: histories that follow a ranking; best paths | induction over the loop, composition with C45 and C175 |
| C185 | graphs and rankings as in C60 and C182 | refutation for every graph: no path ends in a name that is no node |
| C186 | `DynamicSpec.v`: driven runs as an inductive relation over the calls of the iterator | induction over the loop of run_reduction |
| C187 | `XmlSortSpec.v`: elements together with what they read as; the orders of ClassSpec.v | sorting by index in a duplicate-free list is that list; composition with C25, C27 and C142 |
| C188 | `XmlSortSpec.v`, as C187 | success of every step of sort_elements from C27, C142 and C26; contraposition of the lookup of ids |
| C189 | as C28 and C187 | sorting permutes the elements (C29); composition with the round trip of C28 |


## What is modelled

| code | model | not modelled |
|------|-------|--------------|
| plaschem/species.py (RP) | `Species.v` | `__str__`/`__repr__`, `h_form` and `lj_epsilon` getters beyond being floats |
| plaschem/reactions.py (Reaction) | `Reactions.v`, `RateCoef.v` (rate coefficient, HPEM text, names) | - |
| plaschem/chemistry.py (Chemistry) | `Chemistry.v`, `Views.v`, `AttrTable.v` (tables of attributes; whether pandas keeps truth values as Python objects is a parameter, row labels are symbolic) | file hashing (an oracle) |
| plaschem/classification.py | `Classification.v` | - |
| plaschem/latex.py | `Latex.v`, `TexTable.v` | - |
| plaschem/xml_inputs.py | `Xml.v` on element trees, `Hpem.v` (HPEM import), `Qdb.v` (QDB import) | text of XML files, the queries of the QDB database (their results are fields) |
| plaschem/pretty_print.py | `PrettyPrint.v` | the array returned; not the text on the terminal |
| pygmo_fwork/config.py | `Workspace.v` | text of the config file |
| pygmo_fwork/global_model.py | `InitialGuess.v`, `GlobalModel.v` | printed messages |
| pygmo_fwork/results.py | `Tables.v`, `Rates.v`, `Report.v`, `Workspace.v`, `RunCompare.v` | layout of plots and of printed lines |
| optichem/errors.py | `Tables.v` | - |
| optichem/graph.py | `Graph.v`, `ChemGraph.v`, `GraphInit.v` (constructor) | - |
| optichem/morris.py | `Morris.v`, `MorrisRun.v`, `MorrisStats.v` | process pool internals (any interleaving is allowed) |
| optichem/reduction.py | `Reduction.v`, `Compare.v` | other plots, layout of figures, rms errors |
| pygmol/equations.py | `Equations.v` over extended reals | Jacobian option (unused by the code) |
| pygmol/model.py | `InitialGuess.v`, `GlobalModel.v`, `Solution.v`, `Diagnose.v` | solver messages |
| pygmol/model_parameters.py | `ModelParams.v` | complex numbers |
| pygmol/neutral_model.py | `Chemistry.v` (NeutralChemistry), `Neutral.v` | - |

IEEE rounding and overflow are not modelled anywhere: numbers are exact
rationals or reals with explicit infinities and NaN.  The external packages
(numpy, pandas, scipy, pyvalem, yaml, ElementTree) are represented by the
behaviour the code relies on, as documented in the comments.

## Trusted base

* Coq's kernel (checked with `coqc`, and with `coqchk` by the final check).
* The reading of the Python code documented in the comments of the model, and
  the simplifications listed there and above.
* The axioms listed by `Print Assumptions`, which each `Props*.v` file runs on
  the tuple of all its theorems:

| file | axioms |
|------|--------|
| PropsChemistry, PropsMolecules, PropsClassification, PropsMorris, PropsRun, PropsGlobal, PropsReduction, PropsParams, PropsXml, PropsLatex, PropsWorkspace, PropsPrint, PropsHpem, PropsQdb, PropsAttr, PropsTex, PropsCompare, PropsRunCompare, PropsRecords, PropsGraphInit, PropsChain, PropsScores, PropsUnknown, PropsDynamic, PropsXmlSort, PropsXmlSortable | none (closed under the global context) |
| PropsLinks | `ClassicalDedekindReals.sig_forall_dec`, `FunctionalExtensionality.functional_extensionality_dep` |
| PropsResults | the same and `ClassicalDedekindReals.sig_not_dec` |
| PropsGraph, PropsEquations, PropsBalance, PropsSolution, PropsReport, PropsRate, PropsDiagnose, PropsEdge, PropsRank, PropsIon | the same and `Classical_Prop.classic` |

All four are axioms of Coq's standard library (its real numbers).  `coqchk -o`
lists, besides these, the constants the standard library seals behind module
types (`RbaseSymbolsImpl.*`, `RinvImpl.*`, and ssreflect's `Under_rel`): they
are not axioms of this development and have bodies in the library.

No axioms are declared here, no obligations are left open, no kernel check is
switched off, and no functors or module types are defined.

## Findings

Statements a user would expect to hold and that are false of the model, each
with a machine-checked counterexample (reachable by the modelled API):

* `C03_failed_disable_changes_nothing_refuted` (C03, A failed disable changes nothing)
* `C05_always_consistent_refuted` (C05, The chemistry stays self-consistent over every history)
* `C08_neutral_copy_refuted` (C08, copy is a faithful independent duplicate)
* `C10_every_state_loadable_refuted` (C10, Every state a user can reach can be saved and loaded)
* `C10_every_state_dumpable_refuted` (C10, Every state a user can reach can be saved and loaded)
* `C11_coherent_with_own_dump_refuted` (C11, check_coherence recognises exactly the dumped state)
* `C11_order_of_calls_irrelevant_refuted` (C11, check_coherence recognises exactly the dumped state)
* `C13_ret_coefs_index_refuted` (C13, Return coefficients are indexed like the species)
* `C15_rejected_adhoc_refuted` (C15, A rejected ad-hoc value is not stored)
* `C16_return_matrix_square_refuted` (C16, The return matrix is the table of return coefficients)
* `C21_unique_key_refuted` (C21, unique_key identifies reactions up to reordering)
* `C23_default_return_refuted` (C23, Default surface behaviour of species)
* `C24_default_elastic_refuted` (C24, Default elasticity)
* `C26_like_charges_refuted` (C26, The classifier handles every reaction)
* `C26_electrons_refuted` (C26, The classifier handles every reaction)
* `C29_clash_refuted` (C29, Species ids assigned by the builder are unique)
* `C31_loss_refuted` (C31, Numbers in LaTeX output keep their value)
* `C31_exponents_refuted` (C31, Numbers in LaTeX output keep their value)
* `C31_small_exponent_refuted` (C31, Numbers in LaTeX output keep their value)
* `C31_zero_refuted` (C31, Numbers in LaTeX output keep their value)
* `C34_charged_feed_refuted` (C34, Generated initial densities are valid)
* `C34_no_neutral_refuted` (C34, Generated initial densities are valid)
* `C40_negative_data_refuted` (C40, Compressed solutions keep their information)
* `C53_idempotent_refuted` (C53, Charge stripping is idempotent)
* `C54_units_supported_refuted` (C54, Stored units and prefactors are always sane)
* `C54_prefactor_not_nan_refuted` (C54, Stored units and prefactors are always sane)
* `C56_sorting_total_refuted` (C56, Sorting handles every species of the periodic table with up to four elements)
* `C56_large_counts_refuted` (C56, Sorting handles every species of the periodic table with up to four elements)
* `C57_alignment_refuted` (C57, Aligned strings of one category have equal length)
* `C61_isolated_last_refuted` (C61, Ranking orders species by importance)
* `C61_isolated_flow_refuted` (C61, Ranking orders species by importance)
* `C61_equal_labels_refuted` (C61, Ranking orders species by importance)
* `C61_best_product_refuted` (C61, Ranking orders species by importance)
* `C62_weights_refuted` (C62, All weighting schemes are normalised and complete)
* `C62_product_raises_refuted` (C62, All weighting schemes are normalised and complete)
* `C62_balanced_dropped_refuted` (C62, All weighting schemes are normalised and complete)
* `C63_stays_on_grid_refuted` (C63, Every accepted Morris setting gives valid designs)
* `C63_moves_refuted` (C63, Every accepted Morris setting gives valid designs)
* `C66_crash_refuted` (C66, All done trajectories of a run directory belong together)
* `C66_concurrent_refuted` (C66, All done trajectories of a run directory belong together)
* `C67_repeatable_refuted` (C67, An interrupted trajectory can be repeated)
* `C67_statistics_refuted` (C67, An interrupted trajectory can be repeated)
* `C68_first_run_refuted` (C68, Running n trajectories in parallel gives n trajectories)
* `C69_second_trajectory_refuted` (C69, A second trajectory can be added for every accepted back-end name)
* `C71_single_trajectory_refuted` (C71, The Morris ranking is sorted and its scores are defined)
* `C72_self_error_refuted` (C72, Reduction errors are numbers for all solutions)
* `C73_compress_again_refuted` (C73, Compression can be repeated)
* `C74_directory_refuted` (C74, Run identifiers name one place)
* `C75_overwrite_loses_refuted` (C75, Overwriting a log keeps the old one until the new one is complete)
* `C75_crash_in_overwrite_refuted` (C75, Overwriting a log keeps the old one until the new one is complete)
* `C76_empty_id_refuted` (C76, Logging a run touches only that run's log)
* `C77_failed_reload_refuted` (C77, A rejected reload leaves the model usable)
* `C78_absent_refuted` (C78, Convergence diagnostics mean what they say)
* `C79_named_after_species_refuted` (C79, Reported rates and fluxes carry the labels of their reactions and species)
* `C79_relabelled_refuted` (C79, Reported rates and fluxes carry the labels of their reactions and species)
* `C79_unavailable_refuted` (C79, Reported rates and fluxes carry the labels of their reactions and species)
* `C80_single_reaction_refuted` (C80, Every consistent chemistry can be run)
* `C81_important_removed_refuted` (C81, A reduction keeps its important species)
* `C82_nan_undone_refuted` (C82, Accepted removals stay)
* `C83_streak_refuted` (C83, A reduction stops after max_unsuccess_streak failures)
* `C84_empty_directory_refuted` (C84, An empty run directory can be used)
* `C85_feed_gas_refuted` (C85, Feed gases cannot be removed)
* `C86_mixed_flags_refuted` (C86, A failed removal leaves the chemistry as it was, whatever the flag)
* `C87_refused_init_refuted` (C87, A refused iterator leaves nothing behind)
* `C88_restore_raises_refuted` (C88, A failing run never ends the reduction)
* `C89_snapshot_refuted` (C89, Model parameters are a snapshot)
* `C90_finite_refuted` (C90, Accepted parameters are finite)
* `C91_from_instance_refuted` (C91, A ModelParameters object can be passed wherever a dict of parameters is)
* `C92_overridden_refuted` (C92, An overridden value has no influence)
* `C94_non_sticking_refuted` (C94, A species that does not stick has no wall flux)
* `C95_single_species_refuted` (C95, A gas of a single species can be simulated)
* `C96_no_electrons_refuted` (C96, The equations are defined for all non-negative densities)
* `C96_no_neutrals_refuted` (C96, The equations are defined for all non-negative densities)
* `C97_rates_refuted` (C97, Rates are non-negative for all non-negative densities)
* `C98_int_times_refuted` (C98, Repeated time points of the power are separated)
* `C98_int_moved_refuted` (C98, Repeated time points of the power are separated)
* `C98_triple_refuted` (C98, Repeated time points of the power are separated)
* `C98_negative_int_refuted` (C98, Repeated time points of the power are separated)
* `C102_charge_refuted` (C102, Source terms conserve charge whatever the electron's data)
* `C103_sorted_refuted` (C103, Reported surface rates are sorted)
* `C106_empty_text_refuted` (C106, Empty texts survive a round trip)
* `C107_comma_unreadable_refuted` (C107, Every name accepted by the species class survives a round trip)
* `C107_comma_misread_refuted` (C107, Every name accepted by the species class survives a round trip)
* `C108_conflict_refuted` (C108, Conflicts and dangling references are noticed)
* `C108_dangling_refuted` (C108, Conflicts and dangling references are noticed)
* `C109_partial_add_refuted` (C109, Adding a chemistry is all or nothing)
* `C110_odd_names_refuted` (C110, Accepted names are usable)
* `C110_empty_name_refuted` (C110, Accepted names are usable)
* `C113_large_count_refuted` (C113, Formulas are typeset correctly)
* `C113_many_signs_refuted` (C113, Formulas are typeset correctly)
* `C114_clash_refuted` (C114, Different names have different LaTeX)
* `C114_brackets_refuted` (C114, Different names have different LaTeX)
* `C115_merged_refuted` (C115, The LaTeX of a reaction shows its stoichiometry)
* `C116_special_refuted` (C116, The table of reactions is complete)
* `C116_nan_refuted` (C116, The table of reactions is complete)
* `C118_exact_restart_refuted` (C118, The solution table shows the states, and a run can be continued from it)
* `C120_exact_total_refuted` (C120, A neutral run starts at the requested pressure)
* `C120_no_negative_start_refuted` (C120, A neutral run starts at the requested pressure)
* `C121_no_stale_results_refuted` (C121, Results belong to the last run)
* `C122_electron_collisions_need_electrons_refuted` (C122, Neutral models treat electrons and walls soundly)
* `C122_fluxes_reported_refuted` (C122, Neutral models treat electrons and walls soundly)
* `C123_species_columns_refuted` (C123, The table keeps every density apart and starts are numbers)
* `C123_numeric_start_refuted` (C123, The table keeps every density apart and starts are numbers)
* `C125_rates_refuted` (C125, Rates are read back under the reactions' ids)
* `C128_all_or_nothing_refuted` (C128, Logs are all or nothing)
* `C128_missing_refuted` (C128, Logs are all or nothing)
* `C129_config_refuted` (C129, An unusable configuration raises ConfigError)
* `C132_rows_are_reactions_refuted` (C132, The printed rows of a stoichiometric matrix are labelled by their reactions)
* `C133_labels_kept_refuted` (C133, Arrays can be printed with and without labels)
* `C133_printable_refuted` (C133, Arrays can be printed with and without labels)
* `C136_all_or_nothing_refuted` (C136, A failed import leaves the builder unchanged)
* `C136_blank_line_refuted` (C136, A failed import leaves the builder unchanged)
* `C137_returned_refuted` (C137, Imported species are as in the file and return species that exist)
* `C137_comment_refuted` (C137, Imported species are as in the file and return species that exist)
* `C137_repeated_refuted` (C137, Imported species are as in the file and return species that exist)
* `C140_states_refuted` (C140, What was imported from QDB can be read)
* `C140_kelvin_refuted` (C140, What was imported from QDB can be read)
* `C141_once_refuted` (C141, Every reaction and species of QDB is imported once, and failed imports leave nothing)
* `C141_distinguished_refuted` (C141, Every reaction and species of QDB is imported once, and failed imports leave nothing)
* `C141_all_or_nothing_refuted` (C141, Every reaction and species of QDB is imported once, and failed imports leave nothing)
* `C144_electron_refuted` (C144, When the table of species can be had)
* `C144_adhoc_refuted` (C144, When the table of species can be had)
* `C147_width_refuted` (C147, The texts in a classified table are of one width)
* `C151_imported_text_refuted` (C151, Imported reactions can be written in HPEM notation)
* `C157_source_refuted` (C157, Rows of reactions have the columns of the header)
* `C158_adhoc_refuted` (C158, Tables of reactions show the pre-factors in use)
* `C162_infinite_refuted` (C162, A finished reduction run can be compared)
* `C163_zero_refuted` (C163, Names of species in comparisons)
* `C165_labels_refuted` (C165, Labels of compared runs tell them apart)
* `C167_electrons_refuted` (C167, By default all densities are plotted)
* `C172_mass_refuted` (C172, An accepted species has its mandatory data)
* `C172_stateless_refuted` (C172, An accepted species has its mandatory data)
* `C172_text_refuted` (C172, An accepted species has its mandatory data)
* `C176_refused_refuted` (C176, Every consistent chemistry with fitting frames has a graph)
* `C178_ranking_refused_refuted` (C178, Every ranking of a graph can drive a reduction)
* `C181_ion_refuted` (C181, Every partial result can be diagnosed)
* `C181_never_refuted` (C181, Every partial result can be diagnosed)
* `C181_sigma_refuted` (C181, Every partial result can be diagnosed)
* `C181_power_refuted` (C181, Every partial result can be diagnosed)
* `C181_total_refuted` (C181, Every partial result can be diagnosed)
* `C185_unknown_refuted` (C185, Unknown important species are refused by the ranking)
* `C185_widest_refuted` (C185, Unknown important species are refused by the ranking)
* `C185_flow_refuted` (C185, Unknown important species are refused by the ranking)
* `C188_odd_id_refuted` (C188, An XML chemistry that can be read can be sorted)
* `C188_padded_refuted` (C188, An XML chemistry that can be read can be sorted)

## Partial theorems

* `C28_roundtrip_partial` (C28): Proved for all species and reactions whose attributes are not empty strings (see C106), whose return coefficients are numbers or texts, which have kept their mandatory data, and whose names have no comma or surrounding blanks (see C107). The text of files is abstracted to element trees; str() of a number is assumed readable.
* `C28_chemistry_partial` (C28): Proved for all species and reactions whose attributes are not empty strings (see C106), whose return coefficients are numbers or texts, which have kept their mandatory data, and whose names have no comma or surrounding blanks (see C107). The text of files is abstracted to element trees; str() of a number is assumed readable.
* `C29_distinct_ids_partial` (C29): REFUTED in general: from 999 ordinary species on, M shares its id. Proved below that.
* `C30_names_partial` (C30): Proved when species are named by non-empty strings and files list the species of their reactions (see C108, C110); refused calls change nothing except for calls that add several things (see C109).
* `C30_rejected_unchanged_partial` (C30): Proved when species are named by non-empty strings and files list the species of their reactions (see C108, C110); refused calls change nothing except for calls that add several things (see C109).
* `C31_rate_partial` (C31): REFUTED in general; for values up to 1e12 the text denotes the value to two decimals exactly when the value is not within rounding of a multiple of ten. The factor is right to three digits when it is not zero.
* `C31_loss_partial` (C31): REFUTED in general; for values up to 1e12 the text denotes the value to two decimals exactly when the value is not within rounding of a multiple of ten. The factor is right to three digits when it is not zero.
* `C113_formula_partial` (C113): Proved for counts below 20 and up to three signs or four stars; REFUTED beyond.
* `C113_state_partial` (C113): Proved for counts below 20 and up to three signs or four stars; REFUTED beyond.
* `C114_total_partial` (C114): Injectivity is proved for names without LaTeX characters and without doubled signs; REFUTED with LaTeX characters.
* `C114_injective_partial` (C114): Injectivity is proved for names without LaTeX characters and without doubled signs; REFUTED with LaTeX characters.
* `C115_reaction_partial` (C115): Proved when different species of a side have different texts (which default texts have); REFUTED otherwise.
* `C115_default_partial` (C115): Proved when different species of a side have different texts (which default texts have); REFUTED otherwise.
* `C125_rates_partial` (C125): Proved when the numbers of heavy species and reactions differ (integers are assumed to be read as they were written); REFUTED when they are equal.
* `C129_errors_partial` (C129): Proved: the reasons of every exception; REFUTED: text that is not YAML and values that are not strings.
* `C133_unannotated_partial` (C133): Values, colours and all labels but the first ones proved; REFUTED: the first labels, and a reaction with the id 0.
* `C165_labels_partial` (C165): REFUTED: only the last component of the directory and the last 40 characters enter the label; two runs with the same id in /x/res and /y/res have the same label. Proved for runs of one directory with short names.
* `C188_sorts_partial` (C188): REFUTED for ids that are read as numbers but not written like Python writes them: with an id like 01 sorting always raises a ValueError, after the species may have been sorted. Proved for all other ids.
* `C189_sorted_roundtrip_partial` (C189): Proved for the species and reactions that C28 covers: writable texts, distinct names and ids, reactants among the species. Missing: the records for which reading back already differs without sorting.

## Seeded mutations

`seeded/LOG.jsonl` lists the deliberate bugs planted in scratch copies of the
model, the claim each breaks and the first proofs that failed; where a bug went
unnoticed at first, the theorems tightened because of it. Two limits of this
log: edits that left every proof intact and turned out not to change the
behaviour of the model, or not any claim, were left out; and a failed proof is
usually a lemma on which the claim rests, so the log shows that the proof of
the claim noticed the edit, not a proof that the claim is false of the edited
model.
