{
 "claims": [
  {
   "property": "C01",
   "status": "proved",
   "theorems": [
    "C01_disable_closed"
   ],
   "note": ""
  },
  {
   "property": "C02",
   "status": "proved",
   "theorems": [
    "C02_disable_maximal"
   ],
   "note": ""
  },
  {
   "property": "C03",
   "status": "partial",
   "theorems": [
    "C03_failed_disable_changes_nothing",
    "C03_failed_disable_changes_nothing_refuted"
   ],
   "note": "Proved for every consistent state; REFUTED without that: after a rejected ad-hoc sticking coefficient (C15) a disable can raise with masks changed."
  },
  {
   "property": "C04",
   "status": "proved",
   "theorems": [
    "C04_protected_not_disabled",
    "C04_protected_forever",
    "C04_electron_and_ion_kept"
   ],
   "note": ""
  },
  {
   "property": "C05",
   "status": "partial",
   "theorems": [
    "C05_always_consistent",
    "C05_always_consistent_refuted"
   ],
   "note": "Proved when all declared return species exist; REFUTED otherwise (a species with sticking coefficient 0 may declare a missing return species)."
  },
  {
   "property": "C06",
   "status": "proved",
   "theorems": [
    "C06_reset",
    "C06_reset_forgets"
   ],
   "note": ""
  },
  {
   "property": "C07",
   "status": "proved",
   "theorems": [
    "C07_disable_idempotent",
    "C07_sequence_is_union",
    "C07_union_is_sequence",
    "C07_disables_commute"
   ],
   "note": "For requests that name no protected species."
  },
  {
   "property": "C08",
   "status": "partial",
   "theorems": [
    "C08_copy_faithful",
    "C08_copies_independent",
    "C08_neutral_copy_refuted"
   ],
   "note": "Proved for Chemistry; REFUTED for NeutralChemistry (copy raises)."
  },
  {
   "property": "C09",
   "status": "proved",
   "theorems": [
    "C09_dump_load_round_trip",
    "C09_loaded_is_coherent",
    "C09_missing_file"
   ],
   "note": "The conditions of the property are hypotheses of the theorems."
  },
  {
   "property": "C10",
   "status": "partial",
   "theorems": [
    "C10_every_state_loadable_refuted",
    "C10_every_state_dumpable_refuted"
   ],
   "note": "REFUTED: states that cannot be dumped or loaded; C09 is the positive part."
  },
  {
   "property": "C100",
   "status": "proved",
   "theorems": [
    "C100_elastic",
    "C100_transport"
   ],
   "note": ""
  },
  {
   "property": "C101",
   "status": "proved",
   "theorems": [
    "C101_energy",
    "C101_losses"
   ],
   "note": ""
  },
  {
   "property": "C102",
   "status": "partial",
   "theorems": [
    "C102_charge_refuted"
   ],
   "note": "REFUTED; C19_charge is the part that holds."
  },
  {
   "property": "C103",
   "status": "partial",
   "theorems": [
    "C103_sorted_refuted"
   ],
   "note": "REFUTED; C42_surface is the part that holds."
  },
  {
   "property": "C104",
   "status": "proved",
   "theorems": [
    "C104_volume_disabled",
    "C104_surface_disabled"
   ],
   "note": ""
  },
  {
   "property": "C105",
   "status": "proved",
   "theorems": [
    "C105_reactions",
    "C105_species"
   ],
   "note": "Chemistries with infinite, NaN or missing data have no arrays in the model."
  },
  {
   "property": "C106",
   "status": "partial",
   "theorems": [
    "C106_empty_text_refuted"
   ],
   "note": "REFUTED."
  },
  {
   "property": "C107",
   "status": "partial",
   "theorems": [
    "C107_comma_unreadable_refuted",
    "C107_comma_misread_refuted"
   ],
   "note": "REFUTED."
  },
  {
   "property": "C108",
   "status": "partial",
   "theorems": [
    "C108_conflict_refuted",
    "C108_dangling_refuted"
   ],
   "note": "REFUTED."
  },
  {
   "property": "C109",
   "status": "partial",
   "theorems": [
    "C109_partial_add_refuted"
   ],
   "note": "REFUTED, for every builder with a foreign species."
  },
  {
   "property": "C11",
   "status": "partial",
   "theorems": [
    "C11_check_coherence",
    "C11_coherent_with_own_dump_refuted",
    "C11_order_of_calls_irrelevant_refuted"
   ],
   "note": "Exact characterisation proved; REFUTED for NaN values and for the order of ad-hoc calls."
  },
  {
   "property": "C110",
   "status": "partial",
   "theorems": [
    "C110_odd_names_refuted",
    "C110_empty_name_refuted"
   ],
   "note": "REFUTED."
  },
  {
   "property": "C111",
   "status": "proved",
   "theorems": [
    "C111_sort_contents",
    "C111_sort_permutes"
   ],
   "note": ""
  },
  {
   "property": "C112",
   "status": "proved",
   "theorems": [
    "C112_protected"
   ],
   "note": ""
  },
  {
   "property": "C113",
   "status": "partial",
   "theorems": [
    "C113_formula_partial",
    "C113_state_partial",
    "C113_large_count_refuted",
    "C113_many_signs_refuted"
   ],
   "note": "Proved for counts below 20 and up to three signs or four stars; REFUTED beyond."
  },
  {
   "property": "C114",
   "status": "partial",
   "theorems": [
    "C114_total_partial",
    "C114_injective_partial",
    "C114_accepted",
    "C114_rejected",
    "C114_clash_refuted",
    "C114_brackets_refuted"
   ],
   "note": "Injectivity is proved for names without LaTeX characters and without doubled signs; REFUTED with LaTeX characters."
  },
  {
   "property": "C115",
   "status": "partial",
   "theorems": [
    "C115_reaction_partial",
    "C115_default_partial",
    "C115_tally",
    "C115_merged_refuted"
   ],
   "note": "Proved when different species of a side have different texts (which default texts have); REFUTED otherwise."
  },
  {
   "property": "C116",
   "status": "partial",
   "theorems": [
    "C116_rows",
    "C116_cells",
    "C116_body",
    "C116_all_or_nothing",
    "C116_special_refuted",
    "C116_nan_refuted"
   ],
   "note": "The lines are proved; REFUTED for reactions without (or with NaN) pre-exponential factor, which prevent the table. Captions, headers and decorators: C153."
  },
  {
   "property": "C117",
   "status": "proved",
   "theorems": [
    "C117_neutral_rhs",
    "C117_neutral_rates"
   ],
   "note": "For every neutral chemistry whose arrays can be built; the general right-hand side may fail in its energy part only."
  },
  {
   "property": "C118",
   "status": "partial",
   "theorems": [
    "C118_table",
    "C118_restart",
    "C118_exact_restart_refuted",
    "C118_neutral_electrons"
   ],
   "note": "Rows and restarts proved for names other than t, e, Te, Tg, p and more than one species and reaction (otherwise C80, C123); REFUTED: the state is not restored exactly when the electrons are colder than the gas."
  },
  {
   "property": "C119",
   "status": "proved",
   "theorems": [
    "C119_first_row"
   ],
   "note": "The solver is assumed to report the start vector as its first time step."
  },
  {
   "property": "C12",
   "status": "proved",
   "theorems": [
    "C12_species_getters",
    "C12_reaction_getters",
    "C12_shown_return_coefficients"
   ],
   "note": ""
  },
  {
   "property": "C120",
   "status": "partial",
   "theorems": [
    "C120_neutral_start_fed",
    "C120_neutral_start_unfed",
    "C120_neutral_start_valid",
    "C120_given_start",
    "C120_exact_total_refuted",
    "C120_no_negative_start_refuted"
   ],
   "note": "Totals proved exactly (1e-15 per fed species is missing); REFUTED: exactness and rejection of negative densities."
  },
  {
   "property": "C121",
   "status": "partial",
   "theorems": [
    "C121_fresh_results",
    "C121_some_run",
    "C121_unsolved",
    "C121_no_stale_results_refuted",
    "C121_no_run"
   ],
   "note": "Proved for runs that do not raise; REFUTED after a run that raised."
  },
  {
   "property": "C122",
   "status": "partial",
   "theorems": [
    "C122_electron_collisions_need_electrons_refuted",
    "C122_fluxes_reported_refuted",
    "C122_neutral_only"
   ],
   "note": "REFUTED."
  },
  {
   "property": "C123",
   "status": "partial",
   "theorems": [
    "C123_species_columns_refuted",
    "C123_numeric_start_refuted"
   ],
   "note": "REFUTED."
  },
  {
   "property": "C124",
   "status": "proved",
   "theorems": [
    "C124_read_back",
    "C124_which_directory"
   ],
   "note": ""
  },
  {
   "property": "C125",
   "status": "partial",
   "theorems": [
    "C125_rates_partial",
    "C125_rates_refuted"
   ],
   "note": "Proved when the numbers of heavy species and reactions differ (integers are assumed to be read as they were written); REFUTED when they are equal."
  },
  {
   "property": "C126",
   "status": "proved",
   "theorems": [
    "C126_made",
    "C126_failed",
    "C126_again",
    "C126_works",
    "C126_apart"
   ],
   "note": ""
  },
  {
   "property": "C127",
   "status": "proved",
   "theorems": [
    "C127_one_run"
   ],
   "note": ""
  },
  {
   "property": "C128",
   "status": "partial",
   "theorems": [
    "C128_all_or_nothing_refuted",
    "C128_missing_refuted"
   ],
   "note": "REFUTED."
  },
  {
   "property": "C129",
   "status": "partial",
   "theorems": [
    "C129_errors_partial",
    "C129_config_refuted"
   ],
   "note": "Proved: the reasons of every exception; REFUTED: text that is not YAML and values that are not strings."
  },
  {
   "property": "C13",
   "status": "partial",
   "theorems": [
    "C13_ret_coefs_index",
    "C13_ret_coefs_index_refuted"
   ],
   "note": "Exact condition proved; REFUTED in general."
  },
  {
   "property": "C130",
   "status": "proved",
   "theorems": [
    "C130_heavy",
    "C130_electrons"
   ],
   "note": ""
  },
  {
   "property": "C131",
   "status": "proved",
   "theorems": [
    "C131_annotated",
    "C131_stoichiomatrix",
    "C131_foreign"
   ],
   "note": ""
  },
  {
   "property": "C132",
   "status": "partial",
   "theorems": [
    "C132_rows_are_reactions_refuted",
    "C132_when"
   ],
   "note": "REFUTED; C132_when says when it happens."
  },
  {
   "property": "C133",
   "status": "partial",
   "theorems": [
    "C133_unannotated_partial",
    "C133_labels_kept_refuted",
    "C133_printable_refuted"
   ],
   "note": "Values, colours and all labels but the first ones proved; REFUTED: the first labels, and a reaction with the id 0."
  },
  {
   "property": "C134",
   "status": "proved",
   "theorems": [
    "C134_import_read_back"
   ],
   "note": ""
  },
  {
   "property": "C135",
   "status": "proved",
   "theorems": [
    "C135_consistent",
    "C135_only_adds",
    "C135_unread_unchanged",
    "C135_accepted"
   ],
   "note": ""
  },
  {
   "property": "C136",
   "status": "partial",
   "theorems": [
    "C136_all_or_nothing_refuted",
    "C136_blank_line_refuted"
   ],
   "note": "REFUTED."
  },
  {
   "property": "C137",
   "status": "partial",
   "theorems": [
    "C137_returned_refuted",
    "C137_comment_refuted",
    "C137_repeated_refuted"
   ],
   "note": "REFUTED."
  },
  {
   "property": "C138",
   "status": "proved",
   "theorems": [
    "C138_read_back"
   ],
   "note": ""
  },
  {
   "property": "C139",
   "status": "proved",
   "theorems": [
    "C139_consistent",
    "C139_accepted"
   ],
   "note": ""
  },
  {
   "property": "C14",
   "status": "proved",
   "theorems": [
    "C14_adhoc_stick_coef",
    "C14_adhoc_ret_coefs",
    "C14_adhoc_arrh_a"
   ],
   "note": ""
  },
  {
   "property": "C140",
   "status": "partial",
   "theorems": [
    "C140_states_refuted",
    "C140_kelvin_refuted"
   ],
   "note": "REFUTED."
  },
  {
   "property": "C141",
   "status": "partial",
   "theorems": [
    "C141_once_refuted",
    "C141_distinguished_refuted",
    "C141_all_or_nothing_refuted"
   ],
   "note": "REFUTED."
  },
  {
   "property": "C142",
   "status": "proved",
   "theorems": [
    "C142_sorted"
   ],
   "note": ""
  },
  {
   "property": "C143",
   "status": "proved",
   "theorems": [
    "C143_rows",
    "C143_sorted",
    "C143_cells",
    "C143_plain"
   ],
   "note": ""
  },
  {
   "property": "C144",
   "status": "partial",
   "theorems": [
    "C144_raises",
    "C144_electron_refuted",
    "C144_adhoc_refuted"
   ],
   "note": "When the table raises is proved; that it can be had whenever the plain one can is REFUTED."
  },
  {
   "property": "C145",
   "status": "proved",
   "theorems": [
    "C145_rows",
    "C145_cells",
    "C145_plain"
   ],
   "note": ""
  },
  {
   "property": "C146",
   "status": "proved",
   "theorems": [
    "C146_layout"
   ],
   "note": ""
  },
  {
   "property": "C147",
   "status": "partial",
   "theorems": [
    "C147_width_refuted"
   ],
   "note": "REFUTED."
  },
  {
   "property": "C148",
   "status": "proved",
   "theorems": [
    "C148_simulated"
   ],
   "note": ""
  },
  {
   "property": "C149",
   "status": "proved",
   "theorems": [
    "C149_law",
    "C149_missing",
    "C149_units",
    "C149_nonnegative",
    "C149_grows"
   ],
   "note": ""
  },
  {
   "property": "C15",
   "status": "partial",
   "theorems": [
    "C15_rejected_adhoc",
    "C15_rejected_adhoc_reaction",
    "C15_rejected_adhoc_refuted"
   ],
   "note": "Proved when all declared return species exist; REFUTED otherwise."
  },
  {
   "property": "C150",
   "status": "proved",
   "theorems": [
    "C150_text",
    "C150_missing",
    "C150_injective",
    "C150_line"
   ],
   "note": ""
  },
  {
   "property": "C151",
   "status": "partial",
   "theorems": [
    "C151_imported_text_refuted"
   ],
   "note": "REFUTED, for every import."
  },
  {
   "property": "C152",
   "status": "proved",
   "theorems": [
    "C152_names",
    "C152_exists",
    "C152_electron",
    "C152_ion",
    "C152_elastic"
   ],
   "note": ""
  },
  {
   "property": "C153",
   "status": "proved",
   "theorems": [
    "C153_contents",
    "C153_unknown_type"
   ],
   "note": ""
  },
  {
   "property": "C154",
   "status": "proved",
   "theorems": [
    "C154_nested",
    "C154_plain",
    "C154_marks",
    "C154_determined"
   ],
   "note": ""
  },
  {
   "property": "C155",
   "status": "proved",
   "theorems": [
    "C155_species",
    "C155_reactions"
   ],
   "note": "The texts of floats from 10^13 on are left to the environment and taken to have no special characters."
  },
  {
   "property": "C156",
   "status": "proved",
   "theorems": [
    "C156_columns"
   ],
   "note": ""
  },
  {
   "property": "C157",
   "status": "partial",
   "theorems": [
    "C157_source_refuted"
   ],
   "note": "REFUTED."
  },
  {
   "property": "C158",
   "status": "partial",
   "theorems": [
    "C158_adhoc_refuted"
   ],
   "note": "REFUTED."
  },
  {
   "property": "C159",
   "status": "proved",
   "theorems": [
    "C159_reactions"
   ],
   "note": "The second part is C153 applied to the frame."
  },
  {
   "property": "C16",
   "status": "partial",
   "theorems": [
    "C16_return_matrix",
    "C16_return_matrix_square_refuted"
   ],
   "note": "Proved when no return species is e or M and ad-hoc return coefficients belong to enabled species; REFUTED otherwise."
  },
  {
   "property": "C160",
   "status": "proved",
   "theorems": [
    "C160_figure",
    "C160_increasing",
    "C160_end",
    "C160_refused",
    "C160_missing"
   ],
   "note": "Undone iterations with an infinite error need explicit limits of the y axis or dead_ends=False, see C162. The order and the end of a line need errors that are numbers."
  },
  {
   "property": "C161",
   "status": "proved",
   "theorems": [
    "C161_inside",
    "C160_figure"
   ],
   "note": ""
  },
  {
   "property": "C162",
   "status": "partial",
   "theorems": [
    "C162_infinite_refuted"
   ],
   "note": "REFUTED: an iteration undone because of an infinite error (a zero value of the full model) makes the limit of the axis infinite, which matplotlib refuses with ValueError."
  },
  {
   "property": "C163",
   "status": "partial",
   "theorems": [
    "C163_names",
    "C163_zero_refuted"
   ],
   "note": "REFUTED: the digit 0 is left out, C10H8 shows a 0 on the line. The digits from 1 to 9 and the signs are proved."
  },
  {
   "property": "C164",
   "status": "proved",
   "theorems": [
    "C164_compare",
    "C164_relative",
    "C164_nothing",
    "C164_succeeds",
    "C164_raises"
   ],
   "note": "The labels of columns of a solution are assumed distinct, as pandas makes them when reading."
  },
  {
   "property": "C165",
   "status": "partial",
   "theorems": [
    "C165_labels_partial",
    "C165_labels_refuted"
   ],
   "note": "REFUTED: only the last component of the directory and the last 40 characters enter the label; two runs with the same id in /x/res and /y/res have the same label. Proved for runs of one directory with short names."
  },
  {
   "property": "C166",
   "status": "proved",
   "theorems": [
    "C166_named",
    "C166_default",
    "C166_unread"
   ],
   "note": ""
  },
  {
   "property": "C167",
   "status": "partial",
   "theorems": [
    "C167_electrons_refuted"
   ],
   "note": "REFUTED: the last four columns are dropped, the electron density is the first of them."
  },
  {
   "property": "C168",
   "status": "proved",
   "theorems": [
    "C168_reports",
    "C168_unique",
    "C168_accepted"
   ],
   "note": "Sticking and return coefficients are in C23."
  },
  {
   "property": "C169",
   "status": "proved",
   "theorems": [
    "C169_construct"
   ],
   "note": "Which exception a refused call raises is not part of the statement."
  },
  {
   "property": "C17",
   "status": "proved",
   "theorems": [
    "C17_stoichiomatrix",
    "C17_electron_coefficients",
    "C17_arbitrary_coefficients"
   ],
   "note": ""
  },
  {
   "property": "C170",
   "status": "proved",
   "theorems": [
    "C170_reports",
    "C170_accepted",
    "C168_unique"
   ],
   "note": ""
  },
  {
   "property": "C171",
   "status": "proved",
   "theorems": [
    "C171_construct"
   ],
   "note": "The names of the reactants are assumed readable. Which exception a refused call raises is not part of the statement."
  },
  {
   "property": "C172",
   "status": "partial",
   "theorems": [
    "C172_mass_refuted",
    "C172_stateless_refuted",
    "C172_text_refuted"
   ],
   "note": "REFUTED: only the presence of the keys is checked; mass=None, stateless=None and a mass that is no number are accepted and make the getters raise."
  },
  {
   "property": "C173",
   "status": "proved",
   "theorems": [
    "C173_accepts",
    "C173_data"
   ],
   "note": "Frames are rectangular with distinct row labels and finite numbers; the value of a return coefficient is stated for finite ones."
  },
  {
   "property": "C174",
   "status": "proved",
   "theorems": [
    "C174_edges"
   ],
   "note": ""
  },
  {
   "property": "C175",
   "status": "proved",
   "theorems": [
    "C175_ranking"
   ],
   "note": "The row labels of the ranking (species and time to four digits) are assumed distinct; C61 shows what happens otherwise."
  },
  {
   "property": "C176",
   "status": "partial",
   "theorems": [
    "C176_refused_refuted"
   ],
   "note": "REFUTED: ad-hoc return coefficients of a species that is disabled later add a row to the return matrix and the constructor raises GraphInitError."
  },
  {
   "property": "C177",
   "status": "proved",
   "theorems": [
    "C177_usable"
   ],
   "note": "Only the check for ascending order is composed with the ranking; distinct row labels as in C175."
  },
  {
   "property": "C178",
   "status": "partial",
   "theorems": [
    "C178_ranking_refused_refuted"
   ],
   "note": "REFUTED: a species that takes part in no running reaction has the score NaN, NaN is not equal to itself and the check for ascending order in run_reduction fails."
  },
  {
   "property": "C179",
   "status": "proved",
   "theorems": [
    "C179_rows"
   ],
   "note": "np.interp and the number formats are outside; names of species other than 't' and 'total' (cf. C123)."
  },
  {
   "property": "C18",
   "status": "proved",
   "theorems": [
    "C18_reactions_conserve",
    "C18_only_imbalance_is_reported"
   ],
   "note": "Premise good_formulas: pyvalem formulas have distinct elements and positive counts."
  },
  {
   "property": "C180",
   "status": "proved",
   "theorems": [
    "C180_given",
    "C180_length",
    "C180_nothing",
    "C180_unknown"
   ],
   "note": ""
  },
  {
   "property": "C181",
   "status": "partial",
   "theorems": [
    "C181_ion_refuted",
    "C181_ion_when",
    "C181_never_refuted",
    "C181_sigma_refuted",
    "C181_power_refuted",
    "C181_total_refuted"
   ],
   "note": "REFUTED: plain Python numbers have no copy(); methods taking a time are given the state; pandas sums skip NaN."
  },
  {
   "property": "C182",
   "status": "proved",
   "theorems": [
    "C182_widest",
    "C182_product",
    "C182_flow"
   ],
   "note": "The conditions of the property are hypotheses of the theorems; distinct row labels as in C60."
  },
  {
   "property": "C183",
   "status": "proved",
   "theorems": [
    "C183_rows",
    "C183_interrupted",
    "C183_settings"
   ],
   "note": ""
  },
  {
   "property": "C184",
   "status": "proved",
   "theorems": [
    "C184_follows",
    "C184_ascending",
    "C184_graph"
   ],
   "note": "Static rankings; the conditions on the graph as in C175."
  },
  {
   "property": "C185",
   "status": "partial",
   "theorems": [
    "C185_unknown_refuted",
    "C185_widest_refuted",
    "C185_flow_refuted"
   ],
   "note": "REFUTED for every graph: with only unknown names all scores are 0 (or missing) and nothing is raised, so that a reduction would try the species in an arbitrary order."
  },
  {
   "property": "C186",
   "status": "proved",
   "theorems": [
    "C186_next"
   ],
   "note": "For runs that end without an exception."
  },
  {
   "property": "C187",
   "status": "proved",
   "theorems": [
    "C187_order",
    "C187_clashing"
   ],
   "note": "Successful sorts; int(str(n)) = n of Python is assumed. Clashing ids: fewer than 999 species with distinct names, else the new ids clash as well (C29). Species within the limits of the sorting scheme (C27)."
  },
  {
   "property": "C188",
   "status": "partial",
   "theorems": [
    "C188_sorts_partial",
    "C188_odd_id_refuted",
    "C188_padded_refuted"
   ],
   "note": "REFUTED for ids that are read as numbers but not written like Python writes them: with an id like 01 sorting always raises a ValueError, after the species may have been sorted. Proved for all other ids."
  },
  {
   "property": "C189",
   "status": "partial",
   "theorems": [
    "C189_sorted_roundtrip_partial"
   ],
   "note": "Proved for the species and reactions that C28 covers: writable texts, distinct names and ids, reactants among the species. Missing: the records for which reading back already differs without sorting."
  },
  {
   "property": "C19",
   "status": "proved",
   "theorems": [
    "C19_charge",
    "C19_atoms"
   ],
   "note": "The premise on the electron's charge is needed: see C102."
  },
  {
   "property": "C20",
   "status": "proved",
   "theorems": [
    "C20_prefactor_unit",
    "C20_activation_unit",
    "C20_assignment_is_local"
   ],
   "note": ""
  },
  {
   "property": "C21",
   "status": "partial",
   "theorems": [
    "C21_unique_key",
    "C21_unique_key_refuted"
   ],
   "note": "Proved for clean names; REFUTED for names such as 'A +'."
  },
  {
   "property": "C22",
   "status": "proved",
   "theorems": [
    "C22_strip_charge_base",
    "C22_strip_charge_numbered",
    "C22_strip_charge_exact",
    "C22_strip_charge_newline"
   ],
   "note": "Strings ending in a newline keep it."
  },
  {
   "property": "C23",
   "status": "partial",
   "theorems": [
    "C23_constructor_stores",
    "C23_special_species",
    "C23_default_sticking",
    "C23_default_return_ground",
    "C23_default_return",
    "C23_explicit_sticking",
    "C23_explicit_return",
    "C23_default_return_refuted"
   ],
   "note": "Proved when the stateless name is given or there is no state; REFUTED for state ''."
  },
  {
   "property": "C24",
   "status": "partial",
   "theorems": [
    "C24_default_elastic_set",
    "C24_default_elastic_two",
    "C24_default_elastic_refuted"
   ],
   "note": "Set characterisation proved, multiset one proved for at most two reactants; REFUTED for multisets in general."
  },
  {
   "property": "C25",
   "status": "proved",
   "theorems": [
    "C25_partition",
    "C25_buckets",
    "C25_succeeds_iff"
   ],
   "note": "For every history of sort/classify/align calls on the classifier."
  },
  {
   "property": "C26",
   "status": "partial",
   "theorems": [
    "C26_raises_iff",
    "C26_like_charges_refuted",
    "C26_electrons_refuted"
   ],
   "note": "REFUTED as stated; the exact set of reactions raising IndexError is proved."
  },
  {
   "property": "C27",
   "status": "proved",
   "theorems": [
    "C27_key_order",
    "C27_sort_species",
    "C27_strict_order"
   ],
   "note": ""
  },
  {
   "property": "C28",
   "status": "partial",
   "theorems": [
    "C28_roundtrip_partial",
    "C28_chemistry_partial"
   ],
   "note": "Proved for all species and reactions whose attributes are not empty strings (see C106), whose return coefficients are numbers or texts, which have kept their mandatory data, and whose names have no comma or surrounding blanks (see C107). The text of files is abstracted to element trees; str() of a number is assumed readable."
  },
  {
   "property": "C29",
   "status": "partial",
   "theorems": [
    "C29_distinct_ids_partial",
    "C29_effect",
    "C29_clash_refuted",
    "C29_reactions"
   ],
   "note": "REFUTED in general: from 999 ordinary species on, M shares its id. Proved below that."
  },
  {
   "property": "C30",
   "status": "partial",
   "theorems": [
    "C30_names_partial",
    "C30_rejected_unchanged_partial"
   ],
   "note": "Proved when species are named by non-empty strings and files list the species of their reactions (see C108, C110); refused calls change nothing except for calls that add several things (see C109)."
  },
  {
   "property": "C31",
   "status": "partial",
   "theorems": [
    "C31_rate_partial",
    "C31_loss_partial",
    "C31_loss_refuted",
    "C31_exponents_refuted",
    "C31_small_exponent_refuted",
    "C31_zero_refuted"
   ],
   "note": "REFUTED in general; for values up to 1e12 the text denotes the value to two decimals exactly when the value is not within rounding of a multiple of ten. The factor is right to three digits when it is not zero."
  },
  {
   "property": "C32",
   "status": "proved",
   "theorems": [
    "C32_accepted_valid",
    "C32_accepts",
    "C32_exact",
    "C32_rejections"
   ],
   "note": "Dictionaries with the value classes of ModelParams.obj; complex numbers not modelled."
  },
  {
   "property": "C33",
   "status": "proved",
   "theorems": [
    "C33_aliases",
    "C33_unknown_key",
    "C33_round_trip",
    "C33_assignment",
    "C33_immutable"
   ],
   "note": ""
  },
  {
   "property": "C34",
   "status": "partial",
   "theorems": [
    "C34_densities",
    "C34_nonneg",
    "C34_same_start",
    "C34_order",
    "C34_given_start",
    "C34_charged_feed_refuted",
    "C34_no_neutral_refuted"
   ],
   "note": "Proved for neutral feeds and at least one neutral species; REFUTED for a charged feed (accepted, charge density wrong) and for chemistries without neutrals (pressure wrong)."
  },
  {
   "property": "C35",
   "status": "proved",
   "theorems": [
    "C35_fluxes",
    "C35_surface",
    "C35_balance"
   ],
   "note": "Extended real numbers; rounding not modelled."
  },
  {
   "property": "C36",
   "status": "proved",
   "theorems": [
    "C36_flow",
    "C36_exact"
   ],
   "note": "Extended real numbers; rounding not modelled."
  },
  {
   "property": "C37",
   "status": "proved",
   "theorems": [
    "C37_history_free",
    "C37_same"
   ],
   "note": "Arguments passed by value: a caller keeping the returned arrays is not modelled."
  },
  {
   "property": "C38",
   "status": "proved",
   "theorems": [
    "C38_ascending",
    "C38_moved",
    "C38_knots",
    "C38_between",
    "C38_accepts"
   ],
   "note": "Exact rational times and powers."
  },
  {
   "property": "C39",
   "status": "proved",
   "theorems": [
    "C39_temperature",
    "C39_temperature_exact",
    "C39_rates",
    "C39_rates_exact",
    "C39_correction"
   ],
   "note": "Extended real numbers; rounding not modelled."
  },
  {
   "property": "C40",
   "status": "partial",
   "theorems": [
    "C40_compressed",
    "C40_negative_data_refuted"
   ],
   "note": "Proved for non-negative data with rows numbered from 0; REFUTED for negative data."
  },
  {
   "property": "C41",
   "status": "proved",
   "theorems": [
    "C41_frames",
    "C41_rejected",
    "C41_no_overshoot",
    "C41_exact_at_samples"
   ],
   "note": ""
  },
  {
   "property": "C42",
   "status": "proved",
   "theorems": [
    "C42_volume_entries",
    "C42_volume",
    "C42_electrons",
    "C42_surface",
    "C42_surface_special"
   ],
   "note": "Rows of finite numbers; annotate=False."
  },
  {
   "property": "C43",
   "status": "proved",
   "theorems": [
    "C43_served",
    "C43_finished",
    "C43_failed",
    "C43_existing_refused",
    "C43_files_kept",
    "C43_logs_marked",
    "C43_logged",
    "C43_outside"
   ],
   "note": ""
  },
  {
   "property": "C44",
   "status": "proved",
   "theorems": [
    "C44_output_errors",
    "C44_output_max",
    "C44_overall_max",
    "C44_output_rms",
    "C44_overall_rms",
    "C44_self",
    "C44_zero_iff_equal",
    "C44_below_relative_error",
    "C44_rejected"
   ],
   "note": "For outputs that are positive in the full solution (see C72); rms values are real numbers."
  },
  {
   "property": "C45",
   "status": "proved",
   "theorems": [
    "C45_widest_paths",
    "C45_unreachable",
    "C45_numbers"
   ],
   "note": "For every history of graph calls, every set iteration order and every transformation of the weights."
  },
  {
   "property": "C46",
   "status": "proved",
   "theorems": [
    "C46_shortest_paths",
    "C46_max_product"
   ],
   "note": "Lengths that are not positive are reported as NaN."
  },
  {
   "property": "C47",
   "status": "proved",
   "theorems": [
    "C47_max_flow",
    "C47_no_larger_flow"
   ],
   "note": "Includes termination of the augmentation."
  },
  {
   "property": "C48",
   "status": "proved",
   "theorems": [
    "C48_normalised",
    "C48_drg_edges"
   ],
   "note": ""
  },
  {
   "property": "C49",
   "status": "proved",
   "theorems": [
    "C49_removal",
    "C49_history",
    "C49_kept",
    "C49_terminates",
    "C49_run",
    "C49_static",
    "C49_eligible"
   ],
   "note": "Rollback and accounting of species as long as no accepted error is NaN (C82)."
  },
  {
   "property": "C50",
   "status": "proved",
   "theorems": [
    "C50_designs",
    "C50_default_step",
    "C50_designs_settings",
    "C50_seed"
   ],
   "note": "C50_designs is for the settings the code uses; C50_designs_settings for all settings with half cells that are multiples of 10^-5 (see C63)."
  },
  {
   "property": "C51",
   "status": "proved",
   "theorems": [
    "C51_coefficients",
    "C51_middle_is_nominal",
    "C51_monotone",
    "C51_return_coefficient",
    "C51_return_trajectory",
    "C51_return_rejected",
    "C51_return_range"
   ],
   "note": "The power function is an argument characterised by power_like."
  },
  {
   "property": "C52",
   "status": "proved",
   "theorems": [
    "C52_disable_succeeds_iff"
   ],
   "note": ""
  },
  {
   "property": "C53",
   "status": "partial",
   "theorems": [
    "C53_idempotent_refuted"
   ],
   "note": "REFUTED."
  },
  {
   "property": "C54",
   "status": "partial",
   "theorems": [
    "C54_units_supported_refuted",
    "C54_prefactor_not_nan_refuted"
   ],
   "note": "REFUTED; C20 is the positive part."
  },
  {
   "property": "C55",
   "status": "proved",
   "theorems": [
    "C55_types",
    "C55_published_scheme"
   ],
   "note": "Electrons are assumed to be declared with charge -1 (the constructor does not force it)."
  },
  {
   "property": "C56",
   "status": "partial",
   "theorems": [
    "C56_sorting_total_refuted",
    "C56_large_counts_refuted"
   ],
   "note": "REFUTED; C27 is the positive part."
  },
  {
   "property": "C57",
   "status": "partial",
   "theorems": [
    "C57_alignment_refuted"
   ],
   "note": "REFUTED."
  },
  {
   "property": "C58",
   "status": "proved",
   "theorems": [
    "C58_categories",
    "C58_charge_account"
   ],
   "note": "Vocabulary in ClassMeaning.v; interchange is described as the code has it (no condition on the species)."
  },
  {
   "property": "C59",
   "status": "proved",
   "theorems": [
    "C59_edges_and_nodes",
    "C59_attributes",
    "C59_node_attributes"
   ],
   "note": ""
  },
  {
   "property": "C60",
   "status": "proved",
   "theorems": [
    "C60_ranking",
    "C60_ascending",
    "C60_needs_weights"
   ],
   "note": "Distinct row labels are a hypothesis (see C61)."
  },
  {
   "property": "C61",
   "status": "partial",
   "theorems": [
    "C61_isolated_last_refuted",
    "C61_isolated_flow_refuted",
    "C61_equal_labels_refuted",
    "C61_best_product_refuted"
   ],
   "note": "REFUTED."
  },
  {
   "property": "C62",
   "status": "partial",
   "theorems": [
    "C62_weights_refuted",
    "C62_product_raises_refuted",
    "C62_balanced_dropped_refuted"
   ],
   "note": "REFUTED; C48 is the positive part."
  },
  {
   "property": "C63",
   "status": "partial",
   "theorems": [
    "C63_stays_on_grid_refuted",
    "C63_moves_refuted"
   ],
   "note": "REFUTED; C50 is the positive part."
  },
  {
   "property": "C64",
   "status": "proved",
   "theorems": [
    "C64_done_means_logged",
    "C64_done_is_kept",
    "C64_parallel",
    "C64_success"
   ],
   "note": ""
  },
  {
   "property": "C65",
   "status": "proved",
   "theorems": [
    "C65_next_id",
    "C65_no_id",
    "C65_names_distinct",
    "C65_queue"
   ],
   "note": ""
  },
  {
   "property": "C66",
   "status": "partial",
   "theorems": [
    "C66_coherent",
    "C66_crash_refuted",
    "C66_concurrent_refuted"
   ],
   "note": "Proved for undisturbed histories; REFUTED with crashes or parallel first trajectories."
  },
  {
   "property": "C67",
   "status": "partial",
   "theorems": [
    "C67_unfinished_blocks",
    "C67_repeatable_refuted",
    "C67_statistics_refuted"
   ],
   "note": "REFUTED."
  },
  {
   "property": "C68",
   "status": "partial",
   "theorems": [
    "C68_all_complete",
    "C68_first_run_refuted"
   ],
   "note": "Proved when the directory already describes the run; REFUTED for the first trajectories."
  },
  {
   "property": "C69",
   "status": "partial",
   "theorems": [
    "C69_second_trajectory_refuted",
    "C69_capital_letters"
   ],
   "note": "REFUTED."
  },
  {
   "property": "C70",
   "status": "proved",
   "theorems": [
    "C70_elementary_effects",
    "C70_statistics",
    "C70_affine_models"
   ],
   "note": "Exact arithmetic; the standard deviation is an argument."
  },
  {
   "property": "C71",
   "status": "partial",
   "theorems": [
    "C71_ranking",
    "C71_score_max",
    "C71_score_mean",
    "C71_single_trajectory_refuted"
   ],
   "note": "Sorting proved; defined scores REFUTED for one trajectory."
  },
  {
   "property": "C72",
   "status": "partial",
   "theorems": [
    "C72_self_error_refuted"
   ],
   "note": "REFUTED; C44 is the positive part."
  },
  {
   "property": "C73",
   "status": "partial",
   "theorems": [
    "C73_compress_again_refuted"
   ],
   "note": "REFUTED."
  },
  {
   "property": "C74",
   "status": "partial",
   "theorems": [
    "C74_identifiers",
    "C74_directory",
    "C74_both_rejected",
    "C74_directory_refuted"
   ],
   "note": "Proved except that directories called like a back-end are not found."
  },
  {
   "property": "C75",
   "status": "partial",
   "theorems": [
    "C75_overwrite_loses_refuted",
    "C75_crash_in_overwrite_refuted"
   ],
   "note": "REFUTED; without overwrite see C43_files_kept and C43_logs_marked."
  },
  {
   "property": "C76",
   "status": "partial",
   "theorems": [
    "C43_outside",
    "C76_empty_id_refuted"
   ],
   "note": "Nothing outside dir/run_id is touched; REFUTED for the empty run id."
  },
  {
   "property": "C77",
   "status": "partial",
   "theorems": [
    "C77_failed_reload_refuted"
   ],
   "note": "REFUTED."
  },
  {
   "property": "C78",
   "status": "partial",
   "theorems": [
    "C78_convergence",
    "C78_stopped_early",
    "C78_absent_refuted"
   ],
   "note": "Exact characterisation; absent species are never flagged as converged."
  },
  {
   "property": "C79",
   "status": "partial",
   "theorems": [
    "C79_rates",
    "C79_fluxes",
    "C79_columns",
    "C79_named_after_species_refuted",
    "C79_relabelled_refuted",
    "C79_unavailable_refuted"
   ],
   "note": "Proved when the chemistry is unchanged since the run and has different numbers of heavy species and reactions; REFUTED otherwise."
  },
  {
   "property": "C80",
   "status": "partial",
   "theorems": [
    "C80_single_reaction_refuted"
   ],
   "note": "REFUTED."
  },
  {
   "property": "C81",
   "status": "partial",
   "theorems": [
    "C81_important_removed_refuted"
   ],
   "note": "REFUTED."
  },
  {
   "property": "C82",
   "status": "partial",
   "theorems": [
    "C82_nan_undone_refuted"
   ],
   "note": "REFUTED; C49_history is the positive part."
  },
  {
   "property": "C83",
   "status": "partial",
   "theorems": [
    "C83_streak_refuted",
    "C49_static"
   ],
   "note": "REFUTED; C49_static proves the bound of one more."
  },
  {
   "property": "C84",
   "status": "partial",
   "theorems": [
    "C84_empty_directory_refuted"
   ],
   "note": "REFUTED."
  },
  {
   "property": "C85",
   "status": "partial",
   "theorems": [
    "C85_feed_gas_refuted"
   ],
   "note": "REFUTED."
  },
  {
   "property": "C86",
   "status": "partial",
   "theorems": [
    "C86_mixed_flags_refuted"
   ],
   "note": "REFUTED."
  },
  {
   "property": "C87",
   "status": "partial",
   "theorems": [
    "C87_refused_init_refuted"
   ],
   "note": "REFUTED."
  },
  {
   "property": "C88",
   "status": "partial",
   "theorems": [
    "C88_restore_raises_refuted"
   ],
   "note": "REFUTED."
  },
  {
   "property": "C89",
   "status": "partial",
   "theorems": [
    "C89_snapshot_refuted"
   ],
   "note": "REFUTED."
  },
  {
   "property": "C90",
   "status": "partial",
   "theorems": [
    "C90_finite_refuted"
   ],
   "note": "REFUTED."
  },
  {
   "property": "C91",
   "status": "partial",
   "theorems": [
    "C91_from_instance_refuted"
   ],
   "note": "REFUTED."
  },
  {
   "property": "C92",
   "status": "partial",
   "theorems": [
    "C92_overridden_refuted"
   ],
   "note": "REFUTED."
  },
  {
   "property": "C93",
   "status": "proved",
   "theorems": [
    "C93_finite"
   ],
   "note": "Overflow not modelled."
  },
  {
   "property": "C94",
   "status": "partial",
   "theorems": [
    "C94_non_sticking_refuted",
    "C94_always"
   ],
   "note": "REFUTED; C94_always: for every chemistry with such an ion."
  },
  {
   "property": "C95",
   "status": "partial",
   "theorems": [
    "C95_single_species_refuted"
   ],
   "note": "REFUTED."
  },
  {
   "property": "C96",
   "status": "partial",
   "theorems": [
    "C96_no_electrons_refuted",
    "C96_no_neutrals_refuted"
   ],
   "note": "REFUTED."
  },
  {
   "property": "C97",
   "status": "partial",
   "theorems": [
    "C97_rates_refuted"
   ],
   "note": "REFUTED; C39_rates is the part that holds."
  },
  {
   "property": "C98",
   "status": "partial",
   "theorems": [
    "C98_int_times_refuted",
    "C98_int_moved_refuted",
    "C98_triple_refuted",
    "C98_negative_int_refuted"
   ],
   "note": "REFUTED; C38_accepts is the part that holds."
  },
  {
   "property": "C99",
   "status": "proved",
   "theorems": [
    "C99_parts",
    "C99_length",
    "C99_volume"
   ],
   "note": ""
  }
 ]
}