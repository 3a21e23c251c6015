{"id": "C01", "title": "A successful disable leaves a closed, connected reaction network", "statement": "After Chemistry.disable(species, reactions) returns normally, every requested species and reaction is disabled, no enabled reaction has a disabled reactant or product, every enabled species takes part in at least one enabled reaction, and nothing that was disabled before became enabled.", "quantifier": "every chemistry (any number of species and reactions), every mask state that is itself closed, every list of species/reactions (by id, name, object or string) passed to disable", "why_tests_cant": "the recursive cascade depends on the whole network topology; tests can only try a few networks", "anchors": ["plaschem/chemistry.py:Chemistry.disable", "plaschem/chemistry.py:Chemistry._disable_recursively"]}
{"id": "C02", "title": "disable removes nothing it does not have to", "statement": "The enabled species and reactions left by a successful disable form the largest closed and connected sub-network of the previously enabled one that avoids the requested items: any other closed connected sub-network avoiding them is contained in it.", "quantifier": "every chemistry, every closed mask state, every request, every competing sub-network", "why_tests_cant": "maximality quantifies over all sub-networks (exponentially many)", "anchors": ["plaschem/chemistry.py:Chemistry.disable", "plaschem/chemistry.py:Chemistry._disable_recursively"]}
{"id": "C03", "title": "A failed disable changes nothing", "statement": "Whenever disable raises (item not present, a protected species would be reached, or no positive ion would be left), all enabled/protected masks of the chemistry are exactly what they were before the call.", "quantifier": "every chemistry state and every request for which disable raises", "why_tests_cant": "the failure can occur at any depth of the cascade after arbitrarily many masks have been switched off", "anchors": ["plaschem/chemistry.py:Chemistry.disable"]}
{"id": "C04", "title": "Protected species, the electron and the last positive ion are never disabled", "statement": "Over any history of disable, set_protected_species, reset and ad-hoc calls, a species that was enabled and protected (explicitly, as electron, or as last remaining positive ion) before a disable call is still enabled after it; a chemistry that requires charge always keeps the electron and at least one positive ion enabled.", "quantifier": "every chemistry, every finite sequence of public mutating calls, including failing ones", "why_tests_cant": "depends on arbitrary interleavings of protection and disable requests", "anchors": ["plaschem/chemistry.py:Chemistry.set_protected_species", "plaschem/chemistry.py:Chemistry.disable", "plaschem/chemistry.py:Chemistry._disable_recursively"]}
{"id": "C05", "title": "The chemistry stays self-consistent over every history", "statement": "For a chemistry built by the constructor whose declared return species all exist, after any finite sequence of disable / set_protected_species / reset / ad-hoc set / ad-hoc reset calls (successful or failing) the consistency check performed at construction still passes; in particular the consistency check at the end of disable never raises.", "quantifier": "every constructed chemistry, every finite sequence of calls with arbitrary arguments", "why_tests_cant": "unbounded histories; the check has no rollback so a failure would leave the object broken", "anchors": ["plaschem/chemistry.py:Chemistry.assert_consistency", "plaschem/chemistry.py:Chemistry.disable", "plaschem/chemistry.py:Chemistry.reset", "plaschem/chemistry.py:Chemistry.set_adhoc_species_attributes"]}
{"id": "C06", "title": "reset brings back the full chemistry and nothing else", "statement": "After reset(), every species and reaction is enabled and no ad-hoc protection is left, whatever happened before; user protections and ad-hoc attribute values are untouched.", "quantifier": "every chemistry and every history before the reset", "why_tests_cant": "must hold after every possible history", "anchors": ["plaschem/chemistry.py:Chemistry.reset"]}
{"id": "C07", "title": "Disabling is order independent and idempotent", "statement": "If disabling A then B succeeds and disabling A and B together succeeds, both leave the same species and reactions enabled; if additionally B then A succeeds it also leaves the same; repeating a successful disable changes nothing.", "quantifier": "every closed chemistry state and every pair of requests", "why_tests_cant": "cascades interact; needs a confluence argument over all networks", "anchors": ["plaschem/chemistry.py:Chemistry.disable"]}
{"id": "C08", "title": "copy is a faithful independent duplicate", "statement": "chemistry.copy() returns a chemistry with the same species, reactions, masks and ad-hoc values; later calls on the copy never alter the original and vice versa.", "quantifier": "every chemistry state reachable by any history; every later sequence of calls on either object", "why_tests_cant": "aliasing bugs only show for particular later histories", "anchors": ["plaschem/chemistry.py:Chemistry.copy"]}
{"id": "C09", "title": "Saved chemistry attributes can be loaded back", "statement": "Loading the file written by dump_chemistry_attributes into a chemistry built from the same input (in whatever mask and ad-hoc state it is) restores the enabled, disabled, protected and ad-hoc-protected sets and the ad-hoc values, provided every ad-hoc return species is enabled and declared return species exist.", "quantifier": "every reachable chemistry state to be dumped and every state of the chemistry it is loaded into", "why_tests_cant": "round-trip over all mask/ad-hoc states; the conditions under which it fails are rare histories", "anchors": ["plaschem/chemistry.py:Chemistry.dump_chemistry_attributes", "plaschem/chemistry.py:Chemistry.load_chemistry_attributes"]}
{"id": "C10", "title": "Every state a user can reach can be saved and loaded (refuted)", "statement": "For every history of public calls, loading the dump of the resulting state into the same chemistry succeeds. (False of the code: an ad-hoc return coefficient naming a species that was later disabled, or ad-hoc values set in an order that is not the load order, make load raise after having already overwritten the masks.)", "quantifier": "every reachable chemistry state", "why_tests_cant": "needs a particular order of ad-hoc set and disable calls", "anchors": ["plaschem/chemistry.py:Chemistry.load_chemistry_attributes", "plaschem/chemistry.py:Chemistry.set_adhoc_species_attributes"]}
{"id": "C11", "title": "check_coherence recognises exactly the dumped state", "statement": "check_coherence on a dumped file returns True for the chemistry in the dumped state and False for any chemistry of the same input whose enabled, protected or ad-hoc-protected masks or ad-hoc values differ.", "quantifier": "every pair of chemistry states over the same species and reactions", "why_tests_cant": "quantifies over all pairs of states", "anchors": ["plaschem/chemistry.py:Chemistry.check_coherence"]}
{"id": "C12", "title": "Per-species and per-reaction getters agree on which rows they return", "statement": "For every combination of the disabled/special/protected flags, all per-species getters (instance, name, mass, charge, sticking coefficient, ...) return one entry per selected species, in the chemistry order and under the same ids; likewise for reactions.", "quantifier": "every chemistry state and all flag combinations", "why_tests_cant": "alignment of vectors built by different getters must hold in all states", "anchors": ["plaschem/chemistry.py:Chemistry.get_species_mask", "plaschem/chemistry.py:Chemistry.get_species", "plaschem/chemistry.py:Chemistry.get_species_stick_coef", "plaschem/chemistry.py:Chemistry.get_reactions"]}
{"id": "C13", "title": "Return coefficients are indexed like the species (refuted)", "statement": "get_species_ret_coefs returns exactly the ids returned by get_species with the same flags. (False of the code: ad-hoc values of unselected species and zero-sticking protected species are appended.) It holds when every ad-hoc return entry belongs to a selected species and protected species are included.", "quantifier": "every chemistry state and flag combination", "why_tests_cant": "only particular histories (ad-hoc then disable) show it", "anchors": ["plaschem/chemistry.py:Chemistry.get_species_ret_coefs"]}
{"id": "C14", "title": "Ad-hoc values override exactly their target", "statement": "After a successful set_adhoc_species_attributes / set_adhoc_reactions_attributes the getters return the new value for the selected target and unchanged values for all others; the last call for a target wins; reset_adhoc_attributes restores all native values.", "quantifier": "every chemistry state, every sequence of ad-hoc calls", "why_tests_cant": "arbitrary sequences of overrides over arbitrary chemistries", "anchors": ["plaschem/chemistry.py:Chemistry.set_adhoc_species_attributes", "plaschem/chemistry.py:Chemistry.set_adhoc_reactions_attributes", "plaschem/chemistry.py:Chemistry.reset_adhoc_attributes"]}
{"id": "C15", "title": "A rejected ad-hoc value is not stored (refuted)", "statement": "If set_adhoc_species_attributes raises, the chemistry is unchanged. (False of the code: the value is stored before the consistency check, so switching on a sticking coefficient of a species whose dormant return species do not exist raises and leaves the chemistry inconsistent.)", "quantifier": "every chemistry state and every rejected call", "why_tests_cant": "needs a dormant inconsistent return coefficient", "anchors": ["plaschem/chemistry.py:Chemistry.set_adhoc_species_attributes"]}
{"id": "C16", "title": "The return matrix is the table of return coefficients", "statement": "In get_return_matrix the entry in the row of species i and the column of species j is the return coefficient of i declared for stuck j if j sticks and i is enabled, and 0 otherwise.", "quantifier": "every consistent chemistry state without surplus ad-hoc entries whose return species are ordinary species", "why_tests_cant": "all index pairs of all chemistries", "anchors": ["plaschem/chemistry.py:Chemistry.get_return_matrix", "plaschem/chemistry.py:Chemistry.get_species_ret_coefs"]}
{"id": "C17", "title": "The stoichiomatrix counts occurrences", "statement": "get_stoichiomatrix entries are the number of times the species occurs among reactants (lhs), products (rhs) or products minus reactants (net), with zero for absent species; net = rhs - lhs, also for the electron and arbitrary-species vectors.", "quantifier": "every chemistry, every reaction, every species, every flag combination", "why_tests_cant": "all reactions with repeated species in any order", "anchors": ["plaschem/chemistry.py:Chemistry.get_stoichiomatrix", "plaschem/chemistry.py:Chemistry.get_reactions_electron_stoich_lhs", "plaschem/reactions.py:Reaction.get_stoich_coefs"]}
{"id": "C18", "title": "Accepted reactions conserve charge and atoms", "statement": "A Reaction object can only be constructed if the total charge (arbitrary species M not counted) and, for every element symbol, the total number of atoms (M counted as its own element) agree between reactants and products; and a conserving reaction is not rejected for consistency reasons.", "quantifier": "every list of 1-3 reactants and at least one product and every species data", "why_tests_cant": "dictionary accumulation over arbitrary species and elements", "anchors": ["plaschem/reactions.py:Reaction.assert_consistency", "plaschem/reactions.py:Reaction.__init__"]}
{"id": "C19", "title": "Volumetric source terms conserve charge and atoms", "statement": "For any vector of reaction rates, if the electron species carries charge -1, the charge-weighted sum of the volumetric source terms of all enabled heavy species equals the net electron production; the atom-weighted sum is zero for every element.", "quantifier": "every consistent chemistry, every real vector of rates", "why_tests_cant": "real-valued rate vectors, arbitrary networks", "anchors": ["plaschem/chemistry.py:Chemistry.get_stoichiomatrix", "pygmo_fwork/pygmol/equations.py:Equations.get_volumetric_source_rates", "plaschem/reactions.py:Reaction.assert_consistency"]}
{"id": "C20", "title": "Unit bookkeeping of reactions never goes wrong", "statement": "Over any sequence of attribute assignments that are accepted, a reaction with an Arrhenius prefactor has a prefactor unit matching its number of reactants and a known SI factor; the activation parameter is in eV exactly for electron processes and K otherwise; a rejected assignment changes nothing.", "quantifier": "every constructed reaction, every finite sequence of set_reaction_attribute calls with arbitrary arguments", "why_tests_cant": "unbounded sequences of assignments", "anchors": ["plaschem/reactions.py:Reaction.set_reaction_attribute", "plaschem/reactions.py:Reaction.get_arrh_a"]}
{"id": "C21", "title": "unique_key identifies reactions up to reordering", "statement": "The unique key of a reaction string is the same for two reactions iff their reactant names and product names agree as multisets. (Refuted for names like 'A +' that merely avoid the separators and surrounding blanks; proved when names also do not end in ' +', in particular for all names without blanks.)", "quantifier": "all reactions whose species names are stripped, contain neither '>' nor ' + ' and do not end in ' +'", "why_tests_cant": "string splitting/sorting over all names and orders", "anchors": ["plaschem/reactions.py:Reaction.unique_key", "plaschem/reactions.py:Reaction.__str__"]}
{"id": "C22", "title": "Charge suffix stripping", "statement": "strip_charge(base + suffix) = base for every base not ending in + or - and every suffix of signs or sign-and-digits; strings without a charge suffix are unchanged; the result is always a prefix of the input.", "quantifier": "all strings", "why_tests_cant": "infinite string domain", "anchors": ["plaschem/species.py:RP.strip_charge"]}
{"id": "C23", "title": "Default surface behaviour of species", "statement": "Without explicit data, a neutral ground-state species does not stick and returns nothing, any other ordinary species sticks with probability 1 and returns exactly one ground-state neutral; explicit data always wins; special species have no surface data. (Refuted when the state is the empty string and no stateless name is given: the return coefficients then cannot be read.)", "quantifier": "every species that can be constructed", "why_tests_cant": "all attribute combinations", "anchors": ["plaschem/species.py:RP.get_stick_coef", "plaschem/species.py:RP.get_ret_coefs"]}
{"id": "C24", "title": "Default elasticity", "statement": "A reaction with no explicit elastic flag is elastic iff reactants and products are the same multiset of species. (Refuted: the code compares sets; the set characterisation is proved.)", "quantifier": "every reaction", "why_tests_cant": "needs repeated species on both sides", "anchors": ["plaschem/reactions.py:Reaction.get_elastic"]}
{"id": "C25", "title": "Classification partitions the reactions", "statement": "When classification succeeds, every reaction appears in exactly one (type, category) bucket of the published scheme, buckets keep the reaction order, and no empty bucket is reported.", "quantifier": "every list of reactions for which the classifier does not raise", "why_tests_cant": "decision tree over all charge/state/multiplicity combinations", "anchors": ["plaschem/classification.py:ReactionsClassifier.get_classified_reactions", "plaschem/classification.py:ReactionsClassifier._classify"]}
{"id": "C26", "title": "The classifier handles every reaction (refuted)", "statement": "Classification never raises for a chemically consistent reaction. (False of the code: collisions of two positive or two negative ions, double charge transfer without neutral product, and electron-only reactants raise IndexError.)", "quantifier": "every consistent reaction", "why_tests_cant": "rare combinations of charges", "anchors": ["plaschem/classification.py:ReactionsClassifier._classify"]}
{"id": "C27", "title": "Species sort order is lexicographic in the documented criteria", "statement": "Within the documented limits (at most 3 distinct elements, counts at most 9, |charge| at most 9) sorting by the digit-encoded key orders species by number of distinct elements, then element numbers and counts, then neutral/excited/negative/positive; sorting returns a permutation.", "quantifier": "every pair of species within the limits, every list", "why_tests_cant": "pairs of all species within limits", "anchors": ["plaschem/classification.py:Sorter._get_species_sort_key", "plaschem/classification.py:Sorter.sort_species"]}
{"id": "C28", "title": "XML write/read round trip", "statement": "Building XML from species and reactions and parsing it back yields species and reactions whose getters return the same values, provided species names contain no comma and no surrounding blanks.", "quantifier": "every list of valid species and reactions", "why_tests_cant": "all attribute combinations", "anchors": ["plaschem/xml_inputs.py:XmlBuilder.add_rp_from_instance", "plaschem/xml_inputs.py:XmlBuilder.add_reaction_from_instance", "plaschem/xml_inputs.py:XmlParser"]}
{"id": "C29", "title": "Species ids assigned by the builder are unique", "statement": "assign_species_ids gives pairwise different ids to species with distinct names. (Refuted from 999 ordinary species upwards, because M is fixed to 999; proved below that.)", "quantifier": "every number of species", "why_tests_cant": "only shows for very large sets", "anchors": ["plaschem/xml_inputs.py:XmlBuilder.assign_species_ids"]}
{"id": "C30", "title": "The XML builder never contains duplicate or dangling species", "statement": "Over any sequence of add calls, species names in the builder are pairwise different, each is found by name, and every reaction added references only species present; a rejected add leaves the builder unchanged.", "quantifier": "every finite sequence of builder calls", "why_tests_cant": "unbounded histories", "anchors": ["plaschem/xml_inputs.py:XmlBuilder.add_rp_from_attributes", "plaschem/xml_inputs.py:XmlBuilder.add_reaction_from_attributes"]}
{"id": "C31", "title": "Numbers in LaTeX output keep their value (refuted)", "statement": "The exponent, activation energy and energy loss strings rendered in LaTeX denote the value of the attribute. (False of the code: trailing zeros of the integer part are stripped, so 300.0 becomes 3.) It holds exactly when the integer part does not end in 0 or the fraction is non-zero.", "quantifier": "every decimal value", "why_tests_cant": "depends on the digits of the value", "anchors": ["plaschem/latex.py:Texify.texify_rate_coefficient"]}
{"id": "C32", "title": "Model parameters accepted by the constructor are valid and complete", "statement": "ModelParameters(params, **kwargs) succeeds only if every key is known, every value passed is proper for its parameter (positive numbers; >= 2 non-negative powers; >= 2 times; feeds of positive numbers; no bool, no NaN), every parameter is there, and the power and time arrays given last have equal length and cover 0 .. 1.1*t_end; the instance then shows the value given last. If no parameter is given under two spellings these conditions are also sufficient. Every rejection is one of the three documented exceptions.", "quantifier": "every dictionary of parameters", "why_tests_cant": "infinite input space, order of keys matters", "anchors": ["pygmo_fwork/pygmol/model_parameters.py:ModelParameters.__init__"]}
{"id": "C33", "title": "Model parameter aliases, round trip and immutability", "statement": "Every alias reads the same value as its nominal key and other keys raise; rebuilding from dict(mp) of an accepted object yields an equal object; item assignment and deletion raise, and no operations on the object change it (the caller's own lists: see C89).", "quantifier": "every accepted parameter object, every key", "why_tests_cant": "all keys and values", "anchors": ["pygmo_fwork/pygmol/model_parameters.py:ModelParameters.__getitem__", "pygmo_fwork/pygmol/model_parameters.py:ModelParameters.__setitem__"]}
{"id": "C34", "title": "Generated initial densities are valid", "statement": "generate_initial_n (and PyGMol's start vector) give every species a density such that all sum to p/(kT), the net heavy-species charge density equals the positive initial electron density, and the result passes validate_initial_n; feed gases must be neutral.", "quantifier": "every chemistry with a positive ion, every admissible parameter set", "why_tests_cant": "real parameters and arbitrary charges", "anchors": ["pygmo_fwork/global_model.py:GlobalModel.generate_initial_n", "pygmo_fwork/pygmol/model.py:Model._build_y0", "pygmo_fwork/global_model.py:GlobalModel.validate_initial_n"]}
{"id": "C35", "title": "Surface losses and returns balance", "statement": "For every plasma state (non-negative densities, positive electron density, finite mean free paths, no non-sticking negative ion) wall fluxes are never positive, vanish for non-sticking species and are negative for sticking ones present; the surface source terms are the fluxes minus the returned particles, and if the return coefficients of every species with a flux sum to one the total particle change at the wall is zero.", "quantifier": "every chemistry, sticking/return data and density vector", "why_tests_cant": "real-valued vectors, arbitrary return tables", "anchors": ["pygmo_fwork/pygmol/equations.py:Equations.get_wall_fluxes", "pygmo_fwork/pygmol/equations.py:Equations.get_diffusion_sinks", "pygmo_fwork/pygmol/equations.py:Equations.get_diffusion_sources"]}
{"id": "C36", "title": "Gas flow balances", "statement": "At the set pressure the flow source terms sum to zero (inflow equals outflow); they never act on charged species unless fed; deviation from the set pressure always pushes neutral density towards it.", "quantifier": "every set of feeds, density vectors with a neutral present", "why_tests_cant": "real-valued vectors", "anchors": ["pygmo_fwork/pygmol/equations.py:Equations.get_flow_source_rates"]}
{"id": "C37", "title": "The right-hand side is a function of its argument only", "statement": "Equations caches coefficients in the object, yet the returned derivative depends only on the state vector and time passed, never on which states were evaluated before.", "quantifier": "every sequence of earlier evaluations", "why_tests_cant": "history dependence hides in cached arrays", "anchors": ["pygmo_fwork/pygmol/equations.py:Equations.get_reaction_rate_coefficients", "pygmo_fwork/pygmol/equations.py:Equations.get_dy_dt"]}
{"id": "C38", "title": "External power profile", "statement": "Accepted power time series end up strictly ascending and cover [0, t_end], with every knot of a float series moved by at most the adjustment step; the power equals the given values at the knots and lies on the straight line between neighbouring ones elsewhere; series with time points repeated in pairs are accepted. (Integer time arrays: see C98.)", "quantifier": "every time series", "why_tests_cant": "all real series with arbitrary repetitions", "anchors": ["pygmo_fwork/pygmol/equations.py:Equations.__init__", "pygmo_fwork/pygmol/equations.py:Equations.get_power_ext"]}
{"id": "C39", "title": "Physical floors", "statement": "Electron temperature never falls below gas temperature (unless it is NaN, see C96), reaction rates follow the law of mass action and are non-negative for non-negative densities with positive electron density, and the minimum-density correction is positive exactly below the floor and zero otherwise.", "quantifier": "every state vector", "why_tests_cant": "real-valued vectors", "anchors": ["pygmo_fwork/pygmol/equations.py:Equations.get_electron_temperature", "pygmo_fwork/pygmol/equations.py:Equations.get_min_n_correction", "pygmo_fwork/pygmol/equations.py:Equations.get_reaction_rates"]}
{"id": "C40", "title": "Compressed solutions keep their information", "statement": "compress_solution keeps the first and last row, returns rows of the original in order, and every dropped row is within the threshold of the preceding kept row or too close to it in time - for non-negative data (refuted for negative data such as wall fluxes, where arbitrary changes are dropped).", "quantifier": "every table and thresholds", "why_tests_cant": "unbounded tables", "anchors": ["pygmo_fwork/results.py:Results.compress_solution"]}
{"id": "C41", "title": "Interpolated frames are exact at samples and never overshoot", "statement": "Frames at requested times inside the simulated range equal the logged row at logged times and lie between the neighbouring rows elsewhere; times outside the range are rejected.", "quantifier": "every ascending time axis and request", "why_tests_cant": "real-valued", "anchors": ["pygmo_fwork/results.py:Results.get_results_frames"]}
{"id": "C42", "title": "Reported per-process rates add up to the simulated source terms", "statement": "For every enabled species the volumetric contributions reported by results are one per reaction changing its number, in descending order, and sum to the volumetric source term (for electrons: the net electron production); the surface contributions sum to the wall source term used by the solver.", "quantifier": "every chemistry, rates and fluxes", "why_tests_cant": "arbitrary networks and real vectors", "anchors": ["pygmo_fwork/results.py:ResultsParser.get_volumetric_rates", "pygmo_fwork/results.py:ResultsParser.get_surface_rates", "pygmo_fwork/pygmol/equations.py:Equations.get_diffusion_source_rates"]}
{"id": "C43", "title": "Run results are only served after a successful run, logs never silently overwritten", "statement": "GlobalModel getters return data only if the latest run succeeded; logging with an existing run id and overwrite=False raises and leaves the stored log untouched.", "quantifier": "every sequence of run/reload/log calls and back-end outcomes", "why_tests_cant": "histories with failures", "anchors": ["pygmo_fwork/global_model.py:GlobalModel.run", "pygmo_fwork/global_model.py:GlobalModel.success", "pygmo_fwork/global_model.py:GlobalModel.log_results"]}
{"id": "C44", "title": "Reduction error measure", "statement": "Comparing a solution with itself gives zero error; the overall error dominates every output error; the rms error never exceeds the max error.", "quantifier": "every pair of positive solutions, outputs and times", "why_tests_cant": "real-valued", "anchors": ["pygmo_fwork/optichem/errors.py:SolutionsDiff"]}
{"id": "C45", "title": "Widest paths are correct", "statement": "find_max_bottleneck_paths gives each node the maximum over all paths to the target of the minimal edge weight, 0 when unreachable, and the reported path attains it.", "quantifier": "every directed graph with positive weights", "why_tests_cant": "all graphs and all paths", "anchors": ["pygmo_fwork/optichem/graph.py:Graph.find_max_bottleneck_paths"]}
{"id": "C46", "title": "Shortest paths are correct", "statement": "find_shortest_paths gives each node the minimal path length (after the chosen transformation), infinity when unreachable; the reported path attains it.", "quantifier": "every directed graph with non-negative lengths", "why_tests_cant": "all graphs and all paths", "anchors": ["pygmo_fwork/optichem/graph.py:Graph.find_shortest_paths"]}
{"id": "C47", "title": "Maximum flow equals minimum cut", "statement": "get_max_flow terminates and returns the value of a feasible flow that equals the capacity of some cut, hence the maximum.", "quantifier": "every directed graph with positive rational capacities", "why_tests_cant": "all graphs, all flows, all cuts", "anchors": ["pygmo_fwork/optichem/graph.py:Graph.get_max_flow"]}
{"id": "C48", "title": "Direct relation weights are normalised", "statement": "All DRG interaction coefficients attached to graph edges are in (0,1].", "quantifier": "every chemistry, non-negative rates and surface rates", "why_tests_cant": "real-valued", "anchors": ["pygmo_fwork/optichem/graph.py:ChemistryGraph.distribute_weights"]}
{"id": "C49", "title": "Reduction never loses what it must keep", "statement": "Only species that are present, not protected, not special and not important at the start are ever removed, each tried once; with backtracking a removal that fails or exceeds the allowed error is undone exactly (as long as no accepted error was NaN, see C82); after every completed call the history in memory and on disk has one row per attempt that agrees with the logged runs and with the species left; run_reduction ends for every ranking and solver, tries a static ranking in its order, and when it returns normally the chemistry is fully enabled again. (Exceptions in between: C81, C85, C88.)", "quantifier": "every reachable chemistry whose declared return species exist, every ranking (static or recalculated), error sequence and back-end behaviour", "why_tests_cant": "adversarial back-end outcomes and rankings", "anchors": ["pygmo_fwork/optichem/reduction.py:ReductionIterator.remove_one_species_and_run", "pygmo_fwork/optichem/reduction.py:ReductionIterator.run_reduction"]}
{"id": "C50", "title": "Morris trajectories are valid designs", "statement": "Every generated trajectory has one point more than factors, stays on the grid, consecutive points differ in exactly one factor by the step, every factor is changed exactly once, and generation never fails.", "quantifier": "every number of factors, start point on the grid, permutation and sequence of random choices", "why_tests_cant": "all random outcomes", "anchors": ["pygmo_fwork/optichem/morris.py:MorrisMethod._trajectory"]}
{"id": "C51", "title": "Morris factor mappings are nominal in the middle and conserve returned particles", "statement": "Factor 0.5 maps to the nominal coefficients, factors map monotonically to multiples, and perturbing a return coefficient keeps the total number of returned particles and all other coefficients.", "quantifier": "every factor vector, coefficients and chemistry", "why_tests_cant": "real-valued", "anchors": ["pygmo_fwork/optichem/morris.py:MorrisMethod._map_reactions_factors_to_k", "pygmo_fwork/optichem/morris.py:MorrisMethod._map_species_factors_to_k", "pygmo_fwork/optichem/morris.py:MorrisMethod._map_a_factor_to_ret_coef"]}
{"id": "C52", "title": "disable refuses only what cannot be done", "statement": "In a consistent state disable(species, reactions) returns normally if and only if every item exists and either all of them are already disabled, or no requested species is protected and there is a closed connected sub-network of the enabled one that avoids the request, keeps every enabled protected species and (for a charged chemistry) keeps a positive ion.", "quantifier": "every reachable consistent chemistry state and every request", "why_tests_cant": "the condition quantifies over all sub-networks; a spurious refusal depends on the order in which the cascade meets protected species", "anchors": ["plaschem/chemistry.py:Chemistry.disable", "plaschem/chemistry.py:Chemistry._disable_recursively"]}
{"id": "C53", "title": "Charge stripping is idempotent (refuted)", "statement": "Stripping the charge of a stripped name changes nothing. (False of the code: 'Ar++2' becomes 'Ar+', which becomes 'Ar'.)", "quantifier": "all strings", "why_tests_cant": "infinite string domain", "anchors": ["plaschem/species.py:RP.strip_charge"]}
{"id": "C54", "title": "Stored units and prefactors are always sane (refuted)", "statement": "Every unit reported by get_unit is a supported one and every prefactor is a non-negative number. (False of the code: a unit passed together with the value None is stored unchecked, and NaN passes the sign test.)", "quantifier": "every constructed reaction and sequence of assignments", "why_tests_cant": "unbounded sequences of assignments", "anchors": ["plaschem/reactions.py:Reaction.set_reaction_attribute"]}
{"id": "C55", "title": "Reaction types mean what they say", "statement": "The type reported for a consistent reaction is the one its reactants call for: electron impact iff an electron reacts, three body iff three heavy reactants, and otherwise by the charges of the two reactants (neutral/positive/negative/ion-ion); every reported pair is in the published scheme, and the published category 'stripping' is never used.", "quantifier": "every constructed reaction, after any assignments", "why_tests_cant": "decision tree over all combinations of charges and multiplicities", "anchors": ["plaschem/classification.py:ReactionsClassifier._classify"]}
{"id": "C56", "title": "Sorting handles every species of the periodic table with up to four elements (refuted)", "statement": "Species of up to four distinct elements of the periodic table can be sorted and element numbers dominate counts. (False of the code: Sc and Tl are missing from the element list, four elements raise NotImplementedError, and counts above nine carry into the element number.)", "quantifier": "every species", "why_tests_cant": "all elements and counts", "anchors": ["plaschem/classification.py:Sorter._get_species_sort_key"]}
{"id": "C57", "title": "Aligned strings of one category have equal length (refuted)", "statement": "Aligned strings returned for two reactions of the same type and category have equal length. (False of the code after sorting: column widths are memoised before the reordering.)", "quantifier": "every history of sort/classify/align calls", "why_tests_cant": "depends on the order of calls", "anchors": ["plaschem/classification.py:ReactionsClassifier.get_aligned_reaction_string"]}
{"id": "C58", "title": "Reaction categories mean what they say", "statement": "The category reported within a reaction type is the one described by the charges and numbers of reactants and products (ionization, attachment, detachment, recombination, charge transfer, dissociation, excitation, ...).", "quantifier": "every constructed reaction, after any assignments", "why_tests_cant": "decision tree over all combinations of charges, states and multiplicities", "anchors": ["plaschem/classification.py:ReactionsClassifier._classify"]}
{"id": "C59", "title": "Graphs remember exactly what was added", "statement": "After any sequence of calls has_edge is true exactly for the added edges, the nodes are exactly their ends, predecessors and successors agree with the edges, and an attribute of an edge is changed only by an accepted update of that edge; re-adding an edge keeps its attributes.", "quantifier": "every history of add_edge / update_* calls", "why_tests_cant": "unbounded histories", "anchors": ["pygmo_fwork/optichem/graph.py:Graph.add_edge", "pygmo_fwork/optichem/graph.py:Graph.update_edge_attributes"]}
{"id": "C60", "title": "Ranking scores are best-path scores", "statement": "With the default search method the score of a species is the maximum, over the important species and all times, of the conductance (inverse sum of inverse weights) of the best path from the species; zero when no path exists; undefined exactly for species without any edge at all times.", "quantifier": "every chemistry data set, weighting scheme, set order and important species, with distinct row labels", "why_tests_cant": "quantifies over all paths in all graphs", "anchors": ["pygmo_fwork/optichem/graph.py:ChemistryGraph.get_ranking"]}
{"id": "C61", "title": "Ranking orders species by importance (refuted)", "statement": "Species that influence nothing are ranked least important and every time point contributes. (False of the code: isolated species get NaN and are sorted last, i.e. most important; max_flow raises KeyError for them; times printed alike overwrite each other; max_product scores a perfect path as NaN.)", "quantifier": "every chemistry data set", "why_tests_cant": "depends on the structure of the data", "anchors": ["pygmo_fwork/optichem/graph.py:ChemistryGraph.get_ranking", "pygmo_fwork/optichem/graph.py:Graph.find_shortest_paths"]}
{"id": "C62", "title": "All weighting schemes are normalised and complete (refuted)", "statement": "All offered weighting schemes give weights in (0,1] and an edge for every interaction. (False of the code: DRG1 and DRG2 weights can exceed 1, max_product then raises AssertionError; DRGEP drops all edges to species whose production equals their consumption.)", "quantifier": "every chemistry data set", "why_tests_cant": "real-valued", "anchors": ["pygmo_fwork/optichem/graph.py:ChemistryGraph.distribute_weights"]}
{"id": "C63", "title": "Every accepted Morris setting gives valid designs (refuted)", "statement": "Whenever the grid density and step are accepted at construction, trajectories stay on the grid and every step moves its factor. (False of the code: values are rounded to five digits, so with a density of 7 points leave the grid, and an accepted step below 10^-5 moves nothing.)", "quantifier": "every accepted density and step", "why_tests_cant": "needs a search over settings", "anchors": ["pygmo_fwork/optichem/morris.py:MorrisMethod.__init__", "pygmo_fwork/optichem/morris.py:MorrisMethod._trajectory"]}
{"id": "C64", "title": "A trajectory counts as done only when all its solutions are logged, and done trajectories are never modified", "statement": "In the results directory a trajectory has its meta file only if the logs of all its runs are there, and once it has, its files never change; an undisturbed call produces exactly the requested trajectory.", "quantifier": "every history of calls, every crash point of each call, every failing evaluation, and every interleaving of trajectories run in parallel with distinct ids", "why_tests_cant": "crash points and interleavings", "anchors": ["pygmo_fwork/optichem/morris.py:MorrisMethod.run_trajectory", "pygmo_fwork/optichem/morris.py:MorrisMethod.run_morris"]}
{"id": "C65", "title": "New trajectory ids are unused, lowest and distinct", "statement": "The id chosen for a new trajectory is the lowest one not done; ids handed to parallel runs are distinct and not done; running out of ids is reported.", "quantifier": "every content of the results directory", "why_tests_cant": "all directory contents", "anchors": ["pygmo_fwork/optichem/morris.py:MorrisMethod._get_next_traj_id", "pygmo_fwork/optichem/morris.py:MorrisMethod.run_morris"]}
{"id": "C66", "title": "All done trajectories of a run directory belong together", "statement": "All done trajectories of one results directory come from the same inputs, type of factors and back-end. (Proved for histories of undisturbed calls; false of the code when a call is killed or when first trajectories run in parallel.)", "quantifier": "every history of calls", "why_tests_cant": "crash points and interleavings", "anchors": ["pygmo_fwork/optichem/morris.py:MorrisMethod._check_morris_coherence", "pygmo_fwork/optichem/morris.py:MorrisMethod.run_trajectory"]}
{"id": "C67", "title": "An interrupted trajectory can be repeated (refuted)", "statement": "After a trajectory was killed or failed, running a new one with the same object works. (False of the code: the id is chosen again, the logs of the dead trajectory are in the way and every later call fails; the statistics cannot be evaluated either.)", "quantifier": "every crash point after the base run was logged", "why_tests_cant": "crash points", "anchors": ["pygmo_fwork/optichem/morris.py:MorrisMethod.run_trajectory", "pygmo_fwork/optichem/morris.py:MorrisMethod._get_next_traj_id", "pygmo_fwork/optichem/morris.py:MorrisMethod.get_morris_stats"]}
{"id": "C68", "title": "Running n trajectories in parallel gives n trajectories", "statement": "When the directory already describes the run, all trajectories run in parallel are done afterwards. (False for the first ones: a trajectory may find a half-written description and be lost.)", "quantifier": "every schedule", "why_tests_cant": "interleavings", "anchors": ["pygmo_fwork/optichem/morris.py:MorrisMethod.run_morris", "pygmo_fwork/optichem/morris.py:MorrisMethod._check_morris_coherence"]}
{"id": "C69", "title": "A second trajectory can be added for every accepted back-end name (refuted)", "statement": "If one trajectory was run, another one with the same settings runs too. (False of the code: the back-end name is stored in lower case and compared with the name as given.)", "quantifier": "every back-end name", "why_tests_cant": "depends on letter case", "anchors": ["pygmo_fwork/optichem/morris.py:MorrisMethod._check_morris_coherence", "pygmo_fwork/optichem/morris.py:MorrisMethod._log_meta"]}
{"id": "C70", "title": "Morris statistics are what they are called", "statement": "The logged effects are the difference quotients of the outputs in each factor, mu is their mean and sigma their standard deviation over trajectories; for models affine in the factors mu is the slope, whatever the trajectories.", "quantifier": "every model function, trajectories and number of factors", "why_tests_cant": "real-valued, all designs", "anchors": ["pygmo_fwork/optichem/morris.py:MorrisMethod._evaluate_trajectory", "pygmo_fwork/optichem/morris.py:MorrisMethod.get_morris_stats"]}
{"id": "C71", "title": "The Morris ranking is sorted and its scores are defined", "statement": "The ranking lists every factor once in order of its score. (Scores: false of the code for a single trajectory with the default method, where all scores are NaN.)", "quantifier": "every set of logs and method", "why_tests_cant": "real-valued", "anchors": ["pygmo_fwork/optichem/morris.py:MorrisMethod.get_ranking"]}
{"id": "C72", "title": "Reduction errors are numbers for all solutions (refuted)", "statement": "The error of a solution with respect to itself is zero for every non-negative solution. (False of the code: an output that is zero at all requested times gives 0/0, so the error is NaN.)", "quantifier": "every non-negative solution", "why_tests_cant": "depends on the data", "anchors": ["pygmo_fwork/optichem/errors.py:SolutionsDiff.get_output_errors"]}
{"id": "C73", "title": "Compression can be repeated (refuted)", "statement": "A compressed solution is a solution and can be compressed again. (False of the code: row labels have gaps and KeyError is raised.)", "quantifier": "every solution", "why_tests_cant": "depends on which rows are dropped", "anchors": ["pygmo_fwork/results.py:ResultsParser.compress_solution"]}
{"id": "C74", "title": "Run identifiers name one place", "statement": "Identifiers given as tuples are split so that at most one of back-end and directory is set, the first element is the run id, and looking up the directory never fails for contradictory identifiers. (A directory called like a back-end is not found: refuted.)", "quantifier": "every tuple and file system", "why_tests_cant": "all combinations", "anchors": ["pygmo_fwork/results.py:ResultsParser._parse_run_identifiers", "pygmo_fwork/results.py:ResultsParser._fetch_results_dir"]}
{"id": "C75", "title": "Overwriting a log keeps the old one until the new one is complete (refuted)", "statement": "Logging with overwrite=True either replaces the stored log by a complete new one or leaves the old one usable, also when it fails or the process dies. (False of the code: the old directory is removed first, so a failing dump or a crash loses it; a crash in between can leave the solver log of the old run without its solution.)", "quantifier": "every history and crash point", "why_tests_cant": "crash points and failing dumps", "anchors": ["pygmo_fwork/global_model.py:GlobalModel.log_results"]}
{"id": "C76", "title": "Logging a run touches only that run's log (refuted)", "statement": "Logging a run, with or without overwrite, leaves the logs of all other run ids in place. (False of the code for the empty run id, which stands for the results directory itself and removes every log in it.)", "quantifier": "every run id", "why_tests_cant": "ids are free strings", "anchors": ["pygmo_fwork/global_model.py:GlobalModel.log_results"]}
{"id": "C77", "title": "A rejected reload leaves the model usable (refuted)", "statement": "When reload_model_parameters raises, the model still has its previous parameters and results. (False of the code: the model is deleted first; the results are lost and neither runs nor further reloads work.)", "quantifier": "every history and every rejected parameters", "why_tests_cant": "histories with failures", "anchors": ["pygmo_fwork/global_model.py:GlobalModel.reload_model_parameters"]}
{"id": "C78", "title": "Convergence diagnostics mean what they say", "statement": "check_convergency flags a column as converged iff its last value and its interpolated value a time window earlier differ by at most eps relative to their mean; a run counts as stopped early iff its last time is more than 5% short of the requested end time. (A species that is absent throughout is flagged as not converged: refuted.)", "quantifier": "every solution, tolerance and time window", "why_tests_cant": "all tables", "anchors": ["pygmo_fwork/global_model.py:GlobalModel.check_convergency", "pygmo_fwork/global_model.py:GlobalModel.run"]}
{"id": "C79", "title": "Reported rates and fluxes carry the labels of their reactions and species", "statement": "After a successful run each column of the rates is the rate of the reaction whose id labels it and each column of the wall fluxes belongs to the species naming it. (Proved for an unchanged chemistry whose numbers of heavy species and reactions differ; refuted when the numbers agree - rates are then named after species - and after changes of the chemistry.)", "quantifier": "every history of runs, logs and chemistry changes", "why_tests_cant": "depends on the sizes and on later changes", "anchors": ["pygmo_fwork/global_model.py:GlobalModel.get_rates", "pygmo_fwork/global_model.py:GlobalModel.get_wall_fluxes", "pygmo_fwork/pygmol/model.py:Model.diagnose"]}
{"id": "C80", "title": "Every consistent chemistry can be run (refuted)", "statement": "A chemistry accepted by the model can be run when the solver succeeds. (False of the code: with a single reaction or a single heavy species the diagnostics look up a column called 'value' and raise, for every outcome of the solver.)", "quantifier": "every consistent chemistry", "why_tests_cant": "depends on the size of the chemistry", "anchors": ["pygmo_fwork/pygmol/model.py:Model.diagnose", "pygmo_fwork/global_model.py:GlobalModel.run"]}
{"id": "C81", "title": "A reduction keeps its important species (refuted)", "statement": "A reduction never removes an important output. (False of the code: an important species can be removed as a consequence of removing another one; remove_one_species_and_run then ends in a KeyError, with the species gone, the row incomplete and not on disk.)", "quantifier": "every chemistry and set of important outputs", "why_tests_cant": "depends on the cascade of a removal", "anchors": ["pygmo_fwork/optichem/reduction.py:ReductionIterator.remove_one_species_and_run"]}
{"id": "C82", "title": "Accepted removals stay (refuted)", "statement": "A removal that was accepted is part of all later reduced chemistries. (False of the code when its error is NaN, as for an output that is zero in both models: it is accepted, but the next rejected or failed removal restores an earlier chemistry, silently bringing the species back although it stays recorded as removed and ineligible.)", "quantifier": "every sequence of errors", "why_tests_cant": "needs NaN followed by a rejected removal", "anchors": ["pygmo_fwork/optichem/reduction.py:ReductionIterator.remove_one_species_and_run"]}
{"id": "C83", "title": "A reduction stops after max_unsuccess_streak failures (refuted)", "statement": "The reduction is finished after max_unsuccess_streak species in a row exceed the error. (False of the code: one more species is tried. C49 proves the bound max_unsuccess_streak + 1.)", "quantifier": "every ranking and error sequence", "why_tests_cant": "off by one in long runs", "anchors": ["pygmo_fwork/optichem/reduction.py:ReductionIterator.run_reduction"]}
{"id": "C84", "title": "An empty run directory can be used (refuted)", "statement": "An existing empty reduction directory is as good as none. (False of the code: no meta.yaml is written into it, so after the base run every removal ends in FileNotFoundError.)", "quantifier": "every file system", "why_tests_cant": "depends on the file system", "anchors": ["pygmo_fwork/optichem/reduction.py:ReductionIterator.make_dir_structure_if_clear", "pygmo_fwork/optichem/reduction.py:ReductionIterator.remove_one_species_and_run"]}
{"id": "C85", "title": "Feed gases cannot be removed (refuted)", "statement": "can_be_removed is false for feed gases. (False of the code: an unprotected feed gas is eligible; its removal makes the equations raise, which ends the whole reduction and leaves the chemistry reduced.)", "quantifier": "every chemistry and feeds", "why_tests_cant": "depends on feeds and ranking", "anchors": ["pygmo_fwork/optichem/reduction.py:ReductionIterator.can_be_removed", "pygmo_fwork/optichem/reduction.py:ReductionIterator.run_reduction"]}
{"id": "C86", "title": "A failed removal leaves the chemistry as it was, whatever the flag (refuted)", "statement": "A removal that fails leaves the chemistry unchanged also when calls with and without backtracking are mixed. (False of the code: without the flag it restores the last run, even one that had been rejected.)", "quantifier": "every sequence of calls and flags", "why_tests_cant": "mixed flags", "anchors": ["pygmo_fwork/optichem/reduction.py:ReductionIterator.remove_one_species_and_run"]}
{"id": "C87", "title": "A refused iterator leaves nothing behind (refuted)", "statement": "When the constructor raises, it can be called again with corrected arguments. (False of the code: the directory with meta.yaml stays and blocks the run id.)", "quantifier": "all arguments", "why_tests_cant": "failing constructions", "anchors": ["pygmo_fwork/optichem/reduction.py:ReductionIterator.__init__"]}
{"id": "C88", "title": "A failing run never ends the reduction (refuted)", "statement": "If the model does not solve after a removal, the species is reinstalled and the reduction goes on. (False of the code: with ad-hoc return coefficients naming a species removed earlier, restoring the chemistry raises ChemistryAttributesConsistencyError.)", "quantifier": "every chemistry with ad-hoc values", "why_tests_cant": "needs ad-hoc values and a failing run", "anchors": ["pygmo_fwork/optichem/reduction.py:ReductionIterator.remove_one_species_and_run"]}
{"id": "C89", "title": "Model parameters are a snapshot (refuted)", "statement": "Once accepted, the parameters shown by a ModelParameters object never change. (False of the code: power and t_power are stored by reference, so changing the list passed to the constructor changes the object, even to values the constructor rejects.)", "quantifier": "every accepted object and every later action of the caller", "why_tests_cant": "aliasing", "anchors": ["pygmo_fwork/pygmol/model_parameters.py:_ModelParametersPower.set_power", "pygmo_fwork/pygmol/model_parameters.py:ModelParameters.__getitem__"]}
{"id": "C90", "title": "Accepted parameters are finite (refuted)", "statement": "All accepted numbers are finite. (False of the code: infinities pass the checks, only NaN is rejected.)", "quantifier": "every dictionary of parameters", "why_tests_cant": "special values", "anchors": ["pygmo_fwork/pygmol/model_parameters.py:TypeCheck.assert_is_number"]}
{"id": "C91", "title": "A ModelParameters object can be passed wherever a dict of parameters is (refuted)", "statement": "ModelParameters(mp) yields an equal object. (False of the code: the constructor calls copy(), which the class lacks, so it raises AttributeError; Morris' run_trajectory calls model_params.copy() likewise.)", "quantifier": "every accepted object", "why_tests_cant": "needs the class used as its own input", "anchors": ["pygmo_fwork/pygmol/model_parameters.py:ModelParameters.__init__", "pygmo_fwork/optichem/morris.py:MorrisMethod.run_trajectory"]}
{"id": "C92", "title": "An overridden value has no influence (refuted)", "statement": "When a parameter is given under two spellings only the value given last matters. (False of the code: the overridden value is validated too and can make the constructor raise.)", "quantifier": "every dictionary with repeated parameters", "why_tests_cant": "depends on key order", "anchors": ["pygmo_fwork/pygmol/model_parameters.py:ModelParameters.__init__"]}
{"id": "C93", "title": "The right-hand side is finite on plasma states", "statement": "For every accepted chemistry and parameters, every state with non-negative densities, positive electron density, some neutral density, finite mean free paths and no non-sticking negative ion, and every time in [0, t_end], the right-hand side given to the solver is a vector of finite numbers.", "quantifier": "every such state and time", "why_tests_cant": "infinities and NaN hide in intermediate quantities", "anchors": ["pygmo_fwork/pygmol/equations.py:Equations.obj_function", "pygmo_fwork/pygmol/equations.py:Equations.get_dy_dt"]}
{"id": "C94", "title": "A species that does not stick has no wall flux (refuted)", "statement": "get_wall_fluxes documents null fluxes for species with null sticking coefficient. (False of the code: for a negative ion the flux is 0/0 in the default diffusion model, so the derivatives of all densities are NaN for every state.)", "quantifier": "every chemistry with a negative ion", "why_tests_cant": "special values", "anchors": ["pygmo_fwork/pygmol/equations.py:Equations.get_wall_fluxes", "pygmo_fwork/pygmol/equations.py:Equations.get_ambipolar_diffusivity_neg"]}
{"id": "C95", "title": "A gas of a single species can be simulated (refuted)", "statement": "The derivative is a number for a chemistry of one species. (False of the code: it does not collide with itself, its mean free path is infinite and its wall flux NaN.)", "quantifier": "every chemistry of one neutral species", "why_tests_cant": "special values", "anchors": ["pygmo_fwork/pygmol/equations.py:Equations.get_sigma_sc", "pygmo_fwork/pygmol/equations.py:Equations.get_mean_free_paths"]}
{"id": "C96", "title": "The equations are defined for all non-negative densities (refuted)", "statement": "(False of the code: the electron temperature is NaN without electrons and electron energy, the gas flow is NaN without neutral species.)", "quantifier": "every non-negative state", "why_tests_cant": "special values", "anchors": ["pygmo_fwork/pygmol/equations.py:Equations.get_electron_temperature", "pygmo_fwork/pygmol/equations.py:Equations.get_flow_source_rates"]}
{"id": "C97", "title": "Rates are non-negative for all non-negative densities (refuted)", "statement": "(False of the code: with more negative than positive ions the electron density from quasi-neutrality is negative, and with it the rates of electron collisions.)", "quantifier": "every non-negative state", "why_tests_cant": "needs electronegative states", "anchors": ["pygmo_fwork/pygmol/equations.py:Equations.get_electron_density", "pygmo_fwork/pygmol/equations.py:Equations.get_reaction_rates"]}
{"id": "C98", "title": "Repeated time points of the power are separated (refuted)", "statement": "Repeated time points are moved apart by the adjustment step, whether given as ints or floats and however often repeated. (False of the code: in an integer array the assignment truncates, so a point moves by a whole second or the series is refused; three equal points are refused.)", "quantifier": "every ascending time series", "why_tests_cant": "depends on the dtype numpy infers", "anchors": ["pygmo_fwork/pygmol/equations.py:Equations.__init__"]}
{"id": "C99", "title": "The derivative is the sum of the reported parts", "statement": "For every state and time the derivative of each density is the sum of the volumetric, flow, surface and correction terms the object reports for that state; there is one entry per species and one for the energy; the volumetric terms are the net stoichiometry times the rates.", "quantifier": "every state and time", "why_tests_cant": "real-valued vectors", "anchors": ["pygmo_fwork/pygmol/equations.py:Equations.get_dn_dt", "pygmo_fwork/pygmol/equations.py:Equations.obj_function", "pygmo_fwork/pygmol/equations.py:Equations.get_volumetric_source_rates"]}
{"id": "C100", "title": "Energy loss and transport quantities", "statement": "Electrons never gain energy in elastic collisions; ion temperature, Debye length and mean speeds are positive and, with the collision cross-sections, given by the documented formulas.", "quantifier": "every state with electrons", "why_tests_cant": "real-valued vectors", "anchors": ["pygmo_fwork/pygmol/equations.py:Equations.get_el_en_losses", "pygmo_fwork/pygmol/equations.py:Equations.get_ion_temperature", "pygmo_fwork/pygmol/equations.py:Equations.get_debye_length", "pygmo_fwork/pygmol/equations.py:Equations.get_mean_speeds", "pygmo_fwork/pygmol/equations.py:Equations.get_sigma_sc"]}
{"id": "C101", "title": "The electron energy equation is the balance of its terms", "statement": "For every plasma state the last entry of the right-hand side is: absorbed power per volume, minus collision losses times rates, minus 3/2 Te per net electron produced, plus the (negative) wall terms of 2 Te per electron and 1/2 Te plus sheath voltage per ion, plus the minimum-energy correction; elastic losses follow the mass of the first heavy reactant, other losses are the given ones.", "quantifier": "every accepted chemistry, parameters, state and time", "why_tests_cant": "real-valued states, signs of five terms", "anchors": ["pygmo_fwork/pygmol/equations.py:Equations.get_drho_dt", "pygmo_fwork/pygmol/equations.py:Equations.get_el_en_losses"]}
{"id": "C102", "title": "Source terms conserve charge whatever the electron's data (refuted)", "statement": "Volumetric source terms conserve charge for every chemistry the library accepts. (False of the code: an electron species without charge is accepted, with reactions that create electrons from nothing.)", "quantifier": "every accepted chemistry", "why_tests_cant": "needs unusual but accepted input data", "anchors": ["plaschem/species.py:RP.get_charge", "plaschem/reactions.py:Reaction.assert_consistency", "pygmo_fwork/pygmol/equations.py:Equations.get_volumetric_source_rates"]}
{"id": "C103", "title": "Reported surface rates are sorted (refuted)", "statement": "get_surface_rates returns a series sorted by descending values, as documented. (False of the code: it is in the order of the species.)", "quantifier": "every chemistry and fluxes", "why_tests_cant": "arbitrary vectors", "anchors": ["pygmo_fwork/results.py:ResultsParser.get_surface_rates"]}
{"id": "C104", "title": "Rates of disabled species", "statement": "Asking for the volumetric or surface rates of a disabled species of the chemistry always raises KeyError.", "quantifier": "every chemistry, species and row", "why_tests_cant": "all mask states", "anchors": ["pygmo_fwork/results.py:ResultsParser.get_volumetric_rates", "pygmo_fwork/results.py:ResultsParser.get_surface_rates"]}
{"id": "C105", "title": "Simulations work with the data of the chemistry", "statement": "In every chemistry, after any history of disabling, resetting and ad-hoc changes, the arrays given to the rate equations hold for each enabled reaction its rate coefficient in force times its unit, its other parameters, elasticity, and the number of times the electron, the third body and every ordinary species occur in it, and for each ordinary enabled species its name, charge, mass, diameter and sticking coefficient in force, all in the same order.", "quantifier": "every reachable chemistry built from species and reaction objects", "why_tests_cant": "order and alignment of arrays over all mask states", "anchors": ["pygmo_fwork/pygmol/equations.py:Equations.__init__", "plaschem/chemistry.py:Chemistry.get_reactions_arrh_a", "plaschem/chemistry.py:Chemistry.get_reactions_stoich_coefs_arbitrary", "plaschem/chemistry.py:Chemistry.get_reactions_stoich_coefs_electron"]}
{"id": "C106", "title": "Empty texts survive a round trip", "statement": "A species attribute that is the empty string is read back as the empty string, so that every getter returns the same. (Refuted: it is read back as missing; the default sticking coefficient changes from 1 to 0.)", "quantifier": "all species with empty string attributes", "why_tests_cant": "needs the interplay of writer, parser and defaults", "anchors": ["plaschem/xml_inputs.py:XmlBuilder.add_rp_from_attributes", "plaschem/xml_inputs.py:XmlParser.get_species_and_reactions_from_xml_elements"]}
{"id": "C107", "title": "Every name accepted by the species class survives a round trip", "statement": "A species whose name contains a comma (as do names of species with several states) can be written and read, and its reactions stay the same. (Refuted: reading raises KeyError, or gives a different reaction.)", "quantifier": "all species names", "why_tests_cant": "names containing separators", "anchors": ["plaschem/xml_inputs.py:XmlBuilder.add_reaction_from_attributes", "plaschem/xml_inputs.py:XmlParser.get_species_and_reactions_from_xml_elements"]}
{"id": "C108", "title": "Conflicts and dangling references are noticed", "statement": "Adding a reaction whose species differ in data from species of the same name in the builder, or a file whose reactions name missing species, is refused. (Refuted: the data are dropped without an error; the reactions are added.)", "quantifier": "all sequences of builder calls", "why_tests_cant": "needs histories mixing sources", "anchors": ["plaschem/xml_inputs.py:XmlBuilder.add_reaction_from_instance", "plaschem/xml_inputs.py:XmlBuilder.add_chemistry_from_xml"]}
{"id": "C109", "title": "Adding a chemistry is all or nothing", "statement": "A call adding a chemistry that raises leaves the builder as it was. (Refuted: whenever the builder has a species whose id the chemistry does not have, the call raises after having added all reactions; in particular two chemistries with different species cannot be combined.)", "quantifier": "all builders and chemistries", "why_tests_cant": "failure depends on the history of the builder", "anchors": ["plaschem/xml_inputs.py:XmlBuilder.add_chemistry_from_instance"]}
{"id": "C110", "title": "Accepted names are usable", "statement": "Any species accepted from attributes can be given an id, and differs in name from the others in the file. (Refuted for the empty name, and for a number and its text.)", "quantifier": "all attribute dictionaries", "why_tests_cant": "dynamic typing of names", "anchors": ["plaschem/xml_inputs.py:XmlBuilder.add_rp_from_attributes", "plaschem/xml_inputs.py:XmlBuilder.assign_species_ids"]}
{"id": "C111", "title": "Sorting an XML chemistry loses nothing", "statement": "Sorting the elements, successful or not, keeps every species and reaction with all its data exactly once; if ids are pairwise different, the elements are only permuted.", "quantifier": "all builder states", "why_tests_cant": "permutation property over arbitrary element lists and failures", "anchors": ["plaschem/xml_inputs.py:XmlBuilder.sort_elements"]}
{"id": "C112", "title": "Existing files are protected", "statement": "Writing to an existing path without asking to overwrite it raises and leaves the file as it is.", "quantifier": "all paths, files and builders", "why_tests_cant": "quantifies over file systems", "anchors": ["plaschem/xml_inputs.py:XmlBuilder.dump_xml"]}
{"id": "C113", "title": "Formulas are typeset correctly", "statement": "For every name made of element symbols, counts, and a charge or excitation mark, optionally followed by a state in brackets, the default LaTeX is the one a chemist would write: letters upright, counts lowered, the mark raised, the state unchanged. (Refuted for counts from 20 on, as in C60, and for four signs.)", "quantifier": "all formulas of any length over all elements", "why_tests_cant": "a chain of several thousand text replacements that can interfere with each other", "anchors": ["plaschem/latex.py:Texify.texify_species", "plaschem/latex.py:Texify._texify_ground_state", "plaschem/species.py:RP.get_latex"]}
{"id": "C114", "title": "Different names have different LaTeX", "statement": "Every name without LaTeX characters, with or without one state in brackets at the end, has a LaTeX text, and two different such names have different texts. A name is refused (AssertionError) exactly when its brackets are not of that form. (Refuted for names containing LaTeX characters.)", "quantifier": "all pairs of names", "why_tests_cant": "pairs of arbitrary texts", "anchors": ["plaschem/latex.py:Texify.texify_species"]}
{"id": "C115", "title": "The LaTeX of a reaction shows its stoichiometry", "statement": "Unless given explicitly, the LaTeX of a reaction lists the species of each side once, in order of first appearance, with their numbers of occurrences. (Refuted when two species of a side have the same LaTeX: they are merged and a number is lost.)", "quantifier": "all reactions", "why_tests_cant": "arbitrary multiplicities and user-supplied texts", "anchors": ["plaschem/reactions.py:Reaction.get_latex"]}
{"id": "C116", "title": "The table of reactions is complete", "statement": "The LaTeX table has one line for each enabled reaction, in order, holding that reaction's own cells under the requested columns. A reaction whose cell cannot be written prevents the whole table (this is so for all special reactions without rate coefficient).", "quantifier": "all lists of reactions and columns", "why_tests_cant": "arbitrary chemistries and column choices", "anchors": ["plaschem/latex.py:ReactionsTable.__init__", "plaschem/latex.py:TexTable._get_body_lines"]}
{"id": "C117", "title": "The neutral model agrees with the general one", "statement": "For a chemistry of neutral species only, the neutral equations give every species the same time derivative as the general equations, keep the electron energy constant, and are not changed by the evaluation; the reaction rates are the Arrhenius coefficients at gas temperature times the reactants' densities, the third body counting as the total density.", "quantifier": "all neutral chemistries, parameters, states and times", "why_tests_cant": "every state vector of every chemistry", "anchors": ["pygmo_fwork/pygmol/neutral_model.py:NeutralEquations.obj_function", "pygmo_fwork/pygmol/neutral_model.py:NeutralEquations.get_reaction_rate_coefficients", "pygmo_fwork/pygmol/equations.py:Equations.get_reaction_rates"]}
{"id": "C118", "title": "The solution table shows the states, and a run can be continued from it", "statement": "Each row of the table of a run has the time, each species' density under its name, and the electron density, electron temperature, gas temperature and pressure of that state. Starting a run with the densities and the electron temperature of a row starts from that state. (The electron energy is raised to that of electrons at gas temperature if it was lower: exact continuation is refuted for such states.)", "quantifier": "all solutions, rows and chemistries whose species names are not column names", "why_tests_cant": "all state vectors, including cold or nearly neutral ones", "anchors": ["pygmo_fwork/pygmol/model.py:Model._post_process", "pygmo_fwork/pygmol/model.py:Model._y0_from_init_params", "pygmo_fwork/pygmol/model.py:Model._validate_y0"]}
{"id": "C119", "title": "The first row of a run shows what was asked for", "statement": "When a run starts from densities generated for a pressure, temperature and ionisation fraction, the first row of its table shows these densities, exactly that pressure, the requested electron density and the requested electron temperature (or the gas temperature if higher).", "quantifier": "all chemistries, feeds, pressures, temperatures and fractions, all solver outcomes", "why_tests_cant": "crosses four modules; arbitrary numbers of species and charges", "anchors": ["pygmo_fwork/pygmol/model.py:Model.run", "pygmo_fwork/pygmol/model.py:Model._post_process", "pygmo_fwork/pygmol/model.py:Model._build_y0"]}
{"id": "C120", "title": "A neutral run starts at the requested pressure", "statement": "The start densities of a neutral run are accepted and add up to the density of a gas at the requested pressure and temperature, up to 1e-15 of it per fed species. Without feeds all are equal and the sum is exact. (Refuted: exact with feeds; rejection of negative densities given by the user.)", "quantifier": "all species lists and feeds", "why_tests_cant": "arbitrary numbers of species and feeds", "anchors": ["pygmo_fwork/pygmol/neutral_model.py:NeutralModel._build_y0", "pygmo_fwork/pygmol/neutral_model.py:NeutralModel._y0_from_init_params", "pygmo_fwork/pygmol/neutral_model.py:NeutralModel._validate_y0"]}
{"id": "C121", "title": "Results belong to the last run", "statement": "After a run that did not raise, success, solution and rates are those of that run; after any series of runs the solution served is that of one of them. (Refuted: after a run that raised, success may still be reported, with the old solution and with rates evaluated by the new equations.)", "quantifier": "all series of runs, changes of the chemistry and solver outcomes", "why_tests_cant": "histories of failing and succeeding runs", "anchors": ["pygmo_fwork/pygmol/model.py:Model._solve", "pygmo_fwork/pygmol/model.py:Model.run", "pygmo_fwork/pygmol/model.py:Model.success", "pygmo_fwork/pygmol/model.py:Model.get_solution", "pygmo_fwork/pygmol/model.py:Model.get_rates"]}
{"id": "C122", "title": "Neutral models treat electrons and walls soundly (refuted)", "statement": "In a neutral model electron collisions do not proceed, and wall fluxes can be reported. (False of the code: a NeutralChemistry accepts the electron, and an electron collision proceeds as if its electron were not there; asking for wall fluxes raises TypeError.)", "quantifier": "all neutral chemistries", "why_tests_cant": "needs a chemistry the constructor accepts although it makes no sense", "anchors": ["pygmo_fwork/pygmol/neutral_model.py:NeutralEquations.get_wall_fluxes", "plaschem/chemistry.py:NeutralChemistry", "pygmo_fwork/pygmol/neutral_model.py:NeutralEquations.get_diffusivities"]}
{"id": "C123", "title": "The table keeps every density apart and starts are numbers (refuted)", "statement": "Each species has its own column, and start densities that are not numbers are refused. (False of the code: the density of a species called Te, tellurium, is overwritten by the electron temperature, and continuing from the table then starts from a wrong density; NaN is accepted.)", "quantifier": "all species names and start densities", "why_tests_cant": "needs the one element whose symbol is also a column name", "anchors": ["pygmo_fwork/pygmol/model.py:Model._post_process", "pygmo_fwork/pygmol/model.py:Model._validate_y0"]}
{"id": "C124", "title": "A finished run can be read back", "statement": "When a run with logging has finished without raising, its solution, wall fluxes, stored rates, model parameters and initial values are read back under its id, from the directory it was logged to, at once and after anything that happens later in the workspace except overwriting: further runs and logs, processes that die while logging, directory queries, readers. If no directory was given it is the default one of the back-end, found by every reader for that back-end in any spelling.", "quantifier": "all configurations, chemistries, parameters, solver results, and all later histories with crash points", "why_tests_cant": "histories and crash points", "anchors": ["pygmo_fwork/global_model.py:GlobalModel.run", "pygmo_fwork/global_model.py:GlobalModel.log_results", "pygmo_fwork/results.py:ResultsParser.fetch_solution", "pygmo_fwork/results.py:ResultsParser.fetch_wall_fluxes", "pygmo_fwork/results.py:ResultsParser.fetch_model_params", "pygmo_fwork/results.py:ResultsParser.fetch_initial_params", "pygmo_fwork/config.py:Config.get_results_dir"]}
{"id": "C125", "title": "Rates are read back under the reactions' ids", "statement": "The rates of a finished and logged run are read back labelled by the integer ids of the enabled reactions. (Proved when the numbers of heavy species and of reactions differ; refuted when they are equal: the rates are logged under the names of species and fetching them raises ValueError.)", "quantifier": "all runs and later histories", "why_tests_cant": "needs a chemistry with as many reactions as heavy species", "anchors": ["pygmo_fwork/results.py:ResultsParser.fetch_rates", "pygmo_fwork/global_model.py:GlobalModel.get_rates"]}
{"id": "C126", "title": "Queries for workspace directories are safe", "statement": "A query for a directory of the workspace returns an existing directory at its fixed place in the configured workspace, touches no file, makes no directories but this one and those above it, changes nothing if it raises, gives the same answer again, succeeds whenever the workspace is configured and no file is in the way, and directories of different purposes are never equal or nested.", "quantifier": "all configurations and file systems", "why_tests_cant": "every state of a file system, sequences of queries", "anchors": ["pygmo_fwork/config.py:Config.get_results_dir", "pygmo_fwork/config.py:Config.get_globalkin_stage_dir", "pygmo_fwork/config.py:Config.get_morris_results_dir", "pygmo_fwork/config.py:Config.get_reduction_results_dir"]}
{"id": "C127", "title": "What is read under one run id belongs to one run", "statement": "Whatever happened in a workspace, including processes dying at any file operation and logs being overwritten, everything that can be read under a run id (solution, rates, fluxes, parameters, initial values) was logged by one and the same run.", "quantifier": "all histories with crash points, starting without files", "why_tests_cant": "every interleaving of crashes and overwriting", "anchors": ["pygmo_fwork/global_model.py:GlobalModel.log_results", "pygmo_fwork/results.py:ResultsParser.fetch_solution", "pygmo_fwork/results.py:ResultsParser.fetch_rates", "pygmo_fwork/results.py:ResultsParser.fetch_wall_fluxes", "pygmo_fwork/results.py:ResultsParser.fetch_model_params", "pygmo_fwork/results.py:ResultsParser.fetch_initial_params"]}
{"id": "C128", "title": "Logs are all or nothing (refuted)", "statement": "Either all logs of a run can be read, or ResultsNotFoundError is raised. (False of the code: of a run that died while being logged the solution is served while the rates are missing, and the run cannot be repeated under its id without overwriting; a file that was only opened raises ValueError or TypeError.)", "quantifier": "all crash points of logging", "why_tests_cant": "needs a crash at a certain file operation", "anchors": ["pygmo_fwork/results.py:ResultsParser.fetch_solution", "pygmo_fwork/results.py:ResultsParser.fetch_rates", "pygmo_fwork/results.py:ResultsParser.fetch_model_params", "pygmo_fwork/global_model.py:GlobalModel.log_results"]}
{"id": "C129", "title": "An unusable configuration raises ConfigError", "statement": "ConfigError is raised exactly when the configuration is unusable. (Proved: ConfigError, and every other exception of a query, is only raised for its documented reason. Refuted: a file that is not YAML raises the error of the YAML library and a workspace that is not a string raises TypeError.)", "quantifier": "all contents of the configuration file and all file systems", "why_tests_cant": "all contents of a file", "anchors": ["pygmo_fwork/config.py:Config.__init__", "pygmo_fwork/config.py:Config.__getitem__", "pygmo_fwork/config.py:Config.get_globalkin_stage_dir"]}
{"id": "C130", "title": "Printed processes are complete and add up", "statement": "The printed production (consumption) processes of a species are exactly the reactions and wall conversions with a positive (negative) contribution, each once, sorted by size; production and consumption together add up to the source terms of the equations (for electrons to their net production); a report capped to n lines shows the first n of them and dots if any is left out; rates in cm-3/s are 1e-6 of those in m-3/s; other units raise KeyError.", "quantifier": "all chemistries, species, rows of rates and fluxes, numbers of lines and units", "why_tests_cant": "arbitrary numbers of reactions", "anchors": ["pygmo_fwork/results.py:ResultsParser.print_production_processes", "pygmo_fwork/results.py:ResultsParser.print_consumption_processes", "pygmo_fwork/results.py:ResultsParser.get_volumetric_rates", "pygmo_fwork/results.py:ResultsParser.get_surface_rates"]}
{"id": "C131", "title": "Printed arrays show every value at its place", "statement": "An array whose rows and columns are species or reactions of a chemistry is printed with its ids kept, with a row and a column of labels which are the names of those species and the texts of those reactions; no value is lost, moved or changed; exactly what belongs to a disabled species or reaction is red. In particular this holds of the stoichiometric matrix of every chemistry after any history, if some printed reaction has an id that is no species' id and no reaction has the id 0. Arrays with other rows raise KeyError.", "quantifier": "all chemistries after any history, all arrays", "why_tests_cant": "arbitrary sizes and histories", "anchors": ["plaschem/pretty_print.py:PrettyPrint.print", "plaschem/pretty_print.py:PrettyPrint._get_pretty_dataframe", "plaschem/chemistry.py:Chemistry.get_reactions_stoichiomatrix"]}
{"id": "C132", "title": "The printed rows of a stoichiometric matrix are labelled by their reactions (refuted)", "statement": "In a printed stoichiometric matrix each row is labelled with the text of its reaction and is red exactly if this reaction is disabled. (False of the code: if the ids of all printed reactions are also ids of species, which is so whenever both are numbered from 1 and there are not more reactions than species, the rows carry the names and the colours of species.)", "quantifier": "all chemistries and histories", "why_tests_cant": "needs overlapping ids", "anchors": ["plaschem/pretty_print.py:PrettyPrint._get_pretty_dataframe"]}
{"id": "C133", "title": "Arrays can be printed with and without labels (refuted)", "statement": "Without annotations an array is printed with its ids, values and colours; with annotations every array of a chemistry can be printed. (Proved without annotations: values, colours and all ids but those of the first row and column, which are replaced by blanks. Refuted: these ids are lost, and a chemistry with a reaction 0 cannot be printed: AttributeError.)", "quantifier": "all chemistries and arrays", "why_tests_cant": "all arrays", "anchors": ["plaschem/pretty_print.py:PrettyPrint.print", "plaschem/pretty_print.py:PrettyPrint._get_pretty_dataframe"]}
{"id": "C134", "title": "Importing an HPEM file gives what the file describes", "statement": "A file in the HPEM format, with any white space around its fields, which describes species with distinct names and reactions between them, is imported into a new builder without error. What is then read back, directly or from any XML file it is written to, are the species that take part in a reaction taken over and these reactions, with all the data given in the file: name (E is the electron, ^ a plus), charge, mass, sticking and return coefficients, comments, Arrhenius parameters with the unit for the number of reactants (eV or K for electron impact or heavy reactions), heat, special number. With skip_special_numbers, reactions are taken over exactly if their special number is 1 or -1.", "quantifier": "all files, all species and reactions", "why_tests_cant": "regular expressions with backtracking; arbitrary texts, names and white space", "anchors": ["plaschem/xml_inputs.py:XmlBuilder.add_chemistry_from_hpem", "plaschem/xml_inputs.py:XmlBuilder.add_rp_from_attributes", "plaschem/xml_inputs.py:XmlBuilder.add_reaction_from_attributes"]}
{"id": "C135", "title": "Imports keep the builder consistent", "statement": "Whatever is called on a builder and whatever files (of any content) are imported, species have distinct names, the checks for species are right, and reactions refer to species that are there. An import only adds species and reactions at the end; if a line cannot be read nothing is added. A well-formed file is imported exactly if none of the species used in its reactions is already present, every reaction has at most three reactants, and all species used are in the file or already there.", "quantifier": "all histories of calls and imports, all texts", "why_tests_cant": "histories and arbitrary files", "anchors": ["plaschem/xml_inputs.py:XmlBuilder.add_chemistry_from_hpem"]}
{"id": "C136", "title": "A failed import leaves the builder unchanged (refuted)", "statement": "If a file is refused the builder is as before, and files with trailing empty lines are read. (False of the code: species and reactions before the refused one stay, so that the corrected file cannot be imported; an empty line raises IndexError.)", "quantifier": "all files", "why_tests_cant": "needs particular files", "anchors": ["plaschem/xml_inputs.py:XmlBuilder.add_chemistry_from_hpem"]}
{"id": "C137", "title": "Imported species are as in the file and return species that exist (refuted)", "statement": "Every species returned from the walls is imported too; comments do not change other fields; every line of species is taken into account. (False of the code: a returned species in no reaction is left out, an exclamation mark in a comment directly after the name is read into the name, of two lines for the same name the first is ignored.)", "quantifier": "all files", "why_tests_cant": "needs particular files", "anchors": ["plaschem/xml_inputs.py:XmlBuilder.add_chemistry_from_hpem"]}
{"id": "C138", "title": "Importing from the QDB database gives what the database describes", "statement": "Importing the reactions of a chemistry from the QDB database into a new builder succeeds, provided the species have distinct names that can be written, and gives, read back directly or from an XML file, exactly the reactions (lumped ones replaced by those they stand for, between the lumped species, with a comment) and the species taking part in them: names with states in parentheses and charges spelt out, mass, charge, enthalpy of formation, Lennard-Jones parameters, rate of the preferred dataset with its units, electron energy loss of inelastic electron collisions, special number, ids and doi. Data that are zero count as not given.", "quantifier": "all contents of the database, any depth of lumping", "why_tests_cant": "the database is not available to tests", "anchors": ["plaschem/xml_inputs.py:XmlBuilder.add_chemistry_from_qdb", "plaschem/xml_inputs.py:XmlBuilder.add_reaction_from_qdb", "plaschem/xml_inputs.py:XmlBuilder.add_rp_from_qdb"]}
{"id": "C139", "title": "QDB imports keep the builder consistent", "statement": "After any history of calls and of imports from HPEM files and the QDB database, species have distinct names, checks for species are right and reactions refer to species that are there. An import from QDB only adds species and reactions at the end; it is accepted exactly if every reaction to be added has at most one lumped reaction and a dataset with a rate, and then adds each once; otherwise it raises an XmlError.", "quantifier": "all histories and database contents", "why_tests_cant": "histories", "anchors": ["plaschem/xml_inputs.py:XmlBuilder.add_chemistry_from_qdb", "plaschem/xml_inputs.py:XmlBuilder.add_reaction_from_qdb", "plaschem/xml_inputs.py:XmlBuilder.add_rp_from_qdb"]}
{"id": "C140", "title": "What was imported from QDB can be read (refuted)", "statement": "A builder into which QDB reactions were imported without an error can be read back. (False of the code: a species with two states gets a name with a comma, which splits it in the lists of reactants; an electron collision with an activation energy in kelvin is written but refused when read.)", "quantifier": "all contents of the database", "why_tests_cant": "needs particular contents", "anchors": ["plaschem/xml_inputs.py:XmlBuilder.add_chemistry_from_qdb", "plaschem/xml_inputs.py:XmlBuilder.add_reaction_from_qdb", "plaschem/xml_inputs.py:XmlBuilder.add_rp_from_qdb"]}
{"id": "C141", "title": "Every reaction and species of QDB is imported once, and failed imports leave nothing (refuted)", "statement": "No reaction is imported twice, species are not confused, refused reactions leave nothing behind. (False of the code: a reaction that is listed and also stands for a lumped one is there twice with the same id; of two species with the same formula and states the second is taken for the first; the species of a reaction without data stay.)", "quantifier": "all contents of the database", "why_tests_cant": "needs particular contents", "anchors": ["plaschem/xml_inputs.py:XmlBuilder.add_chemistry_from_qdb", "plaschem/xml_inputs.py:XmlBuilder.add_reaction_from_qdb", "plaschem/xml_inputs.py:XmlBuilder.add_rp_from_qdb"]}
{"id": "C142", "title": "Reactions are sorted by the species taking part", "statement": "After any history of calls, sorting the reactions of a classifier that knows their species succeeds, loses and repeats none and orders them by the places of their reactants, then products, in the list of species. Reactions that the order does not tell apart keep their order.", "quantifier": "all lists of species and reactions, all histories", "why_tests_cant": "all inputs, stability", "anchors": ["plaschem/classification.py:ReactionClassifier.sort_reactions", "plaschem/classification.py:ReactionClassifier.get_sorted_species"]}
{"id": "C143", "title": "The table of species shows what getters return", "statement": "The table of species of a reachable chemistry has one row for each species that is present, in the order of the chemistry or sorted, a column for each attribute that is not ignored and, if asked for, its unit. Every cell shows what the getter returns, with dots for missing values. Cells are red exactly if the species is disabled, and blue exactly if it is enabled and the returned value or unit is not the one saved. Without colours the values themselves are given.", "quantifier": "all reachable chemistries, all options", "why_tests_cant": "histories", "anchors": ["plaschem/chemistry.py:Chemistry.species_attributes"]}
{"id": "C144", "title": "When the table of species can be had", "statement": "The coloured table of species raises an exception only if a getter of a species does, or a ValueError because an enabled species is called 'e' or 'M' or has a sticking coefficient set to a text that is no number. (That it can be had whenever the plain one can is false of the code: a species called 'e' with a saved numeric sticking coefficient, or a text set as a sticking coefficient, makes it raise a ValueError.)", "quantifier": "all reachable chemistries, all options", "why_tests_cant": "particular histories", "anchors": ["plaschem/chemistry.py:Chemistry.species_attributes"]}
{"id": "C145", "title": "The table of reactions shows what getters return", "statement": "The table of reactions of a reachable chemistry has, unless classified, one row for each reaction that is present, in the order of the chemistry or sorted; the text of the reaction, a column for each attribute not ignored and, if asked for, its unit. Every cell shows what the getter returns, with dots for missing values; red exactly if the reaction is disabled, blue exactly if it is enabled and the returned value or unit is not the one saved. Without colours the values themselves are given.", "quantifier": "all reachable chemistries, all options", "why_tests_cant": "histories", "anchors": ["plaschem/chemistry.py:Chemistry.reactions_attributes"]}
{"id": "C146", "title": "The classified table of reactions is complete and well laid out", "statement": "The classified table has a heading for each type that occurs and, below it, one for each category that occurs (unless it is called 'None'), in the order of the scheme. Each reaction is there exactly once, below the headings of its class, in the order of the list. Headings appear in the first column only, in yellow or magenta if coloured; the texts of reactions have their species in the order of the list, padded to widths common to the class.", "quantifier": "all reachable chemistries, all options", "why_tests_cant": "all inputs", "anchors": ["plaschem/chemistry.py:Chemistry.reactions_attributes"]}
{"id": "C147", "title": "The texts in a classified table are of one width (refuted)", "statement": "All reactions of a classified table have texts of one length, so that the columns are aligned. (False of the code: each text is padded only to the width of the headings and of the texts before it.)", "quantifier": "all reachable chemistries", "why_tests_cant": "needs particular reactions", "anchors": ["plaschem/chemistry.py:Chemistry.reactions_attributes"]}
{"id": "C148", "title": "The simulation uses the rate coefficients of the reactions", "statement": "Whatever was computed before, the rate coefficient that the equations use for an enabled reaction without an ad-hoc pre-factor is the one the Reaction object itself gives in SI units: at the electron temperature (given, or that of the state) for electron processes, at the gas temperature for the others.", "quantifier": "all reachable chemistries, states, parameters and histories of calls", "why_tests_cant": "the two computations are in different packages; all states", "anchors": ["plaschem/reactions.py:Reaction.get_rate_coefficient", "pygmo_fwork/pygmol/equations.py:Equations.get_reaction_rate_coefficients"]}
{"id": "C149", "title": "The rate coefficient of a reaction", "statement": "For finite Arrhenius data and a positive temperature T the rate coefficient is a T^b exp(-c/T), with T relative to 300 K in the power for processes without electrons. The SI value is the nominal one times the unit. It is never negative for a reaction that could be constructed, and does not fall with T if no parameter is negative. Without a pre-factor a ReactionValueError is raised.", "quantifier": "all reactions, temperatures, units", "why_tests_cant": "all real temperatures", "anchors": ["plaschem/reactions.py:Reaction.get_rate_coefficient"]}
{"id": "C150", "title": "The HPEM text of a reaction", "statement": "The HPEM text of a reaction is made of the HPEM names of its reactants and products, backwards the other way round; it can be had exactly if all its species have HPEM names. Reactions with the same text have the same reactants and products, and the text, followed by the data, is a line of an HPEM file about the reaction.", "quantifier": "all reactions, all names", "why_tests_cant": "all names; injectivity", "anchors": ["plaschem/reactions.py:Reaction.get_hpem_string"]}
{"id": "C151", "title": "Imported reactions can be written in HPEM notation (refuted)", "statement": "A reaction imported from an HPEM file can be written as an HPEM text again. (False of the code: the import sets no HPEM names, so for every reaction imported the text raises a TypeError.)", "quantifier": "all HPEM files", "why_tests_cant": "composition of two modules", "anchors": ["plaschem/reactions.py:Reaction.get_hpem_string", "plaschem/xml_inputs.py:XMLInputBuilder.add_chemistry_from_hpem"]}
{"id": "C152", "title": "Names in a reaction", "statement": "The set of names of the reactants, the products or all has every name once, in the order of first occurrences. A reaction is an electron process exactly if the electron is a reactant, an ion process exactly if an ordinary reactant is charged, an elastic one exactly if declared so or, without a declaration, if the names on both sides are the same.", "quantifier": "all reactions", "why_tests_cant": "all inputs", "anchors": ["plaschem/reactions.py:Reaction.get_rp_names_set", "plaschem/reactions.py:Reaction.is_electron_process", "plaschem/reactions.py:Reaction.is_ion_process"]}
{"id": "C153", "title": "The text of a LaTeX table", "statement": "Whatever calls were made on a table, its text has, in this order: the caption set last, the notes (each superscript once, in the order of first mention, with its last text), the label set last, the column headings and the rows of the data frame loaded last, each cell changed by the decorator set last since the frame was loaded; and as many column specifiers as columns. A table of an unknown type raises a ValueError instead.", "quantifier": "all histories of calls, frames, decorators, types", "why_tests_cant": "all orders of calls", "anchors": ["plaschem/latex.py:TexTable", "plaschem/latex.py:TexTable.__str__"]}
{"id": "C154", "title": "LaTeX tables are well nested", "statement": "If captions, notes, labels, headings and cells keep the nesting of braces, groups and environments (texts without special characters do) and decorators preserve this (marks of notes do), then everything opened in the text of the table is closed, in the reverse order.", "quantifier": "all histories of calls, texts, decorators", "why_tests_cant": "all contents; nothing compiles the LaTeX in tests", "anchors": ["plaschem/latex.py:TexTable", "plaschem/latex.py:TexTable.get_note_decorator"]}
{"id": "C155", "title": "Tables of reactions are well nested", "statement": "The LaTeX text generated for a species whose name has no braces, percent signs or backslashes keeps the nesting, whatever the name. A table of reactions is well nested if the LaTeX texts and DOIs given by hand are and other species have such names, for all rate coefficients.", "quantifier": "all names, reactions, columns, histories of calls", "why_tests_cant": "the generator works by about 3500 textual replacements; all names", "anchors": ["plaschem/latex.py:ReactionsTable", "plaschem/latex.py:Texify.texify_species", "plaschem/latex.py:Texify.texify_rate_coefficient"]}
{"id": "C156", "title": "Rows have the columns of the header", "statement": "If neither headings nor cells contain ampersands and no decorator adds any, every row of a LaTeX table has as many column separators as the header.", "quantifier": "all frames and decorators", "why_tests_cant": "all contents", "anchors": ["plaschem/latex.py:TexTable"]}
{"id": "C157", "title": "Rows of reactions have the columns of the header (refuted)", "statement": "Every row of a table of reactions has as many column separators as the header. (False of the code: the DOI is not escaped, one with an ampersand gives another column.)", "quantifier": "all reactions", "why_tests_cant": "all DOIs", "anchors": ["plaschem/latex.py:ReactionsTable"]}
{"id": "C158", "title": "Tables of reactions show the pre-factors in use (refuted)", "statement": "The table of reactions of a chemistry shows the pre-factors that the chemistry gives for its reactions. (False of the code: after an ad-hoc pre-factor was set, the table still shows the one of the Reaction object.)", "quantifier": "all reachable chemistries", "why_tests_cant": "two packages have to agree", "anchors": ["plaschem/latex.py:ReactionsTable", "plaschem/chemistry.py:Chemistry.get_reactions_arrh_a"]}
{"id": "C159", "title": "Rows of a table of reactions", "statement": "A table of reactions has the headings of the chosen columns and, for each reaction and in their order, a row labelled by the id of the reaction with this reaction's cells; decorators set at the id of a reaction change this reaction's row only.", "quantifier": "all lists of reactions and columns, all later calls", "why_tests_cant": "all inputs", "anchors": ["plaschem/latex.py:ReactionsTable"]}
{"id": "C160", "title": "Comparisons of reduction runs show every iteration", "statement": "For any reduction runs with the same allowed error whose files are in place, a comparison draws for each run one line with exactly the iterations that stay, at the number of species lost and the error in percent, in the run's style and label; for every iteration undone because of its error a dashed line from the last iteration before it that stays, and a point; the requested texts next to them, the vertical marks and the allowed error, and nothing else; the legend lists the runs in the order passed. The points of a line go to the right and the last one stands at the number of species the chemistry has lost. Runs with different allowed errors are refused.", "quantifier": "all histories of reduction runs, all arguments and all sets of runs", "why_tests_cant": "all histories", "anchors": ["pygmo_fwork/optichem/reduction.py:compare_reduction_runs"]}
{"id": "C161", "title": "Default axes of a comparison show all points", "statement": "When no limits are passed and the errors are finite numbers, every point of every run, including the undone iterations, is inside of the axes; limits that are passed are used.", "quantifier": "all histories of reduction runs and all sets of runs", "why_tests_cant": "all histories", "anchors": ["pygmo_fwork/optichem/reduction.py:compare_reduction_runs"]}
{"id": "C162", "title": "A finished reduction run can be compared", "statement": "A comparison of runs whose files are complete succeeds whatever the recorded errors are.", "quantifier": "all histories of reduction runs", "why_tests_cant": "rare numerical inputs", "anchors": ["pygmo_fwork/optichem/reduction.py:compare_reduction_runs"]}
{"id": "C163", "title": "Names of species in comparisons", "statement": "Names in a comparison show signs as superscripts and all digits as subscripts; names the caller passes are used as they are.", "quantifier": "all names", "why_tests_cant": "all inputs", "anchors": ["pygmo_fwork/optichem/reduction.py:compare_reduction_runs"]}
{"id": "C164", "title": "Comparing logged runs", "statement": "A comparison of logged runs reads each run as the fetch methods do and leaves all files as they are; it has one row per run in the order given, labelled by directory and run id, with the final values of its solution, and the columns of all runs, those of the first one first; values that a run does not have are NaN. The relative comparison has the same rows and columns with the differences to the first run in percent. It succeeds when all runs are readable and else raises what reading the first other one raises.", "quantifier": "all file systems, configurations and lists of runs", "why_tests_cant": "all combinations of logs", "anchors": ["pygmo_fwork/results.py:ResultsParser.compare"]}
{"id": "C165", "title": "Labels of compared runs tell them apart", "statement": "Different runs have different labels in a comparison.", "quantifier": "all file systems and lists of runs", "why_tests_cant": "all names and directories", "anchors": ["pygmo_fwork/results.py:ResultsParser.compare"]}
{"id": "C166", "title": "Plotting a logged solution", "statement": "The named columns are plotted against time in the order given and unknown ones refused with KeyError; without names the densities of the heavy species are plotted; the axis is labelled for densities only when no pressure or temperature is plotted.", "quantifier": "all file systems, runs and lists of names", "why_tests_cant": "all inputs", "anchors": ["pygmo_fwork/results.py:ResultsParser.plot_solution"]}
{"id": "C167", "title": "By default all densities are plotted", "statement": "As documented, when no names are passed all densities of the solution are plotted.", "quantifier": "all logged solutions", "why_tests_cant": "all inputs", "anchors": ["pygmo_fwork/results.py:ResultsParser.plot_solution"]}
{"id": "C168", "title": "A species reports what it was told last", "statement": "After any sequence of assignments every getter of a species returns the value assigned last (or passed to the constructor) converted to its type, and the documented default if that is None; units likewise. An assignment is accepted exactly if the attribute exists, the value has a documented type and the unit, if there is one together with a value, is the supported one; else it raises RPAttributeError and changes nothing.", "quantifier": "all constructor arguments and all sequences of assignments", "why_tests_cant": "all histories", "anchors": ["plaschem/species.py:RP.set_species_attribute", "plaschem/species.py:RP.get_mass", "plaschem/species.py:RP.get_lj_sigma", "plaschem/species.py:RP.get_unit"]}
{"id": "C169", "title": "Which species can be constructed", "statement": "The constructor of a species succeeds exactly if the id is a non-negative integer, name, mass (unless M) and stateless name (if there is a state) are passed, the name has no angle brackets, all attributes and types are documented ones and units are passed only for attributes that are passed and have that unit.", "quantifier": "all arguments of the constructor", "why_tests_cant": "all inputs", "anchors": ["plaschem/species.py:RP.__init__"]}
{"id": "C170", "title": "A reaction reports what it was told last", "statement": "After any sequence of assignments reactants and products are as constructed and every getter returns the value assigned last, with the documented default for None; the pre-factor in SI units is scaled by the unit assigned with it. An assignment is accepted exactly if the attribute exists, the value has a documented type, the unit fits the reactants and the pre-factor is a non-negative number or NaN.", "quantifier": "all constructor arguments and all sequences of assignments", "why_tests_cant": "all histories", "anchors": ["plaschem/reactions.py:Reaction.set_reaction_attribute", "plaschem/reactions.py:Reaction.get_arrh_a", "plaschem/reactions.py:Reaction.get_special_number", "plaschem/reactions.py:Reaction.get_elastic", "plaschem/reactions.py:Reaction.get_unit"]}
{"id": "C171", "title": "Which reactions can be constructed", "statement": "The constructor of a reaction succeeds exactly if the id is a positive integer, there are one to three reactants and at least one product, a pre-factor or special number is passed, all attributes are accepted ones with fitting units, units are passed for the pre-factor and the activation energy, and charge and atoms are conserved.", "quantifier": "all arguments of the constructor", "why_tests_cant": "all inputs", "anchors": ["plaschem/reactions.py:Reaction.__init__"]}
{"id": "C172", "title": "An accepted species has its mandatory data (refuted)", "statement": "Every species that the constructor accepts has a mass and, with a state, a stateless name.", "quantifier": "all arguments of the constructor", "why_tests_cant": "all inputs", "anchors": ["plaschem/species.py:RP.__init__", "plaschem/species.py:RP.get_mass", "plaschem/species.py:RP.get_stateless"]}
{"id": "C173", "title": "The graph of a chemistry is built from its own data", "statement": "The constructor of ChemistryGraph succeeds exactly if the columns of the rates are the time and the enabled reactions, the columns of the wall fluxes are the time and the enabled ordinary species, the times agree, ad-hoc return coefficients are set for enabled species only and radius and length are given. It then holds the enabled species (special ones included), stoichiometric and return coefficients, times, rates and fluxes of the chemistry and the frames, zero fluxes and return coefficients for special species.", "quantifier": "all reachable consistent chemistries, frames and parameters", "why_tests_cant": "all histories", "anchors": ["pygmo_fwork/optichem/graph.py:ChemistryGraph.__init__", "pygmo_fwork/optichem/graph.py:ChemistryGraph.assert_input_consistency", "plaschem/chemistry.py:Chemistry.get_return_matrix"]}
{"id": "C174", "title": "Edges of the DRG graphs of a chemistry", "statement": "For non-negative rates and a vessel of positive size, the DRG graph of a chemistry at a time has an edge from one enabled species to another exactly if a reaction running at that time in which the first takes part changes the number of particles of the second, or (with surfaces) the first meets the wall and returns as the second.", "quantifier": "all reachable consistent chemistries, frames, times and pairs of species", "why_tests_cant": "all histories", "anchors": ["pygmo_fwork/optichem/graph.py:ChemistryGraph.__init__", "pygmo_fwork/optichem/graph.py:ChemistryGraph.distribute_weights"]}
{"id": "C175", "title": "The ranking of a chemistry covers its species", "statement": "The default ranking of the DRG graphs of a chemistry assesses exactly the enabled ordinary species that are not important, and a species has no score exactly if it influences no other species and is influenced by none at any of the times.", "quantifier": "all reachable consistent chemistries, frames and lists of important species", "why_tests_cant": "all histories", "anchors": ["pygmo_fwork/optichem/graph.py:ChemistryGraph.__init__", "pygmo_fwork/optichem/graph.py:ChemistryGraph.get_ranking"]}
{"id": "C176", "title": "Every consistent chemistry with fitting frames has a graph (refuted)", "statement": "The graph of a consistent chemistry can be built from frames labelled with its enabled reactions and species.", "quantifier": "all reachable consistent chemistries and frames", "why_tests_cant": "all histories", "anchors": ["pygmo_fwork/optichem/graph.py:ChemistryGraph.assert_input_consistency", "plaschem/chemistry.py:Chemistry.get_species_ret_coefs"]}
{"id": "C177", "title": "Rankings of graphs can drive a reduction", "statement": "The sorted ranking of the DRG graphs of a chemistry passes the check for ascending order in run_reduction exactly if every assessed species influences another species or is influenced by one at some time.", "quantifier": "all reachable consistent chemistries, frames and lists of important species", "why_tests_cant": "all histories", "anchors": ["pygmo_fwork/optichem/graph.py:ChemistryGraph.get_ranking", "pygmo_fwork/optichem/reduction.py:Reduction.run_reduction"]}
{"id": "C178", "title": "Every ranking of a graph can drive a reduction (refuted)", "statement": "A ranking computed by get_ranking is accepted by run_reduction.", "quantifier": "all reachable consistent chemistries and frames", "why_tests_cant": "all histories", "anchors": ["pygmo_fwork/optichem/graph.py:ChemistryGraph.get_ranking", "pygmo_fwork/optichem/reduction.py:Reduction.run_reduction"]}
{"id": "C179", "title": "Diagnosed quantities are those of the states, under their own labels", "statement": "After a run, diagnose gives for every time step the time and the values of the quantity in the state of that step, each under the name of its species, the id of its reaction or 'value', and with totals their sum; whatever was asked before. The model keeps its results and the equations answer as before. (For chemistries whose numbers of species and reactions tell the shapes apart; C79 shows what happens otherwise.)", "quantifier": "all 29 quantities, chemistries, solutions and histories of calls", "why_tests_cant": "the equations return arrays they overwrite later, so the rows depend on copies taken at the right moment", "anchors": ["pygmo_fwork/pygmol/model.py:Model.diagnose", "pygmo_fwork/pygmol/equations.py:Equations"]}
{"id": "C180", "title": "Diagnosing given states", "statement": "States given as an argument are diagnosed like those of a run, with the times of the last run; without a run the times are missing. Another number of states than times, nothing to diagnose or an unknown quantity raise and leave the results alone.", "quantifier": "all quantities and lists of states", "why_tests_cant": "all numbers of states and all states of the model object", "anchors": ["pygmo_fwork/pygmol/model.py:Model.diagnose"]}
{"id": "C181", "title": "Every partial result can be diagnosed (refuted)", "statement": "diagnose works for each partial result of the equations and shows what it is called. (False of the code: the ion temperature raises AttributeError as soon as one state is at one millitorr or less; the ambipolar diffusivity of negative ions, the cross-sections and the derivatives always raise; the power is evaluated at the densities instead of the times; totals leave out values that are not numbers.)", "quantifier": "all solutions", "why_tests_cant": "depends on the pressure reached during a run and on the Python types of results", "anchors": ["pygmo_fwork/pygmol/model.py:Model.diagnose", "pygmo_fwork/pygmol/equations.py:Equations.get_ion_temperature", "pygmo_fwork/pygmol/equations.py:Equations.get_power_ext"]}
{"id": "C182", "title": "Rankings by widest paths, products and flows are best scores", "statement": "With the search methods max_bottleneck, max_product and max_flow the ranking gives every species that is neither important nor special the best of its scores over all important species and important times: the width of the widest path, the largest product of weights along a path, or the value of the largest flow. (Weights at most one and no path of product one for max_product; species connected at all times for max_flow; distinct row labels. C61 shows what happens otherwise.)", "quantifier": "all chemistries, rates, weighting schemes, sets of important species and iteration orders of sets", "why_tests_cant": "quantifies over all paths and flows of all graphs", "anchors": ["pygmo_fwork/optichem/graph.py:ChemistryGraph.get_ranking", "pygmo_fwork/optichem/graph.py:Graph.find_max_bottleneck_paths", "pygmo_fwork/optichem/graph.py:Graph.find_shortest_paths", "pygmo_fwork/optichem/graph.py:Graph.get_max_flow"]}
{"id": "C183", "title": "Rows of a reduction history compare with the run kept last", "statement": "After any sequence of removals each row of the history names its run by its number (two digits at least) and its species, and its errors compare the solution of that run with the base run and with the run kept last, the last one before it that neither failed nor was undone. A run interrupted by the user has exactly the effect of a run that fails. When the settings stored in the directory differ from those of the iterator, nothing is removed.", "quantifier": "all chemistries, solvers, sequences of removals and points of interruption", "why_tests_cant": "what a row compares with depends on the whole history of failures and backtracking", "anchors": ["pygmo_fwork/optichem/reduction.py:ReductionIterator.remove_one_species_and_run", "pygmo_fwork/optichem/reduction.py:ReductionIterator.run_base_case"]}
{"id": "C184", "title": "Species are tried in the order of their scores", "statement": "In a reduction run with a given ranking, the first row of the history has no species and no score; each of the others names a species of the ranking with its score there, and no score is less than one in an earlier row. When the ranking is the one computed by shortest paths on the graph of the chemistry, each score is the conductance of the best path from an important species at any time (0 without a path), no important species is tried, and no species is tried after one to which a better path leads.", "quantifier": "all chemistries, solvers, rankings and limits on failures; all rates, fluxes and weights of the graph", "why_tests_cant": "the order depends on every removal, failure and backtracking of the run, and the scores on all paths of the graph", "anchors": ["pygmo_fwork/optichem/reduction.py:ReductionIterator.run_reduction", "pygmo_fwork/optichem/reduction.py:ReductionIterator.remove_one_species_and_run", "pygmo_fwork/optichem/graph.py:ChemistryGraph.get_ranking"]}
{"id": "C185", "title": "Unknown important species are refused by the ranking", "statement": "get_ranking raises when an important species is not a species of the graph, such as a misspelled name or a species that was disabled.", "quantifier": "all chemistries, rates, weights and lists of important species", "why_tests_cant": "the claim is about all graphs, and what happens without it depends on all paths", "anchors": ["pygmo_fwork/optichem/graph.py:ChemistryGraph.get_ranking", "pygmo_fwork/optichem/graph.py:Graph.find_shortest_paths"]}
{"id": "C186", "title": "The next species is the first one left of the current ranking", "statement": "A reduction run, with a given ranking or with a ranking function, tries each time the first species of the current ranking that was not tried before and may be removed, and no later species of the ranking has a smaller score. A ranking function is asked after the base run and again after each removal that is kept, and only then. The run ends with too many failures in a row, with no species left that may be removed, or with no such species left in the current ranking.", "quantifier": "all chemistries, solvers, rankings, ranking functions and limits", "why_tests_cant": "the choice depends on all previous rankings, failures and removals", "anchors": ["pygmo_fwork/optichem/reduction.py:ReductionIterator.run_reduction"]}
{"id": "C187", "title": "A sorted XML chemistry is in the documented order", "statement": "Sorting the elements of a builder puts the species into the documented order and the reactions class by class, in the order of the classification scheme, and inside of a class by the positions of their reactants and products in the sorted list of species. Elements that the order does not tell apart keep their order, and every element is placed by what it reads as itself. Ids that clash are renewed before and after sorting, all others are kept.", "quantifier": "all builder states, whatever the elements contain, for which sorting succeeds", "why_tests_cant": "the elements are ordered through textual ids of temporary objects, so every confusion of ids would show only for particular chemistries", "anchors": ["plaschem/xml_inputs.py:XmlBuilder.sort_elements", "plaschem/classification.py:ReactionClassifier.sort_species", "plaschem/classification.py:ReactionClassifier.sort_reactions"]}
{"id": "C188", "title": "An XML chemistry that can be read can be sorted", "statement": "Whenever the elements of a builder with pairwise different ids can be read, the species are within the limits of the sorting scheme and the reactions can be classified, sorting the elements succeeds.", "quantifier": "all builder states with distinct ids", "why_tests_cant": "ids are compared as texts after being read as numbers, which matters only for unusual texts", "anchors": ["plaschem/xml_inputs.py:XmlBuilder.sort_elements", "plaschem/xml_inputs.py:XmlParser.get_species_and_reactions_from_xml_elements"]}
{"id": "C189", "title": "Sorting an XML chemistry loses nothing on reading", "statement": "When species and reactions are added to an empty builder, the elements are sorted (successfully or not) and the chemistry is read, directly or from the file, the species and reactions obtained are the same ones as added, in some order, and every reaction refers to the species obtained.", "quantifier": "all lists of writable species and reactions with distinct names and ids", "why_tests_cant": "sorting reorders the elements in place and may fail half way, for any chemistry", "anchors": ["plaschem/xml_inputs.py:XmlBuilder.sort_elements", "plaschem/xml_inputs.py:XmlParser.get_species_and_reactions_from_xml_elements"]}
