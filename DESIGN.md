# Formal model of PYroMat in Rocq (Coq 8.16.1)

## Method

* The code under `/repo/src/pyromat` is read as text and transcribed, function by
  function, into small total Gallina functions (`rocq/theories/Model_*.v`). Every
  definition cites the file and lines it models and says where it simplifies.
* Python exceptions are values (`Err e`), mutable objects are values threaded through
  step functions, loops are structural recursion, folds, or recursion on explicit fuel
  with an explicit out-of-fuel value.
* `Spec_*.v` state small independent specifications (what a unit is, what a mixture
  holds, what an acceptable call is, ...). `Proof_*.v` hold the proofs. `Prop_*.v` hold
  only the property theorems (each closed by `exact lemma`), `Print Assumptions` under
  each, and an `Example` showing that a concrete, non-trivial case meets the hypotheses.
* A property the code violates gets a `..._refuted` theorem with a witness, plus the
  strongest true variant that was proved (named `..._partial`, with a comment saying what
  is missing). These are listed under "Findings".
* `seeded/LOG.jsonl` records the wrong programs (edits of the model in a scratch copy) the
  theorems were tried against, which theorems failed, and which were tightened.

## Plan per property

| id | modelled | proof |
|----|----------|-------|
| C01 C02 C08 C09 | `Conversion.__call__` over an association table, `setup` building all nine tables from five real parameters | algebra of nonzero reals, powerRZ; positivity of all entries |
| C03 | `setup` | field / lra on table lookups, for all positive parameters |
| C04 C05 | `temperature_scale` branch by branch | case analysis over scales, lra/field |
| C06 C10 | `gauge_to_abs`, `abs_to_gauge` with the default argument bound when the function is defined | algebra; refutation for C10 |
| C07 | `matter`, `ismass` | case analysis over families, field |
| C11-C14 C16 C57 | `PMConfigEntry`, `PMConfig` as a state machine with dynamic values | invariants by induction over operation lists |
| C15 | `PMConfig.load` as a worklist loop over an abstract file graph | measure: files not yet found |
| C17-C20 | `dat.load`, `clear`, `get` over a directory-tree datatype | induction over the tree; fold lemmas |
| C21 | `regload` | induction over files and definitions |
| C22 C23 C25 C59 | `search`, `info` over lists of records | forall/iff specification; refutations |
| C24 | `hill` | permutation + sortedness uniqueness |
| C26 | `suppress_file`, `revive_file` over a file map | map equalities |
| C27 C60 | `split_lines` | induction over words |
| C28 C29 | `_cp,_h,_s,_e,_g,_f` of ig and ig2 | derivatives in R |
| C30-C32 C61 C62 | `_argparse` of ig/ig2/igmix | case analysis on argument sets |
| C33 | public property methods composed with unit conversion | algebra on conversion factors |
| C34 | `_crange` | induction over limits |
| C35 | `_iter1` | fuel induction, bounds invariant |
| C36-C38 C63 C64 | `igmix._bootstrap` and mixture properties | sums over lists; state machine |
| C39-C42 C65-C68 | `igtools`: n-dimensional arrays, arithmetic, indexing, mixture strings, property sums | sums over lists / dictionaries, index arithmetic |
| C43 | `_poly1`, `_poly2` | Horner induction against the sum of monomials and its derivatives |
| C44 | `_hybrid1` with infinities and nan | bracket invariant by induction on the passes |
| C45-C47 C69 | `_ao`, `_ar`, `_satfit`, `_p`, `_e.._cv` | derivatives in R (one jet algebra lemma per operation) |
| C48-C50 | mp1 `_argparse`, quality, public methods, saturation methods, `hsd` | algebra, case analysis |
| C51-C54 C70-C72 | if97 `_peval`, `_region`, `_ps`, `_Ts`, `_f3`, free energies, property methods, `T_h` | Horner induction, algebra, bracket invariant |
| C55 C73 | `solve1n`, `_vectorize_args` | fuel induction, refutations |
| C56 | argument handling over a heap of arrays | heap reasoning, refutations |
| C58 | `config['def_T']`, `config['def_p']` and their units | the default state is converted once; case analysis |
| C74 C80 | `state`, `Tlim` and the inversions `T_h`, `T_s`, `p_s`, `d_s` of ig/ig2/igmix (`Model_Igas`, `Model_IgWarn`) | the methods share one argument handler; `_iter1` bracket invariant, monotone properties |
| C75 | mp1 `cv` with its own treatment of saturated states | derivative along the saturation curve (chain rule on jets, critical point terms included for single states); refutations for mixed arrays and for mixtures with critical point terms |
| C76 | `IgtMix._argparse`, `_propeval`, `_sp`, `_pref` and all property methods of dynamic mixtures | index arithmetic of stretched arrays, sums over constituents, logarithms |
| C78 | mp1 `state` against the separate methods | one second-order expansion against the routines' own formulas |
| C79 C81 | mp1 `_argparse` with every pair of arguments that needs an iteration (`_d`, `_T`, `_tditer`, `_tpiter`, saturation checks) | the bracket invariant of `_hybrid1`, continuity of the equation of state |
| C82 | mp1 `ps`, `Ts`, `_Ts`, `es`..`vs`, `critical`, `triple`, `Tlim`, `plim`, p with x | strictly monotone vapor pressure, bracket invariant |
| C83 | `dat.updatefiles` as a list of file operations (`Model_Update`), each of which may fail, and which may be cut at any point | simulation of the trace over the directory tree |
| C84 | `utility.red_repair` with typed answers | induction over redundancies and answers |
| C85 | `IgtMix.toigmix`, `fromigmix` (`Model_Igtmix`) against the static mixtures of C36-C37 and the sums of C68 | memory order of indices, uniqueness of decimal names, both property formulas reduced to the same sum at partial pressures |
| C77 | `IgtMix.atoms` (`Model_Igtview`), compositions of the constituents arbitrary | dictionary invariant of the double loop; sums over the union of constituents; comparison with C64 |
| C86 | `IgtMix.todict`, `IgtMix.reshape` (`Model_Igtview`), construction of C67 | unit factors cancel whatever the molecular weight used; memory order is a bijection between indices and places |
| C87 | `mp1._T`, `mp1._tditer`, `_argparse` for p and d (`Model_Mp1Inv`, `Model_Mp1Calls.from_pd`) | invariants of the searches of C55 and C73 on the function of T that mixes the phases under the dome; each element as if alone |
| C88 | `mp1.h`, `s`, `p`, `e`, `cp`, `a` along curves of single-phase states given by T and d (`Model_Mp1Calls`) | chain rule along curves for the free energy (C45, C75), then algebra of its second derivatives; isobars and isentropes are curves on which the reported p or s is constant |
| C89 | `mp1._argparse`, all property methods, `hsd`, `state` at the level of memory (`Model_Mp1Heap`) | simulation of the methods on values (`Model_Mp1Calls`) by the methods on memory, with an invariant naming the arrays that may be written |
| C90 | `mp1._argparse` and all property methods, `state`, `hsd` on arrays (`Model_Mp1Calls`) | each inversion (`_iter1`, `_hybrid1`, `_T`, `_d`, `_Ts`) is shown to act on each element as it does alone; then the plans and the evaluation are maps over the points |
| C91 | `mp1._argparse` for T, p and x (`Model_Mp1Calls`) | case analysis of the masks; `_d` on unselected elements changes nothing |
| C92 | `Conversion.__call__`, `temperature_scale`, `gauge_to_abs`, `abs_to_gauge`, `matter` on views of memory (`Model_UnitsHeap`) | every call is shown to do nothing, to apply one function, or several in a row, to the cells of the view; then lemmas on stores |
| C93 | `IgtMix` objects as blocks of memory (`Model_IgtHeap`), all statements that make, change, slice or view them | every statement writes only into the block of the mixture it names (frame lemmas); families of objects that may share a block are read off the statements; simulation of the values |
| C94 | the unit layer of every method of `if97` (`Model_If97Units`) around the scalar routines of `Model_If97` | the factors are computed from the sizes of the units; arrays by induction on the list of elements |
| C95 | `T_s` with the calls of `Ts` and `s` it makes (`Model_If97Units`) | case analysis on the region as for C72, the Newton loops by their exit test; round trip inside the dome; where it answers and refuses, by evaluation of the same branches (`Proof_If97TsAns`; the analogue for C72 in `Proof_If97Choice`) |
| C96 | the constructor of `IgtMix` for every kind of argument, `in`, `tolist`, `len`, `reshape` with -1, and sequences of changes (`Model_IgtList`) | induction on the sequence: every change has a specified effect on the list of substances, also when it raises; construction reduces to C67 |

Nothing in the list is judged inexpressible. What no model here can show: floating point
rounding, numpy dtype details, file-system races, performance, plotting.

## What is modelled

| source | model | not modelled |
|--------|-------|--------------|
| `units.py` | `Model_Units`: `Conversion`, `setup`, temperature, gauge, `matter`; `Model_UnitsHeap` (the same on arrays, with `inplace`) | element types other than float64 and integer, the text of messages |
| `utility.py` | `Model_Config` (configuration), `Model_Files` (`split_lines`, suppress/revive), `Model_Dat` (`load_file`), `Model_Defaults` (default state), `Model_Update` (`red_repair`) | `proptest`, printing, `PMConfig.__repr__` |
| `dat.py` | `Model_Dat` (`load`, `clear`, `new`, check mode), `Model_Update` (`updatefiles`) | JSON syntax (a file is its parsed value or "malformed") |
| `reg.py` | `Model_Reg` (`regload`; a file is the list of its definitions), `Model_Catalog` (`collection`, `hill`) | execution of arbitrary Python in a registry file |
| `__init__.py` | `search`, `info` in `Model_Catalog`, `get` in `Model_Dat` | the layout of the table |
| `registry/ig.py`, `ig2.py` | `Model_Igas` (both classes: one argument handler, two sets of polynomials), `Model_IgHeap` (same code at the level of memory), `Model_IgWarn` (warnings) | contents(), atoms() of single gases, plotting helpers |
| `registry/igmix.py` | `Model_Igmix` (`_bootstrap`, property methods, `atoms`, `X`, `Y`, call order) | `contents` formatting |
| `igtools.py` | `Model_Igtools`, `Model_Igtprop`, `Model_Igtmix`, `Model_Igtview`, `Model_IgtHeap`, `Model_IgtList` | slices of constituents with a step and slices of the quantity dimensions, `todict` arrays as views, printing |
| `registry/mp1.py` | `Model_Mp1` (polynomials, free energy, fits, property routines), `Model_Hybrid` (`_hybrid1`), `Model_Mp1Inv` (`_Ts`, `_d`, `_T`, `_tditer`, `_tpiter`), `Model_Mp1Calls` (`_argparse`, methods, saturation methods, `hsd`, `state`, `triple`, `critical`, `Tlim`, `plim`), `Model_Mp1Warn` (warnings), `Model_Mp1Heap` (argument handling and property methods at the level of memory) | `contents`; the saturation methods at the level of memory |
| `registry/if97.py` | `Model_If97`, `Model_If97Units` (units, arrays, saturation methods, limits, `T_h`, `T_s`) | arguments that are lists or tuples in the saturation methods, `quality=False`, the text of messages |
| `solve.py` | `Model_Solve` | `solve2`-style stubs, verbose output |

Simplifications that hold throughout (each is also stated where it is made):

* A Python/numpy `float` is a real number of the standard library, or `None` for a
  non-finite value (nan and the infinities are not distinguished except in `Model_Hybrid`
  and `Model_Solve`, which have `Fin`, `PInf`, `NInf`, `NaN`). There is no rounding and no
  overflow; comparisons with a non-finite value are false; division by zero gives a
  non-finite value (numpy) or raises (Python numbers), as the code at that place would.
* Arrays of the ideal gas and multi-phase classes have one dimension; dynamic mixtures
  have arrays of any dimension. `np.broadcast` is modelled for these.
* The multi-phase inner routines act on one element at a time; the two `.any()` tests that
  couple elements (C69) are modelled by passing the list of all elements. During an
  iteration (`_hybrid1`, `_iter1`) each element is evaluated alone.
* Data files: every parameter of a substance is universally quantified. No shipped file is
  built into the model; examples use small made-up substances of the shipped form.
* Files are abstract: a file system is a tree (or map) of names. `updatefiles` and
  `red_repair` are traces of file operations that may fail or be cut at any point; a
  concurrent writer is not modelled.
* Unbounded loops (`_d` halving its lower limit) carry fuel and return `EOutOfFuel`.

## Trusted base

* The Coq 8.16.1 kernel (`coqc`; re-checked with `coqchk`).
* The reading of the Python code documented in the comments of `Model_*.v`, and Python's
  and numpy's semantics as stated there.
* The axioms `Print Assumptions` reports, all of the standard library (no axiom, parameter
  or unproved hypothesis is added here):
  `ClassicalDedekindReals.sig_forall_dec`, `ClassicalDedekindReals.sig_not_dec`,
  `FunctionalExtensionality.functional_extensionality_dep` (from `Reals`) and
  `Classical_Prop.classic` (from the analysis part of `Reals`). Coquelicot is used for
  derivatives in some proofs; it adds no axiom.

What `Print Assumptions` lists for each theorem:

* closed under the global context (109 theorems): C11_exactly_these_read_only,
  C11_read_only_never_changes, C11_version_and_install_dir, C12_append_only_grows,
  C12_exactly_these_append, C12_write_appends_leaves, C13_all_entries_declare_a_type,
  C13_declaration_fixed, C13_values_typed, C14_bad_value_dropped, C14_documented_names,
  C14_documented_values, C14_keys_fixed, C14_read_after_write, C14_unknown_rejected,
  C14_write_touches_one_key, C15_config_files_always, C15_load_each_reachable_once,
  C15_load_terminates, C16_restore_all_refuted, C16_restore_one_entry,
  C16_restore_returns_initial_value, C17_fatal_iff_redundant, C17_ignore_first_wins,
  C17_load_succeeds, C17_order_exists, C17_overwrite_last_wins,
  C18_json_list_stops_load_refuted, C18_malformed_files_ignored,
  C18_one_bad_file_stops_load_refuted, C18_only_hpd_files, C19_check_does_not_modify,
  C19_equality_reflexive, C19_load_then_check_clean, C19_report_exact, C20_get_fails_otherwise,
  C20_get_finds_stored, C20_get_returns_own_id, C20_keyed_after_any_history,
  C21_definitions_exist, C21_fatal_iff_redundant, C21_ignore_first_wins, C21_missing_directory,
  C21_overwrite_last_wins, C21_rebuilt_from_scratch, C22_no_criteria_returns_all,
  C22_order_irrelevant, C22_refining, C22_refining_is_one_search, C22_search_exact,
  C22_search_succeeds, C23_collection_complete_partial, C23_collection_of_id,
  C23_collection_prefix_refuted, C23_collection_with_period_exact, C24_electron,
  C24_entry_order_irrelevant, C24_from_id, C24_hill_determines_composition,
  C24_hill_order_and_quantities, C24_id_without_period_fails_refuted,
  C24_multiple_charge_fails_refuted, C24_others_exist, C25_info_keeps_its_argument_partial,
  C25_single_member_removed_refuted, C26_failure_changes_nothing, C26_no_error_means_moved,
  C26_older_copy_destroyed_refuted, C26_other_names_refused, C26_revive_then_suppress_partial,
  C26_suppress_then_revive_partial, C26_suppress_touches_two_names,
  C26_suppressed_name_not_loaded, C27_characters_kept, C27_lines_fit,
  C27_lines_fit_without_lead, C27_refuses_exactly_when_no_room, C27_words_kept_in_order,
  C42_accepts_partial, C42_rejects_partial, C42_scalars_refuted, C42_too_lax_refuted,
  C42_too_strict_refuted, C57_self_assignment_refuted, C59_info_lists_everything_in_order,
  C59_info_reports_nothing_only_when_empty, C60_every_line_has_lead_partial,
  C60_long_word_overflows_refuted, C60_paragraph_without_lead_refuted,
  C65_element_assignment_refuted, C83_bad_files_kept_refuted, C83_copied_data_refuted,
  C83_interrupted, C83_name_taken_refuted, C83_saved_still_changed_refuted,
  C83_torn_write_refuted, C83_unchanged_files_survive, C83_update_then_load,
  C83_verbose_prompt_refuted, C84_empty_answer_refuted, C84_interactive_keeps_one,
  C84_overlapping_directories_refuted, C84_quiet_delete_refuted, C84_quiet_index_refuted,
  C84_quiet_keeps_first, C84_quiet_selected_survives, C84_upper_case_refuted, C96_lists,
  C96_sizes.
* `sig_forall_dec` (10 theorems): C39_dimensions_refuted, C39_scaled_by_array_refuted,
  C65_remove, C66_failed_sum_refuted, C85_list, C86_reshape, C86_reshape_back,
  C96_integers_refuted, C96_length_refuted, C96_open_shape.
* `sig_forall_dec`, `functional_extensionality_dep` (131 theorems): C01_round_trip, C01_total,
  C02_composition, C02_exponents_add, C02_linear, C03_conversion_is_ratio_of_sizes,
  C03_factors_are_si, C03_factors_positive, C04_abs, C04_anchors, C04_composition,
  C04_fahrenheit_anchor, C04_round_trip, C05_differences, C06_abs_of_gauge,
  C06_adds_the_atmosphere, C06_gauge_of_abs, C06_unit_independent,
  C07_agrees_with_mass_and_molar, C07_composition, C07_is_ratio_of_amounts, C07_ismass,
  C07_kmol_weighs_mw, C07_round_trip, C08_exponent_power_partial, C08_exponent_zero_refuted,
  C09_same_unknown_unit_refuted, C09_unknown_matter_rejected_partial, C09_unknown_scale_refuted,
  C09_unknown_source_rejected_partial, C09_unknown_target_rejected_partial,
  C10_atm_follows_setup_partial, C10_setup_gauge_refuted, C33_gas_constant, C34_evaluated_there,
  C34_exactly_one_interval, C34_limits, C34_outside_flagged, C35_converged_meets_tolerance,
  C35_elementwise, C35_evaluated_inside_only, C35_only_error, C35_residual, C35_result_inside,
  C35_unreachable_is_reported, C39_associative_partial, C39_commutative_partial,
  C39_difference_partial, C39_divided, C39_mass_fractions, C39_mass_partial, C39_molar,
  C39_mole_fractions, C39_scaled, C39_scaled_by_array_partial, C39_self_difference,
  C39_sum_partial, C39_totals_partial, C40_dynamic_Tlim_partial, C40_dynamic_Tlim_same_partial,
  C41_bad_coefficient_partial, C41_empty_refuted, C41_exponent_refuted, C41_items_partial,
  C41_no_name_refuted, C41_trailing_plus_refuted, C41_twice_refuted, C44_bracket_kept,
  C44_bracket_shrinks, C44_fails_iff_partial, C44_flat_root_refuted, C44_lower_limit_refuted,
  C44_only_inside_the_limits_partial, C51_accepts, C51_failures, C55_limits_partial,
  C55_limits_refuted, C55_line, C55_no_passes, C55_signal_refuted, C55_tolerance_partial,
  C58_default_pressure, C58_default_pressure_value, C58_default_temperature,
  C65_absent_rejected, C65_assign_partial, C65_insert_partial, C65_insert_remove,
  C65_present_not_inserted, C65_read_back, C65_read_element_partial, C65_read_partial,
  C65_unknown_not_inserted, C66_failed_assignment_partial, C66_failed_sum_partial,
  C67_amounts_partial, C67_unknown_rejected, C73_construction, C73_count,
  C73_elementwise_partial, C73_elementwise_refuted, C73_fdf_refuted, C73_lengths,
  C73_target_missing, C73_target_twice, C74_Tlim, C77_count, C77_scaled, C77_sum_partial,
  C82_limits, C86_dictionary_partial, C86_round_trip, C92_in_place, C92_integers,
  C92_new_array_refuted, C92_not_in_place, C92_numbers, C92_round_trip, C93_families,
  C93_independent, C93_slices_follow, C94_Tlim, C94_critical, C94_mw, C94_plim, C94_triple,
  C96_constructed_partial, C96_insert_refused, C96_membership, C96_names, C96_remove.
* `sig_forall_dec`, `sig_not_dec`, `functional_extensionality_dep` (7 theorems):
  C44_result_partial, C52_one_region, C52_region1, C52_region2, C52_region3, C52_region5,
  C53_ps_on_curve.
* `sig_forall_dec`, `sig_not_dec`, `classic`, `functional_extensionality_dep` (224 theorems):
  C28_ig_slopes, C28_ig_values, C29_ig2_slopes, C29_ig2_values, C30_calls_together, C30_gas_law,
  C30_reports_T, C30_reports_d, C30_reports_p, C30_reports_v, C31_T_accepted,
  C31_failures_explained, C31_one_rejected, C31_others_rejected, C31_p_d_accepted, C32_p_then_s,
  C32_s_then_p, C33_energies, C33_every_unit_system, C33_heat_capacities, C36_fractions, C36_mw,
  C36_same_mixture, C37_calls_as_gas, C37_gibbs_slope_refuted, C37_mixing_entropy,
  C37_one_constituent, C37_partial_pressures, C37_slopes_partial, C37_zero_amount_refuted,
  C38_first_call_partial, C38_later_calls_refuted, C39_mass_refuted, C40_dynamic_Tlim_refuted,
  C40_igmix_Tlim, C43_docstring_example_refuted, C43_poly1_at_zero, C43_poly1_exact,
  C43_poly2_partial, C43_prey_refuted, C45_critical_partial, C45_critical_value, C45_ideal,
  C45_mixed_refuted, C45_residual_partial, C46_critical_value, C46_positive, C46_saturation_fit,
  C46_unknown_form, C47_derivatives_partial, C47_energy_scale_refuted,
  C47_from_free_energy_partial, C47_heat_capacities_partial, C47_pressure_slope_refuted,
  C47_relations_partial, C48_density, C48_inside, C48_mixture_density_partial,
  C48_mixture_quality_partial, C48_one_quality, C48_outside, C48_saturated,
  C48_saturated_density, C49_accepted_partial, C49_combinations, C49_failures_partial,
  C49_range, C50_agrees_partial, C50_factors_partial, C50_refuted, C51_exact, C52_cold_refuted,
  C52_rejected_partial, C53_Ts_on_curve, C53_inverse, C54_bracket, C54_density, C54_unreached,
  C56_entropy_refuted, C56_out_of_range_refuted, C56_unmodified_partial, C61_elementwise,
  C61_one_entropy_refuted, C62_default_pressure_refuted, C62_default_pressure_same_unit,
  C62_gas_law_refuted, C63_history, C64_atoms, C65_slice_refuted, C66_failed_assignment_refuted,
  C67_mass_refuted, C68_out_of_range_refuted, C68_sum_of_constituents_partial,
  C68_temperatures_refuted, C69_elements_independent_partial, C69_elements_independent_refuted,
  C70_region1, C70_region2, C70_region3, C70_region5, C71_hsd_partial, C71_hsd_refuted,
  C71_mixture, C71_saturation_state, C72_T_h_partial, C72_answers_high_partial, C72_answers_partial, C72_choice_partial,
  C72_entropy3_partial, C72_entropy5, C72_mixture, C72_refuses, C72_too_hot, C74_state_agrees,
  C74_state_one_argument_refuted, C75_critical_mixture_refuted, C75_mixed_array_refuted,
  C75_one_state, C75_single_phase_partial, C75_single_state_partial, C75_two_phase_partial,
  C76_entropy, C76_entropy_numbers, C76_free_energies, C76_gas_law, C76_given, C76_heats,
  C76_volume, C77_static, C78_coordinates, C78_cv_partial, C78_failures,
  C78_free_energies_defined, C78_free_energies_partial, C78_properties_partial,
  C79_density_partial, C79_terminates_partial, C80_T_from_e, C80_T_from_h, C80_T_from_s_d,
  C80_T_from_s_p, C80_p_s, C81_T_from_density_partial, C81_T_from_pressure_partial,
  C81_density_from_T_partial, C81_saturated_from_T_partial, C81_saturated_from_p_partial,
  C82_Ts, C82_Ts_range, C82_below_triple_refuted, C82_by_both, C82_by_pressure, C82_ps_of_Ts,
  C82_quality, C82_vapor_pressure, C85_composition, C85_from_static_partial, C85_properties,
  C85_round_trip_partial, C85_zero_amount_refuted, C86_dictionary_refuted, C87_boiling_refuted,
  C87_found_again_refuted, C87_saturated, C87_temperature_partial, C88_energy_partial,
  C88_gibbs, C88_isentrope_partial, C88_isobar_partial, C89_answers_partial,
  C89_answers_several_partial, C89_density_refuted, C89_own_array_refuted,
  C89_pressures_refuted, C89_quality_refuted, C89_temperatures_refuted, C89_unmodified_partial,
  C89_unmodified_several_partial, C90_elementwise_partial, C90_hsd_partial,
  C90_out_of_range_refuted, C90_state_partial, C91_above_critical_refuted, C91_mixture,
  C91_mixture_state, C91_single, C93_entry_shared_refuted, C93_items_shared_refuted,
  C93_slice_shared_refuted, C94_T_h_celsius_refuted, C94_T_h_elements, C94_T_h_failures,
  C94_T_h_molar_refuted, C94_T_h_partial, C94_T_h_pressure_refuted, C94_default_raw,
  C94_default_refuted, C94_elements, C94_entropy_partial, C94_entropy_refuted, C94_failures,
  C94_gam_refuted, C94_hsd, C94_number_T_refuted, C94_number_p_refuted, C94_properties_partial,
  C94_range_T, C94_range_answers, C94_range_p, C94_saturation, C94_saturation_entropy_partial,
  C94_saturation_entropy_refuted, C95_T_s_partial, C95_answers_partial, C95_choice_partial,
  C95_elements, C95_failures, C95_low_pressure_refuted, C95_mixture, C95_pressure_refuted,
  C95_refuses, C95_too_hot, C96_collection_refuted, C96_keywords_refuted, C96_twice_refuted.

## Findings

Places where the code violates the property a user would rely on. Each is a theorem about
the model with a concrete witness.

| property | theorem | what happens |
|----------|---------|--------------|
| C08 | `C08_exponent_zero_refuted` | `exponent=0` converts as if the exponent were 1; the power law holds for every other exponent |
| C09 | `C09_same_unknown_unit_refuted`, `C09_unknown_scale_refuted` | converting from an unknown unit to the same unknown unit succeeds; unknown temperature scales are accepted |
| C10 | `C10_setup_gauge_refuted` | after `setup(pstd=...)` gauge conversions keep the old atmosphere (default argument bound at definition) |
| C16 | `C16_restore_all_refuted` | `restore_default()` without a name raises AttributeError and restores nothing |
| C57 | `C57_self_assignment_refuted` | `config[k] = config[k]` on an append-mode entry never ends |
| C18 | `C18_one_bad_file_stops_load_refuted`, `C18_json_list_stops_load_refuted` | one file with an unregistered class, or a JSON list, stops the load: later files are not loaded |
| C23 | `C23_collection_prefix_refuted` | `search(collection='i')` returns members of the collection `ig`: prefixes are compared |
| C24 | `C24_multiple_charge_fails_refuted`, `C24_id_without_period_fails_refuted` | `hill()` fails for charges beyond one and for ids without a period |
| C25 | `C25_single_member_removed_refuted` | `info()` pops the only element of the list or set it is given |
| C26 | `C26_older_copy_destroyed_refuted` | suppressing a file destroys an older suppressed copy |
| C60 | `C60_long_word_overflows_refuted`, `C60_paragraph_without_lead_refuted` | a word longer than the line gets the lead twice and overflows; the first line of later paragraphs has no lead |
| C61 | `C61_one_entropy_refuted` | one entropy with several pressures: an array call differs from the scalar calls |
| C62 | `C62_default_pressure_refuted`, `C62_gas_law_refuted` | `T()` with one argument takes the default pressure without converting its unit |
| C37 | `C37_gibbs_slope_refuted`, `C37_zero_amount_refuted` | the slope of a mixture's Gibbs energy is wrong; a constituent of amount zero makes entropies not finite |
| C38 | `C38_later_calls_refuted` | after a failed first call a mixture with a missing constituent answers as if complete |
| C39 | `C39_mass_refuted`, `C39_dimensions_refuted`, `C39_scaled_by_array_refuted` | `mass()` is wrong unless the units are kg and kmol; sums of mixtures with different numbers of dimensions misplace amounts |
| C40 | `C40_dynamic_Tlim_refuted` | `Tlim()` of a dynamic mixture is the union, not the intersection |
| C41 | `C41_*_refuted` | repeated names, exponents, missing names, trailing `+` and empty strings are misread |
| C42 | `C42_too_strict_refuted`, `C42_too_lax_refuted`, `C42_scalars_refuted` | shapes are padded on the other side than numpy does |
| C65 | `C65_element_assignment_refuted`, `C65_slice_refuted` | `m['H2',0]=v` never succeeds; `m[:]=m` rescales the mixture |
| C66 | `C66_failed_sum_refuted`, `C66_failed_assignment_refuted` | a failed `+=` or assignment leaves a corrupt mixture |
| C67 | `C67_mass_refuted` | amounts given by mass are wrong unless molecular weights are in kg/kmol |
| C68 | `C68_temperatures_refuted`, `C68_out_of_range_refuted` | arrays of temperatures make `s` fail; one temperature out of range raises ValueError |
| C43 | `C43_prey_refuted`, `C43_docstring_example_refuted` | derivatives are wrong when only the y pre-exponent differs from one; the docstring example is not what the code computes |
| C44 | `C44_lower_limit_refuted`, `C44_flat_root_refuted` | a root at the lower limit of an increasing function is refused; a flat root at a limit gives nan |
| C45 | `C45_mixed_refuted` | the mixed derivative of the critical point terms is wrong (mp1.py 1789) |
| C47 | `C47_pressure_slope_refuted`, `C47_energy_scale_refuted` | the pressure slope with critical terms, and the energy when the two groups have different temperature scales, are wrong |
| C69 | `C69_elements_independent_refuted` | a neighbour near the critical density changes another element's pressure |
| C50 | `C50_refuted` | `hsd()` enthalpies and entropies are wrong in every matter unit but kg |
| C52 | `C52_cold_refuted` | states below 273.15 K are answered |
| C71 | `C71_hsd_refuted` | `hsd(T, x)` uses the default pressure |
| C55 | `C55_signal_refuted`, `C55_limits_refuted` | the solver returns 0 without a signal when it does not converge; backtracking leaves the limits |
| C73 | `C73_elementwise_refuted`, `C73_fdf_refuted` | the solved parameter leaks into the arguments of the next element's first guess; a solver built from `fdf` alone cannot be called |
| C56 | `C56_out_of_range_refuted`, `C56_entropy_refuted` | out-of-range temperatures of the caller's array are overwritten; `T(s,p)` overwrites the caller's entropies |
| C74 | `C74_state_one_argument_refuted` | with one argument `state()`'s T is not that of `T()`: `T()` completes the state with the default pressure, `state()` with the default temperature |
| C75 | `C75_mixed_array_refuted` | `cv()` raises ValueError for every array that mixes saturated and single-phase states |
| C75 | `C75_critical_mixture_refuted` | under the dome of a substance with a critical point term `cv()` is not the slope of the internal energy along the isochore (it uses the wrong mixed derivative of `_ar`) at any density but at most one |
| C82 | `C82_below_triple_refuted` | with a quality and a pressure below the triple point the methods silently answer for a temperature half way between the triple and critical points |
| C83 | `C83_torn_write_refuted`, `C83_copied_data_refuted`, `C83_name_taken_refuted`, `C83_saved_still_changed_refuted`, `C83_verbose_prompt_refuted`, `C83_bad_files_kept_refuted` | a changed file is emptied before it is written; a substance made from a copy of another's data, or named like another's file, is saved over it; a saved substance is still reported as changed; an unreadable file stops a verbose update with NameError; a quiet update leaves unreadable files |
| C84 | `C84_quiet_delete_refuted`, `C84_quiet_index_refuted`, `C84_upper_case_refuted`, `C84_overlapping_directories_refuted`, `C84_empty_answer_refuted` | quiet deletion fails; an index out of range, or a directory configured twice, suppresses the only file; upper case and empty answers do nothing |
| C85 | `C85_zero_amount_refuted` | `toigmix()` also converts constituents of amount zero, and the entropy of the static mixture is then nan |
| C86 | `C86_dictionary_refuted` | `todict('kg')` uses the molecular weight in configured units: with kg and mol configured masses are a thousandth |
| C87 | `C87_found_again_refuted`, `C87_boiling_refuted` | p and d with p below the triple point: `_Ts` silently leaves (Tt+Tc)/2, so a vapor state below that temperature is not found again, and a density between the phases there is reported as a boiling mixture at (Tt+Tc)/2 |
| C89 | `C89_temperatures_refuted`, `C89_pressures_refuted`, `C89_quality_refuted`, `C89_density_refuted`, `C89_own_array_refuted` | `_argparse` writes into the caller's arrays: T in K and p in Pa out of range are erased; T and x are erased where a quality is given above the critical temperature; d in kg/m3 given with p is replaced by the saturated liquid density, so that repeating the call reports quality 0; `T()` can return the caller's own array |
| C90 | `C90_out_of_range_refuted` | a pressure beyond the limits is refused alone, but inside an array given with x it is replaced by nan, `_Ts` leaves nan at (Tt+Tc)/2 and a saturated state there is returned, unmarked |
| C91 | `C91_above_critical_refuted` | T above critical with a quality is refused, but with a pressure added the call silently returns nan, for the temperature too |
| C92 | `C92_new_array_refuted` | without `inplace` and with equal units the argument array itself is returned, so that changing the result changes the argument |
| C93 | `C93_slice_shared_refuted`, `C93_entry_shared_refuted`, `C93_items_shared_refuted` | `m[0:1] *= 2` on a slice changes the mixture when its shape is (1,) and not otherwise; `m[s]` is the mixture's own memory exactly when the unit of matter is kmol; arrays of `items()` always are |
| C94 | `C94_entropy_refuted`, `C94_saturation_entropy_refuted` | `s` and `hsd` convert the temperature in kJ/kg/K without the exponent -1 and `ss` not at all: in degrees of another size (F, R, eV) every nonzero entropy is wrong, and `ss` disagrees with `s` |
| C94 | `C94_number_T_refuted`, `C94_number_p_refuted` | `hs`, `es`, `ds`, `ss` raise AttributeError for a plain number (and without arguments) when the unit is already K or bar, because no conversion makes an array of it |
| C94 | `C94_T_h_pressure_refuted`, `C94_T_h_molar_refuted`, `C94_T_h_celsius_refuted` | `T_h` uses the pressure as given instead of the converted one, multiplies by the molar mass instead of dividing, and calls `self.h` with kelvin where the configured scale is expected |
| C94 | `C94_default_refuted` | an omitted T or p is the number of `def_T` or `def_p` in the configured units; `def_T_unit` and `def_p_unit` are ignored |
| C94 | `C94_gam_refuted` | `gam` refers to `cp` and `cv` as names of the module and always raises NameError |
| C95 | `C95_pressure_refuted`, `C95_low_pressure_refuted` | `T_s` passes the converted pressure to `Ts` and `s`, which convert it again: in Pa it fails at all pressures below 165.292 bar; and `Ts` refuses pressures below the triple point where `s` answers |
| C96 | `C96_twice_refuted`, `C96_keywords_refuted`, `C96_collection_refuted`, `C96_integers_refuted`, `C96_length_refuted` | `IgtMix({'H2':1,'ig.H2':2})` lists H2 twice and reads only the first; keywords beside contents are ignored without notice; `IgtMix({'mp.H2O':1})` is accepted by name and refused as an object; `7 in m` is always true; after `reshape(())` `len(m)` raises TypeError |

Silent behaviour proved rather than refuted: `C54_unreached` (an IF-97 region 3 pressure
that is not reached gives the end of the density range), `C55_no_passes` (`max_iter=0`
raises UnboundLocalError).

Seen while reading, outside the theorems: a dynamic mixture given an entropy array of fewer
dimensions with a pressure returns T and p of different shapes; a `dat_dir` containing
an empty string makes `load` recurse without end; `config.py` documents `unit_energy` 'J'
while the default is 'kJ'; `solve.py` uses `np.float`, which numpy 1.24 removed; `if97.gam`
raises NameError, `if97.ss` does not convert temperature.
