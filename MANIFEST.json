{
 "claims": [
  {
   "property": "C01",
   "status": "proved",
   "theorems": [
    "C01_graph_refines_spec",
    "C01_graph_memory_safe",
    "C01_graph_throw_unchanged",
    "C01_vertex_stable",
    "C01_edge_stable",
    "C01_counts_exact"
   ],
   "note": "refinement to two finite maps over every history; memory safety; stability; exact counts"
  },
  {
   "property": "C02",
   "status": "proved",
   "theorems": [
    "C02_adjacency_exact"
   ],
   "note": "cache coherence over every history, self-loops counted twice"
  },
  {
   "property": "C03",
   "status": "proved",
   "theorems": [
    "C03_traverse_exact"
   ],
   "note": "exact reachability; log of the visitor calls"
  },
  {
   "property": "C04",
   "status": "proved",
   "theorems": [
    "C04_find_all_paths_exact",
    "C04_find_all_paths_total"
   ],
   "note": "soundness, completeness, NoDup and order, for every outcome of the unstable sort"
  },
  {
   "property": "C05",
   "status": "partial",
   "theorems": [
    "C05_remove_isolated_exact",
    "C05_remove_all_vertices_partial",
    "C05_remove_all_vertices_after_all_edges",
    "C05_remove_all_vertices_refuted"
   ],
   "note": "removeIsolatedVertices exact; 'removeAllVertices succeeds iff no edge' is refuted (null edge slots)"
  },
  {
   "property": "C06",
   "status": "proved",
   "theorems": [
    "C06_components_total",
    "C06_components_exact",
    "C06_adjacency_of_branches",
    "C06_three_windings"
   ],
   "note": "totality, partition exactness, ordering and numbering for every outcome of the unstable sort; a three windings transformer links the buses of its connected legs pairwise (C06_three_windings)"
  },
  {
   "property": "C07",
   "status": "partial",
   "theorems": [
    "C07_bookkeeping_consistent",
    "C07_slots_exist_partial",
    "C07_slots_exist_refuted"
   ],
   "note": "bookkeeping proved for every history with failing calls; slot existence proved when no multi-target clone fails, refuted otherwise"
  },
  {
   "property": "C08",
   "status": "proved",
   "theorems": [
    "C08_variants_refine_spec",
    "C08_clone_copies",
    "C08_write_local"
   ],
   "note": "refinement to one value list per variant id; clone calls with distinct targets that are new or overwritable, or one target"
  },
  {
   "property": "C09",
   "status": "proved",
   "theorems": [
    "C09_remove_exact",
    "C09_remove_refused"
   ],
   "note": "removal exact in every safely reached state; refusal in every state"
  },
  {
   "property": "C10",
   "status": "partial",
   "theorems": [
    "C10_failed_clone_unchanged_refuted",
    "C10_failed_clone_safe_refuted",
    "C10_failed_clone_then_remove_refuted",
    "C10_duplicate_targets_refuted",
    "C10_failed_clone_single_partial",
    "C10_failed_clone_values_partial"
   ],
   "note": "refuted: a failing multi-target clone keeps earlier targets registered, later writes and removals are out of bounds; proved for one target; existing values kept"
  },
  {
   "property": "C11",
   "status": "partial",
   "theorems": [
    "C11_arrays_aligned_partial",
    "C11_slack_aligned_refuted",
    "C11_slack_reduce_iff"
   ],
   "note": "proved for all kinds but SlackTerminal; refuted for SlackTerminal::reduceVariantArraySize"
  },
  {
   "property": "C12",
   "status": "proved",
   "theorems": [
    "C12_index_refines_spec",
    "C12_names_unambiguous",
    "C12_ids_unique",
    "C12_found_by_id",
    "C12_no_dangling",
    "C12_removed_not_found"
   ],
   "note": "refinement of every history to a plain set of named live objects; lookups and listings exact; no undefined behaviour"
  },
  {
   "property": "C13",
   "status": "proved",
   "theorems": [
    "C13_alias_resolves",
    "C13_unique_alias",
    "C13_refused_unchanged",
    "C13_refused_iff",
    "C13_alias_no_shadow",
    "C13_aliases_exact",
    "C13_remove_alias",
    "C13_one_alias_per_type"
   ],
   "note": "acceptance, refusal (exact condition), no shadowing, removal, one alias per type, over every history"
  },
  {
   "property": "C14",
   "status": "partial",
   "theorems": [
    "C14_move_keeps_ids_partial",
    "C14_move_loses_aliases",
    "C14_move_keeps_names_refuted"
   ],
   "note": "ids and listings kept; refuted for aliases: the move constructor of NetworkIndex drops m_idByAlias"
  },
  {
   "property": "C15",
   "status": "partial",
   "theorems": [
    "C15_tap_in_range_partial",
    "C15_tap_in_range_refuted",
    "C15_set_low_keeps_current_step",
    "C15_failed_set_low_refuted"
   ],
   "note": "range, current step and single-variant setLowTapPosition proved; refuted with several variants and with an unset working variant"
  },
  {
   "property": "C16",
   "status": "partial",
   "theorems": [
    "C16_regulating_ratio_configured_partial",
    "C16_deadband_always",
    "C16_ltc_capability_refuted",
    "C16_terminal_refuted",
    "C16_failed_setter_changes_nothing",
    "C16_setters_memory_safe"
   ],
   "note": "proved under conditions on setLoadTapChangingCapabilities and setRegulationTerminal; refuted without them; failing setters change nothing; deadband unconditional"
  },
  {
   "property": "C17",
   "status": "partial",
   "theorems": [
    "C17_at_most_one_regulating_partial",
    "C17_adder_checks_working_variant",
    "C17_set_regulating_refuted",
    "C17_adder_other_variant_refuted",
    "C17_tap_changers_of_transformer"
   ],
   "note": "proved when setRegulating(true) finds no other regulating tap changer and adders run with one variant; refuted otherwise (no check in setRegulating)"
  },
  {
   "property": "C18",
   "status": "partial",
   "theorems": [
    "C18_regulating_phase_configured_partial",
    "C18_set_regulating_refuted",
    "C18_mode_refuted"
   ],
   "note": "proved when setRegulating(true) is called on a configured tap changer; refuted otherwise (no check in setRegulating)"
  },
  {
   "property": "C19",
   "status": "partial",
   "theorems": [
    "C19_count_in_range_partial",
    "C19_count_in_range_refuted",
    "C19_nonlinear_values",
    "C19_linear_values",
    "C19_no_section_refuted"
   ],
   "note": "range proved when setMaximumSectionCount suits the other variants; refuted otherwise (only the working variant is checked); section values of non linear models after any history"
  },
  {
   "property": "C20",
   "status": "partial",
   "theorems": [
    "C20_generator_adder",
    "C20_generator_consistent",
    "C20_generator_setter",
    "C20_battery_adder",
    "C20_battery_consistent",
    "C20_battery_setter",
    "C20_vsc_adder",
    "C20_vsc_consistent",
    "C20_vsc_setter",
    "C20_lcc_adder",
    "C20_lcc_consistent",
    "C20_lcc_setter",
    "C20_svc_adder",
    "C20_svc_consistent",
    "C20_svc_setter",
    "C20_hvdc_adder",
    "C20_hvdc_consistent",
    "C20_hvdc_setter",
    "C20_voltage_level_adder",
    "C20_voltage_level_consistent",
    "C20_voltage_level_setter",
    "C20_load_adder",
    "C20_load_consistent",
    "C20_load_setter",
    "C20_dangling_generation_adder",
    "C20_dangling_generation_consistent_partial",
    "C20_dangling_generation_refuted",
    "C20_dangling_generation_setter",
    "C20_shunt_consistent",
    "C20_shunt_failed_setter"
   ],
   "note": "adders accept exactly the consistent values, setters exact, for generators, batteries, VSC and LCC stations, SVCs, HVDC lines, voltage levels, loads and shunts; dangling line generation proved for finite limits, refuted for an infinite limit with the other undefined"
  },
  {
   "property": "C21",
   "status": "partial",
   "theorems": [
    "C21_at_point",
    "C21_outside",
    "C21_between",
    "C21_total",
    "C21_continuous",
    "C21_bounds_in_order",
    "C21_infinite_bounds_refuted"
   ],
   "note": "exact values at, outside and between points, total, Lipschitz, bounds in order for finite curves; refuted for infinite bounds: interpolation is undefined"
  },
  {
   "property": "C22",
   "status": "partial",
   "theorems": [
    "C22_accepted_well_formed",
    "C22_end_point",
    "C22_add",
    "C22_bounds_order_refuted",
    "C22_min_max"
   ],
   "note": "accepted curves have two or more points with distinct defined powers; order of the bounds refuted (check commented out in the adder)"
  },
  {
   "property": "C23",
   "status": "partial",
   "theorems": [
    "C23_temporary_limit",
    "C23_no_overload_partial",
    "C23_above_last_refuted",
    "C23_duration_antitone_partial",
    "C23_duration",
    "C23_duration_reached",
    "C23_overloaded"
   ],
   "note": "exact report for all limits, cover and antitone duration below the last limit; refuted above it: nothing is reported and the duration becomes unlimited"
  },
  {
   "property": "C24",
   "status": "partial",
   "theorems": [
    "C24_accepted",
    "C24_end_partial",
    "C24_lost_limit_refuted",
    "C24_add",
    "C24_ensured"
   ],
   "note": "names, order, exact contents proved; refuted: a second limit with the same duration is dropped although the call succeeds"
  },
  {
   "property": "C25",
   "status": "partial",
   "theorems": [
    "C25_injective_reversible",
    "C25_empty_and_unknown",
    "C25_code_numbers",
    "C25_round_trip_partial",
    "C25_separator_refuted",
    "C25_read_then_anonymize_refuted"
   ],
   "note": "injective, stable and reversible for any sequence of strings of any length; file round trip for strings without separators; refuted with ';' and after reading an arbitrary mapping"
  },
  {
   "property": "C26",
   "status": "proved",
   "theorems": [
    "C26_unique_id_fresh",
    "C26_unique_id_fuel_irrelevant"
   ],
   "note": "termination by pigeonhole over any finite set of names; freshness, minimality"
  },
  {
   "property": "C27",
   "status": "proved",
   "theorems": [
    "C27_find",
    "C27_strict_weak_order",
    "C27_default"
   ],
   "note": "every rule list and every range; with the default rules too"
  },
  {
   "property": "C28",
   "status": "partial",
   "theorems": [
    "C28_flattened",
    "C28_defined",
    "C28_equality_refuted"
   ],
   "note": "iteration is the concatenation and never undefined; refuted for comparing iterators: only the outer positions are compared"
  },
  {
   "property": "C29",
   "status": "partial",
   "theorems": [
    "C29_voltage_level_first",
    "C29_first_pass_partial",
    "C29_later_passes",
    "C29_second_pass_refuted"
   ],
   "note": "first pass exact for every substation; refuted for later passes, shown to give the first element only"
  },
  {
   "property": "C30",
   "status": "proved",
   "theorems": [
    "C30_uncached_buses",
    "C30_uncached_same",
    "C30_bus_of_node",
    "C30_buses",
    "C30_same_bus",
    "C30_terminals"
   ],
   "note": "exact groups, names and terminals in every state of every history asked without cache; getBuses exact (C30_buses, C30_uncached_buses)"
  },
  {
   "property": "C31",
   "status": "partial",
   "theorems": [
    "C31_bus_breaker_add_switch_refuted",
    "C31_bus_breaker_remove_switch_refuted",
    "C31_refreshed",
    "C31_connect_refreshed",
    "C31_clone_refreshed",
    "C31_fresh_partial",
    "C31_memory_safe",
    "C31_remove_switch_refuted",
    "C31_add_switch_refuted",
    "C31_internal_connection_refuted",
    "C31_attach_unset_refuted"
   ],
   "note": "proved for node-breaker and bus-breaker (C33_merged_partial) histories that change switches while no cache is held, and memory safety for every node-breaker history; after any history, stale caches included, a call that moves a switch in the working variant (setOpen, setRetained, connect, disconnect), changes internal connections or terminals, and the clone of a variant, make the answers right again (C31_refreshed, C31_connect_refreshed, C31_clone_refreshed); refuted for removeSwitch, addSwitch, internal connections across variants, attach without working variant"
  },
  {
   "property": "C32",
   "status": "partial",
   "theorems": [
    "C32_only_breakers",
    "C32_connect_route",
    "C32_connect_partial",
    "C32_connect_connected_partial",
    "C32_disconnect",
    "C32_connect_refuted",
    "C32_disconnect_connected_refuted",
    "C32_disconnect_false_refuted"
   ],
   "note": "only breakers move, exact shortest route, disconnect proved; refuted: connect through an open load break switch, isConnected after disconnect, disconnect answering false after opening breakers"
  },
  {
   "property": "C33",
   "status": "partial",
   "theorems": [
    "C33_uncached_merged",
    "C33_uncached_same",
    "C33_uncached_members",
    "C33_uncached_terminals",
    "C33_refreshed",
    "C33_any_cache_memory_safe",
    "C33_merged_partial",
    "C33_same_partial",
    "C33_members_partial",
    "C33_terminals_partial",
    "C33_ids_partial",
    "C33_terminal_bus_partial",
    "C33_memory_safe_partial",
    "C33_out_of_bounds",
    "C33_memory_safe_refuted",
    "C33_remove_all_buses_refuted",
    "C33_dangling_bus_refuted"
   ],
   "note": "groups, members, terminals, ids and memory safety proved for the histories that change switches while no merged bus is cached and keep the first vertex number below the vertex count (the exact condition); for the histories that also change switches while merged buses are cached, the same holds of every variant without cached merged buses, in particular after a switch moves or a terminal is connected or disconnected (C33_uncached_*, C33_refreshed); refuted: out-of-bounds read after removing the first bus, removeAllBuses destroying the buses and throwing, dangling bus in a cached merged bus"
  },
  {
   "property": "C34",
   "status": "partial",
   "theorems": [
    "C34_consistent_partial",
    "C34_effects_partial",
    "C34_used_station_kept",
    "C34_add_line_when",
    "C34_shared_station_refuted",
    "C34_dangling_line_refuted",
    "C34_same_station_refuted"
   ],
   "note": "Hvdc.v models line and station creation and removal with destroyed objects as undefined behaviour. Refuted in general (C34_shared_station_refuted, C34_dangling_line_refuted, C34_same_station_refuted: HvdcLineAdder does not check that the stations are distinct and free). Proved: for histories that only connect free distinct stations the answers always agree and every operation has the specified effect; for all histories a station that answers a line cannot be removed and its answer never dangles. Aliases and variants are not in this model."
  },
  {
   "property": "C35",
   "status": "partial",
   "theorems": [
    "C35_refused",
    "C35_removed_partial",
    "C35_three_refuted",
    "C35_iterator_refuted",
    "C35_bus_breaker_refuted",
    "C35_internal_refuted",
    "C35_equipment",
    "C35_station"
   ],
   "note": "removal of one equipment, complete and nothing else (C35_equipment, C35_station); the check refuses exactly the substations linked to another and changes nothing; complete removal and nothing else for at most two node-breaker voltage levels without internal connections (buffer semantics of the vector iterators); refuted: three voltage levels or more read a destroyed object, the iterator is invalidated by one erase under the standard, bus-breaker voltage levels with an equipment, internal connections (throws half-way)"
  },
  {
   "property": "C36",
   "status": "proved",
   "theorems": [
    "C36_equations",
    "C36_unique",
    "C36_involution",
    "C36_zero_impedance",
    "C36_parts",
    "C36_line",
    "C36_dangling_line",
    "C36_transformer"
   ],
   "note": "exact real arithmetic (standard library reals and their axioms); the angle comes back exactly when it is in (-180, 180], up to whole turns otherwise; a zero voltage at the other side or a zero impedance gives a division by zero, stated as such"
  },
  {
   "property": "C37",
   "status": "partial",
   "theorems": [
    "C37_lookup_partial",
    "C37_memory_safe_partial",
    "C37_by_name_safe",
    "C37_failed_add",
    "C37_dangling_refuted",
    "C37_first_by_type_refuted",
    "C37_failed_add_refuted"
   ],
   "note": "proved when every extension type has its own name and the extensions are made for the object; memory safety proved whenever the name determines the type; refuted otherwise (dangling reference by type, first added found by type) and for a failing addition, which loses the previous extension"
  },
  {
   "property": "C38",
   "status": "partial",
   "theorems": [
    "C38_roundtrip",
    "C38_lossless",
    "C38_current",
    "C38_injective"
   ],
   "note": "proved for whole networks with every equipment of the library (substations, both topologies, switches, two- and three-winding transformers with tap changers, shunts linear and not, reactive limits, current limits, regulating terminals, lines, tie lines, HVDC lines; fields as texts), every version and mode, up to what the version cannot carry, which is nothing for the objects of the network in 1.4 and 1.5; extensions are C56; export filters accept everything (C64)"
  },
  {
   "property": "C39",
   "status": "partial",
   "theorems": [
    "C39_order",
    "C39_partition",
    "C39_runs",
    "C39_uri",
    "C39_supported",
    "C39_loud_partial",
    "C39_silent_refuted",
    "C39_unreadable_refuted"
   ],
   "note": "order, guards, namespaces and partition of the versions proved; an export that should throw does so exactly on what the version does not support by the rules of the writers, and what it then writes is read back; refuted: ten kinds of values dropped or altered silently by an export that should throw, and with the log-only mode a file that cannot be read"
  },
  {
   "property": "C40",
   "status": "partial",
   "theorems": [
    "C40_roundtrip_partial",
    "C40_switch",
    "C40_switch_refuted",
    "C40_hidden_partial",
    "C40_leak_refuted"
   ],
   "note": "successful anonymized exports are read back with their mapping file; the file depends only on which identifiers are equal (converter stations of HVDC lines, network identifier, properties and alias types excepted); refuted: station identifiers leak, networks with bus/breaker switches cannot be exported anonymized"
  },
  {
   "property": "C41",
   "status": "partial",
   "theorems": [
    "C41_sum_partial",
    "C41_order_partial",
    "C41_finite",
    "C41_undefined_refuted",
    "C41_rounding_refuted"
   ],
   "note": "proved for every kind of bus and every list of terminals over exact arithmetic with infinities, order included; refuted: terminals without any defined value give 0, not NaN; IEEE rounding makes the answer depend on the order (Flocq binary64 witness)"
  },
  {
   "property": "C42",
   "status": "proved",
   "theorems": [
    "C42_read",
    "C42_set_previous",
    "C42_names"
   ],
   "note": "history-based specification, any sequence of set/remove/clear; iteration in byte order of the keys"
  },
  {
   "property": "C43",
   "status": "partial",
   "theorems": [
    "C43_children_partial",
    "C43_nested",
    "C43_skip_iff_partial",
    "C43_skip_refuted",
    "C43_descendants_refuted",
    "C43_next"
   ],
   "note": "proved for every document when the handler reads each child to its end (the nested use of the library: C43_nested gives back every document); skipping characterised exactly: right iff no non-empty element inside has the same name; refuted otherwise"
  },
  {
   "property": "C44",
   "status": "proved",
   "theorems": [
    "C44_creation",
    "C44_sums",
    "C44_setters",
    "C44_series_partial",
    "C44_series_refuted",
    "C44_boundaries"
   ],
   "note": "sums, defined values and throwing setters for every history of the adders and of the halves, with any addition; in addition the sums are shown to be the two halves in series when there is no shunt at the boundary (refuted otherwise) and the two boundaries to agree"
  },
  {
   "property": "C45",
   "status": "partial",
   "theorems": [
    "C45_current_partial",
    "C45_terminal_partial",
    "C45_component_buses_partial",
    "C45_hvdc_added_refuted",
    "C45_hvdc_removed_refuted",
    "C45_switch_added_refuted",
    "C45_switch_removed_refuted",
    "C45_internal_refuted"
   ],
   "note": "Whole history of a network mixing bus-breaker and node-breaker voltage levels, with several variants: the component of a configured bus, of a calculated bus, of a terminal, and the buses and size of a component are those of the current topology, never an error. Missing, because false and refuted: HVDC lines added or removed after the connected components were computed, closed switches added or removed after any computation, internal connections added or removed while another variant holds a computation (no invalidation in the code)."
  },
  {
   "property": "C46",
   "status": "partial",
   "theorems": [
    "C46_isolated_partial",
    "C46_selection_own",
    "C46_tls_own",
    "C46_other_network_refuted",
    "C46_removed_refuted",
    "C46_recycled_refuted",
    "C46_unset",
    "C46_reopened_refuted"
   ],
   "note": "Networks with several threads as interleavings of whole operations of the manager (they hold its mutex), the thread-local index being one value per thread for all networks. Proved for every number of threads and networks and every interleaving when each thread works on one network and no variant is removed while another thread has it selected; refuted for a thread using two networks, for a variant removed (undefined behaviour) or recycled (wrong variant) while another thread has it selected, and for a network closed and opened again."
  },
  {
   "property": "C47",
   "status": "partial",
   "theorems": [
    "C47_move_keeps_partial",
    "C47_move_keeps_refuted"
   ],
   "note": "proved when no slot is unused; refuted otherwise (null dereference in the VariantArray move)"
  },
  {
   "property": "C48",
   "status": "partial",
   "theorems": [
    "C48_foreach_variant",
    "C48_foreach_unset_refuted"
   ],
   "note": "proved when a working variant is set; refuted when it is unset: the call throws"
  },
  {
   "property": "C49",
   "status": "partial",
   "theorems": [
    "C49_section_setters_always_throw",
    "C49_section_setters_refuted"
   ],
   "note": "refuted: the setters throw in every reachable state (nothing attaches the sections); shown that they leave the state unchanged"
  },
  {
   "property": "C50",
   "status": "partial",
   "theorems": [
    "C50_creation_any_cache_partial",
    "C50_failed_creation_refuted",
    "C50_creation_partial"
   ],
   "note": "exact effect of creating an injection on an existing bus of a bus-breaker voltage level, whatever the caches of merged buses hold; refuted: creation on an unknown bus throws and leaves the equipment in the network"
  },
  {
   "property": "C51",
   "status": "partial",
   "theorems": [
    "C51_set_connectable_any_cache_partial",
    "C51_consistent_any_cache",
    "C51_set_connectable_partial",
    "C51_other_variant_refuted",
    "C51_consistent"
   ],
   "note": "exact effect in every variant, and consistency of terminals and buses, whatever the caches of merged buses hold; refuted for the other variants: the terminal moves there too and loses its connectable bus id"
  },
  {
   "property": "C52",
   "status": "partial",
   "theorems": [
    "C52_move_partial",
    "C52_move_refuted"
   ],
   "note": "an object without extensions can be moved; refuted otherwise: the move constructor always ends the program"
  },
  {
   "property": "C53",
   "status": "partial",
   "theorems": [
    "C53_bus",
    "C53_bus_refuted"
   ],
   "note": "proved for buses without properties and aliases (C38_roundtrip); refuted otherwise, in general (any following element) and by a whole network in every version"
  },
  {
   "property": "C54",
   "status": "partial",
   "theorems": [
    "C54_double",
    "C54_attribute",
    "C54_subnormal_refuted",
    "C54_text",
    "C54_nearest",
    "C54_int",
    "C54_long",
    "C54_unsigned_long",
    "C54_bool",
    "C54_bool_words",
    "C54_double_words"
   ],
   "note": "proved for every double that is not subnormal, infinities, signed zeros and NaN included, and for every int, long and unsigned long; refuted for every subnormal number: reading it throws (glibc); the words true, nan and inf are read in any case (C54_bool_words, C54_double_words)"
  },
  {
   "property": "C55",
   "status": "partial",
   "theorems": [
    "C55_sound",
    "C55_exact",
    "C55_node_breaker",
    "C55_bus_breaker_refuted",
    "C55_twice_refuted"
   ],
   "note": "termination, soundness for every network; exactness when no switch of a bus/breaker level is accepted; exactly once in node/breaker networks; refuted in bus/breaker levels: only the first terminal of another bus is gone through, and terminals of the same bus can be gone through twice"
  },
  {
   "property": "C56",
   "status": "partial",
   "theorems": [
    "C56_roundtrip",
    "C56_export",
    "C56_complete",
    "C56_network_refuted",
    "C56_merged_refuted",
    "C56_readable_refuted",
    "C56_slack_refuted"
   ],
   "note": "round trip, exact set of extensions that come back, and exact condition for the export to succeed, proved for every network, options and loaded serializers; refuted: extensions of the network itself are lost silently, the names of the lines of a merged node are lost, slack terminals cannot be exported before 1.3, and five kinds of contents that the library holds are exported but refused at import"
  },
  {
   "property": "C57",
   "status": "partial",
   "theorems": [
    "C57_equivalent",
    "C57_equivalent_exists",
    "C57_nodes_by_bus_partial",
    "C57_together_partial",
    "C57_stale_refuted"
   ],
   "note": "equivalent terminals exact after any history; nodes by bus exact for the histories that change switches while no cache is held (as C31); refuted otherwise: a node cut off by removeSwitch is still listed"
  },
  {
   "property": "C58",
   "status": "partial",
   "theorems": [
    "C58_slack_partial",
    "C58_local_partial",
    "C58_attach",
    "C58_add_refuted",
    "C58_remove_refuted",
    "C58_empty_refuted"
   ],
   "note": "refinement of a per-variant map for every history where removeVariant does not trim the arrays to the wrong size; refuted otherwise (undefined behaviour), refuted for the adder (drops the other variants) and for the removal of the last variant with a slack terminal (empty extension stays)"
  },
  {
   "property": "C59",
   "status": "partial",
   "theorems": [
    "C59_read",
    "C59_set_get_partial",
    "C59_refused",
    "C59_bus_view_terminals",
    "C59_inside",
    "C59_lost_refuted",
    "C59_neighbour_refuted",
    "C59_outwards_refuted",
    "C59_merged_partial",
    "C59_merged_refused",
    "C59_configured_refuted",
    "C59_uncached_merged"
   ],
   "note": "proved for every bus of the bus view (and every bus-breaker bus inside it, with or without equipment), every bus-breaker bus with equipment, every merged bus (also after any history when the working variant holds no cached merged buses: C59_uncached_merged); refuted for bus-breaker buses without equipment (the voltage is lost, the neighbour's is answered) and from the inside to the outside; a negative voltage is refused and changes nothing"
  },
  {
   "property": "C60",
   "status": "partial",
   "theorems": [
    "C60_copy_partial",
    "C60_connectable_partial",
    "C60_bus_view_partial",
    "C60_merged_partial",
    "C60_ids_refuted",
    "C60_no_bus_refuted",
    "C60_bus_lost_refuted",
    "C60_bus_gained_refuted",
    "C60_merged_refuted"
   ],
   "note": "proved for the histories of C31, new ids and levels with at least one bus: import never throws, the level read is a copy of the view exported, its bus view has the electrical nodes that hold a branch; refuted without the conditions: a switch named like a bus, or a level whose terminals find no bus, makes a file that is refused; the bus view is not kept (a busbar section with loads only is a bus before and none after, a line alone the other way round); a bus-breaker bus without branch is exported without connectable bus and refused"
  },
  {
   "property": "C61",
   "status": "partial",
   "theorems": [
    "C61_link_ends",
    "C61_links_kept",
    "C61_create",
    "C61_fail",
    "C61_owned",
    "C61_attached_partial",
    "C61_remove_partial",
    "C61_round_trip_partial",
    "C61_ghost_refuted",
    "C61_removed_refuted",
    "C61_stuck_refuted",
    "C61_no_terminal_refuted",
    "C61_half_line_refuted"
   ],
   "note": "creation and removal of equipments with one, two and three terminals in networks with levels of both kinds: a creation succeeds exactly when its request is right, nodes free and distinct, with a working variant, and then adds the equipment and nothing else; a creation that throws changes nothing or leaves the equipment, and when is exact; in all histories terminals on nodes and buses belong to equipments of the network, and switches and internal connections have their ends in their level (C61_link_ends), kept by creations and removals of equipments (C61_links_kept); partial: removal and attachment are proved for histories where failed creations leave no trace, refuted otherwise (ghost equipment on an occupied node, whose removal detaches another equipment, which can then not be removed; injection without terminal; half attached line)"
  },
  {
   "property": "C62",
   "status": "partial",
   "theorems": [
    "C62_add",
    "C62_add_answer_partial",
    "C62_add_answer_refuted",
    "C62_ids",
    "C62_discrete_ids",
    "C62_change",
    "C62_discrete_change",
    "C62_remove",
    "C62_discrete_remove",
    "C62_types",
    "C62_sides",
    "C62_side_refuted",
    "C62_valid_partial",
    "C62_valid_refuted",
    "C62_discrete_add",
    "C62_discrete_type_refuted",
    "C62_discrete_unknown_refuted",
    "C62_discrete_value",
    "C62_discrete_fits",
    "C62_export_partial",
    "C62_roundtrip_partial",
    "C62_roundtrip_refuted"
   ],
   "note": "measurements and discrete measurements in memory: what an adder accepts and adds is exact, ids are unique and found in all histories, setters, properties and removal change one measurement only, sides, types and tap changers fit the equipment, the getter of the type of the value answers it; measurements of careful histories come back from an export (with C56); partial: add() answers the new measurement only with an id or without earlier anonymous one (refuted otherwise), valid measurements have values only with careful setters (refuted otherwise, such a network cannot be read back); also refuted: a line may have a measurement of its third side, a discrete adder without type is undefined, a discrete measurement without value cannot be added"
  },
  {
   "property": "C63",
   "status": "partial",
   "theorems": [
    "C63_create",
    "C63_set",
    "C63_tap_add",
    "C63_tap_set",
    "C63_frame",
    "C63_local",
    "C63_local_ratio_partial",
    "C63_live_partial",
    "C63_defined",
    "C63_xml",
    "C63_dangling_refuted",
    "C63_foreign_refuted",
    "C63_xml_refuted",
    "C63_network_refuted"
   ],
   "note": "regulated terminals in any number of networks: what the adders and setters accept and store is exact (C63_create, C63_set, C63_tap_add, C63_tap_set), references change by calls on their holder only, generators, compensators and phase tap changers refer to terminals of their own network in every history, terminals survive the XML file; partial: that references never dangle is proved for histories that remove no equipment others refer to, and give ratio tap changers no terminal of another network; both are refuted otherwise (C63_dangling_refuted: removal leaves dangling references; C63_foreign_refuted, C63_xml_refuted, C63_network_refuted: the adder of ratio tap changers takes a terminal of another network)"
  },
  {
   "property": "C64",
   "status": "partial",
   "theorems": [
    "C64_everything",
    "C64_main_component_refuted",
    "C64_kept",
    "C64_kept_equipments_refuted"
   ],
   "note": "proved without the option: everything is written; refuted with it: the filter is never filled, so buses and equipments outside of the main component are written; of a filter that would hold buses: its tests of buses and switches are right (C64_kept), its test of equipments is the wrong way round (C64_kept_equipments_refuted)"
  },
  {
   "property": "C65",
   "status": "partial",
   "theorems": [
    "C65_topology",
    "C65_values_partial",
    "C65_skipped",
    "C65_refused",
    "C65_bus_breaker_refuted"
   ],
   "note": "proved for every voltage level reached without stale caches (as C31), every value and every order of the elements: the topology read is the one written, every bus of the bus view answers the same V and angle, the bus-breaker buses inside it answer these values; elements without bus are skipped, negative voltages refused; refuted: values of bus-breaker buses that differ from those of the bus view, or outside it, are lost"
  },
  {
   "property": "C66",
   "status": "partial",
   "theorems": [
    "C66_safe",
    "C66_bus_view_partial",
    "C66_configured",
    "C66_bus_breaker_partial",
    "C66_dangling",
    "C66_bus_breaker_refuted"
   ],
   "note": "proved for every history: the bus view never gives a dangling bus and, when switches change without held cache (as C31), gives exactly the bus of the current topology; configured buses are found; the bus-breaker view is right as long as no topology changes after a search; refuted: after a change it gives a destroyed bus (BusBreakerView::invalidateCache resets the cache of the bus view)"
  },
  {
   "property": "C67",
   "status": "partial",
   "theorems": [
    "C67_given",
    "C67_kept",
    "C67_destroyed"
   ],
   "note": "proved for every history: a bus given is the bus of a level in the working variant, stays valid with the same contents until its level changes in its variant or the variant is overwritten or removed, and is then destroyed for good; what fails: using it then is undefined behaviour, not an exception"
  },
  {
   "property": "C68",
   "status": "partial",
   "theorems": [
    "C68_uncached_calculated",
    "C68_uncached_merged",
    "C68_uncached_merged_all",
    "C68_calls",
    "C68_terminals",
    "C68_configured",
    "C68_merged_partial",
    "C68_bus_level",
    "C68_node_level",
    "C68_calculated_partial",
    "C68_connectable_refuted"
   ],
   "note": "proved for any visitor: lists of terminals, visitors of terminals, configured buses and whole levels; merged and calculated buses in the histories for which their caches are right (C31, C33), or after any history when the working variant holds no cache (C68_uncached_*); what fails: a calculated bus does not visit the equipments that are only connectable to it (C68_connectable_refuted), a configured bus does"
  },
  {
   "property": "C69",
   "status": "partial",
   "theorems": [
    "C69_register",
    "C69_kept",
    "C69_load",
    "C69_loaded",
    "C69_order",
    "C69_again",
    "C69_safe_partial",
    "C69_dangling_refuted"
   ],
   "note": "registration, success and effect of a load, independence of the order, idempotence and persistence proved for every history; use proved when no load met a conflict; refuted otherwise, in general: after a conflict in the middle of a library the serializers already registered stay while their code is unloaded, and even the end of the program is undefined behaviour"
  },
  {
   "property": "C70",
   "status": "partial",
   "theorems": [
    "C70_roundtrip",
    "C70_identifier_partial",
    "C70_hvdc_type_refuted",
    "C70_country"
   ],
   "note": "bijection between enumerators and texts proved for all the enumerations; texts are the identifiers for all but HvdcConverterStation::HvdcType, whose two names are exchanged (refuted); names of countries distinct"
  },
  {
   "property": "C71",
   "status": "partial",
   "theorems": [
    "C71_level",
    "C71_refused",
    "C71_equipment_partial",
    "C71_bus",
    "C71_bus_branch_partial",
    "C71_isolated_refuted",
    "C71_variant_refuted"
   ],
   "note": "proved for the histories of C31 and C33; refuted for a configured bus of the bus view without connected terminal of its own (resolves to nothing), and for a terminal whose connectable bus was changed in another variant (throws)"
  },
  {
   "property": "C72",
   "status": "proved",
   "theorems": [
    "C72_adder",
    "C72_consistent",
    "C72_setter",
    "C72_detail_variants",
    "C72_feeders"
   ],
   "note": ""
  },
  {
   "property": "C73",
   "status": "partial",
   "theorems": [
    "C73_adder",
    "C73_consistent",
    "C73_setter",
    "C73_others",
    "C73_frozen",
    "C73_busbar",
    "C73_minmax",
    "C73_step_refuted",
    "C73_ratedU0_partial",
    "C73_ratedU0_refuted",
    "C73_leg_attribute_refuted"
   ],
   "note": "False of the code in three places: the setters of tap changer steps accept what the step adder refuses (C73_step_refuted); an adder of three windings transformers used a second time keeps the star point voltage of the first use (C73_ratedU0_refuted; C73_ratedU0_partial is the first use); the text given to the limits holder of a leg is made of the number of the leg before it is initialised (C73_leg_attribute_refuted)."
  },
  {
   "property": "C74",
   "status": "partial",
   "theorems": [
    "C74_get",
    "C74_one",
    "C74_all",
    "C74_add",
    "C74_permanent",
    "C74_proper",
    "C74_dangling_refuted",
    "C74_checks",
    "C74_reactive",
    "C74_reactive_one"
   ],
   "note": "The last sentence is false: adding limits of the same type on the same side deletes the previous ones, so that references to them dangle (C74_dangling_refuted); C74_permanent says exactly when, and C74_proper that histories using only limits in force meet no undefined behaviour."
  },
  {
   "property": "C75",
   "status": "partial",
   "theorems": [
    "C75_export",
    "C75_refused",
    "C75_import",
    "C75_constructor",
    "C75_unambiguous",
    "C75_defaults",
    "C75_version",
    "C75_empty_list_refuted",
    "C75_spaces_refuted",
    "C75_selected",
    "C75_version_accepted",
    "C75_versions",
    "C75_ignored_refuted",
    "C75_setters",
    "C75_has_one",
    "C75_has_one_refuted"
   ],
   "note": "The four claims that do not hold are refuted: C75_empty_list_refuted, C75_spaces_refuted, C75_ignored_refuted, C75_has_one_refuted. readDoubleParameter is not modelled (no parameter is a double); case is compared as in the classic locale."
  },
  {
   "property": "C76",
   "status": "partial",
   "theorems": [
    "C76_table",
    "C76_others",
    "C76_plain",
    "C76_anonymized",
    "C76_stale_refuted",
    "C76_renamed_refuted",
    "C76_shared_refuted",
    "C76_failed_refuted",
    "C76_self_refuted"
   ],
   "note": "The claims that do not hold are refuted: C76_stale_refuted, C76_renamed_refuted, C76_shared_refuted, C76_failed_refuted, C76_self_refuted. Documents without extensions; the content of an interrupted file is not described, only that it cannot be read."
  },
  {
   "property": "C77",
   "status": "proved",
   "theorems": [
    "C77_state",
    "C77_load",
    "C77_losses",
    "C77_undefined",
    "C77_half_line",
    "C77_joined",
    "C77_unsplit_refuted"
   ],
   "note": "In exact real arithmetic, like C36: an undefined value is None and rounding is not modelled. C77_unsplit_refuted: SV::otherSide(danglingLine) without its second argument puts all the admittance at the terminal and answers another voltage than the boundary."
  },
  {
   "property": "C78",
   "status": "proved",
   "theorems": [
    "C78_history",
    "C78_clone",
    "C78_slack_refuted"
   ],
   "note": "Parts are added but not removed or replaced. cloneVariant calls as in C08 (at most one target, or distinct targets that are new or may be overwritten). C78_slack_refuted: with a SlackTerminal extension the claim is false (see C11)."
  },
  {
   "property": "C79",
   "status": "partial",
   "theorems": [
    "C79_powers",
    "C79_refused",
    "C79_defined",
    "C79_shunt_refuted",
    "C79_current_partial",
    "C79_current_refuted",
    "C79_overload_partial",
    "C79_missed_refuted",
    "C79_invented_refuted",
    "C79_duration_refuted",
    "C79_apparent",
    "C79_direction_refuted",
    "C79_voltage"
   ],
   "note": "The current is wrong: getI multiplies by the voltage where it should divide (C79_current_refuted: 160 A answered for 1000 A at 400 kV). C79_current_partial: the answer is the current times the square of the voltage in MV, right at 1000 kV or without current only; C79_overload_partial, C79_missed_refuted, C79_invented_refuted, C79_duration_refuted: what isOverloaded and getOverloadDuration then report. C79_shunt_refuted: the current of a shunt compensator is never defined. C79_direction_refuted: a limit on the active power is never reached by a negative flow. The histories of the powers, the definedness of the current and the apparent power are proved in full."
  },
  {
   "property": "C80",
   "status": "partial",
   "theorems": [
    "C80_format",
    "C80_sites_partial",
    "C80_sites_refuted",
    "C80_lookup",
    "C80_register",
    "C80_record",
    "C80_log_partial",
    "C80_log_refuted"
   ],
   "note": "C80_sites_refuted: four calls have a text that does not fit their arguments and throw an exception of boost::format instead of theirs. C80_log_refuted: where the text is formatted before it is given to the logger it is formatted twice, and a % in an identifier makes the call throw only when the level is listened to. The lookup, the registration, the records, the other 287 formatting calls and the logging calls with arguments without % are proved. The directives of boost::format other than %N% and %% are not modelled; no text of the code uses one."
  },
  {
   "property": "C81",
   "status": "partial",
   "theorems": [
    "C81_defined",
    "C81_collections",
    "C81_subclass",
    "C81_connectables",
    "C81_level",
    "C81_level_get",
    "C81_substation",
    "C81_sides",
    "C81_terminal_at",
    "C81_countries",
    "C81_terminal_alias_refuted"
   ],
   "note": "Proved: the collections, counts and lookups of the network for its 19 getters, the connectables of network and levels, the transformers of a substation, the sides, the countries. Partial: getTerminal(voltage level) of a branch compares ids only, so an alias by which network.getVoltageLevel and the adder of the line find the level is refused (C81_terminal_alias_refuted). Histories here do not remove voltage levels or substations (that is C35)."
  },
  {
   "property": "C82",
   "status": "partial",
   "theorems": [
    "C82_values",
    "C82_columns",
    "C82_written_partial",
    "C82_attributes",
    "C82_elements",
    "C82_logged_refuted",
    "C82_renamed"
   ],
   "note": "Proved against a table of the format written apart from the tables of the converter, and checked against the reference documents of the tests. Partial: an export that only logs errors writes in version 1.0 elements that 1.0 does not have, and aliases of the network before 1.3 (C82_logged_refuted); the other documents conform. That each value is under its own name is stated with columns written apart (ColumnsSpec.v), without anonymization. Extensions, calculated buses and the xnode flows of tie lines are not in the model of C38."
  },
  {
   "property": "C83",
   "status": "proved",
   "theorems": [
    "C83_extension",
    "C83_only",
    "C83_distinct",
    "C83_attested"
   ],
   "note": "Against columns and namespaces written apart from the tables of the serializers and checked against the reference documents of the tests (C83_attested). Without anonymization, for extensions that the library accepts (exts_ok of C56)."
  },
  {
   "property": "C84",
   "status": "partial",
   "theorems": [
    "C84_switches",
    "C84_internals",
    "C84_nodes",
    "C84_terminals",
    "C84_retained",
    "C84_bus_ends",
    "C84_merged_bus",
    "C84_merged_bus_unknown",
    "C84_has_equipment_refuted",
    "C84_has_equipment_partial",
    "C84_unset_refuted"
   ],
   "note": "hasAttachedEquipment answers whether the node exists, not whether equipment is attached (C84_has_equipment_refuted, C84_has_equipment_partial). Without a working variant addInternalConnection throws after adding the connection (C84_unset_refuted). The buses at the ends of a switch are right for the histories of C31. Lazy ranges are read as the lists they yield."
  },
  {
   "property": "C85",
   "status": "partial",
   "theorems": [
    "C85_buses",
    "C85_switches",
    "C85_ends",
    "C85_ends_kept",
    "C85_other_level_refuted",
    "C85_mutable_partial",
    "C85_remove_all_buses_refuted"
   ],
   "note": "getBus of a view that is not const finds the buses of other voltage levels too (C85_other_level_refuted, C85_mutable_partial). Histories: merged buses are asked for only when well numbered (C33); removeAllBuses after switches were removed one by one throws having destroyed the buses, which getBuses then reads (C85_remove_all_buses_refuted). The terminals of a bus are in C50 and C51. Lazy ranges are read as the lists they yield."
  },
  {
   "property": "C86",
   "status": "partial",
   "theorems": [
    "C86_switches",
    "C86_buses",
    "C86_bus_view_ids",
    "C86_bus_breaker_view_ids_refuted"
   ],
   "note": "Distinct ids hold for the bus view (C86_bus_view_ids) but not for the bus/breaker view: a configured bus may have been given the id of a calculated bus of another level (C86_bus_breaker_view_ids_refuted). Lazy ranges are read to their end. A working variant is set. Buses are the ids listed; what each contains is in C30, C33 and C85."
  },
  {
   "property": "C87",
   "status": "partial",
   "theorems": [
    "C87_configured",
    "C87_merged_partial",
    "C87_calculated_partial",
    "C87_listed",
    "C87_once",
    "C87_getters",
    "C87_twice_refuted",
    "C87_uncached_calculated",
    "C87_uncached_merged"
   ],
   "note": "\"Once\" is per terminal: a line with both ends on the bus is listed twice by getLines (C87_twice_refuted). Merged and calculated buses: for the histories of C33 and C31 for which cached buses are right, or after any history when the working variant holds no cache (C87_uncached_*), and the bus just obtained. Lazy ranges are read to their end; an equipment is its id with its class."
  }
 ]
}