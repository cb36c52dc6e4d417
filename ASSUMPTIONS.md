# What `Print Assumptions` answers for each theorem

Generated by tools/assumptions.py.

## Closed under the global context

C01_counts_exact, C01_edge_stable, C01_graph_memory_safe, C01_graph_refines_spec, C01_graph_throw_unchanged, C01_vertex_stable, C02_adjacency_exact, C03_traverse_exact, C04_find_all_paths_exact, C04_find_all_paths_total, C05_remove_all_vertices_after_all_edges, C05_remove_all_vertices_partial, C05_remove_all_vertices_refuted, C05_remove_isolated_exact, C06_adjacency_of_branches, C06_components_exact, C06_components_total, C06_three_windings, C07_bookkeeping_consistent, C07_slots_exist_partial, C07_slots_exist_refuted, C08_clone_copies, C08_variants_refine_spec, C08_write_local, C09_remove_exact, C09_remove_refused, C10_duplicate_targets_refuted, C10_failed_clone_safe_refuted, C10_failed_clone_single_partial, C10_failed_clone_then_remove_refuted, C10_failed_clone_unchanged_refuted, C10_failed_clone_values_partial, C11_arrays_aligned_partial, C11_slack_aligned_refuted, C11_slack_reduce_iff, C12_found_by_id, C12_ids_unique, C12_index_refines_spec, C12_names_unambiguous, C12_no_dangling, C12_removed_not_found, C13_alias_no_shadow, C13_alias_resolves, C13_aliases_exact, C13_one_alias_per_type, C13_refused_iff, C13_refused_unchanged, C13_remove_alias, C13_unique_alias, C14_move_keeps_ids_partial, C14_move_keeps_names_refuted, C14_move_loses_aliases, C15_failed_set_low_refuted, C15_set_low_keeps_current_step, C15_tap_in_range_partial, C15_tap_in_range_refuted, C16_deadband_always, C16_failed_setter_changes_nothing, C16_ltc_capability_refuted, C16_regulating_ratio_configured_partial, C16_setters_memory_safe, C16_terminal_refuted, C17_adder_checks_working_variant, C17_adder_other_variant_refuted, C17_at_most_one_regulating_partial, C17_set_regulating_refuted, C17_tap_changers_of_transformer, C18_mode_refuted, C18_regulating_phase_configured_partial, C18_set_regulating_refuted, C19_count_in_range_partial, C19_count_in_range_refuted, C19_linear_values, C19_no_section_refuted, C19_nonlinear_values, C20_battery_adder, C20_battery_consistent, C20_battery_setter, C20_dangling_generation_adder, C20_dangling_generation_consistent_partial, C20_dangling_generation_refuted, C20_dangling_generation_setter, C20_generator_adder, C20_generator_consistent, C20_generator_setter, C20_hvdc_adder, C20_hvdc_consistent, C20_hvdc_setter, C20_lcc_adder, C20_lcc_consistent, C20_lcc_setter, C20_load_adder, C20_load_consistent, C20_load_setter, C20_shunt_consistent, C20_shunt_failed_setter, C20_svc_adder, C20_svc_consistent, C20_svc_setter, C20_voltage_level_adder, C20_voltage_level_consistent, C20_voltage_level_setter, C20_vsc_adder, C20_vsc_consistent, C20_vsc_setter, C21_at_point, C21_between, C21_bounds_in_order, C21_continuous, C21_infinite_bounds_refuted, C21_outside, C21_total, C22_accepted_well_formed, C22_add, C22_bounds_order_refuted, C22_end_point, C22_min_max, C23_above_last_refuted, C23_duration, C23_duration_antitone_partial, C23_duration_reached, C23_no_overload_partial, C23_overloaded, C23_temporary_limit, C24_accepted, C24_add, C24_end_partial, C24_ensured, C24_lost_limit_refuted, C25_code_numbers, C25_empty_and_unknown, C25_injective_reversible, C25_read_then_anonymize_refuted, C25_round_trip_partial, C25_separator_refuted, C26_unique_id_fresh, C26_unique_id_fuel_irrelevant, C27_default, C27_find, C27_strict_weak_order, C28_defined, C28_equality_refuted, C28_flattened, C29_first_pass_partial, C29_later_passes, C29_second_pass_refuted, C29_voltage_level_first, C30_bus_of_node, C30_buses, C30_same_bus, C30_terminals, C30_uncached_buses, C30_uncached_same, C31_add_switch_refuted, C31_attach_unset_refuted, C31_bus_breaker_add_switch_refuted, C31_bus_breaker_remove_switch_refuted, C31_clone_refreshed, C31_connect_refreshed, C31_fresh_partial, C31_internal_connection_refuted, C31_memory_safe, C31_refreshed, C31_remove_switch_refuted, C32_connect_connected_partial, C32_connect_partial, C32_connect_refuted, C32_connect_route, C32_disconnect, C32_disconnect_connected_refuted, C32_disconnect_false_refuted, C32_only_breakers, C33_any_cache_memory_safe, C33_dangling_bus_refuted, C33_ids_partial, C33_members_partial, C33_memory_safe_partial, C33_memory_safe_refuted, C33_merged_partial, C33_out_of_bounds, C33_refreshed, C33_remove_all_buses_refuted, C33_same_partial, C33_terminal_bus_partial, C33_terminals_partial, C33_uncached_members, C33_uncached_merged, C33_uncached_same, C33_uncached_terminals, C34_add_line_when, C34_consistent_partial, C34_dangling_line_refuted, C34_effects_partial, C34_same_station_refuted, C34_shared_station_refuted, C34_used_station_kept, C35_bus_breaker_refuted, C35_equipment, C35_internal_refuted, C35_iterator_refuted, C35_refused, C35_removed_partial, C35_station, C35_three_refuted, C37_by_name_safe, C37_dangling_refuted, C37_failed_add, C37_failed_add_refuted, C37_first_by_type_refuted, C37_lookup_partial, C37_memory_safe_partial, C38_current, C38_injective, C38_lossless, C38_roundtrip, C39_loud_partial, C39_order, C39_partition, C39_runs, C39_silent_refuted, C39_supported, C39_unreadable_refuted, C39_uri, C40_hidden_partial, C40_leak_refuted, C40_roundtrip_partial, C40_switch, C40_switch_refuted, C41_finite, C41_order_partial, C41_sum_partial, C41_undefined_refuted, C42_names, C42_read, C42_set_previous, C43_children_partial, C43_descendants_refuted, C43_nested, C43_next, C43_skip_iff_partial, C43_skip_refuted, C44_creation, C44_setters, C44_sums, C45_component_buses_partial, C45_current_partial, C45_hvdc_added_refuted, C45_hvdc_removed_refuted, C45_internal_refuted, C45_switch_added_refuted, C45_switch_removed_refuted, C45_terminal_partial, C46_isolated_partial, C46_other_network_refuted, C46_recycled_refuted, C46_removed_refuted, C46_reopened_refuted, C46_selection_own, C46_tls_own, C46_unset, C47_move_keeps_partial, C47_move_keeps_refuted, C48_foreach_unset_refuted, C48_foreach_variant, C49_section_setters_always_throw, C49_section_setters_refuted, C50_creation_any_cache_partial, C50_creation_partial, C50_failed_creation_refuted, C51_consistent, C51_consistent_any_cache, C51_other_variant_refuted, C51_set_connectable_any_cache_partial, C51_set_connectable_partial, C52_move_partial, C52_move_refuted, C53_bus, C53_bus_refuted, C54_bool, C54_bool_words, C54_double_words, C54_int, C54_long, C54_unsigned_long, C55_bus_breaker_refuted, C55_exact, C55_node_breaker, C55_sound, C55_twice_refuted, C56_complete, C56_export, C56_merged_refuted, C56_network_refuted, C56_readable_refuted, C56_roundtrip, C56_slack_refuted, C57_equivalent, C57_equivalent_exists, C57_nodes_by_bus_partial, C57_stale_refuted, C57_together_partial, C58_add_refuted, C58_attach, C58_empty_refuted, C58_local_partial, C58_remove_refuted, C58_slack_partial, C59_bus_view_terminals, C59_configured_refuted, C59_inside, C59_lost_refuted, C59_merged_partial, C59_merged_refused, C59_neighbour_refuted, C59_outwards_refuted, C59_read, C59_refused, C59_set_get_partial, C59_uncached_merged, C60_bus_gained_refuted, C60_bus_lost_refuted, C60_bus_view_partial, C60_connectable_partial, C60_copy_partial, C60_ids_refuted, C60_merged_partial, C60_merged_refuted, C60_no_bus_refuted, C61_attached_partial, C61_create, C61_fail, C61_ghost_refuted, C61_half_line_refuted, C61_link_ends, C61_links_kept, C61_no_terminal_refuted, C61_owned, C61_remove_partial, C61_removed_refuted, C61_round_trip_partial, C61_stuck_refuted, C62_add, C62_add_answer_partial, C62_add_answer_refuted, C62_change, C62_discrete_add, C62_discrete_change, C62_discrete_fits, C62_discrete_ids, C62_discrete_remove, C62_discrete_type_refuted, C62_discrete_unknown_refuted, C62_discrete_value, C62_export_partial, C62_ids, C62_remove, C62_roundtrip_partial, C62_roundtrip_refuted, C62_side_refuted, C62_sides, C62_types, C62_valid_partial, C62_valid_refuted, C63_create, C63_dangling_refuted, C63_defined, C63_foreign_refuted, C63_frame, C63_live_partial, C63_local, C63_local_ratio_partial, C63_network_refuted, C63_set, C63_tap_add, C63_tap_set, C63_xml, C63_xml_refuted, C64_everything, C64_kept, C64_kept_equipments_refuted, C64_main_component_refuted, C65_bus_breaker_refuted, C65_refused, C65_skipped, C65_topology, C65_values_partial, C66_bus_breaker_partial, C66_bus_breaker_refuted, C66_bus_view_partial, C66_configured, C66_dangling, C66_safe, C67_destroyed, C67_given, C67_kept, C68_bus_level, C68_calculated_partial, C68_calls, C68_configured, C68_connectable_refuted, C68_merged_partial, C68_node_level, C68_terminals, C68_uncached_calculated, C68_uncached_merged, C68_uncached_merged_all, C69_again, C69_dangling_refuted, C69_kept, C69_load, C69_loaded, C69_order, C69_register, C69_safe_partial, C70_country, C70_hvdc_type_refuted, C70_identifier_partial, C70_roundtrip, C71_bus, C71_bus_branch_partial, C71_equipment_partial, C71_isolated_refuted, C71_level, C71_refused, C71_variant_refuted, C72_adder, C72_consistent, C72_detail_variants, C72_feeders, C72_setter, C73_adder, C73_busbar, C73_consistent, C73_frozen, C73_leg_attribute_refuted, C73_minmax, C73_others, C73_ratedU0_partial, C73_ratedU0_refuted, C73_setter, C73_step_refuted, C74_add, C74_all, C74_checks, C74_dangling_refuted, C74_get, C74_one, C74_permanent, C74_proper, C74_reactive, C74_reactive_one, C75_constructor, C75_defaults, C75_empty_list_refuted, C75_export, C75_has_one, C75_has_one_refuted, C75_ignored_refuted, C75_import, C75_refused, C75_selected, C75_setters, C75_spaces_refuted, C75_unambiguous, C75_version, C75_version_accepted, C75_versions, C76_anonymized, C76_failed_refuted, C76_others, C76_plain, C76_renamed_refuted, C76_self_refuted, C76_shared_refuted, C76_stale_refuted, C76_table, C78_clone, C78_history, C78_slack_refuted, C79_powers, C79_refused, C80_format, C80_log_partial, C80_log_refuted, C80_lookup, C80_record, C80_register, C80_sites_partial, C80_sites_refuted, C81_collections, C81_connectables, C81_countries, C81_defined, C81_level, C81_level_get, C81_sides, C81_subclass, C81_substation, C81_terminal_alias_refuted, C81_terminal_at, C82_attributes, C82_columns, C82_elements, C82_logged_refuted, C82_renamed, C82_values, C82_written_partial, C83_attested, C83_distinct, C83_extension, C83_only, C84_bus_ends, C84_has_equipment_partial, C84_has_equipment_refuted, C84_internals, C84_merged_bus, C84_merged_bus_unknown, C84_nodes, C84_retained, C84_switches, C84_terminals, C84_unset_refuted, C85_buses, C85_ends, C85_ends_kept, C85_mutable_partial, C85_other_level_refuted, C85_remove_all_buses_refuted, C85_switches, C86_bus_breaker_view_ids_refuted, C86_bus_view_ids, C86_buses, C86_switches, C87_calculated_partial, C87_configured, C87_getters, C87_listed, C87_merged_partial, C87_once, C87_twice_refuted, C87_uncached_calculated, C87_uncached_merged

## `ClassicalDedekindReals.sig_forall_dec`, `ClassicalDedekindReals.sig_not_dec`, `Classical_Prop.classic`, `FunctionalExtensionality.functional_extensionality_dep`

C36_dangling_line, C36_equations, C36_involution, C36_line, C36_parts, C36_transformer, C36_unique, C36_zero_impedance, C41_rounding_refuted, C44_boundaries, C54_attribute, C54_double, C54_nearest, C54_subnormal_refuted, C54_text, C77_half_line, C77_joined, C77_load, C77_losses, C77_state, C77_undefined, C77_unsplit_refuted

## `ClassicalDedekindReals.sig_forall_dec`, `ClassicalDedekindReals.sig_not_dec`, `FunctionalExtensionality.functional_extensionality_dep`

C79_apparent, C79_current_partial, C79_current_refuted, C79_defined, C79_direction_refuted, C79_duration_refuted, C79_invented_refuted, C79_missed_refuted, C79_overload_partial, C79_shunt_refuted, C79_voltage

## `ClassicalDedekindReals.sig_forall_dec`, `FunctionalExtensionality.functional_extensionality_dep`

C44_series_partial, C44_series_refuted
