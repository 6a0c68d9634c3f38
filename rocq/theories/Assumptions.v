(** Generated by tools/gen.py: the assumptions of every property theorem. *)
From Verif Require Import PropsAgain PropsBoth PropsCli PropsCmds PropsConc PropsConcSame PropsDate PropsDirs PropsDump PropsDynamic PropsEmbed PropsErrors PropsExHttp PropsExamples PropsFields PropsFiles PropsHandles PropsHeaders PropsHttp PropsHttpSame PropsJson PropsLayers PropsLayersHttp PropsLinks PropsMain PropsMaps PropsMapsJson PropsMarshal PropsNil PropsPack PropsPackage PropsPage PropsParser PropsParserApi PropsPaths PropsPrecond PropsProject PropsQuote PropsRangeText PropsReaddir PropsRequests PropsSame PropsSerial PropsServed PropsShare PropsSource PropsStd PropsSys PropsTime PropsUnquote PropsWalk.

Print Assumptions C01_roundtrip.
Print Assumptions C01_read_all.
Print Assumptions C02_eof_partial.
Print Assumptions C02_eof_empty_refuted.
Print Assumptions C03_C04_cursor_snapshot.
Print Assumptions C03_empty.
Print Assumptions C03_empty_refuted.
Print Assumptions C04_info_snapshot.
Print Assumptions C05_invisible_before_close.
Print Assumptions C05_only_close_publishes.
Print Assumptions C06_open_read_only.
Print Assumptions C07_refuted.
Print Assumptions C08_size.
Print Assumptions C09_open_stat.
Print Assumptions C10_stat_stable_partial.
Print Assumptions C10_stat_refuted.
Print Assumptions C100_mem.
Print Assumptions C100_disk.
Print Assumptions C101_no_crash_partial.
Print Assumptions C101_own_payload.
Print Assumptions C101_stat.
Print Assumptions C101_walk.
Print Assumptions C101_same.
Print Assumptions C101_open_refuted.
Print Assumptions C102_makers.
Print Assumptions C102_rest.
Print Assumptions C103_once_refuted.
Print Assumptions C103_removed_partial.
Print Assumptions C103_rest.
Print Assumptions C103_all.
Print Assumptions C104_walk_partial.
Print Assumptions C104_removed_refuted.
Print Assumptions C105_refuted.
Print Assumptions C106_readers.
Print Assumptions C106_content.
Print Assumptions C107_refuted.
Print Assumptions C108_afresh.
Print Assumptions C109_once_partial.
Print Assumptions C109_agree.
Print Assumptions C109_refuted.
Print Assumptions C109_error_refuted.
Print Assumptions C11_remove.
Print Assumptions C110_same.
Print Assumptions C110_refuses.
Print Assumptions C111_pkger_calls_partial.
Print Assumptions C111_renamed_refuted.
Print Assumptions C111_shadowed_refuted.
Print Assumptions C112_partial.
Print Assumptions C112_fresh_partial.
Print Assumptions C112_packed_partial.
Print Assumptions C112_refuted.
Print Assumptions C113_partial.
Print Assumptions C113_fresh_partial.
Print Assumptions C113_packed_partial.
Print Assumptions C113_refuted.
Print Assumptions C114_links.
Print Assumptions C114_follow_partial.
Print Assumptions C115_date.
Print Assumptions C115_unique.
Print Assumptions C115_revalidate_partial.
Print Assumptions C115_far_refuted.
Print Assumptions C115_left_out.
Print Assumptions C116_round_partial.
Print Assumptions C116_order.
Print Assumptions C116_keys.
Print Assumptions C116_panics.
Print Assumptions C116_refuted.
Print Assumptions C117_never.
Print Assumptions C117_null_refuted.
Print Assumptions C118_whole.
Print Assumptions C118_rest.
Print Assumptions C119_text.
Print Assumptions C119_again.
Print Assumptions C12_refuted.
Print Assumptions C120_only.
Print Assumptions C120_written.
Print Assumptions C120_same_partial.
Print Assumptions C120_time_refuted.
Print Assumptions C121_null.
Print Assumptions C121_zero.
Print Assumptions C122_base64.
Print Assumptions C122_written.
Print Assumptions C123_mem.
Print Assumptions C123_handle.
Print Assumptions C123_disk.
Print Assumptions C123_create_refuted.
Print Assumptions C124_open.
Print Assumptions C124_refuted.
Print Assumptions C124_disk.
Print Assumptions C124_walk.
Print Assumptions C125_partial.
Print Assumptions C125_fresh_partial.
Print Assumptions C125_packed_partial.
Print Assumptions C125_refuted.
Print Assumptions C126_pages.
Print Assumptions C126_all.
Print Assumptions C127_partial.
Print Assumptions C127_get_partial.
Print Assumptions C127_nowhere.
Print Assumptions C127_refuted.
Print Assumptions C128_partial.
Print Assumptions C128_fresh_partial.
Print Assumptions C128_packed_partial.
Print Assumptions C128_refuted.
Print Assumptions C129_call.
Print Assumptions C129_turns.
Print Assumptions C129_apart.
Print Assumptions C13_remove_all_partial.
Print Assumptions C13_refuted.
Print Assumptions C130_keys.
Print Assumptions C130_array.
Print Assumptions C130_values.
Print Assumptions C131_read.
Print Assumptions C131_written.
Print Assumptions C132_partial.
Print Assumptions C132_same_partial.
Print Assumptions C132_needs.
Print Assumptions C132_none.
Print Assumptions C132_refuted.
Print Assumptions C132_directory_refuted.
Print Assumptions C133_partial.
Print Assumptions C133_lock.
Print Assumptions C133_refuted.
Print Assumptions C133_directory_refuted.
Print Assumptions C134_alone.
Print Assumptions C134_kept.
Print Assumptions C135_undisturbed.
Print Assumptions C135_below.
Print Assumptions C135_requests.
Print Assumptions C135_dirs.
Print Assumptions C135_torn_refuted.
Print Assumptions C136_conditions_partial.
Print Assumptions C136_index_partial.
Print Assumptions C136_pages_partial.
Print Assumptions C136_none.
Print Assumptions C136_missing_partial.
Print Assumptions C136_same_partial.
Print Assumptions C137_resume_partial.
Print Assumptions C137_mixed_refuted.
Print Assumptions C138_served_partial.
Print Assumptions C138_sources_partial.
Print Assumptions C139_date.
Print Assumptions C139_imf.
Print Assumptions C139_rfc850.
Print Assumptions C139_asctime.
Print Assumptions C139_obsolete.
Print Assumptions C139_dates.
Print Assumptions C139_two_digits_refuted.
Print Assumptions C139_tags.
Print Assumptions C139_star.
Print Assumptions C139_old_none.
Print Assumptions C139_old_none_refuted.
Print Assumptions C139_if_range.
Print Assumptions C139_if_range_tag.
Print Assumptions C139_headers_partial.
Print Assumptions C139_same_partial.
Print Assumptions C139_lenient_refuted.
Print Assumptions C14_success_partial.
Print Assumptions C14_exact.
Print Assumptions C14_failure.
Print Assumptions C14_replaces_directory_refuted.
Print Assumptions C14_below_file_refuted.
Print Assumptions C140_element.
Print Assumptions C140_header.
Print Assumptions C140_any_partial.
Print Assumptions C140_unit_refuted.
Print Assumptions C140_zero_refuted.
Print Assumptions C141_clean.
Print Assumptions C141_idempotent.
Print Assumptions C141_leads.
Print Assumptions C141_join.
Print Assumptions C141_names.
Print Assumptions C141_split.
Print Assumptions C141_dir.
Print Assumptions C141_base.
Print Assumptions C141_nowhere_refuted.
Print Assumptions C142_only.
Print Assumptions C142_exact.
Print Assumptions C142_one.
Print Assumptions C142_surrogate_refuted.
Print Assumptions C142_apostrophe_refuted.
Print Assumptions C142_bytes_refuted.
Print Assumptions C143_open_partial.
Print Assumptions C143_stat_partial.
Print Assumptions C143_walk_partial.
Print Assumptions C143_missing.
Print Assumptions C143_empty_refuted.
Print Assumptions C143_order_refuted.
Print Assumptions C143_prefix_refuted.
Print Assumptions C144_same.
Print Assumptions C144_packing.
Print Assumptions C144_files_partial.
Print Assumptions C144_exact.
Print Assumptions C144_map.
Print Assumptions C144_text_refuted.
Print Assumptions C145_again.
Print Assumptions C145_same_partial.
Print Assumptions C145_refuted.
Print Assumptions C146_served_partial.
Print Assumptions C146_http_partial.
Print Assumptions C146_dev_partial.
Print Assumptions C146_refuted.
Print Assumptions C147_again.
Print Assumptions C147_twice.
Print Assumptions C147_list.
Print Assumptions C147_killed.
Print Assumptions C147_list_killed.
Print Assumptions C147_else.
Print Assumptions C147_refuted.
Print Assumptions C148_whole.
Print Assumptions C148_short_refuted.
Print Assumptions C15_target.
Print Assumptions C15_C46_ancestors_partial.
Print Assumptions C15_root_refuted.
Print Assumptions C15_package_refuted.
Print Assumptions C16_others_partial.
Print Assumptions C16_targets.
Print Assumptions C16_clobbers_file_refuted.
Print Assumptions C16_existing_dir_refuted.
Print Assumptions C17_terminates_partial.
Print Assumptions C17_diverges_refuted.
Print Assumptions C18_walk_partial.
Print Assumptions C18_listing.
Print Assumptions C18_subtree_partial.
Print Assumptions C18_root.
Print Assumptions C18_order_partial.
Print Assumptions C18_prefix_refuted.
Print Assumptions C18_order_refuted.
Print Assumptions C19_skip_partial.
Print Assumptions C19_tree_partial.
Print Assumptions C19_refuted.
Print Assumptions C20_first_error.
Print Assumptions C20_nil.
Print Assumptions C21_children_partial.
Print Assumptions C21_children_unique.
Print Assumptions C21_refuted.
Print Assumptions C22_at_most_partial.
Print Assumptions C22_never_eof.
Print Assumptions C22_refuted.
Print Assumptions C23_C55_contained_partial.
Print Assumptions C23_C55_http_partial.
Print Assumptions C23_backslash_refuted.
Print Assumptions C23_colon_refuted.
Print Assumptions C23_package_refuted.
Print Assumptions C23_mkdir_package_refuted.
Print Assumptions C24_most_recent.
Print Assumptions C24_first_success.
Print Assumptions C25_in_order.
Print Assumptions C25_nil_iff.
Print Assumptions C26_no_layer_lost.
Print Assumptions C26_each_applied.
Print Assumptions C26_grows.
Print Assumptions C26_current_during_call.
Print Assumptions C27_error_installs_nothing.
Print Assumptions C27_disk.
Print Assumptions C27_no_disk.
Print Assumptions C27_disk_during_call.
Print Assumptions C27_panics.
Print Assumptions C28_round_trip.
Print Assumptions C28_decode_fails.
Print Assumptions C28_decode_hex.
Print Assumptions C29_payload_intact.
Print Assumptions C29_payload_characters.
Print Assumptions C30_answers_partial.
Print Assumptions C30_canonical.
Print Assumptions C30_refuted.
Print Assumptions C31_deterministic_partial.
Print Assumptions C31_any_order_partial.
Print Assumptions C31_refuted.
Print Assumptions C32_round_trip_partial.
Print Assumptions C32_late_year_refuted.
Print Assumptions C32_zone_seconds_refuted.
Print Assumptions C33_listed_once_sorted_existing.
Print Assumptions C34_complete_partial.
Print Assumptions C34_complete_spelled_partial.
Print Assumptions C34_qualified_refuted.
Print Assumptions C34_below_refuted.
Print Assumptions C34_root_module_refuted.
Print Assumptions C35_order_irrelevant_partial.
Print Assumptions C35_order_matters_refuted.
Print Assumptions C35_discovery_order_partial.
Print Assumptions C36_found.
Print Assumptions C36_found_partial.
Print Assumptions C36_errors_lost_refuted.
Print Assumptions C36_no_argument_refuted.
Print Assumptions C36_nested_lost_refuted.
Print Assumptions C37_no_crash_partial.
Print Assumptions C37_other_file_refuted.
Print Assumptions C37_repeated_const_refuted.
Print Assumptions C37_cycle_refuted.
Print Assumptions C38_ignored.
Print Assumptions C38_visits_exact_partial.
Print Assumptions C38_visits_partial.
Print Assumptions C38_prefix_refuted.
Print Assumptions C38_root_refuted.
Print Assumptions C39_faithful_partial.
Print Assumptions C39_succeeds_partial.
Print Assumptions C39_declared_partial.
Print Assumptions C39_empty_file_refuted.
Print Assumptions C39_sub_package_refuted.
Print Assumptions C39_overwritten_refuted.
Print Assumptions C40_no_tmp_partial.
Print Assumptions C40_refuted.
Print Assumptions C41_contents_partial.
Print Assumptions C41_exact_partial.
Print Assumptions C41_declared_partial.
Print Assumptions C41_listed_not_packed_refuted.
Print Assumptions C41_packed_not_listed_refuted.
Print Assumptions C42_final_partial.
Print Assumptions C42_crash_refuted.
Print Assumptions C42_every_prefix.
Print Assumptions C42_stuff_error.
Print Assumptions C42_stuff_error_refuted.
Print Assumptions C43_reported_partial.
Print Assumptions C43_write.
Print Assumptions C43_write_refuted.
Print Assumptions C43_panic.
Print Assumptions C43_panic_refuted.
Print Assumptions C44_used_partial.
Print Assumptions C44_nothing_lost_partial.
Print Assumptions C44_no_crash.
Print Assumptions C44_first_alone_partial.
Print Assumptions C44_refuted.
Print Assumptions C45_stale_handle.
Print Assumptions C46_dir_partial.
Print Assumptions C46_mode_refuted.
Print Assumptions C47_spellings_partial.
Print Assumptions C47_name_partial.
Print Assumptions C47_dir_prefix_refuted.
Print Assumptions C48_create.
Print Assumptions C48_open_stat.
Print Assumptions C48_remove.
Print Assumptions C48_remove_all.
Print Assumptions C48_mkdir_partial.
Print Assumptions C48_mkdir_plain_partial.
Print Assumptions C48_mkdir_refuted.
Print Assumptions C49_partial.
Print Assumptions C49_current_partial.
Print Assumptions C49_refuted.
Print Assumptions C50_answers.
Print Assumptions C50_once.
Print Assumptions C50_stable.
Print Assumptions C51_walk_partial.
Print Assumptions C51_walk_here_partial.
Print Assumptions C51_names_partial.
Print Assumptions C51_refuted.
Print Assumptions C52_dispatch.
Print Assumptions C52_bad_options.
Print Assumptions C52_no_arguments.
Print Assumptions C52_subcommand.
Print Assumptions C52_unknown.
Print Assumptions C53_mem_partial.
Print Assumptions C53_refuted.
Print Assumptions C53_std_partial.
Print Assumptions C53_text.
Print Assumptions C54_files_partial.
Print Assumptions C54_walk_partial.
Print Assumptions C54_empty_refuted.
Print Assumptions C54_zero_read_refuted.
Print Assumptions C54_order_refuted.
Print Assumptions C55_own_path_refuted.
Print Assumptions C56_missing_root.
Print Assumptions C56_missing_root_refuted.
Print Assumptions C57_skip_file_refuted.
Print Assumptions C58_own_package_partial.
Print Assumptions C58_own_package_refuted.
Print Assumptions C59_created_name_partial.
Print Assumptions C59_created_name_refuted.
Print Assumptions C60_colon_refuted.
Print Assumptions C61_all_layers_partial.
Print Assumptions C61_lower_only_refuted.
Print Assumptions C61_error_after_removal_refuted.
Print Assumptions C62_layer_by_layer_partial.
Print Assumptions C62_twice_refuted.
Print Assumptions C63_top_partial.
Print Assumptions C63_older_file_refuted.
Print Assumptions C64_no_deadlock.
Print Assumptions C64_terminates.
Print Assumptions C65_utf8.
Print Assumptions C65_json.
Print Assumptions C65_text_survives.
Print Assumptions C65_bytes_lost_refuted.
Print Assumptions C66_null.
Print Assumptions C66_null_refuted.
Print Assumptions C66_no_other_panic_partial.
Print Assumptions C66_total.
Print Assumptions C66_only_null.
Print Assumptions C67_remarshal.
Print Assumptions C68_end_to_end.
Print Assumptions C69_own_module_partial.
Print Assumptions C69_own_module_refuted.
Print Assumptions C70_include_like_source_partial.
Print Assumptions C70_include_like_source_refuted.
Print Assumptions C71_every.
Print Assumptions C71_literal_value.
Print Assumptions C72_includes.
Print Assumptions C72_removed.
Print Assumptions C72_else.
Print Assumptions C72_removed_refuted.
Print Assumptions C73_previous_output.
Print Assumptions C73_previous_output_refuted.
Print Assumptions C73_replaced_partial.
Print Assumptions C74_flags.
Print Assumptions C74_dropped.
Print Assumptions C74_dropped_refuted.
Print Assumptions C75_status_partial.
Print Assumptions C75_tidied_partial.
Print Assumptions C75_exit_refuted.
Print Assumptions C75_status.
Print Assumptions C75_tidied.
Print Assumptions C75_status_2.
Print Assumptions C76_create.
Print Assumptions C76_remove.
Print Assumptions C76_remove_all.
Print Assumptions C76_mkdir.
Print Assumptions C76_failure.
Print Assumptions C77_frozen.
Print Assumptions C77_fresh.
Print Assumptions C77_refuted.
Print Assumptions C78_found_partial.
Print Assumptions C78_refuted.
Print Assumptions C79_calls_served_partial.
Print Assumptions C79_refuted.
Print Assumptions C80_reproducible_partial.
Print Assumptions C80_order_refuted.
Print Assumptions C81_only_declared.
Print Assumptions C82_unreadable_source.
Print Assumptions C82_nothing_lost.
Print Assumptions C83_info.
Print Assumptions C83_complete.
Print Assumptions C84_paths.
Print Assumptions C84_all_or_nothing.
Print Assumptions C85_parse.
Print Assumptions C85_all_or_nothing.
Print Assumptions C86_stat.
Print Assumptions C86_string.
Print Assumptions C87_text_partial.
Print Assumptions C87_json.
Print Assumptions C87_array.
Print Assumptions C87_failure.
Print Assumptions C87_text_refuted.
Print Assumptions C88_serve_ignores.
Print Assumptions C88_serve_refuted.
Print Assumptions C89_place.
Print Assumptions C89_only_output.
Print Assumptions C89_output.
Print Assumptions C89_succeeds.
Print Assumptions C90_packs_itself_refuted.
Print Assumptions C90_not_packed_partial.
Print Assumptions C91_backslash_refuted.
Print Assumptions C91_package_refuted.
Print Assumptions C91_inside_partial.
Print Assumptions C92_get_partial.
Print Assumptions C92_size_refuted.
Print Assumptions C93_range_partial.
Print Assumptions C93_empty_refuted.
Print Assumptions C94_list_partial.
Print Assumptions C94_index_partial.
Print Assumptions C94_redirect_partial.
Print Assumptions C94_own_path_refuted.
Print Assumptions C94_prefix_refuted.
Print Assumptions C95_same_partial.
Print Assumptions C95_disk_partial.
Print Assumptions C95_clash_refuted.
Print Assumptions C96_since_partial.
Print Assumptions C96_fraction_refuted.
Print Assumptions C96_epoch_refuted.
Print Assumptions C97_closed_partial.
Print Assumptions C97_reference.
Print Assumptions C97_leaks.
Print Assumptions C97_refuted.
Print Assumptions C98_missing_partial.
Print Assumptions C98_unreadable_refuted.
Print Assumptions C98_colon_refuted.
Print Assumptions C98_not_a_dir_refuted.
Print Assumptions C99_independent.
