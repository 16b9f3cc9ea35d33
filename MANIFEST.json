{
 "claims": [
  {
   "property": "C01",
   "status": "proved",
   "theorems": [
    "C01_ready_iff_valid_frame_just_ended"
   ],
   "note": "Exact characterisation for every byte history, initial buffer content and signedness of char."
  },
  {
   "property": "C02",
   "status": "proved",
   "theorems": [
    "C02_round_trip",
    "C02_short_frames_fit"
   ],
   "note": "For every history before the frame; fits is the exact buffer condition, implied by a frame of at most 351 bytes."
  },
  {
   "property": "C03",
   "status": "proved",
   "theorems": [
    "C03_accessors_safe_and_independent_of_stale_bytes",
    "C03_one_byte_destination_refuted"
   ],
   "note": "All accessors, at every point of every history; the caller must give get_frame_ascii at least two bytes (counter-example for one byte)."
  },
  {
   "property": "C04",
   "status": "partial",
   "theorems": [
    "C04_detectable_corruption_rejected_partial",
    "C04_undetectable_corruption_accepted",
    "C04_bit6_refuted",
    "C04_second_separator_refuted"
   ],
   "note": "The full claim is false of the code: bit-6 changes and changes of the second separator are accepted (two refuted theorems). The detectable alterations are exactly characterised: rejected iff detectable."
  },
  {
   "property": "C05",
   "status": "proved",
   "theorems": [
    "C05_lookup_is_first_exact_match",
    "C05_group_without_separator_refuted"
   ],
   "note": "For every published frame and label. Separate finding: a group without separator shifts label/value pairs (refuted theorem)."
  },
  {
   "property": "C06",
   "status": "proved",
   "theorems": [
    "C06_integer_of_value",
    "C06_leading_zeros"
   ],
   "note": ""
  },
  {
   "property": "C07",
   "status": "proved",
   "theorems": [
    "C07_published_is_last_valid_frame",
    "C07_published_with_pauses"
   ],
   "note": "Over all histories of bytes; also with pauses, relative to the bytes seen while not paused."
  },
  {
   "property": "C08",
   "status": "proved",
   "theorems": [
    "C08_char_signedness_irrelevant"
   ],
   "note": ""
  },
  {
   "property": "C09",
   "status": "proved",
   "theorems": [
    "C09_ascii_dump_whole_lines",
    "C09_ascii_dump_complete"
   ],
   "note": "Whole lines for every destination size >= 2; completeness when the destination has two bytes more than the frame."
  },
  {
   "property": "C10",
   "status": "partial",
   "theorems": [
    "C10_watt_never_fails",
    "C10_power_is_index_slope_partial",
    "C10_any_consumption",
    "C10_frames_are_determined",
    "C10_overflow_refuted",
    "C10_start_at_second_one_refuted",
    "C10_huge_period_refuted",
    "C10_other_contracts_always_zero"
   ],
   "note": "Safety proved for every history. In normal clock and meter operation the power is exactly characterised for any consumption: the slope if and only if the index moved by at most 1193 Wh in the window (product modulo 2^32 otherwise). The refuted theorems show that overflow, a start at clock second 1 and huge periods break the full claim. Contracts without HCHC/HCHP always give 0."
  },
  {
   "property": "C11",
   "status": "partial",
   "theorems": [
    "C11_dictionary_page_partial",
    "C11_quote_in_value_refuted",
    "C11_empty_value_refuted"
   ],
   "note": "Content of the page proved for every frame and characterised exactly: the page is the intended object if and only if the texts of the frame can be copied in JSON strings and its values are not empty; refuted otherwise (quote in a value, value of dots only)."
  },
  {
   "property": "C12",
   "status": "partial",
   "theorems": [
    "C12_array_page_partial",
    "C12_quote_in_value_refuted"
   ],
   "note": "Content of the page proved for every frame and characterised exactly: the intended array if and only if the texts of the frame can be copied in JSON strings; refuted for a quote in a value."
  },
  {
   "property": "C13",
   "status": "partial",
   "theorems": [
    "C13_config_page_partial",
    "C13_quote_in_setting_refuted"
   ],
   "note": "For every reachable state the /config.json page parses to the object of all settings if and only if the setting texts shown can be copied in a JSON string. Refuted for a stored key containing a quote (texts are not escaped)."
  },
  {
   "property": "C14",
   "status": "partial",
   "theorems": [
    "C14_tariff_change_partial",
    "C14_any_history",
    "C14_long_period_refuted",
    "C14_empty_first_period_refuted"
   ],
   "note": "Exact for every history (C14_any_history): notified if and only if the period differs from the first 7 characters of the one before. So the claim holds for periods of 1 to 7 characters; refuted for 8 characters or more, and for an empty first period."
  },
  {
   "property": "C15",
   "status": "partial",
   "theorems": [
    "C15_thresholds_partial",
    "C15_thresholds_alternate",
    "C15_no_power_refuted"
   ],
   "note": "Hysteresis and strict alternation proved for every history; frames whose power reads as 0 are never notified (refuted)."
  },
  {
   "property": "C16",
   "status": "proved",
   "theorems": [
    "C16_overload_edges"
   ],
   "note": "Every history of frames and configuration changes."
  },
  {
   "property": "C17",
   "status": "proved",
   "theorems": [
    "C17_expansion",
    "C17_request"
   ],
   "note": "Every template made of the documented pieces, every published frame; also at the level of the requests sent."
  },
  {
   "property": "C18",
   "status": "partial",
   "theorems": [
    "C18_only_unsafe_case_partial",
    "C18_no_failure_partial",
    "C18_open_label_refuted"
   ],
   "note": "The only unsafe case is exactly characterised for every configuration reachable through the module's pages, and every other history is shown not to fail; the unsafe case is a real out-of-field read (refuted)."
  },
  {
   "property": "C19",
   "status": "proved",
   "theorems": [
    "C19_requests_are_configured"
   ],
   "note": "Every history; also order and uniqueness of the requests of one frame."
  },
  {
   "property": "C20",
   "status": "proved",
   "theorems": [
    "C20_jeedom_url"
   ],
   "note": "Every history and frame."
  },
  {
   "property": "C21",
   "status": "partial",
   "theorems": [
    "C21_emoncms_url",
    "C21_numeric_partial",
    "C21_periods_have_distinct_codes",
    "C21_text_value_refuted"
   ],
   "note": "Exact URL and payload proved for every history; distinct codes for distinct periods; values of other text labels are not numbers (refuted)."
  },
  {
   "property": "C22",
   "status": "proved",
   "theorems": [
    "C22_save_then_restart_restores_the_configuration",
    "C22_save_always_succeeds"
   ],
   "note": "From every reachable state; the flash write is assumed to take effect (C29, C30 treat the other cases)."
  },
  {
   "property": "C23",
   "status": "proved",
   "theorems": [
    "C23_burst_of_16_bits_gives_factory_settings",
    "C23_two_wrong_bits_give_factory_settings",
    "C23_odd_number_of_wrong_bits_gives_factory_settings"
   ],
   "note": "Also proved: any two wrong bits, and any odd number of wrong bits, are detected."
  },
  {
   "property": "C24",
   "status": "proved",
   "theorems": [
    "C24_blank_flash_gives_factory_settings",
    "C24_blank_flash_unwritable",
    "C24_name"
   ],
   "note": "Also when the flash refuses the writes."
  },
  {
   "property": "C25",
   "status": "proved",
   "theorems": [
    "C25_strings_are_terminated"
   ],
   "note": "Over every history of forms, resets, serial commands, SDK adoption, restarts and flash failures from any flash content."
  },
  {
   "property": "C26",
   "status": "proved",
   "theorems": [
    "C26_posted_settings",
    "C26_no_save_no_change",
    "C26_numbers_in_range",
    "C26_plain_numbers_are_taken"
   ],
   "note": ""
  },
  {
   "property": "C27",
   "status": "proved",
   "theorems": [
    "C27_restricted_form_keeps_wifi_ota_login"
   ],
   "note": ""
  },
  {
   "property": "C28",
   "status": "proved",
   "theorems": [
    "C28_config_page",
    "C28_system_page",
    "C28_files_and_scan_pages",
    "C28_restricted_clients_learn_nothing"
   ],
   "note": "C28_restricted_clients_learn_nothing is the statement for the whole module; the page theorems are its ingredients"
  },
  {
   "property": "C29",
   "status": "partial",
   "theorems": [
    "C29_ok_means_stored_partial",
    "C29_ok_means_stored_refuted"
   ],
   "note": "False of the code when EEPROM.commit() fails (refuted theorem): config_save ignores its result. Proved when the write takes effect."
  },
  {
   "property": "C30",
   "status": "partial",
   "theorems": [
    "C30_power_cut_while_saving_partial",
    "C30_power_cut_while_saving_refuted"
   ],
   "note": "Proved except for a cut image whose 16-bit CRC is right by coincidence; the refuted theorem exhibits a form and a cut for which this happens."
  },
  {
   "property": "C31",
   "status": "partial",
   "theorems": [
    "C31_tool_image_is_accepted",
    "C31_tool_image_has_these_settings",
    "C31_tool_refuses_other_numbers",
    "C31_saved_image_is_read_partial",
    "C31_tool_reads_its_own_image",
    "C31_saved_image_is_read_refuted",
    "C31_cut_utf8_text_refuted",
    "C31_utf8",
    "C31_read_exactly_utf8"
   ],
   "note": "Tool to firmware proved. Firmware to tool proved in ordinary use exactly when the texts are UTF-8 (C31_read_exactly_utf8; C31_utf8 ties the decoder to the definition of UTF-8); refuted after adopting an open SDK network (stale key bytes) and for texts cut inside a UTF-8 character."
  },
  {
   "property": "C32",
   "status": "partial",
   "theorems": [
    "C32_no_access_partial",
    "C32_no_access_repeated_partial",
    "C32_challenge",
    "C32_configuration_changes",
    "C32_many_arguments_refuted"
   ],
   "note": "proved for requests with less than 256 arguments; with more, a client without credentials blocks the server (C32_many_arguments_refuted). Uploads are C33"
  },
  {
   "property": "C33",
   "status": "partial",
   "theorems": [
    "C33_upload_refuted",
    "C33_no_other_page_partial"
   ],
   "note": "false: the upload is written before the credentials are checked (C33_upload_refuted); proved: no other page writes, and only a fully authorised client restarts into the update"
  },
  {
   "property": "C34",
   "status": "partial",
   "theorems": [
    "C34_label_partial",
    "C34_special_names_partial",
    "C34_open_device_refuted"
   ],
   "note": "proved when the credentials sent are accepted; false for a module without a login (C34_open_device_refuted)"
  },
  {
   "property": "C35",
   "status": "partial",
   "theorems": [
    "C35_not_found_partial",
    "C35_many_arguments_refuted"
   ],
   "note": "proved for less than 256 arguments and a client without credentials (the other clients: C34); never sent with 256 or more"
  },
  {
   "property": "C36",
   "status": "proved",
   "theorems": [
    "C36_at_most_two_clients",
    "C36_requests"
   ],
   "note": "PropDevice.v; streams counted on the emitted effects, over every sequence of requests, polls and broadcasts with any pattern of disconnections"
  },
  {
   "property": "C37",
   "status": "proved",
   "theorems": [
    "C37_delivery",
    "C37_only_opened_streams"
   ],
   "note": "PropDevice.v; per stream, exactly the broadcasts between its opening and the first poll or broadcast that finds it disconnected; one close, no use after delete"
  },
  {
   "property": "C38",
   "status": "proved",
   "theorems": [
    "C38_no_end_of_line",
    "C38_one_event_per_broadcast"
   ],
   "note": "PropDevice.v; the dictionary has no CR or LF for any published frame (the printed date is an oracle, assumed without them), and a browser's event-stream parser gets back the broadcasts"
  },
  {
   "property": "C39",
   "status": "partial",
   "theorems": [
    "C39_round_trip_partial",
    "C39_end_of_partition_refuted",
    "C39_long_name_refuted"
   ],
   "note": "proved for names of at most 63 bytes placed at least 63 bytes before the end of the partition; refuted otherwise (the file is never found)"
  },
  {
   "property": "C40",
   "status": "partial",
   "theorems": [
    "C40_absent_file_partial",
    "C40_long_name_refuted",
    "C40_empty_path_refuted"
   ],
   "note": "proved for images whose names have at most 63 bytes and for non-empty paths; refuted for a 64-byte name (its prefix is found) and for the path '/'"
  },
  {
   "property": "C41",
   "status": "proved",
   "theorems": [
    "C41_any_reads"
   ],
   "note": "any series of reads and seeks, any sizes, any buffer alignment; C39_round_trip_partial gives the hypothesis for every packed file"
  },
  {
   "property": "C42",
   "status": "proved",
   "theorems": [
    "C42_position"
   ],
   "note": "on any file of any image; C41_any_reads gives the exact target for packed files"
  },
  {
   "property": "C43",
   "status": "proved",
   "theorems": [
    "C43_accounting"
   ],
   "note": "both outcomes exactly characterised, and the exception outcome"
  },
  {
   "property": "C44",
   "status": "partial",
   "theorems": [
    "C44_built_image_partial",
    "C44_mount",
    "C44_any_image_partial",
    "C44_bad_image_refuted"
   ],
   "note": "proved for images made by the tool; refuted for a hand-made image (the bound check wraps around)"
  },
  {
   "property": "C45",
   "status": "partial",
   "theorems": [
    "C45_directory_partial",
    "C45_end_of_partition_refuted",
    "C45_walk_partial",
    "C45_other_directory"
   ],
   "note": "proved with the same restriction on names as C39, for the listing and for any series of calls on the directory; refuted near the end of the partition (stale name listed)"
  },
  {
   "property": "C46",
   "status": "proved",
   "theorems": [
    "C46_uptime"
   ],
   "note": "For every counter value below 2^31 s; the 64-byte buffer never overflows for any counter value."
  },
  {
   "property": "C47",
   "status": "partial",
   "theorems": [
    "C47_load_partial",
    "C47_more_iterations_refuted",
    "C47_exactly",
    "C47_page"
   ],
   "note": "exact (C47_exactly): a percentage if and only if the average over ten seconds is at most 85000 iterations; refuted above (the unsigned difference wraps around)"
  },
  {
   "property": "C48",
   "status": "partial",
   "theorems": [
    "C48_startup_partial",
    "C48_key_cut_refuted"
   ],
   "note": "all proved except that the SDK key is stored unchanged: keys longer than 32 are cut (C48_key_cut_refuted)"
  },
  {
   "property": "C49",
   "status": "proved",
   "theorems": [
    "C49_session",
    "C49_commands_are_short",
    "C49_meter_alone",
    "C49_command_leaves_the_rest"
   ],
   "note": "The bytes received divide in exactly one way into meter bytes and commands (specification CliSpec.session, given as an inductive relation); the decoder gets the former, the interpreter the latter; commands have 1 to 128 characters. The interpreter (SimpleCLI) is not modelled."
  },
  {
   "property": "C50",
   "status": "partial",
   "theorems": [
    "C50_pause_outside_the_frame_partial",
    "C50_contiguous_frame_refuted"
   ],
   "note": "The published frame comes from a stretch of the history and is contiguous unless decoding was paused inside that stretch; refuted across a pause (two real frames)."
  },
  {
   "property": "C51",
   "status": "proved",
   "theorems": [
    "C51_decoding_resumes",
    "C51_suspended_iff"
   ],
   "note": "by composition with the decoder: the data shown are the last valid frame among the bytes heard outside uploads"
  },
  {
   "property": "C52",
   "status": "proved",
   "theorems": [
    "C52_one_request_per_period",
    "C52_sse_one_per_period",
    "C52_disabled_service",
    "C52_firing_instants",
    "C52_sse_firing_instants",
    "C52_sse_every_frame"
   ],
   "note": "One request at most per slot of one period for every sequence of polling times (any gap, any wrap of the counter), for the three services and the browser push; a service without host, port or period gets none. Also the exact firing instants when frames are less than 2^32 ms minus a period apart. Periods up to 2^32-2 ms (the form accepts 86400 s)."
  },
  {
   "property": "C53",
   "status": "partial",
   "theorems": [
    "C53_files_page_partial",
    "C53_scan_page_partial",
    "C53_quote_in_ssid_refuted",
    "C53_many_networks_refuted",
    "C53_system_page_partial"
   ],
   "note": "The pages parse to the intended values if and only if the names can be copied in a JSON string, for at most 127 networks; refuted for an SSID with a quote and for 128 networks (int8_t count). Also the /system.json page."
  },
  {
   "property": "C54",
   "status": "proved",
   "theorems": [
    "C54_sizes"
   ],
   "note": "For every 32-bit size; the division is exact arithmetic instead of double."
  },
  {
   "property": "C55",
   "status": "partial",
   "theorems": [
    "C55_undefined_requests_partial",
    "C55_empty_uri_refuted",
    "C55_no_file_system_refuted"
   ],
   "note": "Exact: a request is undefined if and only if its URI is empty and its credentials accepted, or it asks for /system.json with an unmounted file system; both refutations given."
  },
  {
   "property": "C56",
   "status": "proved",
   "theorems": [
    "C56_json_page",
    "C56_array_page"
   ],
   "note": "under the hypothesis of C11/C12 that the texts need no JSON escaping"
  },
  {
   "property": "C57",
   "status": "partial",
   "theorems": [
    "C57_exactly_when",
    "C57_url",
    "C57_frame_refuted",
    "C57_request_refuted",
    "C57_whole_module_partial"
   ],
   "note": "C57_exactly_when gives, for every history without conditions, the exact cases of undefined behaviour and of endless loop (both iff); that these cases exist is the part of the property that is false, refuted by C57_frame_refuted and C57_request_refuted; without them the module never fails (C57_whole_module_partial)"
  },
  {
   "property": "C58",
   "status": "proved",
   "theorems": [
    "C58_streams_are_allowed"
   ],
   "note": ""
  },
  {
   "property": "C59",
   "status": "proved",
   "theorems": [
    "C59_restarts",
    "C59_only_requests"
   ],
   "note": ""
  },
  {
   "property": "C60",
   "status": "proved",
   "theorems": [
    "C60_failed_upload",
    "C60_installed_at_the_end",
    "C60_upload_written"
   ],
   "note": "Successful uploads written as received; failed or aborted uploads are never installed."
  },
  {
   "property": "C61",
   "status": "proved",
   "theorems": [
    "C61_erase"
   ],
   "note": "Flash outcomes: stored, not erased, torn after any number of bytes."
  },
  {
   "property": "C62",
   "status": "proved",
   "theorems": [
    "C62_dump"
   ],
   "note": "The text is specified line by line with the hexadecimal value of each cell."
  },
  {
   "property": "C63",
   "status": "proved",
   "theorems": [
    "C63_simulated_frames"
   ],
   "note": "Indexes below 10^9, current 0..20, power 0..5290 (bounds of the formulas of the simulator); floating point arithmetic is not modelled, the rounded values are inputs."
  },
  {
   "property": "C64",
   "status": "partial",
   "theorems": [
    "C64_no_command_character_partial",
    "C64_tab_separator_refuted"
   ],
   "note": "False: a frame with a TAB separator is lost (C64_tab_separator_refuted). Holds for histories without TAB, ESC and back quote."
  },
  {
   "property": "C65",
   "status": "partial",
   "theorems": [
    "C65_exactly_when",
    "C65_request_refuted",
    "C65_whole_life_partial"
   ],
   "note": "C65_exactly_when gives the exact cases of undefined behaviour and of endless loop over any life, without conditions (both iff); that these cases exist is the part that is false (C65_request_refuted); without them no life fails (C65_whole_life_partial)"
  },
  {
   "property": "C66",
   "status": "proved",
   "theorems": [
    "C66_saved_settings_last"
   ],
   "note": "Premise: the flash stored the sector (a failed write is not noticed by the program, C29)."
  },
  {
   "property": "C67",
   "status": "proved",
   "theorems": [
    "C67_what_writes_the_settings",
    "C67_what_restarts"
   ],
   "note": ""
  },
  {
   "property": "C68",
   "status": "proved",
   "theorems": [
    "C68_json_after_a_life"
   ],
   "note": ""
  },
  {
   "property": "C69",
   "status": "proved",
   "theorems": [
    "C69_command_tic"
   ],
   "note": ""
  },
  {
   "property": "C70",
   "status": "partial",
   "theorems": [
    "C70_save_untouched_partial",
    "C70_unlisted_period_refuted",
    "C70_quote_refuted",
    "C70_saved_too_early_refuted"
   ],
   "note": "Proved for every reachable configuration that a page can show (texts without control character, quote or backslash, numbers within their limits, periods of the menus). Violated otherwise: a period not in the menu is reset to 0; a key with a quote leaves the page blank and saving it erases every text; saving before the page is filled erases every text."
  },
  {
   "property": "C71",
   "status": "partial",
   "theorems": [
    "C71_what_is_saved_is_shown_partial",
    "C71_box_limits_partial",
    "C71_host_name_refuted",
    "C71_accents_refuted",
    "C71_request_is_read"
   ],
   "note": "Proved for every sensible filling (texts without control character, quote or backslash that fit, numbers within their limits). Violated for a host name of more than 16 characters (32 accepted by the page) and for accented texts (the page counts characters, the module bytes)."
  },
  {
   "property": "C72",
   "status": "partial",
   "theorems": [
    "C72_menu_labels_partial",
    "C72_twelve_hours_refuted"
   ],
   "note": "Proved for all options but one: the option of twelve hours stores 42300 s instead of 43200 s."
  },
  {
   "property": "C73",
   "status": "proved",
   "theorems": [
    "C73_home_page",
    "C73_static_file",
    "C73_no_other_file"
   ],
   "note": "Home page, static files, and no other file ever sent."
  },
  {
   "property": "C74",
   "status": "partial",
   "theorems": [
    "C74_packed_home_partial",
    "C74_packed_file_partial",
    "C74_site_exists",
    "C74_end_of_partition_refuted"
   ],
   "note": "Proved with the conditions on names of C39 (at most 63 bytes, not in the last 63 bytes of the partition); refuted without."
  },
  {
   "property": "C75",
   "status": "partial",
   "theorems": [
    "C75_public_parts",
    "C75_private_parts",
    "C75_any_page",
    "C75_names",
    "C75_not_closed_refuted",
    "C75_nested_refuted"
   ],
   "note": "For well marked pages the restricted page is the public parts; for any text, exactly what remains (C75_any_page). Missing: the claim is false for marks not closed or nested (refuted)."
  },
  {
   "property": "C76",
   "status": "partial",
   "theorems": [
    "C76_up_to_date_partial",
    "C76_clean_build",
    "C76_interrupted_build_refuted",
    "C76_truncated_file_refuted",
    "C76_older_source_refuted",
    "C76_minifier_failure_refuted",
    "C76_deleted_page_refuted"
   ],
   "note": "Proved for histories of edits at increasing dates with complete builds, and for any sources when the data directory is deleted first. Refuted: interrupted builds, truncated files, sources with an old date, failure of html-minifier, restricted page of a deleted page. External programs are functions of their input."
  },
  {
   "property": "C77",
   "status": "partial",
   "theorems": [
    "C77_sources_to_browser_partial",
    "C77_static_files_partial"
   ],
   "note": "Composition of C75, C76, C74 for the home page and for every other served file; under the conditions of C39 on names and the size of the partition, and for well marked pages."
  },
  {
   "property": "C78",
   "status": "proved",
   "theorems": [
    "C78_version",
    "C78_no_reference"
   ],
   "note": "All outputs of git describe with a reference; without one the script raises an exception (C78_no_reference)."
  },
  {
   "property": "C79",
   "status": "proved",
   "theorems": [
    "C79_timestamp",
    "C79_one_instant",
    "C79_json_page",
    "C79_broadcast"
   ],
   "note": "the C library functions gmtime, localtime, strftime are modelled after newlib, not in /repo"
  },
  {
   "property": "C80",
   "status": "partial",
   "theorems": [
    "C80_order_partial",
    "C80_order_refuted",
    "C80_exactly"
   ],
   "note": "Exact (C80_exactly): the earlier text comes first but when the earlier instant is in summer time, the other is not and is at most one hour later (refuted there); the order is total."
  },
  {
   "property": "C81",
   "status": "partial",
   "theorems": [
    "C81_load_partial",
    "C81_badge_refuted",
    "C81_order_refuted"
   ],
   "note": "ISOUSC must precede IINST; refuted for the other order on the first display and for the badge when the load falls to 0 %"
  },
  {
   "property": "C82",
   "status": "partial",
   "theorems": [
    "C82_arrows",
    "C82_truth",
    "C82_change_partial",
    "C82_missing_arrow_refuted",
    "C82_width_refuted"
   ],
   "note": "exact description of the arrows proved; an arrow always tells the truth; refuted: after an arrow the next change has none, texts of different widths are compared as texts"
  },
  {
   "property": "C83",
   "status": "partial",
   "theorems": [
    "C83_gauges_partial",
    "C83_tempo_refuted",
    "C83_single_tariff_refuted"
   ],
   "note": "proved for peak / off-peak contracts; refuted for Tempo and single tariff"
  },
  {
   "property": "C84",
   "status": "partial",
   "theorems": [
    "C84_point_partial",
    "C84_first_of_each_period",
    "C84_one_per_period",
    "C84_goes_on_partial",
    "C84_reconnection_refuted",
    "C84_single_tariff_refuted"
   ],
   "note": "exact for a connection without failure, never ends on peak / off-peak frames; refuted: second point after a reconnection, end on a single tariff frame"
  },
  {
   "property": "C85",
   "status": "partial",
   "theorems": [
    "C85_polling_partial",
    "C85_empty_module_refuted",
    "C85_failure_refuted"
   ],
   "note": "exact for answers that are points; refuted: ends on an empty module and on any failure"
  },
  {
   "property": "C86",
   "status": "proved",
   "theorems": [
    "C86_after_every_start",
    "C86_off_at_rest",
    "C86_blinks",
    "C86_flashes"
   ],
   "note": "program without the command line and OTA, which also use the LED"
  },
  {
   "property": "C87",
   "status": "partial",
   "theorems": [
    "C87_restart_partial",
    "C87_no_other_restart",
    "C87_cancelled_refuted"
   ],
   "note": "proved when nobody sends an upload meanwhile; refuted: a client without password cancels the restart for ever by sending a file"
  },
  {
   "property": "C88",
   "status": "proved",
   "theorems": [
    "C88_config",
    "C88_nothing_hidden",
    "C88_ls",
    "C88_version"
   ],
   "note": "The lines printed for settings, files and version without end of line (and, for the version, without NUL); the parser of command lines (a library) is a parameter."
  },
  {
   "property": "C89",
   "status": "partial",
   "theorems": [
    "C89_ends",
    "C89_made",
    "C89_once",
    "C89_before",
    "C89_lines",
    "C89_quoted_comment_refuted",
    "C89_conditional_include_refuted",
    "C89_macro_leak_refuted"
   ],
   "note": "Proved: the program ends for every set of files (also with cycles), succeeds when headers exist, holds each file of the program exactly once with all its lines in order, headers complete before what follows their inclusion (acyclic graphs). The last clause (same program for the compiler) is false: a header first included inside a conditional part disappears for all the units (C89_conditional_include_refuted, sse.h in cli.cpp), and macros of a header reach the units that come after (C89_macro_leak_refuted, emptyserial.h)."
  },
  {
   "property": "C90",
   "status": "partial",
   "theorems": [
    "C90_terminal_partial",
    "C90_frame_in_command_refuted",
    "C90_backspace_refuted",
    "C90_accent_refuted"
   ],
   "note": "Proved for every dialogue where no frame is sent between the opening key and Enter and commands are printable ASCII of at most 126 characters: commands run once in order, each frame accepted, nothing else. The rest is false of the code: a frame sent during a command runs another command and is lost (C90_frame_in_command_refuted), Backspace leaves the wrong letters in the command (C90_backspace_refuted), other characters become question marks (C90_accent_refuted)."
  },
  {
   "property": "C91",
   "status": "partial",
   "theorems": [
    "C91_offered",
    "C91_no_choice",
    "C91_written_partial",
    "C91_capitals_refuted",
    "C91_dot_refuted",
    "C91_inside_refuted",
    "C91_robin_refuted",
    "C91_no_file_refuted",
    "C91_verdict_partial",
    "C91_message",
    "C91_wait",
    "C91_failure_refuted",
    "C91_sizes"
   ],
   "note": "Exact description of the files offered and of their labels; for names in small letters ending with .bin and holding fs.bin nowhere else the module writes where the button says; the text shown is the verdict of the module; sizes. Refuted: names in capitals, another character than the dot, fs.bin before the end, names without .bin, emptied file box, a failed update announced as good news. ASCII names only."
  },
  {
   "property": "C92",
   "status": "partial",
   "theorems": [
    "C92_listed_partial",
    "C92_hidden_list_refuted",
    "C92_bar",
    "C92_join_partial",
    "C92_shown_partial",
    "C92_markup_refuted"
   ],
   "note": "Rows of the table equal to the networks found, exact quality bar, whole chain from the click to the next start for names and keys that the page can show. Refuted: one name with a quote hides the list; a name with a tag becomes part of the page. The order of the rows is left open."
  },
  {
   "property": "C93",
   "status": "partial",
   "theorems": [
    "C93_power_after_set_partial",
    "C93_from_start_partial",
    "C93_unlucky_date_refuted",
    "C93_date_refuted"
   ],
   "note": "Proved for any jump when the last frame before the setting does not look recent modulo 2^32 ms (or 48 frames came since), and lifted to the start of the module in terms of the real date of the start. Refuted: a minute every 49.7 days shows a false power (18000 W instead of 1800 W on 13 January 2026); before the setting the dates given with the data are those of November 2017."
  },
  {
   "property": "C94",
   "status": "partial",
   "theorems": [
    "C94_stream",
    "C94_up_to_date_partial",
    "C94_load_partial",
    "C94_left",
    "C94_loops",
    "C94_opens",
    "C94_first_tab_refuted",
    "C94_failure_refuted",
    "C94_button_refuted",
    "C94_address_refuted"
   ],
   "note": "The event stream part is proved without condition, and so is the exact number of refresh loops. Up to date: proved when a tab was chosen and no request fails; refuted otherwise (the first tab never gets data, one failure stops the refresh). Load: proved when the refresh button is not used, no click comes during a request and the address is not #tab_tinfo; refuted otherwise (each use of the button adds a loop for good)."
  },
  {
   "property": "C95",
   "status": "partial",
   "theorems": [
    "C95_message_partial",
    "C95_space",
    "C95_jeedom_partial",
    "C95_emoncms_partial",
    "C95_notification_partial",
    "C95_factory_partial",
    "C95_date_refuted",
    "C95_question_mark_refuted",
    "C95_key_refuted",
    "C95_value_refuted",
    "C95_encryption_refuted"
   ],
   "note": "Proved when the texts hold none of the characters with a meaning in an address (spaces, # % & + = ?); with a space no server takes the request (C95_space). Refuted otherwise: the + of the date becomes a space, an address with its own question mark hides the key, a key with a space, a value with &, no encryption on port 443. The reader (HTTP, fields, emoncms) is a specification; the headers added by the library are arbitrary."
  },
  {
   "property": "C96",
   "status": "partial",
   "theorems": [
    "C96_services",
    "C96_shown",
    "C96_losses_partial",
    "C96_no_loss",
    "C96_mixture_refuted",
    "C96_value_refuted"
   ],
   "note": "proved for the losses during the requests that follow a frame, whatever their duration; a page that takes more than 2.1 s can mix two frames or show an index that was never sent (two refuted samples), at most once for each loss"
  },
  {
   "property": "C97",
   "status": "partial",
   "theorems": [
    "C97_two",
    "C97_live",
    "C97_quiet",
    "C97_answer_partial",
    "C97_pair_partial",
    "C97_given_up_refuted",
    "C97_hurry_refuted",
    "C97_vanished_refuted"
   ],
   "note": "Two streams at most, exact delivery to live pages, answer to each request and two screens for good are proved; refuted: hurry, a page refused once, connections that vanish."
  },
  {
   "property": "C98",
   "status": "partial",
   "theorems": [
    "C98_written",
    "C98_update_partial",
    "C98_port",
    "C98_factory_refuted",
    "C98_stranger_refuted",
    "C98_old_password_refuted",
    "C98_cancelled",
    "C98_malformed"
   ],
   "note": "Nothing is written without the password in force, and someone who knows it can update: proved for all histories; refuted: a stranger restarts the module, the factory password is public, a new password waits for a restart."
  },
  {
   "property": "C99",
   "status": "proved",
   "theorems": [
    "C99_frames",
    "C99_only_frames",
    "C99_tariff",
    "C99_overload",
    "C99_thresholds",
    "C99_requests",
    "C99_jeedom",
    "C99_emoncms",
    "C99_http",
    "C99_period"
   ],
   "note": "All histories of bytes, requests, forms and uploads from a start to the next restart; the lists of frames exist for every history (C99_frames)."
  },
  {
   "property": "C100",
   "status": "proved",
   "theorems": [
    "C100_refresh",
    "C100_kept",
    "C100_arrows",
    "C100_load",
    "C100_messages",
    "C100_live",
    "C100_period"
   ],
   "note": "The script of the page is the model of C81 to C83; the frames whose date or groups cannot be written between quotes are those of the refuted theorems of C11 and C12. ISOUSC must be before IINST for the load (C81)."
  },
  {
   "property": "C101",
   "status": "proved",
   "theorems": [
    "C101_last_start",
    "C101_session",
    "C101_services"
   ],
   "note": "The commands sse and set timers are excluded by hypothesis (they act on the streams and on the timers, as is their purpose)."
  },
  {
   "property": "C102",
   "status": "partial",
   "theorems": [
    "C102_after_start_partial",
    "C102_forgotten_refuted",
    "C102_twice_refuted"
   ],
   "note": "What is sent after a start is exactly described for every life. The full claim is false of the code: the state of the notifications is not kept, so a change of tariff, an end of overload or a return below the low threshold during a restart is never notified (C102_forgotten_refuted), and an overload that goes on is notified again (C102_twice_refuted)."
  },
  {
   "property": "C103",
   "status": "proved",
   "theorems": [
    "C103_full",
    "C103_restricted"
   ],
   "note": "The texts and sizes given by the SDK are inputs, supposed quotable and of 32 bits (info_ok); the network name must be printable between quotes (see C53 for the others)."
  },
  {
   "property": "C104",
   "status": "partial",
   "theorems": [
    "C104_strangers_partial",
    "C104_saved_login",
    "C104_cut_refuted",
    "C104_any_settings",
    "C104_saved_any",
    "C104_start_refuted"
   ],
   "note": "Proved for every life in which nobody who has the login writes the settings, with or without a network in the settings (C104_any_settings: if no power failure cuts the write of the network a start takes over), without uploads (C33 refuted: a stranger can replace the program). C104_cut_refuted: a power cut while saving makes the module start without a login; C104_start_refuted: so does a power cut while a start writes the network of the SDK."
  },
  {
   "property": "C105",
   "status": "partial",
   "theorems": [
    "C105_only_led",
    "C105_never_typed",
    "C105_on_off_partial",
    "C105_blink_partial",
    "C105_blink_prompt_partial",
    "C105_off_during_upload_refuted"
   ],
   "note": "holds outside uploads; C105_off_during_upload_refuted: during an upload the LED blinks on after led off"
  },
  {
   "property": "C106",
   "status": "proved",
   "theorems": [
    "C106_effects",
    "C106_pages",
    "C106_kept"
   ],
   "note": "Effects, pages and state after every history of the module; lengths of lists of bytes stand for memory, the allocator is not modelled."
  },
  {
   "property": "C107",
   "status": "partial",
   "theorems": [
    "C107_extract_partial",
    "C107_over_partial",
    "C107_output_partial",
    "C107_again_partial",
    "C107_list",
    "C107_list_date_partial",
    "C107_list_date_refuted",
    "C107_end",
    "C107_any_names",
    "C107_accent_refuted",
    "C107_lost_refuted",
    "C107_date_refuted",
    "C107_inside_partial",
    "C107_escape_refuted",
    "C107_cut_refuted",
    "C107_size",
    "C107_size_only"
   ],
   "note": "Exact for every directory (C107_any_names, C107_list); the files come back unchanged for names in printed ASCII and dates that the local time determines. Refuted: a name with an accent comes back as another name, two names can collide and one file is lost, dates in the hour that comes twice, an image made by hand writes outside the directory, a cut image gives short files without a message. fnmatch and the clock of the machine are arbitrary."
  },
  {
   "property": "C108",
   "status": "partial",
   "theorems": [
    "C108_lasts_partial",
    "C108_next_start_partial",
    "C108_erased_refuted",
    "C108_not_stored",
    "C108_not_stored_refuted"
   ],
   "note": "Proved over any life when the flash stores; refuted: set wifi without a network erases the one in use, a failed write is not reported (restart with the old settings)."
  },
  {
   "property": "C109",
   "status": "partial",
   "theorems": [
    "C109_message_partial",
    "C109_events",
    "C109_gauges_partial",
    "C109_table_partial",
    "C109_date",
    "C109_date_refuted",
    "C109_quote_refuted",
    "C109_number_refuted"
   ],
   "note": "messages, gauges, table and load agree for every meter state whose frame the module can write as JSON; refuted: the date is local time marked as universal, a quote in the meter number breaks the module's message only, the meter number is a text here and a number there"
  },
  {
   "property": "C110",
   "status": "partial",
   "theorems": [
    "C110_overload_partial",
    "C110_period_partial",
    "C110_power_partial",
    "C110_lost",
    "C110_outage_refuted",
    "C110_update",
    "C110_services"
   ],
   "note": "after an outage the knowledge drawn from the events is wrong until the next change (C110_lost, C110_outage_refuted); the regular updates repair it within one period if the data are posted (C110_update), and so do the periodic requests to Jeedom and emoncms (C110_services); tariff periods of 1 to 7 characters and non-zero powers only (C14, C15)"
  },
  {
   "property": "C111",
   "status": "partial",
   "theorems": [
    "C111_session",
    "C111_pages",
    "C111_notifications",
    "C111_sse",
    "C111_timers",
    "C111_periodic_refuted"
   ],
   "note": "Notifications, settings, published data, pages and updates are independent of all commands; the periodic requests are not (C111_periodic_refuted: set timers delays one). The run without the keyboard is supposed to be defined (C57, C65 tell when)."
  },
  {
   "property": "C112",
   "status": "partial",
   "theorems": [
    "C112_screen",
    "C112_cyan",
    "C112_echo",
    "C112_conversation",
    "C112_escape_refuted",
    "C112_backspace_refuted"
   ],
   "note": "refuted when the module sends escape characters (C112_escape_refuted) and for Backspace (C112_backspace_refuted)"
  },
  {
   "property": "C113",
   "status": "partial",
   "theorems": [
    "C113_site_partial",
    "C113_image",
    "C113_program",
    "C113_rest",
    "C113_site_kept",
    "C113_interrupted",
    "C113_interrupted_refuted",
    "C113_anyone_refuted",
    "C113_repair",
    "C113_refused",
    "C113_too_long",
    "C113_failed",
    "C113_small",
    "C113_truncated",
    "C113_unchecked_refuted"
   ],
   "note": "C113_site_partial has the conditions of C39 on the names; refuted: an interrupted update loses the old site (C113_interrupted tells exactly what is in the partition then), a refused client can replace the site, and a file that is no image, or a truncated one, is accepted for the site (C113_truncated tells exactly what is written). The library Updater is modelled from its known source, which is not in /repo."
  },
  {
   "property": "C114",
   "status": "proved",
   "theorems": [
    "C114_start",
    "C114_alone",
    "C114_rescue",
    "C114_calm"
   ],
   "note": "The start terminates for every flash memory and every sequence of statuses, with its LED and its delays; rescue by OTA during the window; no other restart there. The durations of the parts without delay are not modelled."
  },
  {
   "property": "C115",
   "status": "proved",
   "theorems": [
    "C115_same_updates",
    "C115_blinks",
    "C115_quiet",
    "C115_state"
   ],
   "note": "the order in which the library calls the callbacks is taken from its source, which is not in the repository"
  },
  {
   "property": "C116",
   "status": "partial",
   "theorems": [
    "C116_copied",
    "C116_succeeds",
    "C116_succeeds_single",
    "C116_archive",
    "C116_single",
    "C116_same",
    "C116_failed",
    "C116_name",
    "C116_version_refuted",
    "C116_both_refuted",
    "C116_lost_refuted"
   ],
   "note": "Refuted: the name of the archive with a version number, the single file beside old sources in the same folder, the loss of the previous archive when a run fails."
  },
  {
   "property": "C117",
   "status": "partial",
   "theorems": [
    "C117_page",
    "C117_module",
    "C117_others",
    "C117_site",
    "C117_wait_refuted",
    "C117_update_refuted",
    "C117_file_refuted"
   ],
   "note": "Refuted: the page that waits for a restart never sees its end, updates are refused by the proxy, some names of files are hidden by the module."
  },
  {
   "property": "C118",
   "status": "proved",
   "theorems": [
    "C118_time",
    "C118_instant",
    "C118_set",
    "C118_set_refuted",
    "C118_month_refuted"
   ],
   "note": "C118_set_refuted and C118_month_refuted show the known limits; the list of the SNTP servers is an argument"
  }
 ]
}