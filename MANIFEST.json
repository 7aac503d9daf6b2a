{
 "claims": [
  {
   "property": "C01",
   "status": "proved",
   "theorems": [
    "C01_history_total",
    "C01_entries_stable",
    "C01_push_parent"
   ],
   "note": ""
  },
  {
   "property": "C02",
   "status": "proved",
   "theorems": [
    "C02_push_back_forward",
    "C02_back_nearest_navigable"
   ],
   "note": ""
  },
  {
   "property": "C03",
   "status": "proved",
   "theorems": [
    "C03_forward_targets",
    "C03_forward_moves"
   ],
   "note": ""
  },
  {
   "property": "C04",
   "status": "proved",
   "theorems": [
    "C04_page_data_isolated"
   ],
   "note": ""
  },
  {
   "property": "C05",
   "status": "partial",
   "theorems": [
    "C05_back_forward_partial",
    "C05_back_forward_refuted"
   ],
   "note": "False in general: after go_to, several backs and forwards end on another branch (witness proved). Proved for histories without jumps."
  },
  {
   "property": "C06",
   "status": "proved",
   "theorems": [
    "C06_snapshot_faithful"
   ],
   "note": ""
  },
  {
   "property": "C07",
   "status": "proved",
   "theorems": [
    "C07_chunked_equals_whole",
    "C07_decoding_is_lossy_utf8",
    "C07_text_survives"
   ],
   "note": ""
  },
  {
   "property": "C08",
   "status": "proved",
   "theorems": [
    "C08_location_is_position",
    "C08_line_counts_line_feeds_read"
   ],
   "note": ""
  },
  {
   "property": "C09",
   "status": "proved",
   "theorems": [
    "C09_unread_is_inverse",
    "C09_end_of_input_stays",
    "C09_slice_keeps_position",
    "C09_mark_reset",
    "C09_inside_pair_refuted"
   ],
   "note": "The refuted theorem shows that the excluded position, between CR and LF of a pair, really behaves differently."
  },
  {
   "property": "C10",
   "status": "proved",
   "theorems": [
    "C10_offsets_increase",
    "C10_seek_tell",
    "C10_seek_finds_first",
    "C10_set_encoding_keeps_place"
   ],
   "note": ""
  },
  {
   "property": "C11",
   "status": "partial",
   "theorems": [
    "C11_chunked_utf16_partial",
    "C11_chunked_utf16_refuted"
   ],
   "note": "False in general: a chunk boundary between the halves of a surrogate pair yields two lone surrogates (witness proved). Proved for all other chunkings."
  },
  {
   "property": "C23",
   "status": "proved",
   "theorems": [
    "C23_visited_pages",
    "C23_bookmarks",
    "C23_bookmarks_oldest_first"
   ],
   "note": "In-memory backend for any lower-casing function; the SQLite backend is related to it by C24_backends_agree_partial."
  },
  {
   "property": "C24",
   "status": "partial",
   "theorems": [
    "C24_like_is_substring",
    "C24_backends_agree_partial",
    "C24_backends_agree_refuted"
   ],
   "note": "The pattern theorem is complete. Agreement of the two backends fails for non-ASCII letter case (witness proved) and is proved otherwise."
  },
  {
   "property": "C47",
   "status": "proved",
   "theorems": [
    "C47_linear_history"
   ],
   "note": ""
  },
  {
   "property": "C48",
   "status": "partial",
   "theorems": [
    "C48_reload_partial",
    "C48_reload_refuted"
   ],
   "note": "False for read_from_bytes on a used stream (witness proved); proved for read_from_file and read_from_str."
  },
  {
   "property": "C25",
   "status": "partial",
   "theorems": [
    "C25_text_round_trip",
    "C25_maps_exact",
    "C25_parsed_is_stable",
    "C25_map_refuted"
   ],
   "note": "Proved for every value the text form can carry, with the exact condition for maps; a map with one empty text or a comma in an element does not survive (witness proved). Floats: for those the standard library prints and parses back."
  },
  {
   "property": "C26",
   "status": "partial",
   "theorems": [
    "C26_get_last_set_partial",
    "C26_set_accepts_partial",
    "C26_values_valid_partial",
    "C26_failure_changes_nothing_partial",
    "C26_unknown_key_refused",
    "C26_storage_failure_refuted",
    "C26_huge_unsigned_refuted",
    "C26_preloaded_unchecked_refuted"
   ],
   "note": "Proved for working storage and unsigned values up to isize::MAX, starting from an empty storage. The three exclusions are real (witnesses proved)."
  },
  {
   "property": "C27",
   "status": "proved",
   "theorems": [
    "C27_set_notifies",
    "C27_remove_notifies",
    "C27_others_silent",
    "C27_unsubscribed_is_silent",
    "C27_ids_distinct",
    "C27_listener_in_sync_partial",
    "C27_listener_in_sync_refuted"
   ],
   "note": "The derived claim that a listener always knows the current value fails after a storage error (witness proved) and is proved otherwise."
  },
  {
   "property": "C28",
   "status": "partial",
   "theorems": [
    "C28_merge_additive",
    "C28_saved_override_refuted"
   ],
   "note": "Proved for keys already declared; a saved value of a key that only the merge declares is overridden (witness proved)."
  },
  {
   "property": "C49",
   "status": "partial",
   "theorems": [
    "C49_constraint_round_trip",
    "C49_ranges_parse",
    "C49_parse_total_partial",
    "C49_parse_total_refuted"
   ],
   "note": "Parsing panics on an entry starting with a non-ASCII character (witness proved)."
  },
  {
   "property": "C50",
   "status": "partial",
   "theorems": [
    "C50_no_notification_lost",
    "C50_order_refuted"
   ],
   "note": "Delivery exactly once is proved; the order can be inverted (witness proved)."
  },
  {
   "property": "C51",
   "status": "partial",
   "theorems": [
    "C51_restart_keeps_settings_partial",
    "C51_restart_refuted",
    "C51_json_crash_refuted"
   ],
   "note": "Proved for the SQLite text table and values that survive their text form. The JSON file is truncated before it is written (witness proved)."
  },
  {
   "property": "C52",
   "status": "proved",
   "theorems": [
    "C52_find"
   ],
   "note": ""
  },
  {
   "property": "C12",
   "status": "proved",
   "theorems": [
    "C12_exactly_eligible_sent"
   ],
   "note": "For every enumeration order of the hash map and every public suffix list."
  },
  {
   "property": "C13",
   "status": "partial",
   "theorems": [
    "C13_header_order",
    "C13_ties_refuted"
   ],
   "note": "The stated order is proved. Cookies with equally long paths and equal creation times come in hash map order, which is not fixed (witness proved)."
  },
  {
   "property": "C14",
   "status": "proved",
   "theorems": [
    "C14_one_per_key",
    "C14_header_effect",
    "C14_across_origins_refuted"
   ],
   "note": "Per origin, as stated; the refuted theorem shows that across origins of one site a domain cookie can exist twice."
  },
  {
   "property": "C15",
   "status": "proved",
   "theorems": [
    "C15_not_accepted_from_plaintext",
    "C15_not_sent_to_plaintext",
    "C15_not_touched_by_plaintext"
   ],
   "note": ""
  },
  {
   "property": "C16",
   "status": "proved",
   "theorems": [
    "C16_prefixes"
   ],
   "note": ""
  },
  {
   "property": "C17",
   "status": "partial",
   "theorems": [
    "C17_block",
    "C17_none_only_stores",
    "C17_none_only_sends",
    "C17_strict",
    "C17_lax",
    "C17_deletion_refuted"
   ],
   "note": "Storing and sending as stated are proved; a cross-site response can still delete cookies under the None-only policy (witness proved)."
  },
  {
   "property": "C18",
   "status": "proved",
   "theorems": [
    "C18_purge_unobservable",
    "C18_purge_removes_expired",
    "C18_max_age_deletes",
    "C18_past_date_deletes"
   ],
   "note": ""
  },
  {
   "property": "C53",
   "status": "proved",
   "theorems": [
    "C53_header_unambiguous"
   ],
   "note": ""
  },
  {
   "property": "C54",
   "status": "partial",
   "theorems": [
    "C54_remove_cookie",
    "C54_forget_url_partial",
    "C54_forget_url_refuted"
   ],
   "note": "Removal by name is proved. Forgetting a URL leaves domain cookies set by other origins of the site, and they are still sent (witness proved)."
  },
  {
   "property": "C55",
   "status": "partial",
   "theorems": [
    "C55_stays_on_site_partial",
    "C55_stays_on_site_refuted"
   ],
   "note": "Proved for domains that have a registrable domain in a coherent suffix list; below an unlisted suffix a host can set cookies for sibling sites (witness proved)."
  },
  {
   "property": "C56",
   "status": "partial",
   "theorems": [
    "C56_store_total_partial",
    "C56_overflow_refuted"
   ],
   "note": "Max-Age is added to the clock without a check (witness proved); proved when the sum fits."
  },
  {
   "property": "C57",
   "status": "proved",
   "theorems": [
    "C57_header_understood",
    "C57_deletion_understood"
   ],
   "note": ""
  },
  {
   "property": "C19",
   "status": "partial",
   "theorems": [
    "C19_crash_atomic",
    "C19_save_completes",
    "C19_reopen",
    "C19_first_open",
    "C19_concurrent_refuted"
   ],
   "note": "Proved for every crash and failure point of saves that follow one another. Two saves at the same time share one temporary file and can leave a mixture in place (witness proved); a power cut that loses renamed but unsynced data is outside the model."
  },
  {
   "property": "C20",
   "status": "partial",
   "theorems": [
    "C20_same_jar",
    "C20_handles_isolated",
    "C20_sqlite_zones_independent",
    "C20_sqlite_writes_saved",
    "C20_json_writes_saved_partial",
    "C20_json_concurrent_refuted",
    "C20_remove_forgets",
    "C20_removed_returns_refuted",
    "C20_release_keeps",
    "C20_release_race_refuted"
   ],
   "note": "For all schedules of any number of threads. Concurrent persists keep both updates with SQLite; with JSON one can be lost (witness proved), so there it is proved for schedules in which persists do not overlap."
  },
  {
   "property": "C58",
   "status": "partial",
   "theorems": [
    "C58_sqlite_roundtrip",
    "C58_policy_refuted"
   ],
   "note": "The cookies come back; the third-party policy is not saved (witness proved)."
  },
  {
   "property": "C21",
   "status": "partial",
   "theorems": [
    "C21_reads_partial",
    "C21_local_in_memory",
    "C21_keys_partial",
    "C21_opaque_refuted",
    "C21_custom_partition_refuted",
    "C21_busy_refuted"
   ],
   "note": "For all schedules. Session areas and SQLite areas are told apart by text, so opaque origins and odd custom partition keys collide (witnesses proved); proved for tuple origins and other partition keys, and for the in-memory local store without condition. A busy database reads as an empty one (witness proved)."
  },
  {
   "property": "C22",
   "status": "partial",
   "theorems": [
    "C22_drop_empties_partial",
    "C22_others_untouched",
    "C22_reopened_refuted"
   ],
   "note": "Old handles are dead until the same tab's area is asked for again; after that they write into the new area (witness proved)."
  },
  {
   "property": "C59",
   "status": "partial",
   "theorems": [
    "C59_survives_restarts_partial"
   ],
   "note": "For origins and partition keys that the text keys tell apart (see C21)."
  },
  {
   "property": "C60",
   "status": "partial",
   "theorems": [
    "C60_every_change_announced",
    "C60_alone_exact_partial",
    "C60_order_refuted",
    "C60_ignored_write_refuted"
   ],
   "note": "Exactly once is proved for all schedules; order and old value for one thread. With two threads order and old values can be wrong, and writes to a dropped area are announced (witnesses proved)."
  },
  {
   "property": "C29",
   "status": "proved",
   "theorems": [
    "C29_acyclic",
    "C29_traversal_ends"
   ],
   "note": ""
  },
  {
   "property": "C30",
   "status": "proved",
   "theorems": [
    "C30_links_agree",
    "C30_attach",
    "C30_detach",
    "C30_remove",
    "C30_relocate",
    "C30_next_sibling",
    "C30_attach_twice_refuted",
    "C30_attach_missing_refuted"
   ],
   "note": "Under the stated condition; the refuted theorems show that it is needed."
  },
  {
   "property": "C31",
   "status": "proved",
   "theorems": [
    "C31_ids_are_new",
    "C31_removed_is_gone",
    "C31_only_remove_removes",
    "C31_count"
   ],
   "note": ""
  },
  {
   "property": "C32",
   "status": "partial",
   "theorems": [
    "C32_iterates_document",
    "C32_iterates_any",
    "C32_query",
    "C32_walk",
    "C32_walk_removed_root_refuted"
   ],
   "note": "Exactly once needs the condition of C30; document order and queries hold for every document. Walking panics after the root was removed (witness proved)."
  },
  {
   "property": "C33",
   "status": "partial",
   "theorems": [
    "C33_found_has_id_partial",
    "C33_is_found_partial",
    "C33_first_wins_partial",
    "C33_once_had_it",
    "C33_detached_refuted",
    "C33_removed_refuted",
    "C33_changed_refuted",
    "C33_taken_away_refuted"
   ],
   "note": "Proved when an id is given once and elements with an id are not removed. Removed, detached and renamed elements are still found (witnesses proved)."
  },
  {
   "property": "C34",
   "status": "partial",
   "theorems": [
    "C34_promised_ids",
    "C34_flush_returns",
    "C34_flush_in_order_partial",
    "C34_attribute_outcome",
    "C34_direct_call_refuted",
    "C34_other_attribute_refuted"
   ],
   "note": "Any attribute whose value is another element's id is left out, not only ids, and nodes created outside the queue shift the ids (witnesses proved)."
  },
  {
   "property": "C61",
   "status": "partial",
   "theorems": [
    "C61_hovers_ancestors",
    "C61_loop_refuted"
   ],
   "note": "Needs the condition of C30: otherwise parents can form a loop and hovering never returns (witness proved)."
  },
  {
   "property": "C62",
   "status": "partial",
   "theorems": [
    "C62_classes_partial",
    "C62_removed_refuted",
    "C62_added_refuted"
   ],
   "note": "Proved while the class attribute is only set (witnesses for removal and add_class proved)."
  },
  {
   "property": "C35",
   "status": "partial",
   "theorems": [
    "C35_nosniff",
    "C35_misfit_blocked",
    "C35_declared",
    "C35_html_declared",
    "C35_undeclared",
    "C35_html_sniffed_partial",
    "C35_html_cut_refuted",
    "C35_attachment_partial",
    "C35_attachment_refuted"
   ],
   "note": "With the default policy an attachment whose type has a renderer is rendered (witness proved); proved when downloads are automatic."
  },
  {
   "property": "C36",
   "status": "proved",
   "theorems": [
    "C36_parts",
    "C36_fits_loads",
    "C36_errors",
    "C36_stream_or_not"
   ],
   "note": ""
  },
  {
   "property": "C37",
   "status": "proved",
   "theorems": [
    "C37_text",
    "C37_text_shown",
    "C37_json_shown",
    "C37_json_lines",
    "C37_json_tags",
    "C37_json_ambiguous_refuted"
   ],
   "note": "As stated; the refuted theorem shows that different JSON values can look the same."
  },
  {
   "property": "C63",
   "status": "partial",
   "theorems": [
    "C63_served_is_loaded_partial",
    "C63_text_javascript_refuted"
   ],
   "note": "Scripts served as text/javascript are blocked (witness proved for every such response)."
  },
  {
   "property": "C65",
   "status": "proved",
   "theorems": [
    "C65_chunks",
    "C65_all_or_nothing"
   ],
   "note": ""
  },
  {
   "property": "C38",
   "status": "proved",
   "theorems": [
    "C38_delivery",
    "C38_once",
    "C38_unknown",
    "C38_arrives",
    "C38_repeated_token_refuted"
   ],
   "note": "For all schedules, with tokens that do not repeat; the refuted theorem shows what a repeated token would do."
  },
  {
   "property": "C39",
   "status": "partial",
   "theorems": [
    "C39_exact_count",
    "C39_kept",
    "C39_cleaned_partial",
    "C39_late_store_refuted",
    "C39_begin_after_close_refuted",
    "C39_underflow_refuted"
   ],
   "note": "Clean-up is proved for sequentially consistent memory. With delayed stores, which the relaxed orderings allow, it can be missed (witness proved). Nothing in the engine ever calls finalize, so by C39_kept no name is ever removed."
  },
  {
   "property": "C64",
   "status": "proved",
   "theorems": [
    "C64_round_trip",
    "C64_bijection",
    "C64_sound",
    "C64_metas"
   ],
   "note": "For all schedules of any number of threads."
  },
  {
   "property": "C40",
   "status": "proved",
   "theorems": [
    "C40_in_text",
    "C40_in_attribute",
    "C40_scalar"
   ],
   "note": ""
  },
  {
   "property": "C41",
   "status": "proved",
   "theorems": [
    "C41_table",
    "C41_longest",
    "C41_in_attribute",
    "C41_verbatim",
    "C41_texts",
    "C41_values"
   ],
   "note": "For every table of names with the stated shape; the table in the source is shown to be one."
  },
  {
   "property": "C42",
   "status": "partial",
   "theorems": [
    "C42_terminates_partial",
    "C42_start_state_refuted"
   ],
   "note": "Proved with explicit bounds for every start state but one, which is public but refused with an error at every pull."
  },
  {
   "property": "C43",
   "status": "partial",
   "theorems": [
    "C43_first_wins_partial",
    "C43_end_tag_refuted"
   ],
   "note": "Proved for documents whose end tags have no attributes. Otherwise the end tag's attributes appear on the next start tag with attributes and win over its own (witness proved)."
  },
  {
   "property": "C66",
   "status": "proved",
   "theorems": [
    "C66_documents",
    "C66_meaning"
   ],
   "note": "Doctypes, CDATA sections and malformed markup are outside this grammar."
  },
  {
   "property": "C67",
   "status": "proved",
   "theorems": [
    "C67_pages",
    "C67_meaning"
   ],
   "note": "Scripts containing <!-- are excluded: other rules apply after it."
  },
  {
   "property": "C68",
   "status": "proved",
   "theorems": [
    "C68_text_whole"
   ],
   "note": ""
  },
  {
   "property": "C44",
   "status": "partial",
   "theorems": [
    "C44_standard_partial",
    "C44_longer_system_refuted",
    "C44_limited_first_refuted"
   ],
   "note": "Proved except when the system identifier begins with the one listed in the standard: a longer one also gives quirks, and with a public identifier for limited quirks it is ignored (both proved for all such doctypes)."
  },
  {
   "property": "C69",
   "status": "partial",
   "theorems": [
    "C69_list_is_faithful",
    "C69_line_ends_partial",
    "C69_lone_cr_refuted"
   ],
   "note": "Proved for LF and CR LF; a CR alone is not turned into a line feed (witness proved)."
  },
  {
   "property": "C46",
   "status": "partial",
   "theorems": [
    "C46_target_in_page",
    "C46_instant_at_once",
    "C46_idle_is_there_partial",
    "C46_tween_arrives",
    "C46_style_change_refuted",
    "C46_nan_delta_refuted"
   ],
   "note": "Exact double precision arithmetic. The goal stays inside the page for every sequence of calls with finite amounts, an instant style arrives at once, a tween has arrived once its length has passed, and a page that reports no motion shows its goal unless the style was changed in flight (refuted otherwise). Missing: that the spring and the custom animators come to rest; the NaN amount is refuted."
  },
  {
   "property": "C45",
   "status": "partial",
   "theorems": [
    "C45_protects",
    "C45_on_screen_stays",
    "C45_whole_positions",
    "C45_budget",
    "C45_report_true",
    "C45_untouched",
    "C45_least_recent",
    "C45_only_excess",
    "C45_only_evictable",
    "C45_any_order",
    "C45_comes_back",
    "C45_settles",
    "C45_deferred",
    "C45_deferred_number",
    "C45_shared_refuted"
   ],
   "note": "Exact double precision arithmetic, every history of composites and clean-ups. Proved for tile sets in which no pixel buffer is shared between two positions (budget, report, order) and in which all tiles held for one position have the same height (coming back); with a shared buffer the report is wrong, which is refuted with a witness."
  },
  {
   "property": "C70",
   "status": "partial",
   "theorems": [
    "C70_matching_ends",
    "C70_compound",
    "C70_no_extra_match",
    "C70_exact_partial",
    "C70_child_places_partial",
    "C70_states_partial",
    "C70_lists",
    "C70_pseudo_elements",
    "C70_pseudo_lists",
    "C70_compound_ancestor_refuted",
    "C70_child_then_descendant_refuted",
    "C70_sibling_compound_refuted",
    "C70_sibling_chain_refuted",
    "C70_text_between_refuted",
    "C70_first_child_refuted",
    "C70_universal_parent_refuted",
    "C70_word_attribute_refuted",
    "C70_ignore_case_refuted",
    "C70_empty_prefix_refuted"
   ],
   "note": "Proved for compounds of the plain simple selectors, for child and next-sibling chains of any length, and for descendant chains of single simple selectors. The shapes and attribute tests left out are each refuted with a witness."
  },
  {
   "property": "C71",
   "status": "partial",
   "theorems": [
    "C71_order",
    "C71_counts_partial",
    "C71_pseudo_class_refuted",
    "C71_list_refuted"
   ],
   "note": "The order is proved; attribute, pseudo-class and pseudo-element parts are not counted, and a list takes its first matching member's specificity (witnesses proved)."
  },
  {
   "property": "C72",
   "status": "partial",
   "theorems": [
    "C72_skips_are_safe",
    "C72_hovering_ends",
    "C72_repaints_partial",
    "C72_descendants_stale_refuted",
    "C72_two_moves_stale_refuted",
    "C72_sibling_refuted"
   ],
   "note": "Skipping is safe for all sheets whose selectors use ~ only after a single simple selector. Repaints are right when each follows its move and :hover is in the rightmost compound; otherwise styles go stale (witnesses proved)."
  },
  {
   "property": "C73",
   "status": "partial",
   "theorems": [
    "C73_only_grammar_partial",
    "C73_at_most",
    "C73_exact_partial",
    "C73_shipped_partial",
    "C73_shipped_exact_partial",
    "C73_every_property",
    "C73_list_inside_refuted",
    "C73_optional_list_refuted",
    "C73_something_refuted",
    "C73_greedy_refuted",
    "C73_reference_refuted"
   ],
   "note": "No false accept for grammars without ! and with # only around a whole grammar or argument list; exact for choices between single values under a multiplier and/or #, for any data types; of the 666 grammars shipped, read and resolved by the modelled loader, these are 553 and 402. Every other grammar: no more than the grammar with three stated liberties. Beyond that the engine is not exact: witnesses for a list inside a grammar, #?, !, greedy operands, and references that lose a multiplier."
  },
  {
   "property": "C74",
   "status": "partial",
   "theorems": [
    "C74_checking_ends",
    "C74_needs_progress",
    "C74_shipped",
    "C74_calc_size_refuted"
   ],
   "note": "The shipped definitions load, and 652 of the 666 properties check every value without a crash or a hang, whatever the data types accept. The other 14 (width, height, flex-basis, ...) crash on calc-size(auto, 1px + 1px): witness proved for each. Also proved for every grammar whose repeated parts take at least one value each time, for any data types and values; the condition is shown to be needed."
  },
  {
   "property": "C75",
   "status": "partial",
   "theorems": [
    "C75_cascade_partial",
    "C75_longhands",
    "C75_shorthand_after_refuted",
    "C75_shipped_refuted"
   ],
   "note": "For all sheets that only set longhands the cascade is exact. With shorthands: exact, except that what they set counts as appearing after all declarations by name (witness proved). Longhands that are shorthands themselves (border) are left out; they lose origin, importance and specificity."
  },
  {
   "property": "C76",
   "status": "partial",
   "theorems": [
    "C76_four_sides_partial",
    "C76_two_ends_partial",
    "C76_sides_set",
    "C76_shipped_partial",
    "C76_order_refuted",
    "C76_missing_refuted"
   ],
   "note": "Proved for every grammar that is a choice repeated up to four times or twice, with the longhands listed bottom, left, right, top or start, end; and, with the definitions the engine ships, for margin, padding, scroll-padding and 22 shorthands of two ends. border-width, border-color and inset mix up the sides, and gap, scroll-margin, background and margin: inherit do not reach their longhands (witnesses proved)."
  },
  {
   "property": "C77",
   "status": "partial",
   "theorems": [
    "C77_custom_properties_partial",
    "C77_specificity_refuted"
   ],
   "note": "Inheritance is proved; at one element the last declaration decides whatever its specificity and importance (witness proved)."
  },
  {
   "property": "C78",
   "status": "partial",
   "theorems": [
    "C78_var_partial",
    "C78_var_alone_partial",
    "C78_fallback_refuted"
   ],
   "note": "Proved for values of a single token at the top level of the declared value. Fallbacks are lost and values are not substituted again (witnesses proved)."
  },
  {
   "property": "C79",
   "status": "partial",
   "theorems": [
    "C79_invalid_ignored_partial",
    "C79_shorthand_refuted",
    "C79_shipped_refuted"
   ],
   "note": "Proved for every property that is not a shorthand; a shorthand that is not valid still sets longhands (witness proved)."
  },
  {
   "property": "C80",
   "status": "partial",
   "theorems": [
    "C80_styling_ends",
    "C80_shipped",
    "C80_calc_size_refuted"
   ],
   "note": "For every set of definitions whose grammars make progress and whose shorthands do not stand for themselves, and for the definitions the engine ships as long as none of the 14 properties that allow calc-size() is declared; width: calc-size(auto, 1px + 1px) crashes (witness proved)."
  },
  {
   "property": "C81",
   "status": "partial",
   "theorems": [
    "C81_latest_wins_partial",
    "C81_fragment_refuted"
   ],
   "note": "All interleavings. Proved for loads (a navigation within a page keeps the page of the latest load) when the embedder does not cancel and the load's task answers; an older load replaces the result of a newer navigation within the page (witness proved)."
  },
  {
   "property": "C82",
   "status": "partial",
   "theorems": [
    "C82_reported_once",
    "C82_latest_reported_partial",
    "C82_every_reported_refuted",
    "C82_cancelled_refuted"
   ],
   "note": "Starts, order and at-most-once are proved for all runs; the end of the latest load is always reported if the embedder does not cancel and tasks do not die silently. Superseded and cancelled navigations may never be reported (witnesses proved)."
  },
  {
   "property": "C83",
   "status": "partial",
   "theorems": [
    "C83_page_change_partial",
    "C83_superseded_page_refuted",
    "C83_superseded_failure_refuted"
   ],
   "note": "What changes the page is proved; a result that is already in the channel when the next navigation starts is still shown, filed and reported (witnesses proved)."
  },
  {
   "property": "C84",
   "status": "proved",
   "theorems": [
    "C84_told"
   ],
   "note": "All runs."
  },
  {
   "property": "C85",
   "status": "partial",
   "theorems": [
    "C85_history_reachable",
    "C85_filed_partial",
    "C85_failed_back_refuted",
    "C85_stale_back_refuted",
    "C85_fresh_reload_refuted"
   ],
   "note": "The worker never panics in the history, and the current entry always takes the page's address and title; but it may be another page's entry (witnesses proved)."
  },
  {
   "property": "C86",
   "status": "partial",
   "theorems": [
    "C86_loading_ends_partial",
    "C86_blocked_refuted",
    "C86_off_while_loading_refuted"
   ],
   "note": "It ends once all is settled, if every load answers and the embedder does not cancel. A blocked response leaves it on; a superseded load's result turns it off (witnesses proved)."
  },
  {
   "property": "C87",
   "status": "partial",
   "theorems": [
    "C87_back_restores_partial",
    "C87_second_thought_refuted",
    "C87_back_twice_refuted"
   ],
   "note": "Proved for leaving by a navigation whose page arrives, any scrolling there, and going back, from any settled state. A second navigation before the page arrives, or going back twice at once, overwrites the offset with 0 (witnesses proved)."
  },
  {
   "property": "C88",
   "status": "partial",
   "theorems": [
    "C88_title_partial",
    "C88_untitled_refuted"
   ],
   "note": "Proved as long as every page has a title; a page without one keeps the title before it, in the tab and in the visited places (witness proved)."
  },
  {
   "property": "C89",
   "status": "proved",
   "theorems": [
    "C89_same_document",
    "C89_other_document",
    "C89_reload"
   ],
   "note": "All reachable states; a navigation while another one is loading always loads, as does a reload."
  },
  {
   "property": "C90",
   "status": "partial",
   "theorems": [
    "C90_read",
    "C90_unambiguous",
    "C90_shipped_partial",
    "C90_inner_multiplier_refuted",
    "C90_keyword_refuted",
    "C90_parentheses_refuted"
   ],
   "note": "Proved for every grammar that has a canonical notation (one blank around combinators, no brackets that are not needed); other blanks and needless brackets are covered only by the shipped texts. Multipliers inside multiplied brackets are lost, keywords that start with initial, inherit or unset are split, and bare parentheses are read as brackets (witnesses proved)."
  },
  {
   "property": "C91",
   "status": "partial",
   "theorems": [
    "C91_grid_partial",
    "C91_standard_total",
    "C91_boundary",
    "C91_crossing_refuted",
    "C91_rowspan_zero_refuted",
    "C91_colspan_refuted"
   ],
   "note": "Exact for every section whose cells do not cross (see C92), with colspans up to 1000. After a wide cell crosses a tall one the tall one is forgotten; rowspan=0 counts as 1; a colspan above 1000 is not cut (witnesses proved)."
  },
  {
   "property": "C92",
   "status": "partial",
   "theorems": [
    "C92_no_overlap_partial",
    "C92_inside",
    "C92_overlap_refuted"
   ],
   "note": "Proved for sections without colspans or without rowspans; cells may cross otherwise, also where HTML keeps them apart (witness proved)."
  },
  {
   "property": "C93",
   "status": "proved",
   "theorems": [
    "C93_structure"
   ],
   "note": "All documents."
  },
  {
   "property": "C94",
   "status": "partial",
   "theorems": [
    "C94_boxes_partial",
    "C94_apart_partial",
    "C94_inside_partial",
    "C94_loose_refuted",
    "C94_row_box_refuted",
    "C94_zero_width_refuted"
   ],
   "note": "Exact arithmetic. Proved for tables whose cells are in rows and rows in groups (as the HTML parser makes them), non-overlapping for grids without overlap. Cells and rows outside are put at the top of the group or table, over others; cells stick out of their row's own box (witnesses proved). The width of the table is the one CSS asks for unless it is zero: `width: 0` fills the available space (refuted)."
  },
  {
   "property": "C95",
   "status": "partial",
   "theorems": [
    "C95_columns_partial",
    "C95_rows_partial",
    "C95_tall_refuted",
    "C95_ignored_refuted",
    "C95_overflow_refuted"
   ],
   "note": "Exact arithmetic. Widths of the first row that has cells, and heights of cells of one row. Tall cells get no room, widths further down are ignored, and widths that do not fit stick out of the table (witnesses proved)."
  },
  {
   "property": "C96",
   "status": "partial",
   "theorems": [
    "C96_returns_partial",
    "C96_memory_refuted"
   ],
   "note": "Returns whenever the colspans of each section add up to no more than memory holds; for every amount of memory one colspan attribute asks for more (proved)."
  },
  {
   "property": "C97",
   "status": "proved",
   "theorems": [
    "C97_ends"
   ],
   "note": "All texts; source locations and the values of numbers are left out."
  },
  {
   "property": "C98",
   "status": "partial",
   "theorems": [
    "C98_reads_partial",
    "C98_names",
    "C98_strings",
    "C98_nbsp_refuted",
    "C98_numeral_refuted",
    "C98_last_refuted",
    "C98_url_case_refuted",
    "C98_url_escape_refuted",
    "C98_url_space_refuted",
    "C98_bad_url_refuted",
    "C98_name_line_refuted",
    "C98_string_line_refuted",
    "C98_string_feed_refuted",
    "C98_nul_refuted"
   ],
   "note": "All pieces in all spellings, except names with plain non-ASCII white space or numerals, U+10FFFF, plain escapes inside urls, url in capitals, bad urls, and CR and FF as line ends inside names and strings; each of these is read differently from CSS (witnesses proved)."
  },
  {
   "property": "C99",
   "status": "proved",
   "theorems": [
    "C99_cursor"
   ],
   "note": "All texts and call sequences."
  },
  {
   "property": "C100",
   "status": "proved",
   "theorems": [
    "C100_ends",
    "C100_cursor"
   ],
   "note": "All texts. The stack is not modelled here (see C101); source locations, messages and tracing are left out."
  },
  {
   "property": "C101",
   "status": "partial",
   "theorems": [
    "C101_depth_refuted"
   ],
   "note": "False: the conditions of @media and @container call themselves without the depth check that blocks, values and selectors go through; for every limit a text exceeds it (proved)."
  },
  {
   "property": "C102",
   "status": "partial",
   "theorems": [
    "C102_reads_partial",
    "C102_text_partial",
    "C102_comma_refuted",
    "C102_attribute_refuted",
    "C102_comment_refuted",
    "C102_important_refuted",
    "C102_nested_refuted",
    "C102_media_refuted",
    "C102_end_refuted",
    "C102_empty_refuted"
   ],
   "note": "Proved for every sheet of style rules written as CssParseSpec.sheet_of says: type, universal, class, id, attribute and plain pseudo selectors, all combinators but the column one, lists, values with functions up to 63 deep, !important. At-rules, nested rules, namespaces, pseudo-classes with arguments, custom properties and calc are missing. The refuted theorems are witnesses of sheets that are read differently from CSS."
  },
  {
   "property": "C103",
   "status": "partial",
   "theorems": [
    "C103_dropped_partial",
    "C103_neighbour_refuted",
    "C103_kept_refuted",
    "C103_leak_refuted"
   ],
   "note": "Proved for invalid declarations that start with no name, have something else than a colon after the name, or have no value, without brackets, anywhere in a sheet of style rules. The refuted theorems are witnesses of declarations that are kept or change others."
  },
  {
   "property": "C104",
   "status": "partial",
   "theorems": [
    "C104_dropped_partial",
    "C104_sheet_refuted",
    "C104_empty_refuted"
   ],
   "note": "Proved for invalid rules whose prelude holds a token no selector contains, first or after valid selectors, with any block in which brackets match. The refuted theorems are witnesses of rules that cost the whole sheet or apply to every element."
  },
  {
   "property": "C105",
   "status": "partial",
   "theorems": [
    "C105_types",
    "C105_followed_partial",
    "C73_reference_refuted"
   ],
   "note": "Proved for all files that load (the shipped ones do, C74_shipped). Which entry defines a type is C105_types, for names that are bytes and entries called <name> or name. Missing: references are followed through the loaded tables rather than the files; that loading ends for any file; and a property's own multiplier is replaced by that of the reference, as the code does, which C73_reference_refuted shows to be wrong."
  },
  {
   "property": "C106",
   "status": "proved",
   "theorems": [
    "C106_computed",
    "C106_absolute",
    "C106_inherits",
    "C106_says",
    "C106_local",
    "C106_em_chain",
    "C106_no_border",
    "C106_current_color",
    "C106_rem_refuted",
    "C106_percent_refuted",
    "C106_border_color_refuted"
   ],
   "note": "Proved as stated, for exact numbers in place of f32; how sheets and attributes give a node a value of its own is an argument. Three readings of CSS that the code does not follow are refuted: rem is always 16px whatever the root's font size, a font size in percent is not one of the parent's, and a border without a colour of its own is black rather than currentColor."
  },
  {
   "property": "C107",
   "status": "proved",
   "theorems": [
    "C107_tree",
    "C107_ids",
    "C107_order"
   ],
   "note": "For ids below 2^60; which boxes are generated is an argument."
  },
  {
   "property": "C108",
   "status": "partial",
   "theorems": [
    "C108_questions",
    "C108_threads_partial",
    "C108_threads_silent",
    "C108_untold_refuted",
    "C108_threads_refuted",
    "C108_late_refuted"
   ],
   "note": "Proved for one thread if every node whose style changed is named in the invalidation. False when it is not (the engine only names the chains of hovered elements, so a sheet with a:hover + b leaves b stale), and false for several threads: one can see the cache of sheets filled before the cache of style attributes, and one that computed before a change can store its old result after the invalidation. For all schedules without changes the answer is right or the sheets' value, and right for nodes without a style attribute. The adapter is Send and Sync, but no caller that asks from several threads was found in the repository. The third cache, of generated boxes, is not modelled."
  },
  {
   "property": "C109",
   "status": "proved",
   "theorems": [
    "C109_rendered"
   ],
   "note": "All documents that are trees, any visibility."
  },
  {
   "property": "C110",
   "status": "partial",
   "theorems": [
    "C110_partition",
    "C110_sorted",
    "C110_apart",
    "C110_with_parent",
    "C110_z_partial",
    "C110_fixed_refuted",
    "C110_opacity_refuted",
    "C110_z_inside_refuted",
    "C110_z_outside_refuted",
    "C110_image_refuted"
   ],
   "note": "All layout trees (for the order among layers of one level: whose root is not an image). A z-index counts only outside of groups; inside it is ignored, or escapes the group if the element also fades. Opacities do not multiply, what fades inside a fixed element scrolls away, and images are painted over later content (witnesses proved)."
  },
  {
   "property": "C111",
   "status": "partial",
   "theorems": [
    "C111_hit",
    "C111_margin_refuted"
   ],
   "note": "Proved for margin boxes, for all layers and exact arithmetic; so points in a margin hit the element (witness proved)."
  },
  {
   "property": "C112",
   "status": "partial",
   "theorems": [
    "C112_cover",
    "C112_pieces",
    "C112_piece",
    "C112_order",
    "C112_layers",
    "C112_outside_refuted",
    "C112_border_refuted"
   ],
   "note": "Proved for margin boxes on the page, for all positive tile sizes, in exact arithmetic. The page is the margin box of the root: what sticks out of it is in no tile, and neither is what an element with negative margins paints outside of its margin box (witnesses proved)."
  },
  {
   "property": "C113",
   "status": "proved",
   "theorems": [
    "C113_sticky",
    "C113_monotone",
    "C113_placed"
   ],
   "note": "Exact arithmetic; top and left, as bottom and right are not supported."
  },
  {
   "property": "C114",
   "status": "proved",
   "theorems": [
    "C114_words",
    "C114_nearest",
    "C114_over",
    "C114_fade",
    "C114_bytes",
    "C114_straight_refuted"
   ],
   "note": "All pixels; opacities are exact numbers. For sources that are not premultiplied channels wrap around (witness proved); the rasterizers' contract is to premultiply."
  },
  {
   "property": "C115",
   "status": "partial",
   "theorems": [
    "C115_frame",
    "C115_opaque",
    "C115_seams_partial",
    "C115_seam_refuted"
   ],
   "note": "The frame is proved for all tiles, regions and positions (exact numbers, within i64). Tiles keep touching unless their place is exactly halfway between two pixels: rounding is away from zero, so at the left and top edge of the screen a gap opens (witness proved)."
  },
  {
   "property": "C116",
   "status": "partial",
   "theorems": [
    "C116_stable",
    "C116_answer",
    "C116_apart",
    "C116_loaded_refuted",
    "C116_data_refuted",
    "C116_shared_refuted"
   ],
   "note": "Proved for requests in all schedules, except that a source may change its answer when inline data with the same text is loaded. Witnesses are proved for two callers of load_media, or of load_media_from_data, that get different ids, and for a drawing replaced by the placeholder as sources and drawings share one cache."
  },
  {
   "property": "C117",
   "status": "partial",
   "theorems": [
    "C117_woken_partial",
    "C117_ends",
    "C117_one",
    "C117_once",
    "C117_again_refuted",
    "C117_spawn_refuted"
   ],
   "note": "Proved unless a thread cannot be spawned; then the answer is still 'pending' but nothing follows (witness proved). Sources that are only requested are loaded once; direct callers of load_media can load twice (witness proved). Decoders that panic are not modelled."
  },
  {
   "property": "C118",
   "status": "proved",
   "theorems": [
    "C118_ends",
    "C118_between",
    "C118_range",
    "C118_line",
    "C118_edge_refuted"
   ],
   "note": "Exact numbers instead of f32; the direction of the line is given by its sine and cosine. Stops less than 2^-23 apart are a hard edge. On the edge itself the colour is that of the near side when another stop comes before, contrary to the comment in the code (witness proved)."
  },
  {
   "property": "C119",
   "status": "partial",
   "theorems": [
    "C119_count",
    "C119_timer_partial",
    "C119_groups",
    "C119_safe",
    "C119_end_refuted",
    "C119_clock_refuted"
   ],
   "note": "Counters and groups are proved. Timers never end, so that one started again goes on from its first start, and a clock that is set back makes the console panic in debug builds (witnesses proved); until then a timer is proved to measure."
  }
 ]
}