{
 "claims": [
  {
   "property": "C01",
   "status": "proved",
   "theorems": [
    "C01_ascii_edits"
   ],
   "note": "All sessions of ranged changes on one document; other documents are covered by C09."
  },
  {
   "property": "C02",
   "status": "partial",
   "theorems": [
    "C02_unicode_edits_refuted",
    "C02_unicode_edit_crash_refuted",
    "C02_unicode_edits_exact",
    "C02_unicode_sessions_partial"
   ],
   "note": "False of the code: wrong offset and crash witnesses. Proved: exactly which legal edits are applied correctly (lines above ASCII, characters before on the own line in the basic plane), and that sessions of such edits give the client's text."
  },
  {
   "property": "C03",
   "status": "proved",
   "theorems": [
    "C03_offset_position",
    "C03_position_unique",
    "C03_never_panics"
   ],
   "note": "For texts below 4 GiB (u32 columns); panic freedom without that bound."
  },
  {
   "property": "C04",
   "status": "partial",
   "theorems": [
    "C04_edit_description_refuted",
    "C04_edit_description_partial",
    "C04_bytes_exact",
    "C04_text_and_bytes_exact",
    "C04_new_point_exact"
   ],
   "note": "New end point is false for insertions with line breaks or reaching past the old line; everything else proved. C04_new_point_exact: exactly when the new end point is right. For Unicode documents: exactly which edits get truthful byte offsets."
  },
  {
   "property": "C05",
   "status": "proved",
   "theorems": [
    "C05_edit_crash_exact",
    "C05_legal_ascii_edit_safe"
   ],
   "note": ""
  },
  {
   "property": "C06",
   "status": "proved",
   "theorems": [
    "C06_chunks_complete",
    "C06_encoding_faithful"
   ],
   "note": ""
  },
  {
   "property": "C07",
   "status": "partial",
   "theorems": [
    "C07_rangeless_change_refuted",
    "C07_rangeless_ignored"
   ],
   "note": "False of the code; the exact (universal) behaviour is proved."
  },
  {
   "property": "C08",
   "status": "proved",
   "theorems": [
    "C08_trees_current",
    "C08_initial",
    "C08_indexed",
    "C08_reachable_current",
    "C08_reachable_fits"
   ],
   "note": "Assuming the parser returns a tree; the reachable theorems are about the whole running server, and the last one also shows that the incremental parser was only ever given old trees that tree-sitter's contract allows; whether tree-sitter's incremental parse equals a fresh parse is outside the model (see C04 and C56)."
  },
  {
   "property": "C09",
   "status": "proved",
   "theorems": [
    "C09_isolation",
    "C09_unknown_uri"
   ],
   "note": ""
  },
  {
   "property": "C10",
   "status": "proved",
   "theorems": [
    "C10_exact_scopes"
   ],
   "note": "For the capture order of the DEFINITIONS query described in SpecScope.v."
  },
  {
   "property": "C11",
   "status": "proved",
   "theorems": [
    "C11_scope_never_too_short"
   ],
   "note": "Inline conditionals in with/macro headers excluded."
  },
  {
   "property": "C12",
   "status": "partial",
   "theorems": [
    "C12_else_leak_refuted",
    "C12_extents_exact",
    "C11_scope_never_too_short"
   ],
   "note": "False of the code. The extents recorded are characterised exactly for templates of every shape; without branches they are the right ones (C10), and never too short (C11)."
  },
  {
   "property": "C13",
   "status": "partial",
   "theorems": [
    "C13_block_set_refuted",
    "C13_block_set_partial",
    "C12_extents_exact"
   ],
   "note": "False of the code inside a block; proved for block sets outside every block."
  },
  {
   "property": "C14",
   "status": "partial",
   "theorems": [
    "C14_loop_targets_refuted",
    "C14_second_target_never_recorded"
   ],
   "note": "False of the code; no capture sequence ever yields a second loop target."
  },
  {
   "property": "C15",
   "status": "partial",
   "theorems": [
    "C15_header_names_refuted",
    "C15_header_names_exact"
   ],
   "note": "False of the code; the exact recorded list is proved."
  },
  {
   "property": "C16",
   "status": "proved",
   "theorems": [
    "C16_definitions_never_panic"
   ],
   "note": ""
  },
  {
   "property": "C17",
   "status": "proved",
   "theorems": [
    "C17_objects_exact"
   ],
   "note": ""
  },
  {
   "property": "C18",
   "status": "proved",
   "theorems": [
    "C18_lookup_never_panics"
   ],
   "note": "The hypothesis (no operator at the very start) is shown necessary by an example."
  },
  {
   "property": "C19",
   "status": "proved",
   "theorems": [
    "C19_nothing_after_cursor",
    "C19_hover_selects_chain",
    "C19_hover_selects_name"
   ],
   "note": ""
  },
  {
   "property": "C20",
   "status": "proved",
   "theorems": [
    "C20_filters_on_pipe",
    "C20_identifiers_in_expression",
    "C20_tests_after_is",
    "C20_nothing_outside",
    "C20_typed_part_in_chain"
   ],
   "note": ""
  },
  {
   "property": "C21",
   "status": "proved",
   "theorems": [
    "C21_prefix_is_typed_part"
   ],
   "note": ""
  },
  {
   "property": "C22",
   "status": "proved",
   "theorems": [
    "C22_diagnostics_exact",
    "C22_reports_unique"
   ],
   "note": ""
  },
  {
   "property": "C23",
   "status": "proved",
   "theorems": [
    "C23_hide_undefined"
   ],
   "note": ""
  },
  {
   "property": "C24",
   "status": "proved",
   "theorems": [
    "C24_missing_templates",
    "C24_missing_templates_backend"
   ],
   "note": "The order of the reports follows a hash map in the code; C27_statement_order covers every order."
  },
  {
   "property": "C25",
   "status": "proved",
   "theorems": [
    "C25_lookups_begin_with_directory"
   ],
   "note": ""
  },
  {
   "property": "C26",
   "status": "partial",
   "theorems": [
    "C26_goto_agrees_partial",
    "C26_absolute_name_refuted"
   ],
   "note": "False of the code for absolute names; proved for names without empty segments."
  },
  {
   "property": "C27",
   "status": "proved",
   "theorems": [
    "C27_order_irrelevant",
    "C27_diagnostics_order",
    "C27_statement_order"
   ],
   "note": ""
  },
  {
   "property": "C28",
   "status": "proved",
   "theorems": [
    "C28_published_faithful"
   ],
   "note": ""
  },
  {
   "property": "C29",
   "status": "partial",
   "theorems": [
    "C29_error_hides_definitions_refuted",
    "C29_error_reports_everything"
   ],
   "note": "False of the code; the opposite is proved in general."
  },
  {
   "property": "C30",
   "status": "partial",
   "theorems": [
    "C30_import_alias_refuted",
    "C30_imports_define_nothing"
   ],
   "note": "False of the code; imports provably never define a name."
  },
  {
   "property": "C31",
   "status": "proved",
   "theorems": [
    "C31_goto_latest_visible"
   ],
   "note": ""
  },
  {
   "property": "C32",
   "status": "proved",
   "theorems": [
    "C32_goto_other_files",
    "C32_goto_crash"
   ],
   "note": "Under the hypothesis that the target names parse as URLs; C32_goto_crash: one matching name whose target does not parse crashes the server."
  },
  {
   "property": "C33",
   "status": "proved",
   "theorems": [
    "C33_hover_agrees_with_linting",
    "C33_completion_agrees_with_linting",
    "C33_goto_agrees_refuted"
   ],
   "note": "At the level of the requests. Goto, which the statement does not mention, does not agree (refuted as an extra)."
  },
  {
   "property": "C34",
   "status": "proved",
   "theorems": [
    "C34_variables_offered",
    "C34_variables_in_expression",
    "C34_variables_for_prefix"
   ],
   "note": ""
  },
  {
   "property": "C35",
   "status": "partial",
   "theorems": [
    "C35_templates_offered",
    "C35_all_or_nothing",
    "C35_asked_inside_reference",
    "C35_every_template_refuted"
   ],
   "note": "Proved when the directory's name, without dots, occurs once in every matching URI; false of the code otherwise."
  },
  {
   "property": "C36",
   "status": "proved",
   "theorems": [
    "C36_document_symbols"
   ],
   "note": ""
  },
  {
   "property": "C37",
   "status": "partial",
   "theorems": [
    "C37_create_offered",
    "C37_create_only_there",
    "C37_references_remembered",
    "C37_reset_in_gap",
    "C37_reset_on_name_partial",
    "C37_reset_refuted",
    "C37_no_reset_at_start"
   ],
   "note": "The reset half is false of the code before the first character of a name and in documents without diagnostics; proved in the white space of expressions and behind the first character of a name."
  },
  {
   "property": "C38",
   "status": "proved",
   "theorems": [
    "C38_classification",
    "C38_ignored",
    "C38_dotfiles"
   ],
   "note": "For every path; the last component and its extension are specified independently."
  },
  {
   "property": "C39",
   "status": "proved",
   "theorems": [
    "C39_precedence",
    "C39_determined",
    "C39_settings"
   ],
   "note": "TOML and JSON decoding are oracles."
  },
  {
   "property": "C40",
   "status": "proved",
   "theorems": [
    "C40_index"
   ],
   "note": "For every file system; conditional on the analysis not panicking (then the whole server task dies, C48)."
  },
  {
   "property": "C41",
   "status": "partial",
   "theorems": [
    "C41_reset_keeps_edits_refuted",
    "C41_reset_texts_partial"
   ],
   "note": "False of the code: reset reloads every text from disk; what is kept is proved exactly."
  },
  {
   "property": "C42",
   "status": "proved",
   "theorems": [
    "C42_answered_once",
    "C42_answers_at_rest",
    "C42_answers_in_order",
    "C42_forwarded"
   ],
   "note": "Also in executions in which the task panics; order of answers for executions without a panic."
  },
  {
   "property": "C43",
   "status": "proved",
   "theorems": [
    "C43_sequential"
   ],
   "note": "For executions without a panic of the server task (after one: C48)."
  },
  {
   "property": "C44",
   "status": "partial",
   "theorems": [
    "C44_deadlock_refuted",
    "C44_stuck_partial"
   ],
   "note": "False of the code: two deadlocks. Proved: every state in which nothing can move is either at rest or one of these two, with the server queue full."
  },
  {
   "property": "C45",
   "status": "partial",
   "theorems": [
    "C45_two_timers_refuted",
    "C45_timers_partial",
    "C45_last_edit_partial",
    "C45_timer_origin",
    "C45_timer_fires"
   ],
   "note": "False of the code when the workspace is re-indexed between edits (the timer handle is lost). Proved: at most one live timer plus one per such re-indexing; without any, the live timer is that of the last edit."
  },
  {
   "property": "C46",
   "status": "partial",
   "theorems": [
    "C46_lost_refresh_refuted",
    "C46_last_edit_partial",
    "C46_one_document_partial"
   ],
   "note": "False of the code: the timer is shared by all documents, so an edit of another document within the delay loses a refresh. Proved for the last edit, hence for all edits while one document is edited."
  },
  {
   "property": "C47",
   "status": "partial",
   "theorems": [
    "C47_reload_refuted",
    "C47_agree_partial"
   ],
   "note": "False of the code after re-indexing. Proved when the workspace is indexed before anything is linted; URL parsing assumed to return what was parsed."
  },
  {
   "property": "C48",
   "status": "proved",
   "theorems": [
    "C48_crash_permanent"
   ],
   "note": ""
  },
  {
   "property": "C49",
   "status": "proved",
   "theorems": [
    "C49_variables",
    "C49_hover_range",
    "C49_hover",
    "C49_complete",
    "C49_goto",
    "C49_above_debug",
    "C49_above_release",
    "C49_hover_filter",
    "C49_hover_name"
   ],
   "note": "Miss in release builds for hover, on documents whose captures the lookup can read (C18)."
  },
  {
   "property": "C50",
   "status": "proved",
   "theorems": [
    "C50_links",
    "C50_links_any",
    "C50_python_links",
    "C50_python_language"
   ],
   "note": "For every history of calls; template uses from the pieces of the document, Python chains relative to the identifiers read (C53)."
  },
  {
   "property": "C51",
   "status": "proved",
   "theorems": [
    "C51_saved_names",
    "C51_others_untouched",
    "C51_removed",
    "C51_history"
   ],
   "note": ""
  },
  {
   "property": "C52",
   "status": "proved",
   "theorems": [
    "C52_delete_exact"
   ],
   "note": "As stated (every URI containing f); C80 shows why that is not what one wants."
  },
  {
   "property": "C53",
   "status": "partial",
   "theorems": [
    "C53_chains_partial",
    "C53_error_refuted"
   ],
   "note": "Proved for every chain without error nodes among its captures; false of the code with them (they become segments)."
  },
  {
   "property": "C54",
   "status": "proved",
   "theorems": [
    "C54_definitions",
    "C54_references",
    "C54_server"
   ],
   "note": ""
  },
  {
   "property": "C55",
   "status": "partial",
   "theorems": [
    "C55_set_in_if_refuted",
    "C55_set_in_if_partial"
   ],
   "note": "False of the code for a set in an if. Proved: never too long, and exact when no if introduces names."
  },
  {
   "property": "C56",
   "status": "partial",
   "theorems": [
    "C56_reopen_stale_tree_refuted",
    "C56_reopen_old_tree"
   ],
   "note": "False of the code: the stored tree is passed unedited."
  },
  {
   "property": "C57",
   "status": "partial",
   "theorems": [
    "C57_attribute_owner_refuted",
    "C57_attribution_exact",
    "C57_own_attributes_partial"
   ],
   "note": "False of the code. Proved: exactly which object every attribute is recorded for, for every sequence of words; the claim itself when no built-in or test carries an attribute."
  },
  {
   "property": "C58",
   "status": "partial",
   "theorems": [
    "C58_is_leaks_refuted",
    "C58_is_reaches_partial",
    "C57_attribution_exact"
   ],
   "note": "False of the code. Proved: exactly how far an 'is' reaches, for every sequence of words."
  },
  {
   "property": "C59",
   "status": "partial",
   "theorems": [
    "C59_replaces_name_refuted",
    "C59_replaces_name_partial",
    "C59_replaced_exact",
    "C59_with_attribute"
   ],
   "note": "False of the code: attributes behind the cursor are replaced too. Proved: exactly what is replaced in every template, and the claim for a lone name not followed by a dotted chain."
  },
  {
   "property": "C60",
   "status": "partial",
   "theorems": [
    "C60_quoted_prefix_refuted",
    "C60_quoted_prefix_exact"
   ],
   "note": "False of the code; the exact result is proved."
  },
  {
   "property": "C61",
   "status": "partial",
   "theorems": [
    "C61_attribute_prefix_refuted",
    "C61_attribute_prefix_partial"
   ],
   "note": "False of the code. Proved: exactly which prefix and range are used instead."
  },
  {
   "property": "C62",
   "status": "partial",
   "theorems": [
    "C62_tests_and_filters_refuted",
    "C62_no_tests_in_expressions"
   ],
   "note": "False of the code; universally false after is inside an expression."
  },
  {
   "property": "C63",
   "status": "partial",
   "theorems": [
    "C63_dotdot_refuted",
    "C63_without_dotdot_below"
   ],
   "note": "False of the code; proved for names without a dot-dot segment."
  },
  {
   "property": "C64",
   "status": "proved",
   "theorems": [
    "C64_open_end_to_end",
    "C64_save_end_to_end",
    "C64_open_any_shape",
    "C64_save_any_shape",
    "C64_no_false_alarms"
   ],
   "note": "The any_shape theorems cover templates with else branches, set in the middle of headers and so on, with the extents the analysis counts (C12 says how those relate to Jinja's); only inline conditionals in end tags are excluded."
  },
  {
   "property": "C65",
   "status": "partial",
   "theorems": [
    "C65_globals_refuted",
    "C65_builtins_never_reported"
   ],
   "note": "False of the code; proved for the eight names the server knows."
  },
  {
   "property": "C66",
   "status": "proved",
   "theorems": [
    "C66_goto_reference"
   ],
   "note": ""
  },
  {
   "property": "C67",
   "status": "partial",
   "theorems": [
    "C67_vscode_inserts_label_refuted",
    "C67_vscode_writes_prefix",
    "C34_variables_offered"
   ],
   "note": "False of the code: for every offered name and every prefix the item writes the prefix again; what is written is proved exactly."
  },
  {
   "property": "C68",
   "status": "partial",
   "theorems": [
    "C68_goto_attribute_refuted",
    "C68_goto_attribute_partial"
   ],
   "note": "False of the code. Proved: exactly what goto answers on an attribute, depending on what follows."
  },
  {
   "property": "C69",
   "status": "partial",
   "theorems": [
    "C69_hover_exact",
    "C69_hover_on_definition_refuted"
   ],
   "note": "Proved except for the last sentence, which is false of the code."
  },
  {
   "property": "C70",
   "status": "proved",
   "theorems": [
    "C70_hover_documentation"
   ],
   "note": ""
  },
  {
   "property": "C71",
   "status": "partial",
   "theorems": [
    "C71_created_path",
    "C71_created_uri_refuted"
   ],
   "note": "False of the code; the URI is proved exactly."
  },
  {
   "property": "C72",
   "status": "partial",
   "theorems": [
    "C72_defined_elsewhere_refuted",
    "C72_defined_elsewhere_partial"
   ],
   "note": "False of the code for blocks; proved for names this file does not declare."
  },
  {
   "property": "C73",
   "status": "partial",
   "theorems": [
    "C73_other_files_agree_refuted",
    "C73_other_files_agree_partial"
   ],
   "note": "False of the code for dotted names of other files. Proved: agreement for all other names."
  },
  {
   "property": "C74",
   "status": "proved",
   "theorems": [
    "C74_index_forgets_history"
   ],
   "note": ""
  },
  {
   "property": "C75",
   "status": "partial",
   "theorems": [
    "C75_same_entry_refuted",
    "C75_same_entry_partial",
    "C75_link_refuted"
   ],
   "note": "False of the code for paths with reserved characters; proved to hold exactly for the others, as far as the spelling of the path goes. False also if the directory of the templates is a symbolic link, which is resolved for the index only (C75_link_refuted)."
  },
  {
   "property": "C76",
   "status": "proved",
   "theorems": [
    "C76_no_infinite_run",
    "C76_comes_to_rest"
   ],
   "note": "Timers are assumed to expire only once, and handlers to terminate (they are total functions of the model)."
  },
  {
   "property": "C77",
   "status": "proved",
   "theorems": [
    "C77_publication_order"
   ],
   "note": "For executions in which neither task panics."
  },
  {
   "property": "C78",
   "status": "partial",
   "theorems": [
    "C78_description_refuted",
    "C78_offered_partial"
   ],
   "note": "False of the code; the names of saved hints are offered."
  },
  {
   "property": "C79",
   "status": "partial",
   "theorems": [
    "C79_goto_refuted",
    "C79_goto_crash",
    "C79_goto_partial"
   ],
   "note": "False of the code: it panics whenever the file name is not itself a URL; proved when it is."
  },
  {
   "property": "C80",
   "status": "partial",
   "theorems": [
    "C80_other_file_refuted",
    "C80_other_file_partial"
   ],
   "note": "False of the code; proved for files in whose URI f does not occur."
  },
  {
   "property": "C81",
   "status": "partial",
   "theorems": [
    "C81_python_refuted",
    "C81_fresh_partial"
   ],
   "note": "Proved for templates; false of the code for Python documents, whose tree survives."
  },
  {
   "property": "C82",
   "status": "partial",
   "theorems": [
    "C82_partial_name_refuted",
    "C82_nothing_offered",
    "C82_partial_name_partial"
   ],
   "note": "False of the code: nothing is ever offered unless hints are registered under the file name; proved in that case."
  },
  {
   "property": "C83",
   "status": "partial",
   "theorems": [
    "C83_written_refuted",
    "C83_written_partial"
   ],
   "note": "False of the code; proved for chains written with dots only."
  },
  {
   "property": "C84",
   "status": "partial",
   "theorems": [
    "C84_literal_refuted",
    "C84_literal_partial"
   ],
   "note": "False of the code; proved for literals without quotes in their content."
  },
  {
   "property": "C85",
   "status": "partial",
   "theorems": [
    "C85_survives_partial",
    "C85_survives_any_reopening_partial",
    "C85_reopen_crash_refuted",
    "C85_two_line_name_crash_refuted"
   ],
   "note": "False of the code without the restrictions, as the two refutations show; proved for sessions whose edits have only ASCII before them and which reopen a document only with its text, for any schedule of the tasks, with tree-sitter assumed to keep its documented contract. Debug builds need template names on one line."
  },
  {
   "property": "C86",
   "status": "partial",
   "theorems": [
    "C86_text_partial",
    "C86_told_partial",
    "C86_only_indexed",
    "C86_obedient_editor_refuted"
   ],
   "note": "False of the code for editors that obey the announced capabilities: the server then knows indexed files only. Proved for editors that send didOpen, in every reachable state, until the workspace is indexed again (C41), for the edits that C02 shows to be applied correctly."
  },
  {
   "property": "C87",
   "status": "partial",
   "theorems": [
    "C87_close_ignored",
    "C87_discarded_text_refuted",
    "C87_saved_text_partial"
   ],
   "note": "False of the code; proved when the text had been saved."
  },
  {
   "property": "C88",
   "status": "partial",
   "theorems": [
    "C88_offered_commands_announced",
    "C88_reindexed_exactly",
    "C88_other_commands",
    "C88_warn_refuted"
   ],
   "note": "Proved except that the offered command warn does nothing."
  },
  {
   "property": "C89",
   "status": "partial",
   "theorems": [
    "C89_clone_partial",
    "C89_python_clone_refuted"
   ],
   "note": "False of the code for Python; proved for Rust, up to the pending timer, which a copy does not abort."
  },
  {
   "property": "C90",
   "status": "proved",
   "theorems": [
    "C90_basic_counts"
   ],
   "note": "For templates with fewer than 2^31 uses, whose captures have the shape described in SpecObjects.v."
  },
  {
   "property": "C91",
   "status": "partial",
   "theorems": [
    "C91_shown_partial",
    "C91_stale_refuted",
    "C91_current_iff"
   ],
   "note": "False of the code when another document changed afterwards; proved when nothing else was linted since the last refresh, and characterised exactly when other documents were opened, edited or saved in between: the screen is right iff the names used without declaration are known now exactly when they were known then, and the same templates are missing."
  },
  {
   "property": "C92",
   "status": "partial",
   "theorems": [
    "C92_after_conditional_refuted",
    "C92_header_partial"
   ],
   "note": "False of the code after an inline conditional; the names recorded for a header are characterised exactly."
  },
  {
   "property": "C93",
   "status": "partial",
   "theorems": [
    "C93_offers_fit_refuted",
    "C93_offers_fit_partial",
    "C93_filters_at_start",
    "C93_variables_in_front"
   ],
   "note": "False of the code at 0:0 (filters are always offered) and in front of and on the brackets of an expression (variables are offered). Proved for arbitrary query results: everything else offered fits."
  },
  {
   "property": "C94",
   "status": "proved",
   "theorems": [
    "C94_goto_order",
    "C94_hover_order",
    "C94_diagnostics_order",
    "C94_symbols_order",
    "C94_offered_names_order"
   ],
   "note": ""
  },
  {
   "property": "C95",
   "status": "partial",
   "theorems": [
    "C95_goto_on_nothing_refuted",
    "C95_goto_at_start",
    "C95_goto_on_nothing_partial"
   ],
   "note": "False of the code at the beginning of a template that starts with extends: goto opens the template directory. Elsewhere only variables of other files with an empty first segment are found."
  },
  {
   "property": "C96",
   "status": "proved",
   "theorems": [
    "C96_open_without_index"
   ],
   "note": ""
  },
  {
   "property": "C97",
   "status": "partial",
   "theorems": [
    "C97_description_agrees_refuted",
    "C97_described_by_first_partial"
   ],
   "note": "False of the code: completion describes a name by its first visible definition, hover by its last."
  },
  {
   "property": "C98",
   "status": "partial",
   "theorems": [
    "C98_snippets_offered",
    "C98_accept_elsewhere_partial",
    "C98_accept_vscode",
    "C98_accept_refuted"
   ],
   "note": "False of the code: the character behind the cursor is overwritten, placeholders stay as they are, Visual Studio Code inserts the label. The exact result of acceptance is proved for both kinds of editors."
  },
  {
   "property": "C99",
   "status": "partial",
   "theorems": [
    "C99_elsewhere_one_edit",
    "C99_vscode_collide",
    "C99_vscode_refuted"
   ],
   "note": "False of the code in Visual Studio Code, where every additional edit collides; proved for other editors."
  },
  {
   "property": "C100",
   "status": "partial",
   "theorems": [
    "C100_reference_written_partial",
    "C100_offered_found_partial",
    "C100_opened_found_refuted",
    "C100_reference_written_refuted"
   ],
   "note": "False of the code for opened documents with escaped URIs and for literals behind non-ASCII characters. Proved for indexed templates and ASCII prefixes."
  },
  {
   "property": "C101",
   "status": "partial",
   "theorems": [
    "C101_documented_offered",
    "C101_documented_hover",
    "C101_jinja_names",
    "C101_all_documented_refuted"
   ],
   "note": "False of the code: exactly the listed built-in names and the contrib files are not explained. The documented names are offered once each and explained."
  },
  {
   "property": "C102",
   "status": "partial",
   "theorems": [
    "C102_snippets_exact",
    "C102_incomplete_partial",
    "C102_second_refuted"
   ],
   "note": "False of the code behind another incomplete statement; the exact condition is proved for arbitrary query results."
  },
  {
   "property": "C103",
   "status": "proved",
   "theorems": [
    "C103_parsed",
    "C103_open",
    "C103_save",
    "C103_open_any_shape",
    "C103_save_any_shape",
    "C103_no_false_alarms",
    "C103_numbers"
   ],
   "note": "For every tree that depicts a template (no syntax errors). Jinja's own extents without else branches in blocks, the extents the analysis counts for any shape; branching templates for absence of false alarms. Query evaluation is modelled, see DESIGN.md section 4."
  },
  {
   "property": "C104",
   "status": "partial",
   "theorems": [
    "C104_own_end_tag_refuted",
    "C103_open"
   ],
   "note": "False of the code: endcall ends the enclosing loop. The exact extents are those of C103."
  },
  {
   "property": "C105",
   "status": "partial",
   "theorems": [
    "C105_references",
    "C105_ignore_missing_refuted"
   ],
   "note": "False of the code; references are reported exactly when they are missing, whatever else the statement says."
  },
  {
   "property": "C106",
   "status": "partial",
   "theorems": [
    "C106_with_context_refuted",
    "C103_open"
   ],
   "note": "False of the code whichever way the word context is parsed."
  },
  {
   "property": "C107",
   "status": "partial",
   "theorems": [
    "C107_rust_exact",
    "C107_rust_complete",
    "C107_only_handed_refuted"
   ],
   "note": "False of the code: identifiers of any macro are remembered. Names handed over are remembered, and what is remembered is characterised exactly."
  },
  {
   "property": "C108",
   "status": "partial",
   "theorems": [
    "C108_python_exact",
    "C108_handed_refuted"
   ],
   "note": "False of the code for render on the result of a call. What is remembered is characterised exactly."
  },
  {
   "property": "C109",
   "status": "partial",
   "theorems": [
    "C109_checked",
    "C109_rendered_refuted"
   ],
   "note": "False of the code for render_template. What is checked is characterised exactly."
  },
  {
   "property": "C110",
   "status": "partial",
   "theorems": [
    "C110_dotted",
    "C110_exact",
    "C110_plain_refuted",
    "C110_call_refuted"
   ],
   "note": "False of the code for names without dots and for a.b().c. Dotted names are linked exactly, and nothing else is linked in code without such calls."
  },
  {
   "property": "C111",
   "status": "partial",
   "theorems": [
    "C111_understood",
    "C111_files",
    "C111_used_partial",
    "C111_dropped",
    "C111_short_refuted"
   ],
   "note": "False of the code: settings with a missing or mistyped field are dropped as a whole, without a message. Exactly which settings are understood is proved, and that the index then holds exactly the files below the named directories (when the language is supported and the directories can be walked)."
  },
  {
   "property": "C112",
   "status": "partial",
   "theorems": [
    "C112_changed",
    "C112_refused",
    "C112_refused_change_refuted"
   ],
   "note": "The second half is false of the code: the workspace is indexed again and unsaved edits are lost. What understood settings do is proved, including that a failed indexing keeps the old index under the new configuration."
  },
  {
   "property": "C113",
   "status": "partial",
   "theorems": [
    "C113_unserved",
    "C113_jinja2_refuted"
   ],
   "note": "The first half is false of the code for .jinja2; the second half is proved in every reachable state (resolving paths must not change the kind of a file)."
  },
  {
   "property": "C114",
   "status": "proved",
   "theorems": [
    "C114_open",
    "C114_save",
    "C114_goto",
    "C114_goto_elsewhere",
    "C114_hover",
    "C114_completion",
    "C114_definitions"
   ],
   "note": "For every tree that depicts a template (else branches included) and whose nodes lie as parsers put them (children in order and inside their parent, names not empty), the cursor not between a name and something that begins where the name ends."
  },
  {
   "property": "C115",
   "status": "proved",
   "theorems": [
    "C115_open",
    "C115_save"
   ],
   "note": "Same conditions as C114. The two exceptions in the statement (blocks, definitions themselves) are how the code behaves."
  },
  {
   "property": "C116",
   "status": "partial",
   "theorems": [
    "C116_held",
    "C116_goto",
    "C116_goto_elsewhere",
    "C116_hover",
    "C116_completion",
    "C116_symbols",
    "C116_just_read",
    "C116_at_rest",
    "C116_edited_refuted"
   ],
   "note": "False of the code: between an edit and the next refresh goto leads to where the definition was before the edit (C116_edited_refuted). For every execution: the name is taken from the editor's text and the definitions from the text at the last opening or saving; the two agree once the server has come to rest, when one document is edited."
  },
  {
   "property": "C117",
   "status": "proved",
   "theorems": [
    "C117_open",
    "C117_save",
    "C117_session",
    "C117_completion",
    "C117_completion_session"
   ],
   "note": "For templates whose syntax tree depicts them (no syntax errors), with well placed nodes. goto [] for a missing file supposes that no variable of another file has an empty name (named_vars). Names with empty segments (absolute paths, the empty name) are excluded: there the two disagree (C26). Completion labels need the directory name to occur once in the URI (C35)."
  },
  {
   "property": "C118",
   "status": "proved",
   "theorems": [
    "C118_hover",
    "C118_session"
   ],
   "note": "For templates whose syntax tree depicts them, with well placed nodes and the cursor on the name."
  },
  {
   "property": "C119",
   "status": "partial",
   "theorems": [
    "C119_asks",
    "C119_never_refused",
    "C119_quote",
    "C119_space_in_expression",
    "C119_space_after_pipe",
    "C119_space_after_is",
    "C119_statement_begun",
    "C119_pipe_refuted"
   ],
   "note": "False of the code: after a pipe or a single quote the editor does not ask (C119_pipe_refuted). The other cases hold: quote and space in whole sessions from syntax trees, space behind a pipe or is and the begun statement at the level of the captures (such texts have syntax errors)."
  },
  {
   "property": "C120",
   "status": "partial",
   "theorems": [
    "C120_understood",
    "C120_used",
    "C120_files_ignored",
    "C120_file_refuted"
   ],
   "note": "The second half is false of the code: whatever is on the disk, the first message is treated the same (C120_files_ignored; witness C120_file_refuted). The first half is proved. How VS Code merges settings and defaults is modelled (MExtension), not its validation."
  },
  {
   "property": "C121",
   "status": "proved",
   "theorems": [
    "C121_screen",
    "C121_screen_at_rest"
   ],
   "note": "For templates whose syntax tree depicts them; hide_undefined off (ls_ignore = false); the URI is the only one published under its parsed form. Against the names known at the last reading: that these may be outdated is C91."
  },
  {
   "property": "C122",
   "status": "proved",
   "theorems": [
    "C122_fixes",
    "C122_only_on_missing"
   ],
   "note": "For templates whose syntax tree depicts them. White space: behind the end of every word before it and in front of the next (between). On a name itself see C37. The URI proposed is the one of C71 (four slashes for an absolute directory)."
  },
  {
   "property": "C123",
   "status": "proved",
   "theorems": [
    "C123_opened",
    "C123_screen",
    "C123_goto"
   ],
   "note": "For pairs of templates whose syntax trees depict them: that the parser makes the same statements of both layouts is a hypothesis (tpl_like, uses_like). The servers know the names used under their old and new names respectively (known_alike) and find the same templates on the disk."
  },
  {
   "property": "C124",
   "status": "proved",
   "theorems": [
    "C124_goto",
    "C124_completion"
   ],
   "note": "In terms of the syntax tree of the code, for code without syntax errors. Of calls one inside the arguments of the other the claim covers the string under the cursor when no enclosing call named its template before it (first_in_line): the code stops looking at the first string behind the cursor, so the order in which the matches come decides there."
  },
  {
   "property": "C125",
   "status": "proved",
   "theorems": [
    "C125_screen",
    "C125_screen_at_rest",
    "C125_fixes"
   ],
   "note": "In terms of the syntax tree of the code, for code without syntax errors. Which of several missing templates under one cursor is proposed is left open (one cursor touches two strings only where they meet)."
  },
  {
   "property": "C126",
   "status": "proved",
   "theorems": [
    "C126_hover",
    "C126_goto",
    "C126_completion",
    "C126_hint"
   ],
   "note": "In terms of the syntax trees of template and code. Hover and goto are about names without a dot. C126_goto says that the place in the code is among the answers, provided that the URLs of all answers are valid (the code unwraps them)."
  },
  {
   "property": "C127",
   "status": "partial",
   "theorems": [
    "C127_screen",
    "C127_answers",
    "C127_analysed",
    "C127_broken_refuted"
   ],
   "note": "False of the code for a text with a syntax error (C127_broken_refuted): opened as it is, it is not checked at all; typed into a template that was read before, every name in it is reported. Proved for all texts and trees once the template was read without error in both sessions (analysed), which C127_analysed gives for templates without errors. Hypothesis: the parser makes the same tree of the text whatever old tree it is given (becomes)."
  },
  {
   "property": "C128",
   "status": "proved",
   "theorems": [
    "C128_name",
    "C128_name_exact",
    "C128_filters",
    "C128_tests"
   ],
   "note": "For every session of the channels and the client, over trees of templates without syntax errors (conveys, as in C116). typing says where the cursor is in the words of the template; to_replace is what is replaced when attributes follow (C59). Names are looked up in what the server read last (defines of the tree at the last opening or saving)."
  },
  {
   "property": "C129",
   "status": "partial",
   "theorems": [
    "C129_questions_partial",
    "C129_quick_fix",
    "C129_read_again",
    "C129_questions_refuted"
   ],
   "note": "False of the code for quick fixes asked for on a missing template: they start a timer that has the document read again, whether the fix is accepted or not (C129_questions_refuted: without the question no session reads it again, and the screen differs). C129_questions_partial proves the claim for every session and every choice of the other questions (quick fixes elsewhere included), for any tree-sitter; C129_quick_fix says what a request for quick fixes does in all cases; C129_read_again that only edits, saves and requests for quick fixes have a document read again."
  },
  {
   "property": "C130",
   "status": "partial",
   "theorems": [
    "C130_screen_partial",
    "C130_code_unchecked",
    "C130_code_refuted",
    "C130_gone_refuted"
   ],
   "note": "False of the code in two ways: indexing does not check code, so a missing template that code names is not shown before the file is opened or saved (C130_code_refuted; C130_code_unchecked proves for every session and any tree-sitter that nothing is ever shown of such a file), and what is shown of a template stays when its file is removed and the workspace indexed again (C130_gone_refuted). C130_screen_partial proves the claim for every template below the directories: exactly its mistakes, with the names of all files of the workspace. Workspace without syntax errors (sound_workspace), known language and readable directories (usable)."
  },
  {
   "property": "C131",
   "status": "partial",
   "theorems": [
    "C131_goto_partial",
    "C131_hover_partial",
    "C131_completion",
    "C131_loaded_refuted"
   ],
   "note": "False of the code because the names of templates that code loads are stored like variables and compared up to their first dot (C131_loaded_refuted: nothing defines b, yet hover on b speaks of a backend variable and goto leads to the string b.html in the code). Proved: goto leads to exactly the places written_at, which besides definitions and names handed over has the templates loaded, whose name is the one under the cursor or begins with it and a dot (heads); hover tells exactly whether there is one (it says backend variable for definitions in other templates too); C131_completion in full. Workspace without syntax errors, URLs of its files valid, places within 32 bits; no other file read since the indexing (only)."
  },
  {
   "property": "C132",
   "status": "proved",
   "theorems": [
    "C132_screen",
    "C132_screen_at_rest"
   ],
   "note": "Workspace without syntax errors (sound_workspace), known language and readable directories (usable), hide_undefined not set; the text edited conveys a template (conveys). What other files write is written_at of C131, which has the names of templates that code loads besides definitions and names handed over. No other file read since the indexing (only); C132_screen_at_rest: no other document edited; edits as in C02."
  },
  {
   "property": "C133",
   "status": "proved",
   "theorems": [
    "C133_screen"
   ],
   "note": "Disk and editor texts without syntax errors (sound_workspace, sound_text), known language and readable directories (usable), every file read since the indexing is open in the editor and of a known kind, edits as in C02 (worked_on, editor_text). The names of templates that code loads count as names (writes_at)."
  },
  {
   "property": "C134",
   "status": "partial",
   "theorems": [
    "C134_goto_partial",
    "C134_hover_partial",
    "C134_completion"
   ],
   "note": "Same hypotheses as C133. Exact in terms of heads: a name is found wherever a file writes it up to the first dot, and the names of templates that code loads count as names, so the claim is false for those (refuted under C131)."
  },
  {
   "property": "C135",
   "status": "proved",
   "theorems": [
    "C135_screen",
    "C135_screen_at_rest"
   ],
   "note": "Template texts without syntax errors as written by conveys, known language and readable directories (usable); no later indexing; edits as in C02 (just_read, editor_text); the address leads back to this file only."
  },
  {
   "property": "C136",
   "status": "proved",
   "theorems": [
    "C136_screen",
    "C136_screen_at_rest",
    "C136_fixes"
   ],
   "note": "C125 stated in terms of the settings the user gave (set_up) instead of the state of the server. Same hypotheses on code and edits as C125; known language and readable directories (usable); no later indexing. If several missing templates are touched, one of them is proposed."
  },
  {
   "property": "C137",
   "status": "proved",
   "theorems": [
    "C137_fixes",
    "C137_only_on_missing"
   ],
   "note": "C122 for any hide_undefined and in terms of the settings the user gave (set_up). Same hypotheses on texts and edits as C122; known language and readable directories (usable); no later indexing; the template directory exists when the fix is asked for. If several missing references are touched, one of them is proposed."
  },
  {
   "property": "C138",
   "status": "proved",
   "theorems": [
    "C138_template",
    "C138_code"
   ],
   "note": "C117_session and C124_goto in terms of the settings the user gave (set_up). Same hypotheses on texts, edits and cursors (proper names; in code the first loading string on the line, see C124); known language and readable directories (usable); no later indexing before the request."
  },
  {
   "property": "C139",
   "status": "proved",
   "theorems": [
    "C139_template",
    "C139_code"
   ],
   "note": "Known templates in terms of the disk at the last indexing and the files opened since (known_template, indexed_before). Same hypotheses on texts, edits and cursors as C117 and C124 (plain references on one line; every template sought lies below the template directory, otherwise see C117); known language and readable directories (usable). Whether items carry an edit or text depends on the editor as in C117."
  }
 ]
}