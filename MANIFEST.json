{
 "claims": [
  {
   "property": "C01",
   "status": "proved",
   "theorems": [
    "C01_graph_symmetric_and_closed"
   ],
   "note": ""
  },
  {
   "property": "C02",
   "status": "proved",
   "theorems": [
    "C02_failed_operation_leaves_graph",
    "C02_only_value_errors",
    "C02_add_raises_iff",
    "C02_remove_raises_iff",
    "C02_set_raises_iff"
   ],
   "note": "exact failure conditions of all three mutators"
  },
  {
   "property": "C03",
   "status": "proved",
   "theorems": [
    "C03_acyclic",
    "C03_set_rejects_iff_cycle",
    "C03_set_accepted_takes_effect"
   ],
   "note": ""
  },
  {
   "property": "C04",
   "status": "proved",
   "theorems": [
    "C04_nested_relationship"
   ],
   "note": "for every well-formed graph, cyclic or not"
  },
  {
   "property": "C05",
   "status": "proved",
   "theorems": [
    "C05_direct_relationship",
    "C05_history_refines_edge_lists",
    "C05_specification_is_deterministic"
   ],
   "note": "refinement to a deterministic abstract graph of edge lists"
  },
  {
   "property": "C06",
   "status": "proved",
   "theorems": [
    "C06_load_store",
    "C06_surrogate_pair_refuted"
   ],
   "note": "float printing/reading are parameters assumed to be inverse; refuted for a path containing a surrogate pair, which no file system path yields"
  },
  {
   "property": "C07",
   "status": "proved",
   "theorems": [
    "C07_equality_is_structural"
   ],
   "note": "python's recursion limit is not modelled"
  },
  {
   "property": "C08",
   "status": "proved",
   "theorems": [
    "C08_classification",
    "C08_exactly_once"
   ],
   "note": "also: the classes are disjoint and exhaustive"
  },
  {
   "property": "C09",
   "status": "proved",
   "theorems": [
    "C09_exactly_the_affected_files",
    "C09_rebuilt_files"
   ],
   "note": ""
  },
  {
   "property": "C10",
   "status": "proved",
   "theorems": [
    "C10_dependencies_first",
    "C10_everything_built_once"
   ],
   "note": "reading inputs and writing outputs of one build is one atomic step of the model"
  },
  {
   "property": "C11",
   "status": "proved",
   "theorems": [
    "C11_no_concurrent_producers",
    "C11_no_concurrent_producers_refuted"
   ],
   "note": "for artifacts and for outputs with at most two producers, provided builders report only dirtied outputs that were predicted; refuted for three producers of one output"
  },
  {
   "property": "C12",
   "status": "proved",
   "theorems": [
    "C12_terminates",
    "C12_never_stuck",
    "C12_success_means_no_circle",
    "C12_failure_means_circle",
    "C12_failure_means_circle_refuted"
   ],
   "note": "cycle exactness under the prediction hypotheses stated in the theorem; refuted without no_shortfall"
  },
  {
   "property": "C13",
   "status": "proved",
   "theorems": [
    "C13_rebuild_keeps_up_to_date",
    "C13_incremental_equals_clean"
   ],
   "note": "for builders that read only what they report, are idempotent and deterministic, and builds that honour their scans (honest_rebuild); the hypotheses are spelled out and met by an executed example"
  },
  {
   "property": "C14",
   "status": "proved",
   "theorems": [
    "C14_outputs_exist",
    "C14_outputs_exist_refuted"
   ],
   "note": "the unconditional statement is refuted by a machine-checked witness (C14_outputs_exist_refuted); proved when dirtied outputs shared with unaffected files are reported again"
  },
  {
   "property": "C15",
   "status": "proved",
   "theorems": [
    "C15_no_stale_outputs",
    "C15_others_untouched",
    "C15_contents"
   ],
   "note": ""
  },
  {
   "property": "C16",
   "status": "partial",
   "theorems": [
    "C16_recovered_partial",
    "C16_mode_refuted",
    "C16_stores_refuted",
    "C16_placeholder_refuted"
   ],
   "note": "as stated it is false: three refutations. C16_recovered_partial: after any number of interrupted rebuilds the first completed one is up to date, provided the crash was inside the scheduling loop and the touched files are still found changed; missing: crashes between the state writes, where it is refuted"
  },
  {
   "property": "C17",
   "status": "proved",
   "theorems": [
    "C17_every_moment",
    "C17_at_the_end",
    "C17_integrity_sound",
    "C17_integrity_complete",
    "C17_configuration"
   ],
   "note": "hash functions are a parameter; directories and torn writes of the state file are not modelled"
  },
  {
   "property": "C18",
   "status": "partial",
   "theorems": [
    "C18_all_verified",
    "C18_removed",
    "C18_second_check_partial",
    "C18_second_check_fails",
    "C18_second_check_refuted",
    "C18_empty_configuration"
   ],
   "note": "the claim as stated is refuted (C18_second_check_refuted); proved: everything is verified after a successful check, and the second check does nothing unless a file was removed from the configuration and nothing else had to be handled; in that case it is proved to fail always"
  },
  {
   "property": "C19",
   "status": "proved",
   "theorems": [
    "C19_reader",
    "C19_peek_all_refuted"
   ],
   "note": "the reader refines a cursor into the text for every call history; peek(-1) refuted"
  },
  {
   "property": "C20",
   "status": "proved",
   "theorems": [
    "C20_reader",
    "C20_read_all",
    "C20_crlf_refuted",
    "C20_read_zero_refuted"
   ],
   "note": "exact on every text without CRLF; CRLF and read(0) refuted"
  },
  {
   "property": "C21",
   "status": "proved",
   "theorems": [
    "C21_terminates",
    "C21_tidy_accepted",
    "C21_end_refuted"
   ],
   "note": "Terminates on every text; raises only TypeError or ValueError, and nothing on texts satisfying a simple condition."
  },
  {
   "property": "C22",
   "status": "proved",
   "theorems": [
    "C22_round_trip",
    "C22_escape_refuted",
    "C22_inf_refuted"
   ],
   "note": "For every separable token list; the escape and infinity cases where the round trip fails are proved too."
  },
  {
   "property": "C23",
   "status": "proved",
   "theorems": [
    "C23_strings",
    "C23_newline_refuted",
    "C23_unicode_refuted"
   ],
   "note": "Printable ASCII strings; newline and non-ASCII are refuted."
  },
  {
   "property": "C24",
   "status": "proved",
   "theorems": [
    "C24_stream",
    "C24_identity",
    "C24_observers",
    "C24_open_mark_refuted"
   ],
   "note": "For arbitrary manipulators; tokens of a mark left open at the end are lost (proved)."
  },
  {
   "property": "C25",
   "status": "proved",
   "theorems": [
    "C25_build",
    "C25_missing_hash_fails",
    "C25_scan",
    "C25_idempotent",
    "C25_other_urls_refuted"
   ],
   "note": "For the version manipulator in the pipeline; protocol-relative urls and fragments are misread (proved)."
  },
  {
   "property": "C26",
   "status": "proved",
   "theorems": [
    "C26_comment",
    "C26_imports",
    "C26_unique",
    "C26_resolved",
    "C26_order",
    "C26_cycle",
    "C26_scan",
    "C26_start",
    "C26_available",
    "C26_unresolved",
    "C26_count_refuted",
    "C26_forward_refuted",
    "C26_twice_refuted",
    "C26_charset_refuted",
    "C26_from_refuted",
    "C26_braces_refuted",
    "C26_semicolon_refuted",
    "C26_blanks_refuted"
   ],
   "note": "The import comments of a stylesheet are modelled token by token, with the bookkeeping of rules (set_rule) and the order of resolution as an arbitrary choice. Proved for every stylesheet and every order: the result is the recursive expansion, no import is left, the result does not depend on the order, and it succeeds whenever each rule can be expanded from what was seen. Cycles and missing rules are never built. Rules whose blocks hold braces are outside the notion of stylesheet (refuted separately), as are the other refutations in PropsNest.v."
  },
  {
   "property": "C27",
   "status": "proved",
   "theorems": [
    "C27_terminates",
    "C27_pieces",
    "C27_same_code",
    "C27_verbatim",
    "C27_unicode_refuted",
    "C27_template_refuted",
    "C27_escape_refuted"
   ],
   "note": "The tokens are exactly those of the lexical rules; the round trip holds for tame texts, and is refuted for non-ASCII strings, template literals with two slashes, hexadecimal escapes and line continuations."
  },
  {
   "property": "C28",
   "status": "proved",
   "theorems": [
    "C28_closed"
   ],
   "note": ""
  },
  {
   "property": "C29",
   "status": "proved",
   "theorems": [
    "C29_lines",
    "C29_empty_line_refuted"
   ],
   "note": "Exact line-by-line behaviour for scripts without import keywords (termination is C30_terminates, for all scripts). The unconditional English claim is false: the line after an empty line is not examined (C29_empty_line_refuted)."
  },
  {
   "property": "C30",
   "status": "proved",
   "theorems": [
    "C30_terminates",
    "C30_edits",
    "C30_scan",
    "C30_children_refuted"
   ],
   "note": "Termination and scanning for every script; exact edits for scripts without hint comments. The scanned dependencies can differ from the built children when hints are present (C30_children_refuted)."
  },
  {
   "property": "C31",
   "status": "proved",
   "theorems": [
    "C31_search",
    "C31_id_start",
    "C31_id_continue",
    "C31_language_refuted"
   ],
   "note": "For the actual tables; the tables differ from the language (proved)."
  },
  {
   "property": "C32",
   "status": "proved",
   "theorems": [
    "C32_round",
    "C32_form",
    "C32_long",
    "C32_short",
    "C32_refused",
    "C32_digits_refuted",
    "C32_style_sheet",
    "C32_style_sheet_hex",
    "C32_style_sheet_not_hex",
    "C32_names",
    "C32_names_refuted"
   ],
   "note": "round trip and forms; from_hex accepts signs and blanks, two keywords have wrong values and seven are missing (findings)"
  },
  {
   "property": "C33",
   "status": "proved",
   "theorems": [
    "C33_distinct",
    "C33_inside",
    "C33_hash_refuted",
    "C33_prefix_refuted"
   ],
   "note": "For files below src/public: outputs collide only between a file and one named like its hash file (C33_hash_refuted). The code also treats src/publicX as public (C33_prefix_refuted)."
  },
  {
   "property": "C34",
   "status": "proved",
   "theorems": [
    "C34_copy",
    "C34_contents",
    "C34_fails",
    "C34_constants"
   ],
   "note": "Copy/hash and constants handlers, for every file system state. Symlinks are modelled as copies."
  },
  {
   "property": "C35",
   "status": "proved",
   "theorems": [
    "C35_bindings",
    "C35_load",
    "C35_literal",
    "C35_plain_values",
    "C35_one_value",
    "C35_accent_refuted"
   ],
   "note": "Bindings exact for all dictionaries; string literals exact for ASCII text; non-ASCII text is corrupted (C35_accent_refuted)."
  },
  {
   "property": "C36",
   "status": "proved",
   "theorems": [
    "C36_inside",
    "C36_no_enlarging",
    "C36_nothing_left",
    "C36_empty_refuted",
    "C36_outside_refuted"
   ],
   "note": "all sizes below 2^50; empty and outside rectangles for unchecked arguments refuted"
  },
  {
   "property": "C37",
   "status": "proved",
   "theorems": [
    "C37_distinct",
    "C37_sizes",
    "C37_ends",
    "C37_exact",
    "C37_stall_refuted",
    "C37_float_refuted",
    "C37_repeat_refuted"
   ],
   "note": "with the exact enumeration for decimal steps; termination for every positive step and float steps refuted"
  },
  {
   "property": "C38",
   "status": "proved",
   "theorems": [
    "C38_best",
    "C38_files",
    "C38_recorded",
    "C38_order",
    "C38_negative_refuted",
    "C38_repeat_refuted",
    "C38_left_refuted"
   ],
   "note": "kept export optimal for every completion order, trial files removed, nothing else changed, exact reports; negative preferences, repeated sizes and left-over links refuted"
  },
  {
   "property": "C39",
   "status": "proved",
   "theorems": [
    "C39_order",
    "C39_range",
    "C39_changed",
    "C39_collision_refuted"
   ],
   "note": "order independence, 64-bit range, every single number matters; collisions refuted"
  },
  {
   "property": "C40",
   "status": "proved",
   "theorems": [
    "C40_unique",
    "C40_new",
    "C40_targets",
    "C40_found",
    "C40_again",
    "C40_other",
    "C40_twice_refuted",
    "C40_killed_refuted",
    "C40_edited_refuted",
    "C40_extension_refuted"
   ],
   "note": "Any interleaving of any number of callers, each a sequence of accesses to the file system, each possibly killed: C40_unique, C40_new, C40_targets, C40_found; for one process C40_again, C40_other. Found and proved: two concurrent callers may get two ids for one target; a kill while counter.txt is written stops all reservations; an edited image makes looking fail with TypeError; images differing in extension share folders."
  },
  {
   "property": "C41",
   "status": "proved",
   "theorems": [
    "C41_build",
    "C41_build_succeeds",
    "C41_scan",
    "C41_pop_refuted",
    "C41_relative_refuted",
    "C41_self_refuted"
   ],
   "note": "Templates are calls, for pages and templates without hand-written push and pop. Refuted: a hand-written pop in a template changes the page's variables; a relative template path; a template including itself never ends. ImagesManipulator is left out."
  },
  {
   "property": "C42",
   "status": "proved",
   "theorems": [
    "C42_tokens",
    "C42_once",
    "C42_host",
    "C42_relative_refuted",
    "C42_none_refuted"
   ],
   "note": "Token by token for pages of hints, references and other tokens; no hint without host is left in any built page. Refuted: urls without leading slash; missing host when building."
  },
  {
   "property": "C43",
   "status": "proved",
   "theorems": [
    "C43_tokens",
    "C43_reported",
    "C43_once",
    "C43_href_refuted",
    "C43_protocol_refuted"
   ],
   "note": "Token by token; a second pass changes nothing. Refuted: href on a script tag; protocol-relative urls."
  },
  {
   "property": "C44",
   "status": "proved",
   "theorems": [
    "C44_classified",
    "C44_during_success",
    "C44_overwrite_refuted"
   ],
   "note": "Every history of events and rebuilds in which no move overwrites a file (C44_overwrite_refuted) and no event falls into a failing rebuild (C45_during_refuted)."
  },
  {
   "property": "C45",
   "status": "proved",
   "theorems": [
    "C45_kept",
    "C45_retried",
    "C45_during_refuted",
    "C45_during_waits_refuted"
   ],
   "note": "Every history; events that fall into a failing rebuild are mishandled (C45_during_refuted, C45_during_waits_refuted)."
  },
  {
   "property": "C46",
   "status": "proved",
   "theorems": [
    "C46_clean",
    "C46_succeeds",
    "C46_no_project",
    "C46_missing_refuted",
    "C46_confirmation",
    "C46_confirmed",
    "C46_no_question"
   ],
   "note": "clean removes exactly out/, artifacts/ and, on request, recorded placeholders; missing placeholder makes it fail (finding)"
  },
  {
   "property": "C47",
   "status": "proved",
   "theorems": [
    "C47_dispatch"
   ],
   "note": "Every path; which files belong to which handler is specified separately."
  },
  {
   "property": "C48",
   "status": "proved",
   "theorems": [
    "C48_total",
    "C48_as_written",
    "C48_tokens"
   ],
   "note": "Tokenizer, parser and command.py modelled in full. Every text gives a command or ValueError/TypeError; a command written as the grammar says, with any spacing and comments, gives exactly its fields; and over tokens the command found is the one the grammar gives (iff)."
  },
  {
   "property": "C49",
   "status": "proved",
   "theorems": [
    "C49_files_kept",
    "C49_regeneration_fails"
   ],
   "note": "the folder is modelled without directories; a generator whose deleted placeholder was recorded makes the build fail (C49_regeneration_fails)"
  },
  {
   "property": "C50",
   "status": "proved",
   "theorems": [
    "C50_sheet",
    "C50_files",
    "C50_reported",
    "C50_scan",
    "C50_agree",
    "C50_succeeds",
    "C50_content",
    "C50_base64_refuted",
    "C50_type_refuted",
    "C50_stale_refuted",
    "C50_folder_refuted"
   ],
   "note": "For all token streams, file systems and stylesheets: the output is the input with each image after url( replaced by the url of its numbered file; equal data have equal urls and different data different urls; contents of new files, reports, scan, exact agreement of scan and build, success. Refuted: base64 and other parameters become part of the file; images with the same data but different types share a file; an existing file is kept whatever it holds; a working directory other than the project makes the build fail or overwrite. A stream that ends in url( is excluded (see C24_open_mark_refuted)."
  },
  {
   "property": "C51",
   "status": "proved",
   "theorems": [
    "C51_build",
    "C51_build_succeeds",
    "C51_scan",
    "C51_scan_succeeds",
    "C51_style_refuted",
    "C51_lost_refuted",
    "C51_data_refuted"
   ],
   "note": "The whole page, event by event, scan and build, both directions. Refuted: style tag with attributes; source files with the name of an outlined script; data scripts."
  },
  {
   "property": "C52",
   "status": "proved",
   "theorems": [
    "C52_stored_graphs_stay_valid",
    "C52_stored_inputs",
    "C52_stored_edges",
    "C52_stored_placeholders",
    "C52_deleted_outputs_forgotten"
   ],
   "note": ""
  },
  {
   "property": "C53",
   "status": "proved",
   "theorems": [
    "C53_second_build_does_nothing"
   ],
   "note": ""
  },
  {
   "property": "C54",
   "status": "proved",
   "theorems": [
    "C54_mode_switch",
    "C54_history_up_to_date"
   ],
   "note": "builders must report honestly which outputs they share (hypothesis honest_builds) and file signatures must detect edits"
  },
  {
   "property": "C55",
   "status": "proved",
   "theorems": [
    "C55_pieces",
    "C55_verbatim"
   ],
   "note": ""
  },
  {
   "property": "C56",
   "status": "proved",
   "theorems": [
    "C56_same_target",
    "C56_hash_file",
    "C56_external_refuted"
   ],
   "note": "All relative spellings, working directories and project folders; protocol-relative urls are mistaken for project files (C56_external_refuted)."
  },
  {
   "property": "C57",
   "status": "proved",
   "theorems": [
    "C57_comment",
    "C57_directive",
    "C57_request",
    "C57_nothing",
    "C57_buttons",
    "C57_resolves",
    "C57_sheet",
    "C57_images",
    "C57_reported",
    "C57_scan",
    "C57_predicted",
    "C57_succeeds",
    "C57_stale_refuted",
    "C57_exact_refuted",
    "C57_named_button_refuted"
   ],
   "note": "Icon manipulator run over the token list of a stylesheet, with the file system. Refuted in addition: existing images go stale, the build reports neither the drawing nor the hash of an existing image, a named button with an unknown colour fails the build."
  },
  {
   "property": "C58",
   "status": "partial",
   "theorems": [
    "C58_urls",
    "C58_button_refuted"
   ],
   "note": "Holds if the colours of the buttons are among the colours asked for (C58_urls); false otherwise (C58_button_refuted)."
  },
  {
   "property": "C60",
   "status": "proved",
   "theorems": [
    "C60_announced",
    "C60_exact",
    "C60_succeeds",
    "C60_present"
   ],
   "note": "for the first export into a folder; the encoders and image reader are oracles"
  },
  {
   "property": "C61",
   "status": "proved",
   "theorems": [
    "C61_picture",
    "C61_missing",
    "C61_blank_refuted"
   ],
   "note": "the image's path without its extension must have no blanks, and no commas at its end; C61_blank_refuted shows that blanks break the srcset"
  },
  {
   "property": "C62",
   "status": "proved",
   "theorems": [
    "C62_again",
    "C62_idle"
   ],
   "note": "reading the stored metadata gives it back is a hypothesis (its json is modelled only as a pair of functions)"
  },
  {
   "property": "C59",
   "status": "proved",
   "theorems": [
    "C59_parse",
    "C59_total",
    "C59_crop",
    "C59_crop_total",
    "C59_source",
    "C59_command",
    "C59_ignored",
    "C59_fails",
    "C59_export",
    "C59_announce",
    "C59_build",
    "C59_built",
    "C59_scan",
    "C59_scanned",
    "C59_agree",
    "C59_lazy_refuted",
    "C59_optional_refuted",
    "C59_example_refuted",
    "C59_brace_refuted",
    "C59_positive_refuted",
    "C59_public_refuted",
    "C59_silent_refuted"
   ],
   "note": "text of commands, paths, comments, pages; int() of non-ASCII digits, PIL and the id lookup are parameters"
  },
  {
   "property": "C63",
   "status": "proved",
   "theorems": [
    "C63_used",
    "C63_refused",
    "C63_placeholder",
    "C63_unreadable",
    "C63_build",
    "C63_built",
    "C63_module",
    "C63_order",
    "C63_scan",
    "C63_scanned",
    "C63_present",
    "C63_agree",
    "C63_crop_refuted",
    "C63_total_refuted",
    "C63_bool_refuted",
    "C63_silent_refuted",
    "C63_placeholder_refuted",
    "C63_hash_refuted"
   ],
   "note": "Exports and scans of single images are those of C59-C62. Metadata must be expressible in json (no lone pairs of surrogates, keys once); images exported before must still have their artifacts for C63_present."
  },
  {
   "property": "C64",
   "status": "proved",
   "theorems": [
    "C64_record",
    "C64_placeholder",
    "C64_recordable",
    "C64_command",
    "C64_again",
    "C64_scan",
    "C64_stable",
    "C64_distinct",
    "C64_once",
    "C64_announced",
    "C64_sources",
    "C64_torn",
    "C64_torn_stops",
    "C64_edited_stops",
    "C64_settings_refuted"
   ],
   "note": "crop numbers compared as text; folders without files do not exist in the model"
  },
  {
   "property": "C65",
   "status": "proved",
   "theorems": [
    "C65_root",
    "C65_hex",
    "C65_nothing",
    "C65_total",
    "C65_cut",
    "C65_every_refuted",
    "C65_buttons",
    "C65_buttons_unnamed",
    "C65_buttons_usual",
    "C65_null_refuted"
   ],
   "note": "false in general of the colours of a :root rule (C65_cut, C65_every_refuted)"
  },
  {
   "property": "C66",
   "status": "proved",
   "theorems": [
    "C66_init_keeps",
    "C66_init_builds",
    "C66_new_settings",
    "C66_settings",
    "C66_settings_sound",
    "C66_external",
    "C66_constants",
    "C66_loads",
    "C66_exits",
    "C66_migrate_refuted"
   ],
   "note": "init, load_config and the three loaders; C66_migrate_refuted records that init does not update an old configuration"
  },
  {
   "property": "C67",
   "status": "proved",
   "theorems": [
    "C67_general",
    "C67_project",
    "C67_clean",
    "C67_copied",
    "C67_constants",
    "C67_hashes",
    "C67_scripts",
    "C67_served",
    "C67_nothing_else",
    "C67_killed_refuted",
    "C67_handlers"
   ],
   "note": "pages without inline scripts, inline stylesheets and images, stylesheets without icons and data images, no images.json; source names as listed by a walk, none ending in .hash; statements on imports for scripts without type hints"
  },
  {
   "property": "C68",
   "status": "proved",
   "theorems": [
    "C68_correct",
    "C68_clean",
    "C68_copied",
    "C68_constants",
    "C68_hashes",
    "C68_scripts",
    "C68_served",
    "C68_nothing_else",
    "C68_sources",
    "C68_twice"
   ],
   "note": "projects as in C67; source names as in source_name (ProjectSpec.v); signatures must detect changes; failed or killed builds excluded (C67_killed_refuted)"
  },
  {
   "property": "C69",
   "status": "proved",
   "theorems": [
    "C69_sheets",
    "C69_imported",
    "C69_urls",
    "C69_whole"
   ],
   "note": "stylesheets without icons and data images, in whole builds; imports must name readable stylesheets"
  },
  {
   "property": "C70",
   "status": "proved",
   "theorems": [
    "C70_pages",
    "C70_templates",
    "C70_whole",
    "C70_order_refuted"
   ],
   "note": "pages without inline scripts, inline stylesheets and images, in whole builds; html parser and serializer are parameters"
  },
  {
   "property": "C71",
   "status": "proved",
   "theorems": [
    "C71_order",
    "C71_same",
    "C71_completes",
    "C71_late",
    "C71_ends",
    "C71_starts",
    "C71_scanned",
    "C71_again",
    "C71_first"
   ],
   "note": "the listing of the sources, the building of the files and the writing of the graphs, for the order of listing, of building and of storing; without the condition it is false (C70_order_refuted)"
  },
  {
   "property": "C72",
   "status": "proved",
   "theorems": [
    "C72_wrong_settings",
    "C72_quits",
    "C72_kept",
    "C72_recovered",
    "C72_serves",
    "C72_again",
    "C72_torn",
    "C72_torn_kept",
    "C72_stale_refuted",
    "C72_damaged_refuted"
   ],
   "note": "handlers as in C67; the output graph, if readable, must record outputs below out (C72_damaged_refuted); C72_serves for scripts without type hints and stylesheets without imports; folders are not modelled"
  },
  {
   "property": "C73",
   "status": "proved",
   "theorems": [
    "C73_read",
    "C73_clean",
    "C73_kept",
    "C73_fresh",
    "C73_twice",
    "C73_restart",
    "C73_serves"
   ],
   "note": "handlers as in C67; C73_serves for scripts without type hints and stylesheets without imports; edits inside the out folder and killed builds are excluded from the histories (see C72, C67_killed_refuted)"
  },
  {
   "property": "C74",
   "status": "proved",
   "theorems": [
    "C74_current",
    "C74_same",
    "C74_rebuilt",
    "C74_until",
    "C74_noticed",
    "C74_idle",
    "C74_runs",
    "C74_kept",
    "C74_restart",
    "C74_build",
    "C74_stale_refuted"
   ],
   "note": "Sessions in which a rebuild fails while files are built are outside the claim; C74_stale_refuted shows why."
  },
  {
   "property": "C75",
   "status": "proved",
   "theorems": [
    "C75_current",
    "C75_same",
    "C75_rebuilt",
    "C75_until",
    "C75_noticed",
    "C75_runs",
    "C75_kept",
    "C75_restart",
    "C75_build"
   ],
   "note": "batches with an added source are excluded (C74_stale_refuted); the build command needs that touched sources differ"
  },
  {
   "property": "C76",
   "status": "proved",
   "theorems": [
    "C76_folders",
    "C76_tidy",
    "C76_order",
    "C76_missing",
    "C76_project",
    "C76_killed_refuted"
   ],
   "note": "the claim that a build killed before the graphs are stored does no harm is refuted (C76_killed_refuted)"
  },
  {
   "property": "C77",
   "status": "proved",
   "theorems": [
    "C77_harmless",
    "C77_succeeds",
    "C77_written",
    "C77_ends",
    "C77_sequential",
    "C77_blocked",
    "C77_retries_refuted",
    "C77_site",
    "C77_clash"
   ],
   "note": "that a build fails only after five refusals is refuted (C77_retries_refuted); C77_succeeds has the condition under which it holds"
  },
  {
   "property": "C78",
   "status": "proved",
   "theorems": [
    "C78_noticed",
    "C78_read_later",
    "C78_link",
    "C78_link_refuted",
    "C78_moment_refuted",
    "C78_time_refuted",
    "C78_inodes_refuted",
    "C78_swap_refuted"
   ],
   "note": "the claim without its conditions is refuted (C78_*_refuted)"
  },
  {
   "property": "C79",
   "status": "proved",
   "theorems": [
    "C79_cwd",
    "C79_refuses",
    "C79_folder",
    "C79_clean",
    "C79_stops",
    "C79_noted",
    "C79_told",
    "C79_stays",
    "C79_serves",
    "C79_hangs",
    "C79_interrupt_refuted",
    "C79_watch_refuted",
    "C79_observer_refuted"
   ],
   "note": "all interleavings of the threads, interrupts, failing rebuilds; uvicorn abstracted to starting, serving and ending; the unconditional claims about interrupts and dev --watch are refuted"
  }
 ]
}