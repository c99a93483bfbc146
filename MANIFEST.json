{
 "claims": [
  {
   "property": "C01",
   "status": "proved",
   "theorems": [
    "C01_container32_roundtrip"
   ],
   "note": "Total size below 2^31-1 bytes (the offsets of the format)."
  },
  {
   "property": "C02",
   "status": "proved",
   "theorems": [
    "C02_container64_roundtrip"
   ],
   "note": "Fewer than 2^31 files, total size below 2^62 bytes."
  },
  {
   "property": "C03",
   "status": "proved",
   "theorems": [
    "C03_toc_exact"
   ],
   "note": ""
  },
  {
   "property": "C04",
   "status": "proved",
   "theorems": [
    "C04_single_container_scan",
    "C04_single_container64_scan"
   ],
   "note": ""
  },
  {
   "property": "C05",
   "status": "proved",
   "theorems": [
    "C05_documents_undisturbed"
   ],
   "note": ""
  },
  {
   "property": "C06",
   "status": "proved",
   "theorems": [
    "C06_build_order_independent"
   ],
   "note": ""
  },
  {
   "property": "C07",
   "status": "proved",
   "theorems": [
    "C07_field_exact_iff_fits",
    "C07_silent_overflow"
   ],
   "note": ""
  },
  {
   "property": "C08",
   "status": "proved",
   "theorems": [
    "C08_two_containers_refuted"
   ],
   "note": "The expectation is false of the code: every two-container file that can be built is unreadable."
  },
  {
   "property": "C09",
   "status": "proved",
   "theorems": [
    "C09_default_build_refuted",
    "C09_default_build_error"
   ],
   "note": "The expectation is false of the code: the default mode never succeeds."
  },
  {
   "property": "C10",
   "status": "proved",
   "theorems": [
    "C10_read_bounded",
    "C10_minus_sign_refuted"
   ],
   "note": "Holds when the file has no minus sign; refuted in general (size field \"-0000001\")."
  },
  {
   "property": "C11",
   "status": "proved",
   "theorems": [
    "C11_reader_stops",
    "C11_reader_hangs_refuted"
   ],
   "note": ""
  },
  {
   "property": "C12",
   "status": "proved",
   "theorems": [
    "C12_plain_names_stay_inside",
    "C12_escape_refuted"
   ],
   "note": "POSIX path rules; symbolic links not modelled."
  },
  {
   "property": "C13",
   "status": "proved",
   "theorems": [
    "C13_pipeline_identity",
    "C13_gap_truncates_refuted",
    "C13_correct_pair_refuted"
   ],
   "note": "For decompressors that never yield nothing before the end of a stream; without that the file is silently cut, which the refuted theorems show. Tasks of the pool are atomic steps in any order."
  },
  {
   "property": "C14",
   "status": "proved",
   "theorems": [
    "C14_folder_pipeline",
    "C14_signature_file_refuted",
    "C14_temp_sibling_refuted",
    "C14_two_levels_refuted",
    "C14_empty_folder_refuted"
   ],
   "note": "POSIX rename. Proviso: no sibling is named like the temporary copy of the folder."
  },
  {
   "property": "C15",
   "status": "proved",
   "theorems": [
    "C15_stamp_loss",
    "C15_stamp_monotone",
    "C15_decode_monotone_in_calendar",
    "C15_out_of_calendar",
    "C15_stamp_fixed"
   ],
   "note": "Time zone conversion (datetime.fromtimestamp) is taken as given."
  },
  {
   "property": "C16",
   "status": "proved",
   "theorems": [
    "C16_text_roundtrip"
   ],
   "note": "For canonical trees (Spec_Brace.v), POSIX and Windows newline translation."
  },
  {
   "property": "C17",
   "status": "proved",
   "theorems": [
    "C17_file_roundtrip"
   ],
   "note": ""
  },
  {
   "property": "C18",
   "status": "proved",
   "theorems": [
    "C18_encoding_injective"
   ],
   "note": ""
  },
  {
   "property": "C19",
   "status": "proved",
   "theorems": [
    "C19_folded_payload",
    "C19_single_line_payload",
    "C19_short_folded_refuted"
   ],
   "note": "A folded payload shorter than one line changes its marker."
  },
  {
   "property": "C20",
   "status": "proved",
   "theorems": [
    "C20_verbatim",
    "C20_line_break_inserted",
    "C20_verbatim_refuted"
   ],
   "note": "Expectation refuted for long ASCII strings accepted by b64decode."
  },
  {
   "property": "C21",
   "status": "proved",
   "theorems": [
    "C21_ends_in_literal_rejected",
    "C21_cut_file_rejected",
    "C21_cut_outside_refuted"
   ],
   "note": "Rejected inside literals; refuted outside."
  },
  {
   "property": "C22",
   "status": "proved",
   "theorems": [
    "C22_text_file_refuted",
    "C22_blank_file"
   ],
   "note": "Expectation refuted: text files are always rejected."
  },
  {
   "property": "C23",
   "status": "proved",
   "theorems": [
    "C23_insert_remove",
    "C23_insert_injective",
    "C23_other_names_kept",
    "C23_odd_number_refuted",
    "C23_no_extension_refuted"
   ],
   "note": "Holds for names with a dot; refuted for names without one and for numbers like 007."
  },
  {
   "property": "C24",
   "status": "proved",
   "theorems": [
    "C24_nearest_version",
    "C24_listing_order_irrelevant",
    "C24_similar_name_refuted"
   ],
   "note": "Holds when no other file looks like a version of the name; refuted otherwise."
  },
  {
   "property": "C25",
   "status": "proved",
   "theorems": [
    "C25_version_history"
   ],
   "note": "File-level operation unpack_file with the binary comparer; see C44 for the whole unpack."
  },
  {
   "property": "C26",
   "status": "proved",
   "theorems": [
    "C26_check_version"
   ],
   "note": ""
  },
  {
   "property": "C27",
   "status": "proved",
   "theorems": [
    "C27_merge",
    "C27_identity",
    "C27_last_wins"
   ],
   "note": ""
  },
  {
   "property": "C28",
   "status": "proved",
   "theorems": [
    "C28_update_index",
    "C28_new_location",
    "C28_order_irrelevant",
    "C28_versioned_folder_refuted",
    "C28_file_became_folder_refuted"
   ],
   "note": "Holds for trees whose folder names carry no version and indexes of the same shape; refuted otherwise."
  },
  {
   "property": "C29",
   "status": "proved",
   "theorems": [
    "C29_lookup",
    "C29_no_entry",
    "C29_not_normalized_refuted"
   ],
   "note": "The path is split at slashes without normalization (refuted for a trailing slash)."
  },
  {
   "property": "C30",
   "status": "proved",
   "theorems": [
    "C30_round_trip",
    "C30_nested_plain_name_refuted",
    "C30_same_name_twice_refuted",
    "C30_root_directive_lost_refuted",
    "C30_area_named_root_refuted"
   ],
   "note": "Without version mode and without relocation by the index. Each condition is shown necessary by a refuting module."
  },
  {
   "property": "C31",
   "status": "proved",
   "theorems": [
    "C31_no_line_lost",
    "C31_bodies",
    "C31_repeated_name_loses_refuted"
   ],
   "note": ""
  },
  {
   "property": "C32",
   "status": "proved",
   "theorems": [
    "C32_include_file",
    "C32_no_underscore",
    "C32_outside",
    "C32_inside_sources_refuted"
   ],
   "note": "A name that starts with the name of the source folder resolves into the sources."
  },
  {
   "property": "C33",
   "status": "proved",
   "theorems": [
    "C33_parallel_assembly",
    "C33_failure_on_every_schedule",
    "C33_assembly_unique",
    "C33_schedule_free",
    "C33_equal_names_refuted",
    "C33_file_order_refuted",
    "C33_leftover_folder_fails",
    "C33_placeholder_kept",
    "C33_versioned_type_with_children_fails"
   ],
   "note": "What a handler does with its own files is a parameter (any function of the object and its completed header). The order of the file list does depend on the schedule."
  },
  {
   "property": "C34",
   "status": "proved",
   "theorems": [
    "C34_own_object_restored",
    "C34_no_prefix_restored",
    "C34_prefix_lost_refuted",
    "C34_prefix_added_refuted",
    "C34_header_fields"
   ],
   "note": "Restored for top-level own objects; refuted for objects whose prefix is removed but not put back."
  },
  {
   "property": "C35",
   "status": "proved",
   "theorems": [
    "C35_idempotent",
    "C35_last_wins",
    "C35_result",
    "C35_absent_mark"
   ],
   "note": ""
  },
  {
   "property": "C36",
   "status": "proved",
   "theorems": [
    "C36_directive_roundtrip",
    "C36_no_directive_left",
    "C36_first_line_refuted"
   ],
   "note": "A directive on the first line is never commented."
  },
  {
   "property": "C37",
   "status": "proved",
   "theorems": [
    "C37_message_kept",
    "C37_class_kept",
    "C37_stack",
    "C37_stack_texts",
    "C37_dump",
    "C37_detail_lost_refuted"
   ],
   "note": "Detail given to a wrap without message is lost (refuted)."
  },
  {
   "property": "C38",
   "status": "proved",
   "theorems": [
    "C38_offset",
    "C38_from_the_end",
    "C38_errors"
   ],
   "note": ""
  },
  {
   "property": "C39",
   "status": "proved",
   "theorems": [
    "C39_makedirs",
    "C39_txt_write"
   ],
   "note": ""
  },
  {
   "property": "C40",
   "status": "proved",
   "theorems": [
    "C40_form_restored",
    "C40_code_restored",
    "C40_no_other_change",
    "C40_unquoted_refuted",
    "C40_empty_form_refuted"
   ],
   "note": "Without the changes the form element decoders make to the same form."
  },
  {
   "property": "C41",
   "status": "proved",
   "theorems": [
    "C41_failed_write_refuted"
   ],
   "note": "Expectation refuted."
  },
  {
   "property": "C42",
   "status": "proved",
   "theorems": [
    "C42_pack_folder",
    "C42_each_once",
    "C42_newer_file_refuted"
   ],
   "note": "Flat folder of non-code files. Expectation refuted when a file first appears in a later version."
  },
  {
   "property": "C43",
   "status": "proved",
   "theorems": [
    "C43_selection_stable"
   ],
   "note": ""
  },
  {
   "property": "C44",
   "status": "proved",
   "theorems": [
    "C44_older_versions_lost_refuted"
   ],
   "note": "Expectation refuted."
  },
  {
   "property": "C45",
   "status": "proved",
   "theorems": [
    "C45_main_index_wins",
    "C45_no_sub_index",
    "C45_missing_sub_index",
    "C45_nested_sub_index_refuted"
   ],
   "note": ""
  },
  {
   "property": "C46",
   "status": "proved",
   "theorems": [
    "C46_index_roundtrip",
    "C46_index_empty_destination"
   ],
   "note": ""
  },
  {
   "property": "C47",
   "status": "proved",
   "theorems": [
    "C47_split_total",
    "C47_split_error"
   ],
   "note": ""
  },
  {
   "property": "C48",
   "status": "proved",
   "theorems": [
    "C48_configinfo_versions",
    "C48_tail_refuted"
   ],
   "note": "Proved for texts without carriage returns and at least one other file; otherwise the file may end in left-over bytes because it is rewritten without truncation."
  },
  {
   "property": "C49",
   "status": "proved",
   "theorems": [
    "C49_stage_roundtrip",
    "C49_stage_files",
    "C49_broken_file_stops",
    "C49_no_txt",
    "C49_clash_refuted",
    "C49_codepage_refuted",
    "C49_txt_name_refuted"
   ],
   "note": "Round trip for every restorable tree, every task order. Refuted outside its hypotheses: a folder x.bin beside a file x, a windows-1251 brace file (comes back as UTF-8), a .txt file."
  },
  {
   "property": "C50",
   "status": "proved",
   "theorems": [
    "C50_windows1251_read",
    "C50_ambiguous_refuted"
   ],
   "note": "The windows-1251 table is concrete. Refuted without the letter condition."
  },
  {
   "property": "C51",
   "status": "proved",
   "theorems": [
    "C51_modules_restored",
    "C51_encrypted_refuted",
    "C51_line_ends_refuted"
   ],
   "note": "Cycle of all modules of an object for the class module_entry; the two refuted theorems show what is outside of it and what happens there."
  },
  {
   "property": "C52",
   "status": "proved",
   "theorems": [
    "C52_edited_modules",
    "C52_not_encodable"
   ],
   "note": "Success implies the exact content for every module; contrapositive for characters the encoding lacks."
  },
  {
   "property": "C53",
   "status": "proved",
   "theorems": [
    "C53_chain_extracted",
    "C53_position_irrelevant",
    "C53_built_size_refuted"
   ],
   "note": "Refuted for containers this program builds itself: the computed size of every one of them exceeds its length, so a container behind it is not found."
  },
  {
   "property": "C54",
   "status": "proved",
   "theorems": [
    "C54_help_restored",
    "C54_help_edited",
    "C54_edit_survives",
    "C54_blank_refuted"
   ],
   "note": "The edit theorem needs an object with the payload as its only element; restoring does not."
  },
  {
   "property": "C55",
   "status": "proved",
   "theorems": [
    "C55_template_restored",
    "C55_binary_built",
    "C55_binary_read",
    "C55_comment_refuted",
    "C55_comment_json_refuted",
    "C55_text_refuted"
   ],
   "note": "UTF-16 and UTF-32 text templates are not modelled. The refuted theorems show the inputs outside of the class."
  },
  {
   "property": "C56",
   "status": "proved",
   "theorems": [
    "C56_picture_restored",
    "C56_picture_edited",
    "C56_splash_restored",
    "C56_blank_picture_refuted"
   ],
   "note": ""
  },
  {
   "property": "C57",
   "status": "proved",
   "theorems": [
    "C57_file_restored",
    "C57_tree_restored"
   ],
   "note": "shutil.copy2 is modelled by the content it copies (not the times)."
  },
  {
   "property": "C58",
   "status": "proved",
   "theorems": [
    "C58_object_restored",
    "C58_single_object_restored",
    "C58_inner_object_restored",
    "C58_json_picture_refuted",
    "C58_prefix_names_refuted"
   ],
   "note": "Every class of MetaDataObject but the forms, as data in Classes.v; the objects included in the header tree are a parameter of C58_object_restored (C59 for the lists themselves), absent in the two others. Product options are not given."
  },
  {
   "property": "C59",
   "status": "proved",
   "theorems": [
    "C59_list_restored",
    "C59_auto_objects",
    "C59_inner_objects_read",
    "C59_first_object_refuted",
    "C59_deleted_objects_refuted",
    "C59_missing_object",
    "C59_unlisted_object",
    "C59_type_twice_refuted"
   ],
   "note": ""
  },
  {
   "property": "C60",
   "status": "proved",
   "theorems": [
    "C60_tree_restored",
    "C60_self_inclusion_refuted",
    "C60_same_name_refuted"
   ],
   "note": "Form objects enter by the assumption that their class restores them (placed_other); every other class is modelled. The root object is above this theorem. The folders may have been read again: their files in any order, the elements of forms with their data in another order (Spec_Again.v)."
  },
  {
   "property": "C61",
   "status": "proved",
   "theorems": [
    "C61_configuration_restored"
   ],
   "note": "Forms by the hypothesis placed_other. Source folders may have been read again (Spec_Again.v)."
  },
  {
   "property": "C62",
   "status": "proved",
   "theorems": [
    "C62_processor_restored"
   ],
   "note": "Forms by the hypothesis placed_other. Source folders may have been read again (Spec_Again.v)."
  },
  {
   "property": "C63",
   "status": "proved",
   "theorems": [
    "C63_extension_restored"
   ],
   "note": "Forms by the hypothesis placed_other. Source folders may have been read again (Spec_Again.v)."
  },
  {
   "property": "C64",
   "status": "proved",
   "theorems": [
    "C64_same_kind"
   ],
   "note": ""
  },
  {
   "property": "C65",
   "status": "proved",
   "theorems": [
    "C65_release_checked"
   ],
   "note": ""
  },
  {
   "property": "C66",
   "status": "proved",
   "theorems": [
    "C66_form_elements_restored",
    "C66_columns_kept_refuted",
    "C66_any_name_refuted"
   ],
   "note": "Elements are not lists of negative length; refuted variants show why the hypotheses are needed."
  },
  {
   "property": "C67",
   "status": "proved",
   "theorems": [
    "C67_form_elements_built"
   ],
   "note": ""
  },
  {
   "property": "C68",
   "status": "proved",
   "theorems": [
    "C68_unread_form_kept",
    "C68_any_form_refuted"
   ],
   "note": "A form without a findable list of elements extracts but cannot be built."
  },
  {
   "property": "C69",
   "status": "proved",
   "theorems": [
    "C69_configuration_options",
    "C69_processor_options",
    "C69_extension_options",
    "C69_quote_refuted"
   ],
   "note": "A quotation mark in a prefix or product version is outside the hypothesis and breaks the file (refuted variant)."
  },
  {
   "property": "C70",
   "status": "proved",
   "theorems": [
    "C70_ordinary_form_restored",
    "C70_unread_form_refuted",
    "C70_value_after_pages_refuted",
    "C70_value_after_elements_refuted",
    "C70_records_without_pages_refuted",
    "C70_any_name_refuted",
    "C70_same_names_refuted"
   ],
   "note": "Without the option auto_include. The refuted variants show why the hypotheses are needed."
  },
  {
   "property": "C71",
   "status": "proved",
   "theorems": [
    "C71_ordinary_form_built"
   ],
   "note": "Without the option auto_include."
  },
  {
   "property": "C72",
   "status": "proved",
   "theorems": [
    "C72_form_restored",
    "C72_plain_file_refuted",
    "C72_second_alone_refuted",
    "C72_no_form_file_refuted",
    "C72_no_module_refuted",
    "C72_module_mark_refuted",
    "C72_binary_module_refuted",
    "C72_unread_elements_refuted"
   ],
   "note": "Ordinary forms with the option auto_include are read and built by parameters. The refuted variants show why the hypotheses are needed."
  },
  {
   "property": "C73",
   "status": "proved",
   "theorems": [
    "C73_managed_module_edited",
    "C73_ordinary_module_edited",
    "C73_no_place_refuted"
   ],
   "note": "A managed form without a place for a module ignores the edit (refuted variant)."
  },
  {
   "property": "C74",
   "status": "proved",
   "theorems": [
    "C74_tree_with_forms_restored"
   ],
   "note": "forms by Form.v; the container uuid of the parent is a function of the form identifier (C76 shows both directions read the same one)"
  },
  {
   "property": "C75",
   "status": "proved",
   "theorems": [
    "C75_configuration_with_forms_restored",
    "C75_processor_with_forms_restored",
    "C75_extension_with_forms_restored"
   ],
   "note": "C61-C63 with the classes of forms put in place of the parameters"
  },
  {
   "property": "C76",
   "status": "proved",
   "theorems": [
    "C76_parent_of_forms"
   ],
   "note": "catalogs, documents and data processors; the external processor root is not included"
  },
  {
   "property": "C77",
   "status": "proved",
   "theorems": [
    "C77_areas_restored",
    "C77_same_name_refuted",
    "C77_root_refuted",
    "C77_null_refuted"
   ],
   "note": "OrgForm.v; the conditions (different names, not root, no null) are necessary: refuted without them"
  },
  {
   "property": "C78",
   "status": "proved",
   "theorems": [
    "C78_read_only_areas_restored",
    "C78_pages_refuted"
   ],
   "note": "OrgForm.v; pages at the top of a read-only area are lost silently: refuted without the condition"
  },
  {
   "property": "C79",
   "status": "proved",
   "theorems": [
    "C79_areas_separated"
   ],
   "note": "OrgForm.v"
  },
  {
   "property": "C80",
   "status": "proved",
   "theorems": [
    "C80_no_areas_unchanged"
   ],
   "note": "OrgForm.v"
  },
  {
   "property": "C81",
   "status": "proved",
   "theorems": [
    "C81_sources_restored",
    "C81_area_among_sources_refuted",
    "C81_area_named_as_module_refuted",
    "C81_mark_kept_refuted",
    "C81_binary_module_name_refuted"
   ],
   "note": "OrgTree.v; modules with and without a byte order mark (it is not kept: restored); without versions (descent) and without moved files of an index"
  },
  {
   "property": "C82",
   "status": "proved",
   "theorems": [
    "C82_extraction_deterministic",
    "C82_conflict_refuted"
   ],
   "note": "OrgTree.v"
  },
  {
   "property": "C83",
   "status": "proved",
   "theorems": [
    "C83_configuration_file_restored",
    "C83_processor_file_restored"
   ],
   "note": "Whole.v; bytes to objects to bytes without the organizers (C81 covers those); files with one container"
  },
  {
   "property": "C84",
   "status": "proved",
   "theorems": [
    "C84_extension_file_restored"
   ],
   "note": "Whole.v; the configinfo of the file must not hold the mark itself"
  },
  {
   "property": "C85",
   "status": "proved",
   "theorems": [
    "C85_containers",
    "C85_second_container_refuted"
   ],
   "note": "Whole.v; the claim about the second container holds only when the folders are listed by name: refuted otherwise"
  },
  {
   "property": "C86",
   "status": "proved",
   "theorems": [
    "C86_build_all",
    "C86_extract_all",
    "C86_update_index_all",
    "C86_one_product_built",
    "C86_one_product_extracted",
    "C86_missing_product",
    "C86_bad_product"
   ],
   "note": "The single calls are the modelled build and extract over arbitrary stages; names in a product are strings or null."
  },
  {
   "property": "C87",
   "status": "proved",
   "theorems": [
    "C87_no_stale_files",
    "C87_stages",
    "C87_bad_index",
    "C87_empty_index_refuted",
    "C87_sources_lost_refuted"
   ],
   "note": "Stages are arbitrary functions of the disk. The two refuted theorems show where the natural wish fails."
  },
  {
   "property": "C88",
   "status": "proved",
   "theorems": [
    "C88_only_output",
    "C88_stages",
    "C88_failed_build_keeps_output",
    "C88_own_temp_removed",
    "C88_empty_temp_refuted"
   ],
   "note": "Stages write only into the folder they are given (C81 for the organizer). Locked files are not modelled."
  },
  {
   "property": "C89",
   "status": "proved",
   "theorems": [
    "C89_options",
    "C89_command",
    "C89_processes_refuted",
    "C89_products_options_refuted"
   ],
   "note": "From the result of argparse on."
  },
  {
   "property": "C90",
   "status": "proved",
   "theorems": [
    "C90_configuration_rebuilt",
    "C90_processor_rebuilt",
    "C90_extension_rebuilt"
   ],
   "note": "The bytes of the file, its objects, their sources laid out in a folder, split into include areas, assembled into another folder, read by listing, built and written.  The conditions on modules and forms are those of C81 (splittable); modules may have byte order marks, which the assembly drops and the build does not need (RealSame.v, RootSame.v).  Example: an external report with a managed form, one written area of a module with a byte order mark and one read-only area of the form (C90_processor_hypotheses_met)."
  },
  {
   "property": "C91",
   "status": "proved",
   "theorems": [
    "C91_folders_found"
   ],
   "note": "For every disk and folder: the files of the root, the folders of the objects and a listing, as C90 uses them."
  },
  {
   "property": "C92",
   "status": "proved",
   "theorems": [
    "C92_index_sources_restored",
    "C92_local_area_refuted",
    "C92_missing_file_refuted",
    "C92_one_place_refuted",
    "C92_ending_refuted"
   ],
   "note": "Without versions (descent), and without index entries that begin with a star. That modules and forms can be split is as in C81. The example moves a text file, a module with an area and a form."
  },
  {
   "property": "C93",
   "status": "proved",
   "theorems": [
    "C93_index_extraction_deterministic"
   ],
   "note": "As C82, with an index."
  },
  {
   "property": "C94",
   "status": "proved",
   "theorems": [
    "C94_second_extraction_same",
    "C94_extract_build_extract",
    "C94_index_second_extraction_same",
    "C94_index_extract_build_extract"
   ],
   "note": "Without versions (descent). A form comes back as a document that is split into the same files (C95), its bytes may differ."
  },
  {
   "property": "C95",
   "status": "proved",
   "theorems": [
    "C95_built_form_splits_alike",
    "C95_files_stay"
   ],
   "note": "Conditions of C77 and C78 (different names, no null among the data, no pages at the top of read-only areas)."
  },
  {
   "property": "C96",
   "status": "proved",
   "theorems": [
    "C96_sources_stay",
    "C96_extraction_gives_sources",
    "C96_edited_area_kept",
    "C96_no_final_newline_refuted",
    "C96_unbalanced_area_refuted",
    "C96_typed_directive_refuted"
   ],
   "note": "Without versions; the text level (C90 has encodings and byte order marks). The refuted statements show edits outside the conditions that are lost or moved."
  },
  {
   "property": "C97",
   "status": "proved",
   "theorems": [
    "C97_stopped_build",
    "C97_stops_lead_to_build",
    "C97_before_table_rejected",
    "C97_empty_file_refuted",
    "C97_unnoticed_refuted"
   ],
   "note": "Bytes reach the disk in the order of the write calls. Further containers that the scan finds behind the first are not described. The refuted statements: an empty file is no error; a build stopped inside the contents table can be a container with fewer files."
  },
  {
   "property": "C98",
   "status": "proved",
   "theorems": [
    "C98_cut_container",
    "C98_small_container_cut",
    "C98_cut_unnoticed_refuted"
   ],
   "note": "The refuted statement: a cut inside the data of the last file is not noticed."
  }
 ]
}