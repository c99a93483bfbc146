CLAIMS = {
'C01': ('proved', ['C01_container32_roundtrip'], 'Total size below 2^31-1 bytes (the offsets of the format).'),
'C02': ('proved', ['C02_container64_roundtrip'], 'Fewer than 2^31 files, total size below 2^62 bytes.'),
'C03': ('proved', ['C03_toc_exact'], ''),
'C04': ('proved', ['C04_single_container_scan', 'C04_single_container64_scan'], ''),
'C05': ('proved', ['C05_documents_undisturbed'], ''),
'C06': ('proved', ['C06_build_order_independent'], ''),
'C07': ('proved', ['C07_field_exact_iff_fits', 'C07_silent_overflow'], ''),
'C08': ('proved', ['C08_two_containers_refuted'], 'The expectation is false of the code: every two-container file that can be built is unreadable.'),
'C09': ('proved', ['C09_default_build_refuted', 'C09_default_build_error'], 'The expectation is false of the code: the default mode never succeeds.'),
'C10': ('proved', ['C10_read_bounded', 'C10_minus_sign_refuted'], 'Holds when the file has no minus sign; refuted in general (size field "-0000001").'),
'C11': ('proved', ['C11_reader_stops', 'C11_reader_hangs_refuted'], ''),
'C12': ('proved', ['C12_plain_names_stay_inside', 'C12_escape_refuted'], 'POSIX path rules; symbolic links not modelled.'),
'C15': ('proved', ['C15_stamp_loss', 'C15_stamp_monotone', 'C15_decode_monotone_in_calendar', 'C15_out_of_calendar', 'C15_stamp_fixed'], 'Time zone conversion (datetime.fromtimestamp) is taken as given.'),
'C16': ('proved', ['C16_text_roundtrip'], 'For canonical trees (Spec_Brace.v), POSIX and Windows newline translation.'),
'C17': ('proved', ['C17_file_roundtrip'], ''),
'C18': ('proved', ['C18_encoding_injective'], ''),
'C19': ('proved', ['C19_folded_payload', 'C19_single_line_payload', 'C19_short_folded_refuted'], 'A folded payload shorter than one line changes its marker.'),
'C20': ('proved', ['C20_verbatim', 'C20_line_break_inserted', 'C20_verbatim_refuted'], 'Expectation refuted for long ASCII strings accepted by b64decode.'),
'C21': ('proved', ['C21_ends_in_literal_rejected', 'C21_cut_file_rejected', 'C21_cut_outside_refuted'], 'Rejected inside literals; refuted outside.'),
'C22': ('proved', ['C22_text_file_refuted', 'C22_blank_file'], 'Expectation refuted: text files are always rejected.'),
'C41': ('proved', ['C41_failed_write_refuted'], 'Expectation refuted.'),
'C23': ('proved', ['C23_insert_remove', 'C23_insert_injective', 'C23_other_names_kept', 'C23_odd_number_refuted', 'C23_no_extension_refuted'], 'Holds for names with a dot; refuted for names without one and for numbers like 007.'),
'C24': ('proved', ['C24_nearest_version', 'C24_listing_order_irrelevant', 'C24_similar_name_refuted'], 'Holds when no other file looks like a version of the name; refuted otherwise.'),
'C25': ('proved', ['C25_version_history'], 'File-level operation unpack_file with the binary comparer; see C44 for the whole unpack.'),
'C26': ('proved', ['C26_check_version'], ''),
'C42': ('proved', ['C42_pack_folder', 'C42_each_once', 'C42_newer_file_refuted'], 'Flat folder of non-code files. Expectation refuted when a file first appears in a later version.'),
'C43': ('proved', ['C43_selection_stable'], ''),
'C44': ('proved', ['C44_older_versions_lost_refuted'], 'Expectation refuted.'),
'C34': ('proved', ['C34_own_object_restored', 'C34_no_prefix_restored', 'C34_prefix_lost_refuted', 'C34_prefix_added_refuted', 'C34_header_fields'], 'Restored for top-level own objects; refuted for objects whose prefix is removed but not put back.'),
'C35': ('proved', ['C35_idempotent', 'C35_last_wins', 'C35_result', 'C35_absent_mark'], ''),
'C36': ('proved', ['C36_directive_roundtrip', 'C36_no_directive_left', 'C36_first_line_refuted'], 'A directive on the first line is never commented.'),
'C37': ('proved', ['C37_message_kept', 'C37_class_kept', 'C37_stack', 'C37_stack_texts', 'C37_dump', 'C37_detail_lost_refuted'], 'Detail given to a wrap without message is lost (refuted).'),
'C38': ('proved', ['C38_offset', 'C38_from_the_end', 'C38_errors'], ''),
'C39': ('proved', ['C39_makedirs', 'C39_txt_write'], ''),
'C27': ('proved', ['C27_merge', 'C27_identity', 'C27_last_wins'], ''),
'C28': ('proved', ['C28_update_index', 'C28_new_location', 'C28_order_irrelevant', 'C28_versioned_folder_refuted', 'C28_file_became_folder_refuted'], 'Holds for trees whose folder names carry no version and indexes of the same shape; refuted otherwise.'),
'C29': ('proved', ['C29_lookup', 'C29_no_entry', 'C29_not_normalized_refuted'], 'The path is split at slashes without normalization (refuted for a trailing slash).'),
'C45': ('proved', ['C45_main_index_wins', 'C45_no_sub_index', 'C45_missing_sub_index', 'C45_nested_sub_index_refuted'], ''),
'C46': ('proved', ['C46_index_roundtrip', 'C46_index_empty_destination'], ''),
'C30': ('proved', ['C30_round_trip', 'C30_nested_plain_name_refuted', 'C30_same_name_twice_refuted', 'C30_root_directive_lost_refuted', 'C30_area_named_root_refuted'], 'Without version mode and without relocation by the index. Each condition is shown necessary by a refuting module.'),
'C31': ('proved', ['C31_no_line_lost', 'C31_bodies', 'C31_repeated_name_loses_refuted'], ''),
'C32': ('proved', ['C32_include_file', 'C32_no_underscore', 'C32_outside', 'C32_inside_sources_refuted'], 'A name that starts with the name of the source folder resolves into the sources.'),
'C47': ('proved', ['C47_split_total', 'C47_split_error'], ''),
'C33': ('proved', ['C33_parallel_assembly', 'C33_failure_on_every_schedule', 'C33_assembly_unique', 'C33_schedule_free', 'C33_equal_names_refuted', 'C33_file_order_refuted', 'C33_leftover_folder_fails', 'C33_placeholder_kept', 'C33_versioned_type_with_children_fails'], 'What a handler does with its own files is a parameter (any function of the object and its completed header). The order of the file list does depend on the schedule.'),
'C40': ('proved', ['C40_form_restored', 'C40_code_restored', 'C40_no_other_change', 'C40_unquoted_refuted', 'C40_empty_form_refuted'], 'Without the changes the form element decoders make to the same form.'),
'C13': ('proved', ['C13_pipeline_identity', 'C13_gap_truncates_refuted', 'C13_correct_pair_refuted'], 'For decompressors that never yield nothing before the end of a stream; without that the file is silently cut, which the refuted theorems show. Tasks of the pool are atomic steps in any order.'),
'C14': ('proved', ['C14_folder_pipeline', 'C14_signature_file_refuted', 'C14_temp_sibling_refuted', 'C14_two_levels_refuted', 'C14_empty_folder_refuted'], 'POSIX rename. Proviso: no sibling is named like the temporary copy of the folder.'),
'C48': ('proved', ['C48_configinfo_versions', 'C48_tail_refuted'], 'Proved for texts without carriage returns and at least one other file; otherwise the file may end in left-over bytes because it is rewritten without truncation.'),
'C49': ('proved', ['C49_stage_roundtrip', 'C49_stage_files', 'C49_broken_file_stops', 'C49_no_txt', 'C49_clash_refuted', 'C49_codepage_refuted', 'C49_txt_name_refuted'], 'Round trip for every restorable tree, every task order. Refuted outside its hypotheses: a folder x.bin beside a file x, a windows-1251 brace file (comes back as UTF-8), a .txt file.'),
'C50': ('proved', ['C50_windows1251_read', 'C50_ambiguous_refuted'], 'The windows-1251 table is concrete. Refuted without the letter condition.'),
'C51': ('proved', ['C51_modules_restored', 'C51_encrypted_refuted', 'C51_line_ends_refuted'], 'Cycle of all modules of an object for the class module_entry; the two refuted theorems show what is outside of it and what happens there.'),
'C52': ('proved', ['C52_edited_modules', 'C52_not_encodable'], 'Success implies the exact content for every module; contrapositive for characters the encoding lacks.'),
'C53': ('proved', ['C53_chain_extracted', 'C53_position_irrelevant', 'C53_built_size_refuted'], 'Refuted for containers this program builds itself: the computed size of every one of them exceeds its length, so a container behind it is not found.'),
'C54': ('proved', ['C54_help_restored', 'C54_help_edited', 'C54_edit_survives', 'C54_blank_refuted'], 'The edit theorem needs an object with the payload as its only element; restoring does not.'),
'C55': ('proved', ['C55_template_restored', 'C55_binary_built', 'C55_binary_read', 'C55_comment_refuted', 'C55_comment_json_refuted', 'C55_text_refuted'], 'UTF-16 and UTF-32 text templates are not modelled. The refuted theorems show the inputs outside of the class.'),
'C56': ('proved', ['C56_picture_restored', 'C56_picture_edited', 'C56_splash_restored', 'C56_blank_picture_refuted'], ''),
'C57': ('proved', ['C57_file_restored', 'C57_tree_restored'], 'shutil.copy2 is modelled by the content it copies (not the times).'),
'C58': ('proved', ['C58_object_restored', 'C58_single_object_restored', 'C58_inner_object_restored', 'C58_json_picture_refuted', 'C58_prefix_names_refuted'], 'Every class of MetaDataObject but the forms, as data in Classes.v; the objects included in the header tree are a parameter of C58_object_restored (C59 for the lists themselves), absent in the two others. Product options are not given.'),
'C59': ('proved', ['C59_list_restored', 'C59_auto_objects', 'C59_inner_objects_read', 'C59_first_object_refuted', 'C59_deleted_objects_refuted', 'C59_missing_object', 'C59_unlisted_object', 'C59_type_twice_refuted'], ''),
'C60': ('proved', ['C60_tree_restored', 'C60_self_inclusion_refuted', 'C60_same_name_refuted'], 'Form objects enter by the assumption that their class restores them (placed_other); every other class is modelled. The root object is above this theorem. The folders may have been read again: their files in any order, the elements of forms with their data in another order (Spec_Again.v).'),
'C61': ('proved', ['C61_configuration_restored'], 'Forms by the hypothesis placed_other. Source folders may have been read again (Spec_Again.v).'),
'C62': ('proved', ['C62_processor_restored'], 'Forms by the hypothesis placed_other. Source folders may have been read again (Spec_Again.v).'),
'C63': ('proved', ['C63_extension_restored'], 'Forms by the hypothesis placed_other. Source folders may have been read again (Spec_Again.v).'),
'C64': ('proved', ['C64_same_kind'], ''),
'C65': ('proved', ['C65_release_checked'], ''),
'C66': ('proved', ['C66_form_elements_restored', 'C66_columns_kept_refuted', 'C66_any_name_refuted'], 'Elements are not lists of negative length; refuted variants show why the hypotheses are needed.'),
'C67': ('proved', ['C67_form_elements_built'], ''),
'C68': ('proved', ['C68_unread_form_kept', 'C68_any_form_refuted'], 'A form without a findable list of elements extracts but cannot be built.'),
'C69': ('proved', ['C69_configuration_options', 'C69_processor_options', 'C69_extension_options', 'C69_quote_refuted'], 'A quotation mark in a prefix or product version is outside the hypothesis and breaks the file (refuted variant).'),
'C70': ('proved', ['C70_ordinary_form_restored', 'C70_unread_form_refuted', 'C70_value_after_pages_refuted', 'C70_value_after_elements_refuted', 'C70_records_without_pages_refuted', 'C70_any_name_refuted', 'C70_same_names_refuted'], 'Without the option auto_include. The refuted variants show why the hypotheses are needed.'),
'C71': ('proved', ['C71_ordinary_form_built'], 'Without the option auto_include.'),
'C72': ('proved', ['C72_form_restored', 'C72_plain_file_refuted', 'C72_second_alone_refuted', 'C72_no_form_file_refuted', 'C72_no_module_refuted', 'C72_module_mark_refuted', 'C72_binary_module_refuted', 'C72_unread_elements_refuted'], 'Ordinary forms with the option auto_include are read and built by parameters. The refuted variants show why the hypotheses are needed.'),
'C73': ('proved', ['C73_managed_module_edited', 'C73_ordinary_module_edited', 'C73_no_place_refuted'], 'A managed form without a place for a module ignores the edit (refuted variant).'),
'C74': ('proved', ['C74_tree_with_forms_restored'], 'forms by Form.v; the container uuid of the parent is a function of the form identifier (C76 shows both directions read the same one)'),
'C75': ('proved', ['C75_configuration_with_forms_restored', 'C75_processor_with_forms_restored', 'C75_extension_with_forms_restored'], 'C61-C63 with the classes of forms put in place of the parameters'),
'C76': ('proved', ['C76_parent_of_forms'], 'catalogs, documents and data processors; the external processor root is not included'),
'C77': ('proved', ['C77_areas_restored', 'C77_same_name_refuted', 'C77_root_refuted', 'C77_null_refuted'], 'OrgForm.v; the conditions (different names, not root, no null) are necessary: refuted without them'),
'C78': ('proved', ['C78_read_only_areas_restored', 'C78_pages_refuted'], 'OrgForm.v; pages at the top of a read-only area are lost silently: refuted without the condition'),
'C79': ('proved', ['C79_areas_separated'], 'OrgForm.v'),
'C80': ('proved', ['C80_no_areas_unchanged'], 'OrgForm.v'),
'C81': ('proved', ['C81_sources_restored', 'C81_area_among_sources_refuted', 'C81_area_named_as_module_refuted', 'C81_mark_kept_refuted', 'C81_binary_module_name_refuted'], 'OrgTree.v; modules with and without a byte order mark (it is not kept: restored); without versions (descent) and without moved files of an index'),
'C82': ('proved', ['C82_extraction_deterministic', 'C82_conflict_refuted'], 'OrgTree.v'),
'C83': ('proved', ['C83_configuration_file_restored', 'C83_processor_file_restored'], 'Whole.v; bytes to objects to bytes without the organizers (C81 covers those); files with one container'),
'C84': ('proved', ['C84_extension_file_restored'], 'Whole.v; the configinfo of the file must not hold the mark itself'),
'C85': ('proved', ['C85_containers', 'C85_second_container_refuted'], 'Whole.v; the claim about the second container holds only when the folders are listed by name: refuted otherwise'),
'C86': ('proved', ['C86_build_all', 'C86_extract_all', 'C86_update_index_all', 'C86_one_product_built', 'C86_one_product_extracted', 'C86_missing_product', 'C86_bad_product'], 'The single calls are the modelled build and extract over arbitrary stages; names in a product are strings or null.'),
'C87': ('proved', ['C87_no_stale_files','C87_stages', 'C87_bad_index', 'C87_empty_index_refuted', 'C87_sources_lost_refuted'], 'Stages are arbitrary functions of the disk. The two refuted theorems show where the natural wish fails.'),
'C88': ('proved', ['C88_only_output','C88_stages', 'C88_failed_build_keeps_output', 'C88_own_temp_removed', 'C88_empty_temp_refuted'], 'Stages write only into the folder they are given (C81 for the organizer). Locked files are not modelled.'),
'C89': ('proved', ['C89_options', 'C89_command', 'C89_processes_refuted', 'C89_products_options_refuted'], 'From the result of argparse on.'),
'C90': ('proved', ['C90_configuration_rebuilt', 'C90_processor_rebuilt', 'C90_extension_rebuilt'], 'The bytes of the file, its objects, their sources laid out in a folder, split into include areas, assembled into another folder, read by listing, built and written.  The conditions on modules and forms are those of C81 (splittable); modules may have byte order marks, which the assembly drops and the build does not need (RealSame.v, RootSame.v).  Example: an external report with a managed form, one written area of a module with a byte order mark and one read-only area of the form (C90_processor_hypotheses_met).'),
'C91': ('proved', ['C91_folders_found'], 'For every disk and folder: the files of the root, the folders of the objects and a listing, as C90 uses them.'),
'C92': ('proved', ['C92_index_sources_restored', 'C92_local_area_refuted', 'C92_missing_file_refuted', 'C92_one_place_refuted', 'C92_ending_refuted'], 'Without versions (descent), and without index entries that begin with a star. That modules and forms can be split is as in C81. The example moves a text file, a module with an area and a form.'),
'C93': ('proved', ['C93_index_extraction_deterministic'], 'As C82, with an index.'),
'C94': ('proved', ['C94_second_extraction_same', 'C94_extract_build_extract', 'C94_index_second_extraction_same', 'C94_index_extract_build_extract'], 'Without versions (descent). A form comes back as a document that is split into the same files (C95), its bytes may differ.'),
'C95': ('proved', ['C95_built_form_splits_alike', 'C95_files_stay'], 'Conditions of C77 and C78 (different names, no null among the data, no pages at the top of read-only areas).'),
'C96': ('proved', ['C96_sources_stay', 'C96_extraction_gives_sources', 'C96_edited_area_kept', 'C96_no_final_newline_refuted', 'C96_unbalanced_area_refuted', 'C96_typed_directive_refuted'], 'Without versions; the text level (C90 has encodings and byte order marks). The refuted statements show edits outside the conditions that are lost or moved.'),
'C97': ('proved', ['C97_stopped_build', 'C97_stops_lead_to_build', 'C97_before_table_rejected', 'C97_empty_file_refuted', 'C97_unnoticed_refuted'], 'Bytes reach the disk in the order of the write calls. Further containers that the scan finds behind the first are not described. The refuted statements: an empty file is no error; a build stopped inside the contents table can be a container with fewer files.'),
'C98': ('proved', ['C98_cut_container', 'C98_small_container_cut', 'C98_cut_unnoticed_refuted'], 'The refuted statement: a cut inside the data of the last file is not noticed.'),
}
