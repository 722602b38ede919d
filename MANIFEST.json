{
 "claims": [
  {
   "property": "C01",
   "status": "proved",
   "theorems": [
    "C01_core_exists",
    "C01_format_decision",
    "C01_from_string",
    "C01_white_space"
   ],
   "note": ""
  },
  {
   "property": "C02",
   "status": "proved",
   "theorems": [
    "C02_json_refused"
   ],
   "note": ""
  },
  {
   "property": "C03",
   "status": "proved",
   "theorems": [
    "C03_read_alike",
    "C03_text_exists",
    "C03_missing",
    "C03_write_then_read"
   ],
   "note": "that reading leaves the file system alone is a fact about the model's types: reading functions return no file system"
  },
  {
   "property": "C04",
   "status": "proved",
   "theorems": [
    "C04_failed_conversion",
    "C04_success",
    "C04_other_files"
   ],
   "note": "see C41 for the one failure mode that does touch the file"
  },
  {
   "property": "C05",
   "status": "proved",
   "theorems": [
    "C05_no_memory"
   ],
   "note": ""
  },
  {
   "property": "C06",
   "status": "partial",
   "theorems": [
    "C06_refuted",
    "C06_first_location_wins",
    "C06_through_NdmIo"
   ],
   "note": "the property is false for a re-used writer (refuted, exact behaviour characterised); holds through NdmIo"
  },
  {
   "property": "C07",
   "status": "proved",
   "theorems": [
    "C07_combined",
    "C07_single_root"
   ],
   "note": ""
  },
  {
   "property": "C08",
   "status": "proved",
   "theorems": [
    "C08_agree"
   ],
   "note": ""
  },
  {
   "property": "C09",
   "status": "partial",
   "theorems": [
    "C09_refuted",
    "C09_always_fails"
   ],
   "note": "the property is false (refuted): the writer always raises AttributeError"
  },
  {
   "property": "C10",
   "status": "proved",
   "theorems": [
    "C10_layout",
    "C10_layout_lines"
   ],
   "note": ""
  },
  {
   "property": "C11",
   "status": "proved",
   "theorems": [
    "C11_read",
    "C11_spacing"
   ],
   "note": ""
  },
  {
   "property": "C12",
   "status": "proved",
   "theorems": [
    "C12_comment_round_trip",
    "C12_two_forms"
   ],
   "note": ""
  },
  {
   "property": "C13",
   "status": "proved",
   "theorems": [
    "C13_value_and_unit",
    "C13_value_without_unit",
    "C13_number_and_unit"
   ],
   "note": ""
  },
  {
   "property": "C14",
   "status": "partial",
   "theorems": [
    "C14_refuted"
   ],
   "note": "the property is false (refuted)"
  },
  {
   "property": "C15",
   "status": "proved",
   "theorems": [
    "C15_markers"
   ],
   "note": ""
  },
  {
   "property": "C16",
   "status": "proved",
   "theorems": [
    "C16_known_type",
    "C16_unknown_type",
    "C16_blank_document"
   ],
   "note": ""
  },
  {
   "property": "C17",
   "status": "proved",
   "theorems": [
    "C17_reading_terminates",
    "C17_rounds"
   ],
   "note": ""
  },
  {
   "property": "C18",
   "status": "proved",
   "theorems": [
    "C18_ranges",
    "C18_forward"
   ],
   "note": ""
  },
  {
   "property": "C19",
   "status": "partial",
   "theorems": [
    "C19_refuted"
   ],
   "note": "the property is false (refuted)"
  },
  {
   "property": "C20",
   "status": "partial",
   "theorems": [
    "C20_refuted",
    "C20_moves_refuted"
   ],
   "note": "the property is false (refuted)"
  },
  {
   "property": "C21",
   "status": "proved",
   "theorems": [
    "C21_decimal",
    "C21_integer"
   ],
   "note": ""
  },
  {
   "property": "C22",
   "status": "proved",
   "theorems": [
    "C22_first_line",
    "C22_recognised_and_same_class"
   ],
   "note": ""
  },
  {
   "property": "C23",
   "status": "proved",
   "theorems": [
    "C23_keywords",
    "C23_written"
   ],
   "note": ""
  },
  {
   "property": "C24",
   "status": "proved",
   "theorems": [
    "C24_section_lines"
   ],
   "note": ""
  },
  {
   "property": "C25",
   "status": "proved",
   "theorems": [
    "C25_section_round_trip"
   ],
   "note": ""
  },
  {
   "property": "C26",
   "status": "partial",
   "theorems": [
    "C26_omm_read_back",
    "C26_omm_round_trip_partial",
    "C26_omm_round_trip_refuted",
    "C26_omm_no_section_refuted"
   ],
   "note": "false as stated because comments move; the exact read-back is proved, with equality when the comments are settled and at least one section is present"
  },
  {
   "property": "C27",
   "status": "partial",
   "theorems": [
    "C27_opm_read_back",
    "C27_opm_round_trip_partial",
    "C27_opm_full_maneuvers",
    "C27_opm_round_trip_refuted",
    "C27_opm_maneuvers_refuted"
   ],
   "note": "false as stated (refuted): comments move and a field only a later maneuver has makes the reader fail; proved with settled comments and maneuvers without new fields, in particular complete ones"
  },
  {
   "property": "C28",
   "status": "partial",
   "theorems": [
    "C28_rdm_read_back",
    "C28_rdm_round_trip_partial",
    "C28_rdm_round_trip_refuted"
   ],
   "note": "false as stated because comments move; the exact read-back is proved, with equality when the comments are settled and at least one section is present"
  },
  {
   "property": "C29",
   "status": "partial",
   "theorems": [
    "C29_cdm_read_back",
    "C29_cdm_round_trip_partial",
    "C29_cdm_round_trip_refuted",
    "C29_cdm_metadata_refuted",
    "C29_cdm_objects_mixed_refuted"
   ],
   "note": "false as stated (refuted): comments move, and a field or section only the second object has makes the reader fail or merge the objects; proved with settled comments and no such fields"
  },
  {
   "property": "C30",
   "status": "partial",
   "theorems": [
    "C30_oem_round_trip_partial",
    "C30_data_comment_refuted",
    "C30_extra_matrix_refuted",
    "C30_two_comments_refuted",
    "C30_units_refuted",
    "C30_gap_refuted",
    "C30_matrix_comment_refuted",
    "C30_oem_document_partial",
    "C30_tabs_refuted"
   ],
   "note": "false without restrictions (refuted: data comment moves, extra matrix, two data comments split the segment, units dropped, gaps shift columns, matrix comments lose the matrix, tab-separated columns); proved for messages within stated conditions, for writing then reading and for documents in any layout"
  },
  {
   "property": "C31",
   "status": "partial",
   "theorems": [
    "C31_covariance_frame_refuted"
   ],
   "note": "the property is false (refuted): the frame line shifts the numbers"
  },
  {
   "property": "C32",
   "status": "proved",
   "theorems": [
    "C32_state_lines"
   ],
   "note": ""
  },
  {
   "property": "C33",
   "status": "proved",
   "theorems": [
    "C33_covariance_rows_read",
    "C44_oem_text"
   ],
   "note": "read by the first theorem, written by the OEM text theorem"
  },
  {
   "property": "C34",
   "status": "partial",
   "theorems": [
    "C34_tdm_document_partial",
    "C34_tdm_round_trip_partial",
    "C34_long_epoch_refuted",
    "C34_two_comments_refuted",
    "C34_later_field_refuted",
    "C34_comment_moves_refuted",
    "C34_short_number_refuted"
   ],
   "note": "false as stated (refuted: epochs of 30 or more characters, two data comments, metadata fields that only a later segment has, metadata starting with a short number); proved for segments the reader can tell apart and observations other than angles"
  },
  {
   "property": "C35",
   "status": "partial",
   "theorems": [
    "C35_angle_write_refuted",
    "C35_number_observables_partial"
   ],
   "note": "false (refuted) for the two angle observables; proved for the other 45"
  },
  {
   "property": "C36",
   "status": "partial",
   "theorems": [
    "C36_aem_document_partial",
    "C36_aem_round_trip_partial",
    "C36_aem_kept_partial",
    "C36_epoch_refuted",
    "C36_two_comments_refuted",
    "C36_comment_moves_refuted",
    "C36_lower_case_last_refuted",
    "C36_lower_case_first_refuted",
    "C36_lower_case_type_refuted",
    "C36_no_quaternion_type_refuted"
   ],
   "note": "false as stated (refuted: lower-case spellings of the type and order, missing order, epochs containing \"Type\", two data comments, comments that move); proved for documents in any spacing and for writing then reading, for segments the reader can tell apart; positive exponents are written out"
  },
  {
   "property": "C37",
   "status": "partial",
   "theorems": [
    "C37_derivative_write_refuted",
    "C37_spin_read_refuted",
    "C37_spin_nutation_read_refuted"
   ],
   "note": "the property is false (refuted) for quaternion derivatives and both spin types"
  },
  {
   "property": "C38",
   "status": "partial",
   "theorems": [
    "C38_name_case_refuted",
    "C38_repeated_name_refuted",
    "C38_comment_refuted",
    "C38_prefix_inside_refuted",
    "C38_bracket_refuted",
    "C26_omm_read_back",
    "C27_opm_read_back",
    "C28_rdm_read_back"
   ],
   "note": "false as stated (refuted: name case, repeated last name, comments, inner prefix, bracketed endings); proved for upper-case distinct names inside the OMM, OPM and RDM read-backs"
  },
  {
   "property": "C39",
   "status": "partial",
   "theorems": [
    "C39_later_keyword_refuted",
    "C39_comment_moves_refuted",
    "C39_data_comments_refuted",
    "C29_cdm_objects_mixed_refuted"
   ],
   "note": "the property is false (refuted); the CDM read-back states the conditions under which it holds"
  },
  {
   "property": "C40",
   "status": "partial",
   "theorems": [
    "C40_refuted"
   ],
   "note": "the property is false (refuted)"
  },
  {
   "property": "C41",
   "status": "partial",
   "theorems": [
    "C41_refuted"
   ],
   "note": "the property is false (refuted)"
  },
  {
   "property": "C42",
   "status": "partial",
   "theorems": [
    "C42_refuted",
    "C42_xml_alike"
   ],
   "note": "the property is false for KVN (refuted), true for XML"
  },
  {
   "property": "C43",
   "status": "proved",
   "theorems": [
    "C26_omm_read_back",
    "C27_opm_read_back",
    "C28_rdm_read_back"
   ],
   "note": ""
  },
  {
   "property": "C44",
   "status": "proved",
   "theorems": [
    "C44_aem_text",
    "C44_apm_text",
    "C44_tdm_text",
    "C44_omm_text",
    "C44_rdm_text",
    "C44_opm_text",
    "C44_cdm_text",
    "C44_oem_frames_text",
    "C44_oem_text"
   ],
   "note": ""
  },
  {
   "property": "C45",
   "status": "proved",
   "theorems": [
    "C45_apm_document",
    "C45_omm_document",
    "C45_rdm_document",
    "C45_opm_document",
    "C45_cdm_document"
   ],
   "note": ""
  },
  {
   "property": "C46",
   "status": "partial",
   "theorems": [
    "C46_text_kept",
    "C46_unknown_unit_refuted"
   ],
   "note": "proved for values of every section class, and inside the message round trips; refuted for units: an unknown unit is read and then makes writing fail"
  },
  {
   "property": "C47",
   "status": "partial",
   "theorems": [
    "C47_apm_read_back",
    "C47_apm_round_trip_partial",
    "C47_apm_round_trip_refuted"
   ],
   "note": "false as stated (refuted): Euler elements or rotations that are left out are read back as empty objects, and comments move; exact read-back proved for every APM whose later maneuvers set no new field, equality when nothing of the Euler part is left out and comments are settled"
  },
  {
   "property": "C48",
   "status": "proved",
   "theorems": [
    "C48_omm_stable",
    "C48_rdm_stable",
    "C48_opm_stable",
    "C48_cdm_stable",
    "C48_apm_stable"
   ],
   "note": ""
  },
  {
   "property": "C49",
   "status": "proved",
   "theorems": [
    "C49_version_ignored"
   ],
   "note": ""
  },
  {
   "property": "C50",
   "status": "proved",
   "theorems": [
    "C50_nothing_invented"
   ],
   "note": ""
  },
  {
   "property": "C52",
   "status": "proved",
   "theorems": [
    "C52_line_order",
    "C52_section_order",
    "C52_dates_refuted"
   ],
   "note": "the refuted theorem shows that the condition on tracking messages is needed"
  },
  {
   "property": "C51",
   "status": "partial",
   "theorems": [
    "C51_repeated_header_partial",
    "C51_trailing_refuted",
    "C51_thrice_refuted"
   ],
   "note": "the refuted theorems show a repetition that is ignored and one that loses the rest of the header"
  },
  {
   "property": "C53",
   "status": "proved",
   "theorems": [
    "C53_white_space",
    "C53_decimal_value",
    "C53_whole_value",
    "C53_float_accepted",
    "C53_written_decimal",
    "C53_written_whole"
   ],
   "note": "the statements about data lines (C30, C32-C34, C36) and about where values come from (C50) use the same spelling rules"
  },
  {
   "property": "C54",
   "status": "proved",
   "theorems": [
    "C54_spelling",
    "C54_user_refuted",
    "C54_tdm_refuted"
   ],
   "note": "the refuted theorems show that both exceptions are needed"
  },
  {
   "property": "C55",
   "status": "proved",
   "theorems": [
    "C55_distinct",
    "C55_saves",
    "C55_last_saved",
    "C55_distinct_refuted"
   ],
   "note": "the conditions are those of the round trips; the refuted theorem shows that the condition on comments is needed"
  },
  {
   "property": "C56",
   "status": "proved",
   "theorems": [
    "C56_place",
    "C56_rotation_refuted"
   ],
   "note": "the refuted theorem shows what happens with the rotations of an APM; C54 has the counterexamples for user defined parameters and tracking data"
  },
  {
   "property": "C57",
   "status": "proved",
   "theorems": [
    "C57_unknown_line",
    "C57_maneuvers_refuted",
    "C57_user_refuted",
    "C57_twice_refuted",
    "C57_space_refuted"
   ],
   "note": "the refuted theorems show what such a line does before maneuvers, between user defined parameters, said twice, or with a space in its keyword"
  },
  {
   "property": "C58",
   "status": "proved",
   "theorems": [
    "C58_files",
    "C58_strings",
    "C58_bytes_refuted",
    "C58_return_refuted"
   ],
   "note": "the refuted theorems are the cases named in the statement: CR alone in strings and bytes, and a carriage return inside a value of a saved message"
  },
  {
   "property": "C59",
   "status": "proved",
   "theorems": [
    "C59_characters",
    "C59_no_returns",
    "C59_injection_refuted"
   ],
   "note": "the refuted theorem shows that line ends in values are not escaped"
  },
  {
   "property": "C60",
   "status": "proved",
   "theorems": [
    "C60_comment_line",
    "C60_order_refuted",
    "C60_last_refuted"
   ],
   "note": "the refuted theorems show what happens with sections out of order and with a comment behind the last line"
  },
  {
   "property": "C61",
   "status": "proved",
   "theorems": [
    "C61_field_line",
    "C61_elsewhere_refuted",
    "C61_twice_refuted"
   ],
   "note": "the refuted theorems show what happens with a line outside its section and with a second line of the same keyword"
  },
  {
   "property": "C62",
   "status": "proved",
   "theorems": [
    "C62_errors",
    "C62_reject",
    "C62_read_or_index",
    "C62_twice_refuted",
    "C62_mandatory_refuted"
   ],
   "note": "the refuted theorems show that a keyword said twice may be dropped and that mandatory keywords are not enforced"
  },
  {
   "property": "C63",
   "status": "proved",
   "theorems": [
    "C63_read",
    "C63_early_refuted",
    "C63_no_sign_refuted"
   ],
   "note": "the refuted theorems show that the equals sign and the end outside header and metadata are needed"
  },
  {
   "property": "C64",
   "status": "proved",
   "theorems": [
    "C64_field",
    "C64_comment",
    "C64_unknown",
    "C64_last_refuted",
    "C64_edge_refuted"
   ],
   "note": "the refuted theorems show what happens at the end of a section and when the only data line is taken out"
  },
  {
   "property": "C65",
   "status": "proved",
   "theorems": [
    "C65_written",
    "C65_raises",
    "C65_unit",
    "C65_any_unit_refuted",
    "C65_angle_refuted",
    "C65_attitude_refuted"
   ],
   "note": "for every type but AEM; the refuted theorems show that the two conditions are needed and that AEM has to be left out"
  },
  {
   "property": "C66",
   "status": "proved",
   "theorems": [
    "C66_conforms",
    "C66_only_texts_refuted"
   ],
   "note": "the refuted theorem shows that a numeric field may hold a text that spells no number"
  },
  {
   "property": "C67",
   "status": "proved",
   "theorems": [
    "C67_omm",
    "C67_rdm",
    "C67_opm",
    "C67_cdm",
    "C67_unchanged_refuted"
   ],
   "note": "for OMM, OPM, RDM and CDM; the refuted theorem shows that comments may move in the first conversion"
  },
  {
   "property": "C68",
   "status": "proved",
   "theorems": [
    "C68_converts",
    "C68_distinct",
    "C68_copies",
    "C68_apm_text_refuted"
   ],
   "note": "the refuted theorem is about APMs whose Euler elements are left out"
  },
  {
   "property": "C69",
   "status": "proved",
   "theorems": [
    "C69_converts",
    "C69_files"
   ],
   "note": "for every XML parser whose results fit the schema (parser_fits); xsdata itself is not modelled"
  },
  {
   "property": "C70",
   "status": "proved",
   "theorems": [
    "C70_written",
    "C70_raises",
    "C70_from_any",
    "C70_gaps_refuted",
    "C70_parameters_refuted",
    "C70_axes_refuted",
    "C70_states_refuted"
   ],
   "note": "which exceptions are raised is not stated for AEM"
  }
 ]
}
