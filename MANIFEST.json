{
 "claims": [
  {
   "property": "C01",
   "status": "proved",
   "theorems": [
    "C01_read_message_total"
   ],
   "note": ""
  },
  {
   "property": "C02",
   "status": "proved",
   "theorems": [
    "C02_read_message_accepts",
    "C02_altitude_legal",
    "C02_altitude_illegal",
    "C02_wrong_format"
   ],
   "note": ""
  },
  {
   "property": "C03",
   "status": "proved",
   "theorems": [
    "C03_message_kind"
   ],
   "note": ""
  },
  {
   "property": "C04",
   "status": "proved",
   "theorems": [
    "C04_df0_layout",
    "C04_df4_layout",
    "C04_df5_layout",
    "C04_df11_layout"
   ],
   "note": ""
  },
  {
   "property": "C05",
   "status": "proved",
   "theorems": [
    "C05_df16_layout",
    "C05_df17_layout",
    "C05_df18_layout",
    "C05_df19_layout",
    "C05_df20_layout",
    "C05_df21_layout",
    "C05_df24_layout"
   ],
   "note": ""
  },
  {
   "property": "C06",
   "status": "proved",
   "theorems": [
    "C06_identity_injective",
    "C06_identity_surjective",
    "C06_emergency_squawks"
   ],
   "note": "the identity field itself is part of C04 and C05 (DF5, DF21)"
  },
  {
   "property": "C07",
   "status": "proved",
   "theorems": [
    "C07_altitude_unique",
    "C07_altitude_25ft_onto"
   ],
   "note": "that the decoded altitude satisfies Altitude13 is part of C04 and C05 (DF0, 4, 16, 20)"
  },
  {
   "property": "C08",
   "status": "proved",
   "theorems": [
    "C08_gillham_correct",
    "C08_gillham_onto"
   ],
   "note": ""
  },
  {
   "property": "C09",
   "status": "proved",
   "theorems": [
    "C09_gillham_unit_distance"
   ],
   "note": ""
  },
  {
   "property": "C10",
   "status": "proved",
   "theorems": [
    "C10_pack_bytes",
    "C10_pack_bits"
   ],
   "note": ""
  },
  {
   "property": "C11",
   "status": "proved",
   "theorems": [
    "C11_parity_is_remainder"
   ],
   "note": ""
  },
  {
   "property": "C12",
   "status": "proved",
   "theorems": [
    "C12_parity_linear"
   ],
   "note": ""
  },
  {
   "property": "C13",
   "status": "proved",
   "theorems": [
    "C13_extended_squitter_check"
   ],
   "note": ""
  },
  {
   "property": "C14",
   "status": "proved",
   "theorems": [
    "C14_overlay_roundtrip",
    "C14_overlay_check"
   ],
   "note": ""
  },
  {
   "property": "C15",
   "status": "proved",
   "theorems": [
    "C15_error_detection",
    "C15_error_detection_overlay"
   ],
   "note": ""
  },
  {
   "property": "C16",
   "status": "proved",
   "theorems": [
    "C16_overlay_roundtrip"
   ],
   "note": "the theorem covers every format but DF17 and DF18, DF11 included"
  },
  {
   "property": "C17",
   "status": "proved",
   "theorems": [
    "C17_overlay_check"
   ],
   "note": ""
  },
  {
   "property": "C18",
   "status": "proved",
   "theorems": [
    "C18_check_crc_total"
   ],
   "note": ""
  },
  {
   "property": "C19",
   "status": "proved",
   "theorems": [
    "C19_adsb_total"
   ],
   "note": ""
  },
  {
   "property": "C20",
   "status": "proved",
   "theorems": [
    "C20_adsb_kind",
    "C20_kind_unique",
    "C20_adsb_bad_length"
   ],
   "note": ""
  },
  {
   "property": "C21",
   "status": "proved",
   "theorems": [
    "C21_airborne_ok",
    "C21_airborne_bad_version"
   ],
   "note": ""
  },
  {
   "property": "C22",
   "status": "proved",
   "theorems": [
    "C22_airborne_bad_altitude",
    "C22_airborne_ok"
   ],
   "note": ""
  },
  {
   "property": "C23",
   "status": "proved",
   "theorems": [
    "C23_airborne_ok"
   ],
   "note": ""
  },
  {
   "property": "C24",
   "status": "proved",
   "theorems": [
    "C24_surface_fields",
    "C24_surface_bad_version"
   ],
   "note": ""
  },
  {
   "property": "C25",
   "status": "proved",
   "theorems": [
    "C25_surface_fields"
   ],
   "note": "the movement table and the track are part of surface_position"
  },
  {
   "property": "C26",
   "status": "partial",
   "theorems": [
    "C26_surface_ok_partial",
    "C26_surface_v1_radius_refuted"
   ],
   "note": "false of the code for version 1, type code 7 without NIC supplement A: the radius reported is \"greater than 0.1 NM\" although the NIC is 8; everything else is proved"
  },
  {
   "property": "C27",
   "status": "proved",
   "theorems": [
    "C27_identification_ok",
    "C27_identification_coherent"
   ],
   "note": ""
  },
  {
   "property": "C28",
   "status": "proved",
   "theorems": [
    "C28_velocity_ok",
    "C28_velocity_bad_subtype"
   ],
   "note": ""
  },
  {
   "property": "C29",
   "status": "proved",
   "theorems": [
    "C29_ground_speed"
   ],
   "note": ""
  },
  {
   "property": "C30",
   "status": "partial",
   "theorems": [
    "C30_status_message_partial",
    "C30_aircraft_status_refuted"
   ],
   "note": "false of the code: subtype 0 does not check bits 17-56; the bits of the advisory affected by C43 are excluded"
  },
  {
   "property": "C31",
   "status": "partial",
   "theorems": [
    "C31_target_message_partial",
    "C31_target_fields_partial",
    "C31_target_state_0_heading_refuted",
    "C31_target_state_1_altitude_type_refuted",
    "C31_target_state_1_heading_refuted"
   ],
   "note": "false of the code for three fields: heading of subtype 0 (low bits from the wrong byte), altitude type of subtype 1 (bit 8 instead of 9), negative heading of subtype 1"
  },
  {
   "property": "C32",
   "status": "proved",
   "theorems": [
    "C32_operational_message"
   ],
   "note": ""
  },
  {
   "property": "C33",
   "status": "partial",
   "theorems": [
    "C33_operational_version_partial",
    "C33_operational_version_refuted",
    "C33_version_of_the_caller_partial"
   ],
   "note": "false of the code for the surface operational status of version 2, which reports version 1"
  },
  {
   "property": "C34",
   "status": "partial",
   "theorems": [
    "C34_type0_partial",
    "C34_type0_refuted",
    "C34_no_position_ok"
   ],
   "note": "false of the code: the altitude source is reported as GNSS and the surveillance status and antenna flag are lost"
  },
  {
   "property": "C35",
   "status": "proved",
   "theorems": [
    "C35_commb_total"
   ],
   "note": ""
  },
  {
   "property": "C36",
   "status": "proved",
   "theorems": [
    "C36_commb_sound"
   ],
   "note": ""
  },
  {
   "property": "C37",
   "status": "proved",
   "theorems": [
    "C37_commb_complete",
    "C37_commb_increasing",
    "C37_commb_registers"
   ],
   "note": ""
  },
  {
   "property": "C38",
   "status": "proved",
   "theorems": [
    "C38_commb_exclusive"
   ],
   "note": ""
  },
  {
   "property": "C39",
   "status": "partial",
   "theorems": [
    "C39_read_bds00_partial",
    "C39_bds07_partial",
    "C39_bds07_refuted",
    "C39_coherence_bds07_partial"
   ],
   "note": "BDS 0,0 is proved; BDS 0,7 is false of the code, which ignores the reserved bits 7-8"
  },
  {
   "property": "C40",
   "status": "partial",
   "theorems": [
    "C40_bds10_partial",
    "C40_bds10_refuted",
    "C40_coherence_bds10_partial"
   ],
   "note": "false of the code for the surveillance identifier capability, which reads bit 18 instead of bit 35; everything else is proved"
  },
  {
   "property": "C41",
   "status": "proved",
   "theorems": [
    "C41_read_bds17"
   ],
   "note": ""
  },
  {
   "property": "C42",
   "status": "proved",
   "theorems": [
    "C42_read_bds20_iff",
    "C42_coherence_bds20"
   ],
   "note": ""
  },
  {
   "property": "C43",
   "status": "partial",
   "theorems": [
    "C43_resolution_advisory_partial",
    "C43_threat_altitude_refuted",
    "C43_threat_range_refuted",
    "C43_bds30_partial"
   ],
   "note": "false of the code for two threat fields: pulses C1/A1 of the altitude, and one bit of the range"
  },
  {
   "property": "C44",
   "status": "partial",
   "theorems": [
    "C44_bds40_partial",
    "C44_bds40_refuted",
    "C44_bds40_pressure_refuted",
    "C44_intention_coherent_partial"
   ],
   "note": "false of the code: the two selected altitudes are swapped and the status of the pressure is read from bit 1"
  },
  {
   "property": "C45",
   "status": "partial",
   "theorems": [
    "C45_routine_report_partial",
    "C45_routine_report_refuted",
    "C45_routine_source_refuted",
    "C45_routine_report_v0_partial",
    "C45_routine_report_v0_refuted",
    "C45_routine_coherent_v0_partial",
    "C45_routine_coherent_v0_refuted"
   ],
   "note": "false of the code: the top bit of the wind speed is dropped, the source is never reported, the sign of the V0 temperature is ignored"
  },
  {
   "property": "C46",
   "status": "proved",
   "theorems": [
    "C46_hazard_report",
    "C46_hazard_report_recognised",
    "C46_hazard_report_v0",
    "C46_hazard_coherent_v0"
   ],
   "note": ""
  },
  {
   "property": "C47",
   "status": "proved",
   "theorems": [
    "C47_track_and_turn_report"
   ],
   "note": ""
  },
  {
   "property": "C48",
   "status": "proved",
   "theorems": [
    "C48_heading_and_speed_report"
   ],
   "note": ""
  },
  {
   "property": "C49",
   "status": "proved",
   "theorems": [
    "C49_airborne_local_decode",
    "C49_surface_local_decode",
    "C49_airborne_local",
    "C49_surface_local",
    "C49_airborne_local_accurate",
    "C49_surface_local_accurate"
   ],
   "note": "in binary64; the longitude for every library of trigonometric functions accurate to 1e-14 (or for which the number of longitude zones is right), at positions 1e-4 degrees away from the latitudes where the number of longitude zones changes and 1e-3 degrees away from the equator"
  },
  {
   "property": "C50",
   "status": "proved",
   "theorems": [
    "C50_airborne_global",
    "C50_polar_zone",
    "C50_airborne_global_accurate"
   ],
   "note": ""
  },
  {
   "property": "C51",
   "status": "proved",
   "theorems": [
    "C51_number_of_zones",
    "C51_zones_unique",
    "C51_zones_symmetric",
    "C51_zones_decreasing",
    "C51_zones_north_south",
    "C51_zones_binary64"
   ],
   "note": "in exact arithmetic; in binary64 the symmetry, and the value away from the transitions for accurate libraries"
  },
  {
   "property": "C52",
   "status": "partial",
   "theorems": [
    "C52_airborne_global_decode_partial",
    "C52_airborne_latitude_range_refuted"
   ],
   "note": "false of the code: the latitude of a pair of codes that no position has is not checked"
  },
  {
   "property": "C53",
   "status": "partial",
   "theorems": [
    "C53_surface_global_decode_partial",
    "C53_surface_global_partial",
    "C53_surface_quadrant_refuted",
    "C53_surface_reference_refuted",
    "C53_surface_global_accurate_partial"
   ],
   "note": "false of the code: the distance to the reference is not circular, and a reference longitude that is not a number (or is huge) panics"
  },
  {
   "property": "C54",
   "status": "proved",
   "theorems": [
    "C54_ground_distance",
    "C54_distance_bounds",
    "C54_distance_symmetric",
    "C54_distance_zero",
    "C54_distance_triangle",
    "C54_distance_accurate",
    "C54_distance_accurate_near",
    "C54_distance_antipodes_refuted",
    "C54_distance_accurate_example",
    "C54_accurate_library_example",
    "C54_angle_of_point"
   ],
   "note": "exactly in exact arithmetic; in binary64 up to a centimetre (a tenth of a millimetre below 10 000 km), for every accurate library; the limit to 20 000 km cannot be dropped: at antipodes an accurate library may lead to the square root of a negative number (distance_antipodes_refuted)"
  },
  {
   "property": "C55",
   "status": "proved",
   "theorems": [
    "C55_modes_text_total",
    "C55_adsb_text_total",
    "C55_commb_text_total",
    "C55_ra_text_total_any"
   ],
   "note": ""
  },
  {
   "property": "C56",
   "status": "partial",
   "theorems": [
    "C56_labels_numbered_partial",
    "C56_labels_numbered_distinct_partial",
    "C56_labels_distinct_partial",
    "C56_labels_decimal_partial",
    "C56_labels_misnumbered_refuted",
    "C56_sense_label_refuted",
    "C56_numbered_determines_partial",
    "C56_sense_text_refuted"
   ],
   "note": "proved for 109 numbered enumerations (every integer), 24 worded ones and 4 decimal ones; false of the code for four enumerations whose labels carry the number of another code, and for the sense of a resolution advisory, always printed as upward"
  },
  {
   "property": "C57",
   "status": "proved",
   "theorems": [
    "C57_lines_exist",
    "C57_prefix_text",
    "C57_prefix_lines"
   ],
   "note": ""
  },
  {
   "property": "C58",
   "status": "proved",
   "theorems": [
    "C58_address_text",
    "C58_threat_address_text",
    "C58_announced_address_text",
    "C58_address_text_injective"
   ],
   "note": ""
  },
  {
   "property": "C59",
   "status": "proved",
   "theorems": [
    "C59_adsb_registers",
    "C59_register_ids_distinct",
    "C59_commb_register_ids"
   ],
   "note": ""
  },
  {
   "property": "C60",
   "status": "proved",
   "theorems": [
    "C60_command_report",
    "C60_command_never_panics",
    "C60_decode_text",
    "C60_decode_reason",
    "C60_hex_text_bytes",
    "C60_hex_text_unique"
   ],
   "note": ""
  },
  {
   "property": "C61",
   "status": "proved",
   "theorems": [
    "C61_command_report",
    "C61_body_df16",
    "C61_body_df17",
    "C61_body_df18",
    "C61_body_df20",
    "C61_body_df21",
    "C61_body_df24"
   ],
   "note": ""
  },
  {
   "property": "C62",
   "status": "partial",
   "theorems": [
    "C62_threat_range_value_partial",
    "C62_threat_bearing_value_partial",
    "C62_bearing_text_partial",
    "C62_bearing_text_refuted"
   ],
   "note": "the values are proved for every code; the text of a bearing is false of the code above 252 degrees, where its bounds wrap around a byte"
  },
  {
   "property": "C63",
   "status": "proved",
   "theorems": [
    "C63_surface_bounds",
    "C63_surface_bounds_ordered"
   ],
   "note": ""
  },
  {
   "property": "C64",
   "status": "proved",
   "theorems": [
    "C64_velocity_subtype",
    "C64_status_subtype",
    "C64_target_subtype",
    "C64_advisory_form_type",
    "C64_advisory_forms_distinct",
    "C64_category_set",
    "C64_turbulence_status",
    "C64_turbulence_status_v0",
    "C64_message_names"
   ],
   "note": ""
  },
  {
   "property": "C65",
   "status": "proved",
   "theorems": [
    "C65_adsb_coherent"
   ],
   "note": ""
  },
  {
   "property": "C66",
   "status": "proved",
   "theorems": [
    "C66_main_file",
    "C66_main_bad_file",
    "C66_lines_unique"
   ],
   "note": ""
  },
  {
   "property": "C67",
   "status": "partial",
   "theorems": [
    "C67_main_no_data_partial",
    "C67_main_level_partial",
    "C67_main_bad_words_partial",
    "C67_command_line_unique_partial",
    "C67_main_first_word_partial",
    "C67_main_data_partial",
    "C67_main_data_refuted"
   ],
   "note": "the word reported is always the first one: when options come first, it is an option and the data are not looked at (main_data_refuted); the rest of the statement is proved"
  },
  {
   "property": "C68",
   "status": "proved",
   "theorems": [
    "C68_modes_report",
    "C68_modes_report_example"
   ],
   "note": ""
  },
  {
   "property": "C69",
   "status": "partial",
   "theorems": [
    "C69_adsb_report_partial",
    "C69_adsb_report_exactly_partial",
    "C69_adsb_report_refuted",
    "C69_emergency_code_refuted",
    "C69_emergency_code_example",
    "C69_adsb_report_example"
   ],
   "note": "proved for every message but the advisories whose threat is above 252 degrees, where the printed sector is false (adsb_report_refuted), or whose sense is downward, printed as upward (ra_sense_refuted in C71), and, against the statement, for every emergency report, whose Mode A code is not printed: two reports of the same emergency with different codes have the same text (emergency_code_refuted); the type code, which only tells the kind of the message, is not a line either; adsb_report_exactly shows that these advisories are always printed wrong: the text has the rows of the message if and only if its advisory, if any, is printable; floats are printed by the library, assumed to print no newline"
  },
  {
   "property": "C70",
   "status": "partial",
   "theorems": [
    "C70_commb_report_partial",
    "C70_commb_report_exactly_partial",
    "C70_commb_report_refuted",
    "C70_commb_report_example"
   ],
   "note": "proved for every message but three cases where the text is false: the continuation flag of a data link capability report is printed with the overlay capability (commb_report_refuted), the sector of a threat above 252 degrees, and the downward sense of an advisory, printed as upward; commb_report_exactly: in these cases the text is always wrong, in the others right"
  },
  {
   "property": "C71",
   "status": "partial",
   "theorems": [
    "C71_ra_report_partial",
    "C71_ra_report_exactly_partial",
    "C71_ra_report_refuted",
    "C71_ra_sense_refuted",
    "C71_ra_report_example"
   ],
   "note": "proved for every advisory whose threat is not above 252 degrees, where the printed sector is false (ra_report_refuted), and whose sense is not downward, which is printed as upward (ra_sense_refuted); ra_report_exactly: the text is right for the first and wrong for every other"
  },
  {
   "property": "C72",
   "status": "proved",
   "theorems": [
    "C72_mode_s_reason"
   ],
   "note": ""
  },
  {
   "property": "C73",
   "status": "partial",
   "theorems": [
    "C73_adsb_reason_partial",
    "C73_adsb_reason_refuted"
   ],
   "note": "proved for every body but: an aircraft status without information with bits 17-56 not all zero, which is accepted (aircraft_status_refuted in C30); an advisory whose threat altitude has the pulses C1 or A1, which the code misplaces (C43); an operational status of an unknown version, whose error gives the subtype instead of the version (adsb_reason_refuted)"
  },
  {
   "property": "C74",
   "status": "partial",
   "theorems": [
    "C74_advisory_reason_partial",
    "C74_advisory_reason_refuted"
   ],
   "note": "proved unless the threat altitude has the pulses C1 or A1, which the code misplaces: a threat at 2300 ft is then refused (advisory_reason_refuted)"
  },
  {
   "property": "C75",
   "status": "partial",
   "theorems": [
    "C75_recognition_reason_partial",
    "C75_status_reason_refuted",
    "C75_advisory_text_refuted"
   ],
   "note": "every register but: 0,7, whose reserved bits 7 and 8 are not looked at; 3,0, whose error names the number 0x20 instead of 0x30, and whose threat altitude may be misread (C43)"
  },
  {
   "property": "C76",
   "status": "proved",
   "theorems": [
    "C76_coherency_reason",
    "C76_decoded_typed",
    "C76_older_typed"
   ],
   "note": "typed says that the fields have values of their Go types (float32, uint32); decoded_typed and older_typed say that it holds of every decoded message"
  },
  {
   "property": "C77",
   "status": "proved",
   "theorems": [
    "C77_ground_track",
    "C77_accurate_atan2_exists"
   ],
   "note": "for every math.Atan2 whose error is at most 1e-14 (accurate_atan2); accurate_atan2_exists builds one"
  },
  {
   "property": "C78",
   "status": "proved",
   "theorems": [
    "C78_airborne_received",
    "C78_airborne_located",
    "C78_airborne_located_near",
    "C78_squitter_exists"
   ],
   "note": "the squitter is written field by field in Spec/Squitter.v; the positions and libraries are those of C49 and C50 (clear_of_transitions, accurate)"
  },
  {
   "property": "C79",
   "status": "proved",
   "theorems": [
    "C79_surface_received",
    "C79_surface_located",
    "C79_surface_located_near"
   ],
   "note": "the positions and libraries are those of C49 and C50"
  },
  {
   "property": "C80",
   "status": "proved",
   "theorems": [
    "C80_identification_received"
   ],
   "note": ""
  },
  {
   "property": "C81",
   "status": "proved",
   "theorems": [
    "C81_velocity_told",
    "C81_velocity_told_supersonic"
   ],
   "note": ""
  },
  {
   "property": "C82",
   "status": "proved",
   "theorems": [
    "C82_altitude_reply_told",
    "C82_altitude_commb_told",
    "C82_air_air_told",
    "C82_air_air_long_told",
    "C82_reply_exists"
   ],
   "note": "the reply is written field by field in Spec/Reply.v"
  },
  {
   "property": "C83",
   "status": "proved",
   "theorems": [
    "C83_identity_reply_told",
    "C83_identity_commb_told"
   ],
   "note": ""
  },
  {
   "property": "C84",
   "status": "proved",
   "theorems": [
    "C84_all_call_told"
   ],
   "note": ""
  },
  {
   "property": "C85",
   "status": "proved",
   "theorems": [
    "C85_track_register_told",
    "C85_heading_register_told",
    "C85_identification_register_told"
   ],
   "note": "the other registers are those of C39 to C46"
  },
  {
   "property": "C86",
   "status": "proved",
   "theorems": [
    "C86_emergency_received"
   ],
   "note": ""
  },
  {
   "property": "C87",
   "status": "proved",
   "theorems": [
    "C87_parse_int",
    "C87_dec_integer",
    "C87_level_not_integer",
    "C87_level_unknown",
    "C87_level_used",
    "C87_level_default"
   ],
   "note": "the panic of an unknown level is deliberate in the code (cmd/main.go:36)"
  },
  {
   "property": "C88",
   "status": "proved",
   "theorems": [
    "C88_concurrent_answers",
    "C88_concurrent_end",
    "C88_four_calls_valid"
   ],
   "note": "the functions that allocate or write bytes are programs of Model/MemoryCode.v, with single reads and writes of bytes as steps; those that only read are their models applied to the bytes, read one by one; the interleaving is sequentially consistent, which Go grants to programs without data races"
  },
  {
   "property": "C89",
   "status": "proved",
   "theorems": [
    "C89_content_private",
    "C89_four_calls_valid"
   ],
   "note": ""
  },
  {
   "property": "C90",
   "status": "partial",
   "theorems": [
    "C90_reused_buffer_partial",
    "C90_reused_buffer_text_partial",
    "C90_reused_buffer_refuted"
   ],
   "note": "proved of every field but Payload and Parity of the embedded MessageData, which are windows of the buffer of the caller and follow its changes (reused_buffer_refuted); the text of the message, its format and its content do not change"
  },
  {
   "property": "C91",
   "status": "proved",
   "theorems": [
    "C91_command_tells",
    "C91_first_word_tells",
    "C91_file_tells"
   ],
   "note": "for the first word the level is 0 (main_data_refuted, C67, tells what happens when options precede the data); the surface squitters of type 7 for version 1 are left out: their radius is wrong (surface_v1_radius_refuted)"
  },
  {
   "property": "C92",
   "status": "proved",
   "theorems": [
    "C92_airborne_located_moving",
    "C92_airborne_crossing",
    "C92_surface_located_moving",
    "C92_airborne_global_moving",
    "C92_surface_global_moving",
    "C92_airborne_global_crossing",
    "C92_surface_global_crossing"
   ],
   "note": "the positions and libraries are those of C49 and C50; airborne_located_example and surface_located_example (C78, C79) show such squitters"
  },
  {
   "property": "C93",
   "status": "proved",
   "theorems": [
    "C93_squitter_damaged",
    "C93_device_damaged",
    "C93_squitter_damaged_printed",
    "C93_squitter_misread",
    "C93_reply_damaged",
    "C93_all_call_damaged",
    "C93_squitter_one_bit_refuted",
    "C93_all_call_one_bit_refuted",
    "C93_squitter_six_bits_refuted"
   ],
   "note": "what the code cannot see is stated too: one wrong bit in the format makes of every squitter a Comm-B reply of the aircraft F1B77E (squitter_one_bit_refuted), one wrong bit in the address of an all-call reply is not seen without a list of interrogators (all_call_one_bit_refuted), and six wrong bits may give another squitter (squitter_six_bits_refuted)"
  },
  {
   "property": "C94",
   "status": "partial",
   "theorems": [
    "C94_airspeed_told_partial",
    "C94_airspeed_supersonic_told_partial",
    "C94_airspeed_kind_refuted"
   ],
   "note": "everything but the kind of the airspeed: the indicated/true bit is not in the message, two squitters that differ by it are read as the same message (airspeed_kind_refuted)"
  },
  {
   "property": "C95",
   "status": "partial",
   "theorems": [
    "C95_advisory_reply_told_partial",
    "C95_advisory_squitter_told_partial",
    "C95_advisory_register_told_partial"
   ],
   "note": "readable excludes the threats of which the code loses a bit of the altitude (pulses C1 and A1) or the last bit of the range: threat_altitude_refuted and threat_range_refuted (C43)"
  },
  {
   "property": "C96",
   "status": "partial",
   "theorems": [
    "C96_some_track_told_partial",
    "C96_track_lost_refuted",
    "C96_some_heading_told_partial"
   ],
   "note": "the heading register in full; a track register with a ground speed above 200 kt and no airspeed is never listed, because the code compares the speed with the zero of the missing one (track_lost_refuted)"
  },
  {
   "property": "C97",
   "status": "proved",
   "theorems": [
    "C97_routine_told",
    "C97_hazard_told",
    "C97_services_told",
    "C97_status_told",
    "C97_nothing_told"
   ],
   "note": "at least one value must be present: ReadCommBMessage takes a register without any for another one"
  },
  {
   "property": "C98",
   "status": "partial",
   "theorems": [
    "C98_intention_told_partial",
    "C98_intention_lost_refuted",
    "C98_capability_told_partial"
   ],
   "note": "4,0: when both altitudes and the pressure are there and the altitudes are the same; the code does not list the register when one is missing (intention_lost_refuted); 1,0: every field but the surveillance identifier flag (C40 tells which bit the code reads)"
  },
  {
   "property": "C99",
   "status": "partial",
   "theorems": [
    "C99_operational_0_received_partial",
    "C99_airborne_operational_1_received_partial",
    "C99_surface_operational_1_received_partial",
    "C99_airborne_operational_2_received_partial",
    "C99_surface_operational_2_received_partial",
    "C99_surface_level_refuted"
   ],
   "note": "every field of the five formats, and the version of four of them: the surface status of version 2 is told as version 1 (surface_level_refuted)"
  },
  {
   "property": "C100",
   "status": "partial",
   "theorems": [
    "C100_target_1_received_partial",
    "C100_target_2_received_partial",
    "C100_target_heading_refuted",
    "C100_target_kind_refuted",
    "C100_target_west_refuted"
   ],
   "note": "every field but the three that the code misreads (C31): two target headings may be told alike (target_heading_refuted), the source of the selected altitude is not told (target_kind_refuted), a selected heading to the west is told wrong (target_west_refuted)"
  },
  {
   "property": "C101",
   "status": "partial",
   "theorems": [
    "C101_frame_printed_partial",
    "C101_squitter_printed_partial",
    "C101_device_received_partial",
    "C101_device_printed_partial",
    "C101_altitude_register_printed_partial",
    "C101_squawk_register_printed_partial",
    "C101_advisory_printed_partial",
    "C101_first_word_frame_partial",
    "C101_file_frames_partial"
   ],
   "note": "of every frame but those whose text is wrong (C70): the advisories of a downward sense or with a bearing of 43 to 60, and the register 1,0 when its continuation flag differs from its overlay flag; the rows of each message are those of C69 and C70"
  },
  {
   "property": "C102",
   "status": "proved",
   "theorems": [
    "C102_advisory_departs",
    "C102_advisory_register_departs",
    "C102_status_departs",
    "C102_target_departs",
    "C102_status_register_departs",
    "C102_capability_departs",
    "C102_intention_departs",
    "C102_routine_departs",
    "C102_routine_v0_departs",
    "C102_surface_7_departs",
    "C102_sense_departs",
    "C102_bearing_departs",
    "C102_continuation_departs"
   ],
   "note": "the behaviour as it is, in full, of the readers whose standard behaviour is only partial (C26, C30, C31, C39, C40, C43, C44, C45, C70, C71); C34 and C99 state theirs with type0_refuted and surface_level_refuted"
  },
  {
   "property": "C103",
   "status": "proved",
   "theorems": [
    "C103_zones_tabulated",
    "C103_tabulated_one",
    "C103_table_exact",
    "C103_table_binary64",
    "C103_clear_by_table"
   ],
   "note": "the table is a list of the 58 published latitudes; clear_by_table gives the hypothesis of C49, C50, C53 and C92 from the table"
  },
  {
   "property": "C104",
   "status": "partial",
   "theorems": [
    "C104_meaning_named_partial",
    "C104_meaning_worded_partial",
    "C104_meaning_otherwise_partial",
    "C104_meanings_complete_partial",
    "C104_misnamed_refuted"
   ],
   "note": "false of the 17 codes of misnamed, which do not show their meaning: flight status 4 and 5 (an identification without alert is shown as an alert), transmission rate 0, width of code 10, velocity uncertainty 2 to 4, subnetwork versions 2 to 5, source 4, integrity 2 and 3, vertical accuracy 1 to 3; proved for all others, and what is shown for these is proved"
  },
  {
   "property": "C105",
   "status": "proved",
   "theorems": [
    "C105_frame_kept",
    "C105_frame_unique",
    "C105_accepted_sent",
    "C105_squitter_iff"
   ],
   "note": "accepted_sent is the converse of C80 to C84"
  },
  {
   "property": "C106",
   "status": "proved",
   "theorems": [
    "C106_airborne_global_everywhere",
    "C106_airborne_local_everywhere",
    "C106_airborne_moving_everywhere",
    "C106_changes_by_table",
    "C106_accuracy_refuted",
    "C106_airborne_located_everywhere",
    "C106_airborne_near_everywhere",
    "C106_tropics"
   ],
   "note": "airborne messages only: next to the equator the step of surface messages is too fine for binary64 (accuracy_refuted)"
  },
  {
   "property": "C107",
   "status": "proved",
   "theorems": [
    "C107_airborne_pair_everywhere",
    "C107_airborne_still_everywhere",
    "C107_airborne_one_everywhere",
    "C107_sent_zones",
    "C107_squitters_everywhere",
    "C107_squitter_everywhere"
   ],
   "note": "airborne messages; those of aircraft on the ground are in C112"
  },
  {
   "property": "C108",
   "status": "proved",
   "theorems": [
    "C108_tracked",
    "C108_tracked_from_pair",
    "C108_tracked_from_place",
    "C108_other_address",
    "C108_other_format",
    "C108_other_type",
    "C108_other_damaged",
    "C108_other_without_altitude",
    "C108_can_send",
    "C108_can_send_ground",
    "C108_tracked_from_ground"
   ],
   "note": "the receiver (ReadMessage, CheckCRC, ReadADSBMessage and GetCPRAirborneLocalPosition or GetCPRSurfaceLocalPosition on each frame) is written in Spec/Flight.v, as a user of the library writes it; sharp libraries exist (C107); positions on the ground are those of C112"
  },
  {
   "property": "C109",
   "status": "partial",
   "theorems": [
    "C109_ground_speed_missing_partial",
    "C109_supersonic_missing_partial",
    "C109_airspeed_missing_partial",
    "C109_supersonic_airspeed_missing_partial",
    "C109_position_without_altitude_refuted"
   ],
   "note": "velocities: proved for the four subtypes. Positions: the code is false there, and position_without_altitude_refuted proves it: an airborne position without altitude (code 0) is refused as a whole by ReadADSBMessage, and the position it carries is lost"
  },
  {
   "property": "C110",
   "status": "partial",
   "theorems": [
    "C110_session_learned_partial",
    "C110_airborne_integrity_partial",
    "C110_surface_integrity_partial",
    "C110_elsewhere_address_partial",
    "C110_elsewhere_format_partial",
    "C110_elsewhere_type_partial",
    "C110_elsewhere_damaged_partial",
    "C110_surface_integrity_refuted"
   ],
   "note": "what is learned and the airborne positions: proved. Surface positions: the code is false for type 7 in version 1 without supplement A, for every aircraft and every history (surface_integrity_refuted). The receiver is written in Spec/Session.v; it takes the version from the number the status carries, because the version GetADSBVersion gives for a surface status of version 2 is wrong (C99_surface_level_refuted)"
  },
  {
   "property": "C111",
   "status": "proved",
   "theorems": [
    "C111_crowd",
    "C111_followed",
    "C111_crowd_followed"
   ],
   "note": "the table receiver is written in Spec/Receiver.v, from those of Spec/Flight.v and Spec/Session.v"
  },
  {
   "property": "C112",
   "status": "proved",
   "theorems": [
    "C112_surface_pair_everywhere",
    "C112_surface_one_everywhere",
    "C112_sent_ground_zones",
    "C112_squitters_on_ground",
    "C112_squitter_on_ground"
   ],
   "note": "sharp libraries (C107) exist; the equator is excluded because there a sharp library may make the number of zones 60 (C106), and the latitudes above 86.9999 because of the transition at 87 degrees, which surface messages approach to less than the bound; GetCPRSurfaceGlobalPosition only finds positions in the hemisphere of the reference and within 45 degrees (C49)"
  },
  {
   "property": "C113",
   "status": "proved",
   "theorems": [
    "C113_replies_kept",
    "C113_histories",
    "C113_foreign_sender",
    "C113_foreign_squitter",
    "C113_foreign_damaged",
    "C113_empty_list"
   ],
   "note": "the receiver is written in Spec/Radar.v, as a user of the library writes it; histories: every sequence of frames is a history for every aircraft; a damaged reply that is read as an extended squitter is covered by squitter acceptance (C93)"
  },
  {
   "property": "C114",
   "status": "proved",
   "theorems": [
    "C114_callsign_said",
    "C114_emergency_said",
    "C114_velocity_said",
    "C114_every_history",
    "C114_subjects_decided"
   ],
   "note": "the receiver is written in Spec/Said.v; every_history: every sequence of frames of bytes is a history for every aircraft and every decidable subject; what VelocityOf says is C28, with its bounds on the float fields"
  },
  {
   "property": "C115",
   "status": "proved",
   "theorems": [
    "C115_identity_answered",
    "C115_track_answered",
    "C115_heading_answered",
    "C115_every_history",
    "C115_subjects_decided"
   ],
   "note": "the receiver is written in Spec/Answers.v; what each report says is C42, C47 and C48; with an empty list at the start CheckCRC lets every reply through (C113)"
  },
  {
   "property": "C116",
   "status": "proved",
   "theorems": [
    "C116_replies_order",
    "C116_squitters_order",
    "C116_registers_order",
    "C116_other_squitter",
    "C116_other_reply",
    "C116_positions_order"
   ],
   "note": "the receivers are those of Spec/Radar.v, Spec/Said.v and Spec/Answers.v, the last two for any content that can be picked in the message read, and that of Spec/Receiver.v with any mathematical library (positions_order)"
  },
  {
   "property": "C117",
   "status": "proved",
   "theorems": [
    "C117_same_text",
    "C117_same_squitter"
   ],
   "note": "alike (Spec/Alike.v): the same format and the same value of every field but the raw part, which holds the parity and the spare bits and is not printed; kept_example in C105 is a squitter that meets the hypotheses of same_squitter"
  }
 ]
}