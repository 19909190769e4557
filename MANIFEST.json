{
 "claims": [
  {
   "property": "C01",
   "status": "proved",
   "theorems": [
    "C01_parse_total",
    "C01_parse_exact"
   ],
   "note": ""
  },
  {
   "property": "C02",
   "status": "proved",
   "theorems": [
    "C02_parseMulti_total",
    "C02_parseMulti_tiles"
   ],
   "note": ""
  },
  {
   "property": "C03",
   "status": "proved",
   "theorems": [
    "C03_parse_marshal"
   ],
   "note": ""
  },
  {
   "property": "C04",
   "status": "proved",
   "theorems": [
    "C04_marshal_parse",
    "C04_wellformed_iff",
    "C04_new_wf",
    "C04_new_vendor_wf",
    "C04_new_grouped_wf"
   ],
   "note": ""
  },
  {
   "property": "C05",
   "status": "proved",
   "theorems": [
    "C05_list_roundtrip",
    "C05_list_marshal",
    "C05_injective",
    "C05_prefix_code"
   ],
   "note": ""
  },
  {
   "property": "C06",
   "status": "proved",
   "theorems": [
    "C06_truncation_refuted",
    "C06_truncation_exact",
    "C06_list_truncation_exact"
   ],
   "note": ""
  },
  {
   "property": "C07",
   "status": "proved",
   "theorems": [
    "C07_marshal_never_fails",
    "C07_marshal_to_frame"
   ],
   "note": ""
  },
  {
   "property": "C08",
   "status": "proved",
   "theorems": [
    "C08_short_buffer_refuted",
    "C08_plain_tiny",
    "C08_plain_short",
    "C08_short_never_succeeds",
    "C08_default_short_never_succeeds",
    "C08_short_silent_refuted",
    "C08_place",
    "C08_header",
    "C08_payload",
    "C08_enterprise",
    "C08_exact"
   ],
   "note": ""
  },
  {
   "property": "C09",
   "status": "proved",
   "theorems": [
    "C09_length_refuted",
    "C09_length_exact",
    "C09_length_new",
    "C09_length_grouped",
    "C09_new_grouped_type_refuted"
   ],
   "note": ""
  },
  {
   "property": "C10",
   "status": "proved",
   "theorems": [
    "C10_edits_coherent",
    "C10_new_grouped_coherent",
    "C10_wire_coherent",
    "C10_coherent_wellformed"
   ],
   "note": ""
  },
  {
   "property": "C11",
   "status": "proved",
   "theorems": [
    "C11_remove_exact",
    "C11_remove_then_find",
    "C11_find_first",
    "C11_find_none"
   ],
   "note": ""
  },
  {
   "property": "C12",
   "status": "proved",
   "theorems": [
    "C12_plain_noop"
   ],
   "note": ""
  },
  {
   "property": "C13",
   "status": "proved",
   "theorems": [
    "C13_nested_edit_refuted",
    "C13_stale_parent",
    "C13_repair"
   ],
   "note": ""
  },
  {
   "property": "C14",
   "status": "proved",
   "theorems": [
    "C14_uint_roundtrip",
    "C14_uint_exact",
    "C14_string_roundtrip",
    "C14_uint_wire"
   ],
   "note": ""
  },
  {
   "property": "C15",
   "status": "proved",
   "theorems": [
    "C15_new_header_roundtrip",
    "C15_roundtrip_exact",
    "C15_decode_encode",
    "C15_length_field",
    "C15_getters",
    "C15_marshal_to_fits",
    "C15_marshal_to_short"
   ],
   "note": ""
  },
  {
   "property": "C16",
   "status": "proved",
   "theorems": [
    "C16_total",
    "C16_exact",
    "C16_unambiguous",
    "C16_length_refuted_long",
    "C16_length_refuted_short",
    "C16_payload_exact"
   ],
   "note": ""
  },
  {
   "property": "C17",
   "status": "proved",
   "theorems": [
    "C17_set_mp_refuted",
    "C17_new_header_refuted",
    "C17_set_mp_exact",
    "C17_new_header_exact"
   ],
   "note": ""
  },
  {
   "property": "C18",
   "status": "proved",
   "theorems": [
    "C18_set_seid",
    "C18_seid_clear",
    "C18_sequence",
    "C18_set_sequence"
   ],
   "note": ""
  },
  {
   "property": "C19",
   "status": "proved",
   "theorems": [
    "C19_parse_total",
    "C19_parse_each_total",
    "C19_parse_exact"
   ],
   "note": ""
  },
  {
   "property": "C20",
   "status": "proved",
   "theorems": [
    "C20_dispatch",
    "C20_names",
    "C20_distinct"
   ],
   "note": ""
  },
  {
   "property": "C21",
   "status": "proved",
   "theorems": [
    "C21_refuted_duplicate",
    "C21_refuted_octet",
    "C21_exact",
    "C21_all_kinds",
    "C21_field_contents"
   ],
   "note": ""
  },
  {
   "property": "C22",
   "status": "proved",
   "theorems": [
    "C22_refuted",
    "C22_exact",
    "C22_in_order"
   ],
   "note": ""
  },
  {
   "property": "C23",
   "status": "proved",
   "theorems": [
    "C23_constructor",
    "C23_roundtrip",
    "C23_generic"
   ],
   "note": ""
  },
  {
   "property": "C24",
   "status": "proved",
   "theorems": [
    "C24_lengths",
    "C24_payload_independent",
    "C24_set_length",
    "C24_marshal_to"
   ],
   "note": ""
  },
  {
   "property": "C25",
   "status": "proved",
   "theorems": [
    "C25_exact",
    "C25_refuted",
    "C25_params",
    "C25_generic_add",
    "C25_marshal_skips_nil",
    "C25_slice_nil_faults"
   ],
   "note": ""
  },
  {
   "property": "C26",
   "status": "proved",
   "theorems": [
    "C26_encode_exact",
    "C26_encode_all",
    "C26_decode_exact",
    "C26_roundtrip",
    "C26_long_label_refuted"
   ],
   "note": ""
  },
  {
   "property": "C27",
   "status": "proved",
   "theorems": [
    "C27_odd",
    "C27_even",
    "C27_always_cut_refuted",
    "C27_errors",
    "C27_layout"
   ],
   "note": ""
  },
  {
   "property": "C28",
   "status": "proved",
   "theorems": [
    "C28_roundtrip",
    "C28_decode_encode",
    "C28_layout",
    "C28_decode_panic_refuted",
    "C28_encode_exact",
    "C28_encode_panic_refuted"
   ],
   "note": ""
  },
  {
   "property": "C29",
   "status": "proved",
   "theorems": [
    "C29_u24",
    "C29_u24_inverse",
    "C29_u40",
    "C29_u40_inverse",
    "C29_eci"
   ],
   "note": ""
  },
  {
   "property": "C30",
   "status": "proved",
   "theorems": [
    "C30_total",
    "C30_exact",
    "C30_marshal",
    "C30_marshal_total",
    "C30_new_roundtrip",
    "C30_missing_address_refuted"
   ],
   "note": ""
  },
  {
   "property": "C31",
   "status": "proved",
   "theorems": [
    "C31_total",
    "C31_exact",
    "C31_marshal",
    "C31_marshal_total",
    "C31_new_roundtrip"
   ],
   "note": ""
  },
  {
   "property": "C32",
   "status": "proved",
   "theorems": [
    "C32_total",
    "C32_decode",
    "C32_marshal",
    "C32_marshal_total",
    "C32_roundtrip_exact",
    "C32_new"
   ],
   "note": ""
  },
  {
   "property": "C33",
   "status": "proved",
   "theorems": [
    "C33_panic_exact",
    "C33_total_refuted",
    "C33_otherwise_returns",
    "C33_exact",
    "C33_marshal",
    "C33_marshal_total",
    "C33_roundtrip_exact"
   ],
   "note": ""
  },
  {
   "property": "C34",
   "status": "proved",
   "theorems": [
    "C34_panic_exact",
    "C34_total_refuted",
    "C34_otherwise_returns",
    "C34_exact",
    "C34_marshal",
    "C34_marshal_total",
    "C34_roundtrip_exact",
    "C34_roundtrip_refuted",
    "C34_bad_address"
   ],
   "note": ""
  },
  {
   "property": "C35",
   "status": "proved",
   "theorems": [
    "C35_panic_exact",
    "C35_total_refuted",
    "C35_exact",
    "C35_refused_exact",
    "C35_list_unique",
    "C35_marshal",
    "C35_remarshal",
    "C35_new",
    "C35_new_panics",
    "C35_roundtrip_exact",
    "C35_roundtrip_refuted"
   ],
   "note": ""
  },
  {
   "property": "C36",
   "status": "proved",
   "theorems": [
    "C36_total",
    "C36_measurement_exact",
    "C36_volume_exact",
    "C36_marshal",
    "C36_measurement_roundtrip",
    "C36_volume_roundtrip",
    "C36_empty_refuted"
   ],
   "note": ""
  },
  {
   "property": "C37",
   "status": "proved",
   "theorems": [
    "C37_total",
    "C37_exact",
    "C37_new_panic_exact",
    "C37_new_panic_refuted",
    "C37_roundtrip_exact",
    "C37_even_digits",
    "C37_roundtrip_refuted"
   ],
   "note": ""
  },
  {
   "property": "C38",
   "status": "proved",
   "theorems": [
    "C38_total",
    "C38_exact",
    "C38_roundtrip_v4",
    "C38_roundtrip_v6",
    "C38_roundtrip_fqdn_exact",
    "C38_heuristic",
    "C38_roundtrip_refuted"
   ],
   "note": ""
  },
  {
   "property": "C39",
   "status": "proved",
   "theorems": [
    "C39_first_match",
    "C39_same_accessor",
    "C39_of_built_group",
    "C39_of_children",
    "C39_terminates",
    "C39_more_calls_change_nothing",
    "C39_kind",
    "C39_other_types",
    "C39_network_instance_refuted"
   ],
   "note": ""
  },
  {
   "property": "C40",
   "status": "proved",
   "theorems": [
    "C40_total",
    "C40_roundtrip_exact",
    "C40_wraps",
    "C40_reencode",
    "C40_refuted"
   ],
   "note": ""
  },
  {
   "property": "C41",
   "status": "proved",
   "theorems": [
    "C41_no_deadlock",
    "C41_bounded",
    "C41_continue",
    "C41_all_return",
    "C41_order",
    "C41_atomic",
    "C41_no_fatal",
    "C41_parse_logs",
    "C41_disabled",
    "C41_set",
    "C41_enable_never_returns",
    "C41_enable_blocks",
    "C41_refuted"
   ],
   "note": ""
  },
  {
   "property": "C42",
   "status": "proved",
   "theorems": [
    "C42_same",
    "C42_no_map_clash",
    "C42_no_deadlock",
    "C42_no_infinite",
    "C42_results",
    "C42_parse_message",
    "C42_parse_ie",
    "C42_parse_multi",
    "C42_parse_marshal",
    "C42_marshal",
    "C42_no_race",
    "C42_set_refuted",
    "C42_nil_refuted",
    "C42_race_refuted",
    "C42_marshal_refuted"
   ],
   "note": ""
  },
  {
   "property": "C43",
   "status": "proved",
   "theorems": [
    "C43_receiver_refuted",
    "C43_receiver_exact",
    "C43_message_refuted",
    "C43_message_exact",
    "C43_message_fresh"
   ],
   "note": ""
  },
  {
   "property": "C44",
   "status": "proved",
   "theorems": [
    "C44_parse",
    "C44_parse_multi",
    "C44_parse_message",
    "C44_parse_fails",
    "C44_unrelated_writes",
    "C44_marshal",
    "C44_marshal_to",
    "C44_marshal_message",
    "C44_new",
    "C44_new_grouped",
    "C44_refuted",
    "C44_overlap_refuted",
    "C44_stale_refuted"
   ],
   "note": ""
  },
  {
   "property": "C45",
   "status": "proved",
   "theorems": [
    "C45_validate",
    "C45_refuses",
    "C45_type"
   ],
   "note": ""
  },
  {
   "property": "C46",
   "status": "proved",
   "theorems": [
    "C46_total",
    "C46_representable",
    "C46_exact",
    "C46_truncates",
    "C46_infinite",
    "C46_refuted"
   ],
   "note": ""
  },
  {
   "property": "C47",
   "status": "proved",
   "theorems": [
    "C47_is_request",
    "C47_name_refuted",
    "C47_name_exact"
   ],
   "note": ""
  },
  {
   "property": "C48",
   "status": "proved",
   "theorems": [
    "C48_refuted",
    "C48_exact"
   ],
   "note": ""
  },
  {
   "property": "C49",
   "status": "proved",
   "theorems": [
    "C49_total",
    "C49_exact",
    "C49_marshal",
    "C49_marshal_total",
    "C49_new_roundtrip",
    "C49_empty_refuted"
   ],
   "note": ""
  },
  {
   "property": "C50",
   "status": "proved",
   "theorems": [
    "C50_panic_exact",
    "C50_exact",
    "C50_marshal",
    "C50_marshal_total",
    "C50_new_roundtrip",
    "C50_panic_refuted"
   ],
   "note": ""
  },
  {
   "property": "C51",
   "status": "proved",
   "theorems": [
    "C51_total",
    "C51_exact",
    "C51_marshal",
    "C51_marshal_total",
    "C51_new_roundtrip"
   ],
   "note": ""
  },
  {
   "property": "C52",
   "status": "proved",
   "theorems": [
    "C52_total",
    "C52_exact",
    "C52_marshal",
    "C52_marshal_total",
    "C52_new_roundtrip"
   ],
   "note": ""
  },
  {
   "property": "C53",
   "status": "proved",
   "theorems": [
    "C53_total",
    "C53_exact",
    "C53_marshal",
    "C53_marshal_total",
    "C53_mac_lost_refuted"
   ],
   "note": ""
  },
  {
   "property": "C54",
   "status": "proved",
   "theorems": [
    "C54_panic_exact",
    "C54_decode",
    "C54_decoded",
    "C54_marshal",
    "C54_marshal_panics_refuted",
    "C54_new"
   ],
   "note": ""
  },
  {
   "property": "C55",
   "status": "proved",
   "theorems": [
    "C55_total",
    "C55_exact",
    "C55_marshal",
    "C55_marshal_never_panics",
    "C55_new_roundtrip",
    "C55_any_refuted"
   ],
   "note": ""
  },
  {
   "property": "C56",
   "status": "proved",
   "theorems": [
    "C56_seconds32",
    "C56_seconds16",
    "C56_seconds_total",
    "C56_subsequent_time_quota_panics",
    "C56_subsequent_time_quota",
    "C56_longer_refuted",
    "C56_milliseconds",
    "C56_ddn_delay",
    "C56_time_offset"
   ],
   "note": ""
  },
  {
   "property": "C57",
   "status": "proved",
   "theorems": [
    "C57_total",
    "C57_exact",
    "C57_marshal",
    "C57_roundtrip"
   ],
   "note": ""
  },
  {
   "property": "C58",
   "status": "proved",
   "theorems": [
    "C58_total",
    "C58_exact",
    "C58_marshal",
    "C58_roundtrip"
   ],
   "note": ""
  },
  {
   "property": "C59",
   "status": "proved",
   "theorems": [
    "C59_total",
    "C59_exact",
    "C59_marshal",
    "C59_roundtrip"
   ],
   "note": ""
  },
  {
   "property": "C60",
   "status": "proved",
   "theorems": [
    "C60_total",
    "C60_exact",
    "C60_marshal",
    "C60_roundtrip",
    "C60_has_refuted"
   ],
   "note": ""
  },
  {
   "property": "C61",
   "status": "proved",
   "theorems": [
    "C61_total",
    "C61_exact",
    "C61_marshal",
    "C61_roundtrip",
    "C61_refuted"
   ],
   "note": ""
  },
  {
   "property": "C62",
   "status": "proved",
   "theorems": [
    "C62_total",
    "C62_exact",
    "C62_short",
    "C62_marshal",
    "C62_roundtrip",
    "C62_vid_refuted"
   ],
   "note": ""
  },
  {
   "property": "C63",
   "status": "proved",
   "theorems": [
    "C63_total",
    "C63_exact",
    "C63_roundtrip_exact",
    "C63_roundtrip",
    "C63_refuted"
   ],
   "note": ""
  },
  {
   "property": "C64",
   "status": "proved",
   "theorems": [
    "C64_total",
    "C64_exact",
    "C64_marshal",
    "C64_new_panic_exact",
    "C64_roundtrip",
    "C64_other_refuted"
   ],
   "note": ""
  },
  {
   "property": "C65",
   "status": "proved",
   "theorems": [
    "C65_total",
    "C65_exact",
    "C65_marshal",
    "C65_roundtrip_exact",
    "C65_new_panic_exact"
   ],
   "note": ""
  },
  {
   "property": "C66",
   "status": "proved",
   "theorems": [
    "C66_panic_exact",
    "C66_total_refuted",
    "C66_otherwise_returns",
    "C66_exact",
    "C66_marshal",
    "C66_roundtrip_exact",
    "C66_teidri_panic"
   ],
   "note": ""
  },
  {
   "property": "C67",
   "status": "proved",
   "theorems": [
    "C67_panic_exact",
    "C67_total_refuted",
    "C67_otherwise_returns",
    "C67_exact",
    "C67_marshal",
    "C67_roundtrip_exact",
    "C67_roundtrip_refuted"
   ],
   "note": ""
  },
  {
   "property": "C68",
   "status": "proved",
   "theorems": [
    "C68_exact",
    "C68_panic_exact",
    "C68_otherwise_refused",
    "C68_new",
    "C68_fit6",
    "C68_new_panics",
    "C68_nil_tag_panics",
    "C68_never_roundtrips"
   ],
   "note": ""
  },
  {
   "property": "C69",
   "status": "proved",
   "theorems": [
    "C69_panic_exact",
    "C69_otherwise_returns",
    "C69_total_refuted"
   ],
   "note": ""
  },
  {
   "property": "C70",
   "status": "proved",
   "theorems": [
    "C70_success_exact",
    "C70_dead_for_every_registration"
   ],
   "note": ""
  },
  {
   "property": "C71",
   "status": "proved",
   "theorems": [
    "C71_reads_type_and_payload",
    "C71_children_invisible",
    "C71_length_refuted"
   ],
   "note": ""
  },
  {
   "property": "C72",
   "status": "proved",
   "theorems": [
    "C72_nth",
    "C72_below_one",
    "C72_other_types",
    "C72_first"
   ],
   "note": ""
  },
  {
   "property": "C73",
   "status": "proved",
   "theorems": [
    "C73_bit",
    "C73_swapped_exact",
    "C73_swapped_refuted",
    "C73_distinct",
    "C73_covers"
   ],
   "note": ""
  },
  {
   "property": "C74",
   "status": "proved",
   "theorems": [
    "C74_group",
    "C74_children"
   ],
   "note": ""
  },
  {
   "property": "C75",
   "status": "proved",
   "theorems": [
    "C75_elsewhere"
   ],
   "note": ""
  },
  {
   "property": "C76",
   "status": "proved",
   "theorems": [
    "C76_ue_ipv4",
    "C76_ue_ipv6_exact",
    "C76_ue_ipv6_refuted",
    "C76_urr_cp_exact",
    "C76_urr_up_exact",
    "C76_fseid",
    "C76_fteid",
    "C76_ohc"
   ],
   "note": ""
  },
  {
   "property": "C77",
   "status": "proved",
   "theorems": [
    "C77_panic_exact",
    "C77_answers",
    "C77_total_refuted"
   ],
   "note": ""
  },
  {
   "property": "C78",
   "status": "proved",
   "theorems": [
    "C78_set_has",
    "C78_set_others",
    "C78_positions",
    "C78_octet"
   ],
   "note": ""
  },
  {
   "property": "C79",
   "status": "proved",
   "theorems": [
    "C79_named",
    "C79_named_otherwise",
    "C79_type",
    "C79_type_given",
    "C79_type_given1",
    "C79_wire",
    "C79_group_wire",
    "C79_default"
   ],
   "note": ""
  },
  {
   "property": "C80",
   "status": "proved",
   "theorems": [
    "C80_reader",
    "C80_uint",
    "C80_masked",
    "C80_mask",
    "C80_string",
    "C80_fqdn",
    "C80_octets",
    "C80_time",
    "C80_timer",
    "C80_secs32",
    "C80_secs16",
    "C80_millis",
    "C80_50ms",
    "C80_nanos",
    "C80_fields"
   ],
   "note": ""
  },
  {
   "property": "C81",
   "status": "proved",
   "theorems": [
    "C81_group",
    "C81_types"
   ],
   "note": ""
  },
  {
   "property": "C82",
   "status": "proved",
   "theorems": [
    "C82_ints",
    "C82_octs",
    "C82_mask",
    "C82_ip_version_exact",
    "C82_ip_version_refuted"
   ],
   "note": ""
  },
  {
   "property": "C83",
   "status": "proved",
   "theorems": [
    "C83_availability",
    "C83_gate",
    "C83_auri",
    "C83_count",
    "C83_downlink",
    "C83_dropped",
    "C83_failed",
    "C83_flow",
    "C83_policy",
    "C83_policy_long",
    "C83_fqcsid",
    "C83_rates",
    "C83_multiplier",
    "C83_instance",
    "C83_removal",
    "C83_snssai",
    "C83_quota",
    "C83_bridge",
    "C83_pool",
    "C83_features",
    "C83_node_v4",
    "C83_node_v6",
    "C83_node_name",
    "C83_heuristic_name",
    "C83_heuristic_ip",
    "C83_refuted"
   ],
   "note": ""
  },
  {
   "property": "C84",
   "status": "proved",
   "theorems": [
    "C84_verdict",
    "C84_group",
    "C84_always",
    "C84_may"
   ],
   "note": ""
  },
  {
   "property": "C85",
   "status": "proved",
   "theorems": [
    "C85_member",
    "C85_pdi_fteid",
    "C85_unreachable_refuted",
    "C85_through",
    "C85_part",
    "C85_nothing_else"
   ],
   "note": ""
  },
  {
   "property": "C86",
   "status": "proved",
   "theorems": [
    "C86_encode",
    "C86_one_value",
    "C86_decode",
    "C86_short",
    "C86_spare_exact",
    "C86_spare_refuted"
   ],
   "note": ""
  },
  {
   "property": "C87",
   "status": "proved",
   "theorems": [
    "C87_structured",
    "C87_determined",
    "C87_kinds"
   ],
   "note": ""
  },
  {
   "property": "C88",
   "status": "proved",
   "theorems": [
    "C88_total",
    "C88_defined",
    "C88_undefined",
    "C88_distinct"
   ],
   "note": ""
  },
  {
   "property": "C89",
   "status": "proved",
   "theorems": [
    "C89_turn",
    "C89_sorts",
    "C89_run",
    "C89_answer",
    "C89_survives_refuted",
    "C89_sequence_refuted"
   ],
   "note": ""
  },
  {
   "property": "C90",
   "status": "proved",
   "theorems": [
    "C90_first",
    "C90_waits",
    "C90_sequence_refuted",
    "C90_survives_refuted",
    "C90_exchange"
   ],
   "note": ""
  },
  {
   "property": "C91",
   "status": "proved",
   "theorems": [
    "C91_fresh",
    "C91_kept",
    "C91_pfd",
    "C91_pfd_stale",
    "C91_pfd_refuted",
    "C91_twice",
    "C91_twice_refuted",
    "C91_encode",
    "C91_macs_panic",
    "C91_encode_refuted"
   ],
   "note": ""
  },
  {
   "property": "C92",
   "status": "proved",
   "theorems": [
    "C92_same",
    "C92_bounds",
    "C92_size",
    "C92_list_size",
    "C92_exact",
    "C92_message",
    "C92_linear_refuted",
    "C92_marshal",
    "C92_marshal_linear_refuted"
   ],
   "note": ""
  },
  {
   "property": "C93",
   "status": "proved",
   "theorems": [
    "C93_finishes",
    "C93_alone",
    "C93_any_schedule",
    "C93_error_refuted",
    "C93_panic_refuted",
    "C93_zeros_refuted",
    "C93_length_refuted",
    "C93_no_ies"
   ],
   "note": ""
  },
  {
   "property": "C94",
   "status": "proved",
   "theorems": [
    "C94_parse",
    "C94_octets",
    "C94_read_back",
    "C94_dotted",
    "C94_canonical",
    "C94_group",
    "C94_node_v4",
    "C94_node_v6",
    "C94_heuristic_address",
    "C94_heuristic_name",
    "C94_text_identifies_refuted",
    "C94_fqcsid",
    "C94_fields"
   ],
   "note": ""
  },
  {
   "property": "C95",
   "status": "proved",
   "theorems": [
    "C95_exact",
    "C95_panic_exact",
    "C95_error_exact",
    "C95_mac",
    "C95_mac_panic",
    "C95_length",
    "C95_mapped_refuted",
    "C95_fteid_shift_refuted",
    "C95_ohc_port_refuted"
   ],
   "note": ""
  },
  {
   "property": "C96",
   "status": "proved",
   "theorems": [
    "C96_contents",
    "C96_beyond",
    "C96_exact",
    "C96_longer",
    "C96_clean",
    "C96_stale",
    "C96_spare_refuted",
    "C96_guarded",
    "C96_guarded_mac",
    "C96_short",
    "C96_short_refuted"
   ],
   "note": ""
  },
  {
   "property": "C97",
   "status": "proved",
   "theorems": [
    "C97_message",
    "C97_constructed",
    "C97_exact",
    "C97_same",
    "C97_accessors",
    "C97_flags",
    "C97_built",
    "C97_values",
    "C97_groups",
    "C97_depth",
    "C97_more_refuted"
   ],
   "note": ""
  },
  {
   "property": "C98",
   "status": "proved",
   "theorems": [
    "C98_ie_total",
    "C98_ie_same",
    "C98_ie_left",
    "C98_ie_value",
    "C98_ie_safe",
    "C98_ie_refuted",
    "C98_ie_grouped_refuted",
    "C98_header_same",
    "C98_header_left",
    "C98_header_kept",
    "C98_total",
    "C98_same",
    "C98_left",
    "C98_nil_header",
    "C98_nil_iff",
    "C98_with_header",
    "C98_recover",
    "C98_feed",
    "C98_gives",
    "C98_leaves",
    "C98_stale"
   ],
   "note": ""
  },
  {
   "property": "C99",
   "status": "proved",
   "theorems": [
    "C99_layout",
    "C99_iff",
    "C99_datagrams",
    "C99_version",
    "C99_version_refuted",
    "C99_seid_refuted"
   ],
   "note": ""
  },
  {
   "property": "C100",
   "status": "proved",
   "theorems": [
    "C100_now",
    "C100_buffer",
    "C100_copy",
    "C100_octets",
    "C100_ies",
    "C100_struct",
    "C100_parts",
    "C100_mixed",
    "C100_owned",
    "C100_shared",
    "C100_refuted"
   ],
   "note": ""
  },
  {
   "property": "C101",
   "status": "proved",
   "theorems": [
    "C101_decode",
    "C101_place",
    "C101_kept",
    "C101_same",
    "C101_spills_refuted",
    "C101_sdf_filter",
    "C101_pfd_contents",
    "C101_subsequent_time_quota",
    "C101_flow_description",
    "C101_stale_refuted"
   ],
   "note": ""
  },
  {
   "property": "C102",
   "status": "proved",
   "theorems": [
    "C102_same",
    "C102_fits",
    "C102_confined",
    "C102_error",
    "C102_past",
    "C102_panic",
    "C102_enterprise",
    "C102_enterprise_grouped",
    "C102_success",
    "C102_within_refuted",
    "C102_header",
    "C102_reached",
    "C102_message",
    "C102_message_panic",
    "C102_message_nil",
    "C102_message_refuted"
   ],
   "note": ""
  },
  {
   "property": "C103",
   "status": "proved",
   "theorems": [
    "C103_decode",
    "C103_header",
    "C103_fields",
    "C103_length",
    "C103_marshal",
    "C103_marshal_header",
    "C103_access",
    "C103_never",
    "C103_own_type",
    "C103_find",
    "C103_text",
    "C103_must"
   ],
   "note": ""
  },
  {
   "property": "C104",
   "status": "proved",
   "theorems": [
    "C104_unmarshal",
    "C104_marshal_len",
    "C104_marshal_to",
    "C104_marshal",
    "C104_parse"
   ],
   "note": ""
  },
  {
   "property": "C105",
   "status": "proved",
   "theorems": [
    "C105_argument",
    "C105_struct",
    "C105_length_method"
   ],
   "note": ""
  },
  {
   "property": "C106",
   "status": "proved",
   "theorems": [
    "C106_shape",
    "C106_short",
    "C106_first",
    "C106_unchanged_refuted",
    "C106_history",
    "C106_pfd_refuted"
   ],
   "note": ""
  },
  {
   "property": "C107",
   "status": "proved",
   "theorems": [
    "C107_fields",
    "C107_parse",
    "C107_prefix",
    "C107_accessor",
    "C107_group",
    "C107_which",
    "C107_children",
    "C107_wide",
    "C107_node_id_refuted",
    "C107_bridge_id_refuted"
   ],
   "note": ""
  },
  {
   "property": "C108",
   "status": "proved",
   "theorems": [
    "C108_one_type",
    "C108_fields",
    "C108_order",
    "C108_group",
    "C108_last",
    "C108_first",
    "C108_which",
    "C108_two_types_refuted"
   ],
   "note": ""
  },
  {
   "property": "C109",
   "status": "proved",
   "theorems": [
    "C109_relay",
    "C109_again",
    "C109_others_refuted",
    "C109_every_type"
   ],
   "note": ""
  },
  {
   "property": "C110",
   "status": "proved",
   "theorems": [
    "C110_same",
    "C110_coded",
    "C110_bits",
    "C110_timer",
    "C110_timer_octet_refuted",
    "C110_stopped_refuted",
    "C110_units_refuted",
    "C110_which"
   ],
   "note": ""
  },
  {
   "property": "C111",
   "status": "proved",
   "theorems": [
    "C111_same",
    "C111_confined",
    "C111_guarded",
    "C111_enough",
    "C111_past_refuted",
    "C111_checked",
    "C111_which",
    "C111_reads"
   ],
   "note": ""
  },
  {
   "property": "C112",
   "status": "proved",
   "theorems": [
    "C112_plain",
    "C112_bounded",
    "C112_success",
    "C112_encoding",
    "C112_panic_refuted"
   ],
   "note": ""
  },
  {
   "property": "C113",
   "status": "proved",
   "theorems": [
    "C113_ordered",
    "C113_prefix",
    "C113_encoding",
    "C113_error",
    "C113_unchanged_refuted",
    "C113_twice_refuted"
   ],
   "note": ""
  }
 ]
}