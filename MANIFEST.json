{
 "claims": [
  {
   "property": "C01",
   "status": "proved",
   "theorems": [
    "C01_getter",
    "C01_getter_bits",
    "C01_getter_slice"
   ],
   "note": ""
  },
  {
   "property": "C02",
   "status": "proved",
   "theorems": [
    "C02_set_get",
    "C02_set_get_exact",
    "C02_get_set"
   ],
   "note": ""
  },
  {
   "property": "C03",
   "status": "proved",
   "theorems": [
    "C03_setter_frame",
    "C03_disjoint_commute"
   ],
   "note": ""
  },
  {
   "property": "C04",
   "status": "proved",
   "theorems": [
    "C04_getters_agree",
    "C04_bytes_agree"
   ],
   "note": ""
  },
  {
   "property": "C05",
   "status": "proved",
   "theorems": [
    "C05_wide_getter_refuted",
    "C05_wide_getter",
    "C05_only_ipv6"
   ],
   "note": "the property's positive reading is false (IPv6 src/dst); refuted with a witness and characterised exactly"
  },
  {
   "property": "C06",
   "status": "proved",
   "theorems": [
    "C06_read_out_of_buffer",
    "C06_write_out_of_buffer",
    "C06_poison_for_ever"
   ],
   "note": ""
  },
  {
   "property": "C07",
   "status": "proved",
   "theorems": [
    "C07_bytes",
    "C07_set_bytes",
    "C07_asserts",
    "C07_widest",
    "C07_reversed",
    "C07_set_bytes_partial_write_refuted"
   ],
   "note": ""
  },
  {
   "property": "C08",
   "status": "proved",
   "theorems": [
    "C08_layouts_sound",
    "C08_tester_refuted"
   ],
   "note": "holds for every protocol header; the Tester exception is a _refuted theorem"
  },
  {
   "property": "C09",
   "status": "proved",
   "theorems": [
    "C09_default_length",
    "C09_icmp_refuted"
   ],
   "note": "false for ICMP only: refuted for ICMP, proved for all others"
  },
  {
   "property": "C10",
   "status": "proved",
   "theorems": [
    "C10_clone_independent_refuted",
    "C10_write_seen_through_clone",
    "C10_clone_shares_for_ever"
   ],
   "note": "independence is refuted; sharing is proved for every later history"
  },
  {
   "property": "C11",
   "status": "proved",
   "theorems": [
    "C11_replace",
    "C11_replace_alias",
    "C11_replace_poisoned"
   ],
   "note": ""
  },
  {
   "property": "C12",
   "status": "proved",
   "theorems": [
    "C12_list_refinement",
    "C12_borrowed_panics"
   ],
   "note": ""
  },
  {
   "property": "C13",
   "status": "proved",
   "theorems": [
    "C13_to_vec",
    "C13_to_vec_pure"
   ],
   "note": ""
  },
  {
   "property": "C14",
   "status": "proved",
   "theorems": [
    "C14_len",
    "C14_len_refuted",
    "C14_len_iff",
    "C14_llc_refuted",
    "C14_from_refuted"
   ],
   "note": "the unconditional claim is refuted; the conditional one is proved"
  },
  {
   "property": "C15",
   "status": "proved",
   "theorems": [
    "C15_set_payload_appends",
    "C15_set_payload_iff",
    "C15_set_payload_refuted",
    "C15_set_payload_history"
   ],
   "note": "refuted in general; exact condition proved"
  },
  {
   "property": "C16",
   "status": "proved",
   "theorems": [
    "C16_add",
    "C16_add_bytes",
    "C16_add_concat",
    "C16_add_concat_refuted",
    "C16_add_concat_iff",
    "C16_laws"
   ],
   "note": "byte concatenation refuted; the actual result proved for all packets"
  },
  {
   "property": "C17",
   "status": "proved",
   "theorems": [
    "C17_clone_same",
    "C17_structure_independent",
    "C17_contents_independent_refuted",
    "C17_contents_shared"
   ],
   "note": "content independence refuted; sharing proved in every later heap"
  },
  {
   "property": "C18",
   "status": "proved",
   "theorems": [
    "C18_compare_with_slice",
    "C18_compare_eq",
    "C18_equivalence",
    "C18_reflexive_refuted",
    "C18_symmetric_refuted",
    "C18_transitive_refuted",
    "C18_reflexive"
   ],
   "note": "reflexivity and symmetry refuted in general; proved as byte equality for sized packets"
  },
  {
   "property": "C19",
   "status": "proved",
   "theorems": [
    "C19_get_header",
    "C19_get_header_err",
    "C19_index",
    "C19_write_through"
   ],
   "note": ""
  },
  {
   "property": "C20",
   "status": "proved",
   "theorems": [
    "C20_value",
    "C20_value_any",
    "C20_rfc",
    "C20_rfc_refuted",
    "C20_ignores",
    "C20_odd",
    "C20_eleven"
   ],
   "note": "value proved for every even length; RFC 1071 agreement exactly when the fold does not carry (refuted otherwise); odd lengths panic except 11"
  },
  {
   "property": "C21",
   "status": "proved",
   "theorems": [
    "C21_built_checksum",
    "C21_built_checksum_refuted"
   ],
   "note": "refuted with a witness; validity characterised exactly"
  },
  {
   "property": "C22",
   "status": "proved",
   "theorems": [
    "C22_mac",
    "C22_mac_panics",
    "C22_mac_total",
    "C22_mac_roundtrip"
   ],
   "note": ""
  },
  {
   "property": "C23",
   "status": "proved",
   "theorems": [
    "C23_ipv4",
    "C23_ipv4_panics",
    "C23_ipv4_total",
    "C23_ipv4_roundtrip"
   ],
   "note": ""
  },
  {
   "property": "C24",
   "status": "proved",
   "theorems": [
    "C24_ethernet",
    "C24_dot3",
    "C24_arp",
    "C24_panics",
    "C24_arp_panics"
   ],
   "note": ""
  },
  {
   "property": "C25",
   "status": "proved",
   "theorems": [
    "C25_vlan_general",
    "C25_vlan",
    "C25_cfi_refuted",
    "C25_vid_refuted"
   ],
   "note": "cfi and wide vid are refuted with witnesses; the bytes built are characterised for all arguments"
  },
  {
   "property": "C26",
   "status": "proved",
   "theorems": [
    "C26_ipv4",
    "C26_panics"
   ],
   "note": ""
  },
  {
   "property": "C27",
   "status": "proved",
   "theorems": [
    "C27_ipv6",
    "C27_flow_refuted"
   ],
   "note": "a flow label above 20 bits is refuted with a witness"
  },
  {
   "property": "C28",
   "status": "proved",
   "theorems": [
    "C28_udp",
    "C28_icmp",
    "C28_tcp",
    "C28_res_refuted"
   ],
   "note": ""
  },
  {
   "property": "C29",
   "status": "proved",
   "theorems": [
    "C29_vxlan",
    "C29_gre",
    "C29_gre_chksum_offset",
    "C29_gre_key",
    "C29_gre_sequence_number"
   ],
   "note": ""
  },
  {
   "property": "C30",
   "status": "proved",
   "theorems": [
    "C30_erspan2",
    "C30_erspan3",
    "C30_session_refuted"
   ],
   "note": ""
  },
  {
   "property": "C31",
   "status": "proved",
   "theorems": [
    "C31_mpls_actual",
    "C31_mpls_refuted",
    "C31_label_refuted"
   ],
   "note": "the claim is refuted for every call with a bos or exp, and for the label; what is built is proved for all arguments"
  },
  {
   "property": "C32",
   "status": "proved",
   "theorems": [
    "C32_snap",
    "C32_snap_oui_iff",
    "C32_llc_refuted"
   ],
   "note": "snap characterised for all arguments, correct iff the three oui bytes are equal; llc refuted"
  },
  {
   "property": "C33",
   "status": "proved",
   "theorems": [
    "C33_slow_total",
    "C33_fast_total",
    "C33_slow_equations",
    "C33_fast_equations",
    "C33_slow_depth",
    "C33_fast_depth",
    "C33_depth_unbounded"
   ],
   "note": "also shows that the nesting depth is not bounded by any constant (VLAN stack)"
  },
  {
   "property": "C34",
   "status": "proved",
   "theorems": [
    "C34_tables_total",
    "C34_slow_complete",
    "C34_slow_sound",
    "C34_slow_panics",
    "C34_fast_complete",
    "C34_fast_sound",
    "C34_fast_panics"
   ],
   "note": ""
  },
  {
   "property": "C35",
   "status": "proved",
   "theorems": [
    "C35_agree"
   ],
   "note": ""
  },
  {
   "property": "C36",
   "status": "proved",
   "theorems": [
    "C36_bytes",
    "C36_identity_iff",
    "C36_identity_without_gre",
    "C36_permutation",
    "C36_fast_same",
    "C36_identity_refuted"
   ],
   "note": "identity refuted (GRE with two options); exact condition, permutation and the GRE-free case proved"
  },
  {
   "property": "C37",
   "status": "proved",
   "theorems": [
    "C37_fresh",
    "C37_writes_local",
    "C37_isolated"
   ],
   "note": ""
  },
  {
   "property": "C38",
   "status": "proved",
   "theorems": [
    "C38_windows",
    "C38_tile"
   ],
   "note": ""
  },
  {
   "property": "C39",
   "status": "proved",
   "theorems": [
    "C39_from_ub_iff",
    "C39_from_ok",
    "C39_from_refuted"
   ],
   "note": "refuted for every protocol header; undefined behaviour characterised exactly"
  },
  {
   "property": "C40",
   "status": "proved",
   "theorems": [
    "C40_except_1500",
    "C40_at_1500",
    "C40_refuted"
   ],
   "note": "refuted at 1500, proved for every other length word"
  },
  {
   "property": "C41",
   "status": "proved",
   "theorems": [
    "C41_extra_word_ipv4",
    "C41_extra_word_other",
    "C41_one_more_entry",
    "C41_refuted"
   ],
   "note": "refuted; the extra entry consumed is proved for every stack, and the shape that does parse is given"
  },
  {
   "property": "C42",
   "status": "proved",
   "theorems": [
    "C42_eth",
    "C42_arp",
    "C42_ipv4",
    "C42_tcp",
    "C42_udp",
    "C42_icmp",
    "C42_in_range",
    "C42_panics",
    "C42_cases"
   ],
   "note": "holds for all arguments; the checksum inherits the carry error of C20 (stated as an iff); unreadable addresses panic"
  },
  {
   "property": "C43",
   "status": "proved",
   "theorems": [
    "C43_ipv6",
    "C43_tcpv6",
    "C43_udpv6",
    "C43_icmpv6",
    "C43_panics",
    "C43_in_range"
   ],
   "note": ""
  },
  {
   "property": "C44",
   "status": "proved",
   "theorems": [
    "C44_arp",
    "C44_tcp",
    "C44_udp",
    "C44_icmp",
    "C44_tcpv6",
    "C44_udpv6",
    "C44_icmpv6",
    "C44_vxlan_port_refuted"
   ],
   "note": "proved for all seven builders; port 4789 with a short payload is a _refuted witness"
  },
  {
   "property": "C45",
   "status": "proved",
   "theorems": [
    "C45_ipv4ip",
    "C45_ipv6ip",
    "C45_empty",
    "C45_inner_panics"
   ],
   "note": ""
  },
  {
   "property": "C46",
   "status": "proved",
   "theorems": [
    "C46_vxlan",
    "C46_checksum_refuted",
    "C46_parse",
    "C46_vxlanv6",
    "C46_vxlanv6_refuted"
   ],
   "note": "lengths proved, checksum proved wrong for every argument (and refuted by a witness); the IPv6 duplication is proved and refuted"
  },
  {
   "property": "C47",
   "status": "proved",
   "theorems": [
    "C47_gre",
    "C47_empty",
    "C47_routing_refuted"
   ],
   "note": "length right exactly when routing adds a multiple of 65536; refuted by a witness otherwise; parsing proved, including the reversed option order"
  },
  {
   "property": "C48",
   "status": "proved",
   "theorems": [
    "C48_erspan2",
    "C48_erspan2_length",
    "C48_erspan3",
    "C48_erspan3_length",
    "C48_total_len_refuted",
    "C48_total_len3_refuted",
    "C48_flag_refuted"
   ],
   "note": "length and flag claims refuted with witnesses; what is built is proved for all arguments"
  },
  {
   "property": "C49",
   "status": "proved",
   "theorems": [
    "C49_ip_type",
    "C49_ip_protocol",
    "C49_ether_type",
    "C49_erspan_version"
   ],
   "note": ""
  },
  {
   "property": "C50",
   "status": "proved",
   "theorems": [
    "C50_disjoint_setters",
    "C50_independent_threads",
    "C50_alone"
   ],
   "note": "interleaving model with one lock per bit (Conc.v); schedules arbitrary, memory sequentially consistent; stated for setters and for threads of any calls with disjoint footprints"
  },
  {
   "property": "C51",
   "status": "proved",
   "theorems": [
    "C51_torn_read_shape",
    "C51_torn_read_all",
    "C51_torn_read_refuted",
    "C51_bits",
    "C51_single_value",
    "C51_torn_write_all",
    "C51_torn_write_refuted"
   ],
   "note": "both halves refuted with witnesses; exact set of outcomes proved: a getter sees old high bits and new low bits (every cut happens), two setters can leave every bitwise mix"
  },
  {
   "property": "C52",
   "status": "proved",
   "theorems": [
    "C52_no_deadlock",
    "C52_methods",
    "C52_schedules_finite",
    "C52_all_finish",
    "C52_ordered_replace",
    "C52_self_replace",
    "C52_crossing_replace",
    "C52_mutual_exclusion"
   ],
   "note": "no deadlock without replace for every program; self and crossing replace proved to hang/deadlock; replace in a fixed order proved safe"
  },
  {
   "property": "C53",
   "status": "proved",
   "theorems": [
    "C53_header",
    "C53_full_size",
    "C53_borrowed",
    "C53_owned_borrowed",
    "C53_short",
    "C53_readable",
    "C53_packet",
    "C53_packet_slice",
    "C53_dump_readable",
    "C53_value_refuted"
   ],
   "note": "output modelled as a string; text printed before a panic is C68; the extra bit is part of the specification (groups) and a _refuted witness shows it is not the plain value"
  },
  {
   "property": "C54",
   "status": "proved",
   "theorems": [
    "C54_edit",
    "C54_reparse"
   ],
   "note": "contents after GRE options come back in the other order (C36); types and payload are the same with GRE too"
  },
  {
   "property": "C55",
   "status": "proved",
   "theorems": [
    "C55_reparse",
    "C55_fast",
    "C55_compare"
   ],
   "note": ""
  },
  {
   "property": "C56",
   "status": "proved",
   "theorems": [
    "C56_suffix",
    "C56_decapsulate",
    "C56_encapsulate"
   ],
   "note": ""
  },
  {
   "property": "C57",
   "status": "proved",
   "theorems": [
    "C57_trailing",
    "C57_trailing_fast",
    "C57_fields",
    "C57_lengths_ignored",
    "C57_ihl_refuted",
    "C57_data_offset_refuted",
    "C57_total_len_refuted",
    "C57_fragment_refuted"
   ],
   "note": "four refutations with witnesses: IHL, TCP data offset, total length, fragment offset"
  },
  {
   "property": "C58",
   "status": "proved",
   "theorems": [
    "C58_constants",
    "C58_bytes",
    "C58_set_bytes",
    "C58_aligned",
    "C58_all_bytes"
   ],
   "note": "octet-sized fields; other sizes panic (C07)"
  },
  {
   "property": "C59",
   "status": "proved",
   "theorems": [
    "C59_common",
    "C59_as_slice",
    "C59_as_slice_refuted",
    "C59_owned_only",
    "C59_clone_refuted",
    "C59_downcast",
    "C59_own_copy",
    "C59_packet_slice"
   ],
   "note": ""
  },
  {
   "property": "C60",
   "status": "proved",
   "theorems": [
    "C60_refresh",
    "C60_idempotent",
    "C60_valid_refuted"
   ],
   "note": "validity is an iff; the unconditional claim is refuted with a witness"
  },
  {
   "property": "C61",
   "status": "proved",
   "theorems": [
    "C61_get_header",
    "C61_compare"
   ],
   "note": "the printed line is a string of the model"
  },
  {
   "property": "C62",
   "status": "proved",
   "theorems": [
    "C62_new",
    "C62_complete",
    "C62_stack",
    "C62_checksum_refuted"
   ],
   "note": "the checksum claim is refuted"
  },
  {
   "property": "C63",
   "status": "proved",
   "theorems": [
    "C63_tables",
    "C63_getitem",
    "C63_setitem",
    "C63_self_assignment_refuted"
   ],
   "note": "tables and the functions around them; PyO3 itself is not modelled. Self assignment is refuted for every packet with an Ether"
  },
  {
   "property": "C64",
   "status": "proved",
   "theorems": [
    "C64_header_snapshot",
    "C64_packet_moments",
    "C64_packet_quiet",
    "C64_packet_mixes",
    "C64_packet_atomic_refuted",
    "C64_replace_unseen",
    "C64_alone",
    "C64_methods_alone"
   ],
   "note": "atomicity of the packet copy refuted with a witness; the exact set of results proved"
  },
  {
   "property": "C65",
   "status": "proved",
   "theorems": [
    "C65_ipv6",
    "C65_unique",
    "C65_octets16",
    "C65_to_bytes",
    "C65_unreadable_refuted",
    "C65_full",
    "C65_compressed",
    "C65_roundtrip",
    "C65_mapped",
    "C65_header",
    "C65_args",
    "C65_tcpv6"
   ],
   "note": "that a wrong text can be told from an address is refuted with a witness; relies on the model of std's parser"
  },
  {
   "property": "C66",
   "status": "proved",
   "theorems": [
    "C66_safety",
    "C66_invariant",
    "C66_reachable",
    "C66_history",
    "C66_careful",
    "C66_frame",
    "C66_poison",
    "C66_reads",
    "C66_no_ub_refuted",
    "C66_no_hang_refuted"
   ],
   "note": "that safe code is free of undefined behaviour and that one thread cannot block itself are refuted with reachable witnesses"
  },
  {
   "property": "C67",
   "status": "proved",
   "theorems": [
    "C67_alone",
    "C67_uninterrupted",
    "C67_invariant",
    "C67_safety",
    "C67_frame",
    "C67_private",
    "C67_poison",
    "C67_isolated",
    "C67_fresh",
    "C67_blocked",
    "C67_exclusion",
    "C67_ordered",
    "C67_deadlock",
    "C67_finite",
    "C67_no_deadlock_refuted"
   ],
   "note": "deadlock freedom without an order on replace is refuted with a reachable witness"
  },
  {
   "property": "C68",
   "status": "proved",
   "theorems": [
    "C68_same",
    "C68_silent",
    "C68_program",
    "C68_octet",
    "C68_complaint",
    "C68_mac",
    "C68_ipv4",
    "C68_ipv6",
    "C68_clean",
    "C68_header",
    "C68_packet",
    "C68_text_unique",
    "C68_show",
    "C68_show_short",
    "C68_show_poisoned",
    "C68_show_borrowed",
    "C68_show_packet",
    "C68_show_packet_short",
    "C68_show_packet_slice",
    "C68_compare",
    "C68_compare_packets",
    "C68_getitem",
    "C68_one_line_refuted"
   ],
   "note": "the text is an exact function of call and state; the address specification is relational and proved to determine the text"
  },
  {
   "property": "C69",
   "status": "proved",
   "theorems": [
    "C69_tcp",
    "C69_tcpv6",
    "C69_udp",
    "C69_udpv6",
    "C69_icmp",
    "C69_icmpv6",
    "C69_set",
    "C69_set_fields",
    "C69_ipv4_checksum",
    "C69_tcp_refuted",
    "C69_udpv6_refuted",
    "C69_icmp_refuted",
    "C69_ipv4_checksum_refuted"
   ],
   "note": ""
  },
  {
   "property": "C70",
   "status": "proved",
   "theorems": [
    "C70_panics",
    "C70_one",
    "C70_returns",
    "C70_history",
    "C70_poisons",
    "C70_release",
    "C70_predefined",
    "C70_never_refuted",
    "C70_no_effect_refuted"
   ],
   "note": "for headers shown, the fields of their type must not end before they start (a type with such a field does not compile); the poisoning statement is about buffers that existed before the call"
  },
  {
   "property": "C71",
   "status": "proved",
   "theorems": [
    "C71_alone",
    "C71_erase",
    "C71_complete",
    "C71_safety",
    "C71_blocked",
    "C71_step",
    "C71_by_thread",
    "C71_runs",
    "C71_prefix",
    "C71_isolated",
    "C71_fresh",
    "C71_ended",
    "C71_uninterrupted",
    "C71_lines",
    "C71_whole_lines_refuted",
    "C71_serial_refuted"
   ],
   "note": "that lines and calls are not interleaved is refuted with a reachable witness"
  },
  {
   "property": "C72",
   "status": "proved",
   "theorems": [
    "C72_call",
    "C72_unrelated",
    "C72_independent",
    "C72_program",
    "C72_start",
    "C72_append"
   ],
   "note": ""
  },
  {
   "property": "C73",
   "status": "proved",
   "theorems": [
    "C73_pkt_rs",
    "C73_header",
    "C73_packet",
    "C73_parse",
    "C73_define",
    "C73_push",
    "C73_insert",
    "C73_pop",
    "C73_remove",
    "C73_payload",
    "C73_get",
    "C73_get_mut",
    "C73_new",
    "C73_compare",
    "C73_compare_slice",
    "C73_to_vec",
    "C73_readme_header",
    "C73_readme_packet",
    "C73_readme_never",
    "C73_readme_refuted"
   ],
   "note": ""
  },
  {
   "property": "C74",
   "status": "proved",
   "theorems": [
    "C74_call",
    "C74_text",
    "C74_program",
    "C74_threads",
    "C74_where",
    "C74_same",
    "C74_differ",
    "C74_trap",
    "C74_equal_refuted"
   ],
   "note": ""
  },
  {
   "property": "C75",
   "status": "proved",
   "theorems": [
    "C75_returned",
    "C75_bound",
    "C75_unfinished",
    "C75_parse",
    "C75_lock_free",
    "C75_one_lock_refuted"
   ],
   "note": ""
  },
  {
   "property": "C76",
   "status": "proved",
   "theorems": [
    "C76_shapes",
    "C76_fast",
    "C76_pairs",
    "C76_labels",
    "C76_one_label_refuted",
    "C76_unbounded"
   ],
   "note": ""
  },
  {
   "property": "C77",
   "status": "proved",
   "theorems": [
    "C77_outcome",
    "C77_fresh",
    "C77_longer",
    "C77_leftover",
    "C77_overwrite_refuted",
    "C77_time",
    "C77_time_refuted",
    "C77_snap",
    "C77_snap_refuted",
    "C77_cut_short"
   ],
   "note": ""
  },
  {
   "property": "C78",
   "status": "proved",
   "theorems": [
    "C78_same",
    "C78_sound",
    "C78_no_poison",
    "C78_one",
    "C78_first",
    "C78_origin",
    "C78_unwinding_refuted"
   ],
   "note": ""
  },
  {
   "property": "C79",
   "status": "proved",
   "theorems": [
    "C79_split",
    "C79_payload",
    "C79_payload_fast",
    "C79_cut_payload",
    "C79_cut_headers",
    "C79_cut_fast",
    "C79_lengths",
    "C79_prefix_free"
   ],
   "note": ""
  },
  {
   "property": "C80",
   "status": "proved",
   "theorems": [
    "C80_header",
    "C80_packet",
    "C80_slice",
    "C80_both",
    "C80_parsed",
    "C80_parsed_fast",
    "C80_longer_refuted",
    "C80_border_refuted"
   ],
   "note": ""
  },
  {
   "property": "C81",
   "status": "proved",
   "theorems": [
    "C81_linear",
    "C81_threads",
    "C81_extends",
    "C81_quiet",
    "C81_two_steps_refuted"
   ],
   "note": ""
  },
  {
   "property": "C82",
   "status": "proved",
   "theorems": [
    "C82_erase",
    "C82_complete",
    "C82_fail",
    "C82_safety",
    "C82_blocked",
    "C82_untouched",
    "C82_lost",
    "C82_by_thread",
    "C82_runs",
    "C82_alone",
    "C82_closed",
    "C82_uninterrupted",
    "C82_show_only_refuted"
   ],
   "note": ""
  },
  {
   "property": "C83",
   "status": "proved",
   "theorems": [
    "C83_same",
    "C83_complete",
    "C83_alive",
    "C83_safety",
    "C83_private",
    "C83_blocked",
    "C83_reclaim",
    "C83_empty",
    "C83_new_places_refuted"
   ],
   "note": ""
  },
  {
   "property": "C84",
   "status": "proved",
   "theorems": [
    "C84_no_race",
    "C84_same",
    "C84_complete",
    "C84_safety",
    "C84_relaxed_refuted",
    "C84_unpublished_refuted"
   ],
   "note": ""
  },
  {
   "property": "C85",
   "status": "proved",
   "theorems": [
    "C85_owned",
    "C85_push",
    "C85_lists",
    "C85_to_vec",
    "C85_clone",
    "C85_add",
    "C85_show",
    "C85_compare",
    "C85_assign",
    "C85_first",
    "C85_assign_index",
    "C85_slices",
    "C85_get_header",
    "C85_keeps",
    "C85_safe",
    "C85_reach",
    "C85_clone_refuted",
    "C85_assign_index_refuted",
    "C85_compare_refuted"
   ],
   "note": ""
  },
  {
   "property": "C86",
   "status": "proved",
   "theorems": [
    "C86_determine",
    "C86_diagram",
    "C86_exists",
    "C86_set_all",
    "C86_getters",
    "C86_copy",
    "C86_getters_refuted",
    "C86_copy_refuted",
    "C86_exists_refuted"
   ],
   "note": ""
  },
  {
   "property": "C87",
   "status": "proved",
   "theorems": [
    "C87_burst",
    "C87_bit",
    "C87_word",
    "C87_value",
    "C87_built",
    "C87_burst_refuted",
    "C87_swap_refuted",
    "C87_bits_refuted"
   ],
   "note": ""
  },
  {
   "property": "C88",
   "status": "proved",
   "theorems": [
    "C88_kept",
    "C88_set_bytes",
    "C88_replace",
    "C88_to_vec",
    "C88_exactly",
    "C88_bytes_refuted",
    "C88_replace_refuted"
   ],
   "note": ""
  },
  {
   "property": "C89",
   "status": "proved",
   "theorems": [
    "C89_ipv4",
    "C89_ipv6",
    "C89_tcp",
    "C89_vxlan",
    "C89_gre",
    "C89_erspan2",
    "C89_erspan3",
    "C89_vlan",
    "C89_exactly",
    "C89_lossless",
    "C89_lossless_refuted"
   ],
   "note": ""
  },
  {
   "property": "C90",
   "status": "proved",
   "theorems": [
    "C90_now",
    "C90_readable",
    "C90_reads",
    "C90_gets",
    "C90_bytes",
    "C90_to_vec",
    "C90_any_order",
    "C90_absorb",
    "C90_any_order_refuted",
    "C90_torn_refuted"
   ],
   "note": ""
  },
  {
   "property": "C91",
   "status": "proved",
   "theorems": [
    "C91_packet",
    "C91_wire",
    "C91_returns",
    "C91_looks",
    "C91_len_refuted"
   ],
   "note": ""
  },
  {
   "property": "C92",
   "status": "proved",
   "theorems": [
    "C92_source",
    "C92_unwritten",
    "C92_stood",
    "C92_no_thin_air",
    "C92_values_refuted"
   ],
   "note": ""
  },
  {
   "property": "C93",
   "status": "proved",
   "theorems": [
    "C93_groups",
    "C93_disjoint",
    "C93_untouched",
    "C93_waits",
    "C93_alone",
    "C93_never_waits",
    "C93_own_values_refuted"
   ],
   "note": ""
  },
  {
   "property": "C94",
   "status": "proved",
   "theorems": [
    "C94_calls",
    "C94_slices",
    "C94_checked",
    "C94_unchecked",
    "C94_len",
    "C94_ps_len",
    "C94_compare",
    "C94_sizes",
    "C94_len_returns_refuted",
    "C94_len_payload_refuted",
    "C94_erspan_2",
    "C94_erspan_3"
   ],
   "note": ""
  },
  {
   "property": "C95",
   "status": "proved",
   "theorems": [
    "C95_determined",
    "C95_slow",
    "C95_fast",
    "C95_same",
    "C95_slow_shown",
    "C95_fast_shown",
    "C95_worst",
    "C95_enough",
    "C95_any",
    "C95_constant_refuted"
   ],
   "note": ""
  },
  {
   "property": "C96",
   "status": "proved",
   "theorems": [
    "C96_fast",
    "C96_slow",
    "C96_either",
    "C96_depth",
    "C96_needed"
   ],
   "note": ""
  },
  {
   "property": "C97",
   "status": "proved",
   "theorems": [
    "C97_lossless",
    "C97_same",
    "C97_layers",
    "C97_refuted"
   ],
   "note": ""
  },
  {
   "property": "C98",
   "status": "proved",
   "theorems": [
    "C98_lossless",
    "C98_apart",
    "C98_erspan3_refuted",
    "C98_values_refuted"
   ],
   "note": ""
  },
  {
   "property": "C99",
   "status": "proved",
   "theorems": [
    "C99_incremental",
    "C99_one_carry",
    "C99_two_carries",
    "C99_setter",
    "C99_ttl",
    "C99_always_refuted"
   ],
   "note": ""
  },
  {
   "property": "C100",
   "status": "proved",
   "theorems": [
    "C100_order",
    "C100_byte_order",
    "C100_receivers",
    "C100_byte_order_refuted",
    "C100_receivers_refuted"
   ],
   "note": ""
  },
  {
   "property": "C101",
   "status": "proved",
   "theorems": [
    "C101_call",
    "C101_program",
    "C101_none",
    "C101_tight",
    "C101_every_refuted",
    "C101_spread_refuted",
    "C101_threads_counted",
    "C101_threads",
    "C101_threads_none",
    "C101_threads_stays",
    "C101_threads_held"
   ],
   "note": ""
  },
  {
   "property": "C102",
   "status": "proved",
   "theorems": [
    "C102_starts",
    "C102_tag",
    "C102_panics",
    "C102_total",
    "C102_dot3",
    "C102_other_tpid",
    "C102_keeps_refuted"
   ],
   "note": ""
  },
  {
   "property": "C103",
   "status": "proved",
   "theorems": [
    "C103_starts",
    "C103_encap",
    "C103_panics",
    "C103_parse",
    "C103_vxlan",
    "C103_label",
    "C103_bottom"
   ],
   "note": ""
  },
  {
   "property": "C104",
   "status": "proved",
   "theorems": [
    "C104_original",
    "C104_slow",
    "C104_fast",
    "C104_injective",
    "C104_same",
    "C104_contents_refuted"
   ],
   "note": ""
  }
 ]
}