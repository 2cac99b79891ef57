{
 "claims": [
  {
   "property": "C01",
   "status": "proved",
   "theorems": [
    "C01_merge_per_key"
   ],
   "note": ""
  },
  {
   "property": "C02",
   "status": "proved",
   "theorems": [
    "C02_merge_empty_config",
    "C02_merge_empty_template"
   ],
   "note": ""
  },
  {
   "property": "C03",
   "status": "proved",
   "theorems": [
    "C03_self_merge"
   ],
   "note": ""
  },
  {
   "property": "C04",
   "status": "proved",
   "theorems": [
    "C04_failure_causes",
    "C04_conflicts_fail"
   ],
   "note": ""
  },
  {
   "property": "C05",
   "status": "proved",
   "theorems": [
    "C05_last_definer_wins",
    "C05_config_wins"
   ],
   "note": ""
  },
  {
   "property": "C06",
   "status": "proved",
   "theorems": [
    "C06_list_union"
   ],
   "note": ""
  },
  {
   "property": "C07",
   "status": "proved",
   "theorems": [
    "C07_last_kept",
    "C07_no_element_lost_refuted"
   ],
   "note": "C07_last_kept for every merge; the loss of earlier duplicates is C07_no_element_lost_refuted."
  },
  {
   "property": "C08",
   "status": "proved",
   "theorems": [
    "C08_nested_union",
    "C08_nested_lists_refuted"
   ],
   "note": "C08_nested_union; merging nested lists by identifier is refuted."
  },
  {
   "property": "C09",
   "status": "proved",
   "theorems": [
    "C09_structure",
    "C09_only_re_error"
   ],
   "note": ""
  },
  {
   "property": "C10",
   "status": "proved",
   "theorems": [
    "C10_untouched",
    "C10_empty_context"
   ],
   "note": ""
  },
  {
   "property": "C11",
   "status": "proved",
   "theorems": [
    "C11_substitution"
   ],
   "note": ""
  },
  {
   "property": "C12",
   "status": "proved",
   "theorems": [
    "C12_escaped_values",
    "C12_literal_values_refuted"
   ],
   "note": "C12_escaped_values; literal insertion without escaping is refuted."
  },
  {
   "property": "C13",
   "status": "proved",
   "theorems": [
    "C13_in_turn",
    "C13_not_evaluated_again",
    "C13_no_reevaluation_refuted"
   ],
   "note": "C13_in_turn is the exact rule (numeric escapes and group references in values excluded), C13_not_evaluated_again its consequence; the unrestricted claim is refuted."
  },
  {
   "property": "C14",
   "status": "proved",
   "theorems": [
    "C14_accepted_paths",
    "C14_archive_members"
   ],
   "note": ""
  },
  {
   "property": "C15",
   "status": "proved",
   "theorems": [
    "C15_no_spurious_rejection"
   ],
   "note": ""
  },
  {
   "property": "C16",
   "status": "proved",
   "theorems": [
    "C16_hostname",
    "C16_no_newline_refuted"
   ],
   "note": "Exact characterisation; the intended no-newline claim is refuted."
  },
  {
   "property": "C17",
   "status": "proved",
   "theorems": [
    "C17_deduplicate",
    "C17_idempotent"
   ],
   "note": ""
  },
  {
   "property": "C18",
   "status": "proved",
   "theorems": [
    "C18_members"
   ],
   "note": ""
  },
  {
   "property": "C19",
   "status": "proved",
   "theorems": [
    "C19_whole_contents_refuted",
    "C19_bytes_lost"
   ],
   "note": "Exact loss (C19_bytes_lost); the claim of whole contents is refuted."
  },
  {
   "property": "C20",
   "status": "proved",
   "theorems": [
    "C20_uci_round_trip"
   ],
   "note": ""
  },
  {
   "property": "C21",
   "status": "proved",
   "theorems": [
    "C21_injection",
    "C21_writable_values_do_not_inject"
   ],
   "note": "Proved for writable values; the unrestricted claim is refuted by C21_injection."
  },
  {
   "property": "C22",
   "status": "proved",
   "theorems": [
    "C22_values_changed",
    "C22_values_verbatim"
   ],
   "note": "Proved for writable values; the unrestricted claim is refuted by C22_values_changed."
  },
  {
   "property": "C23",
   "status": "proved",
   "theorems": [
    "C23_unwritten_options",
    "C23_false_and_zero_written"
   ],
   "note": ""
  },
  {
   "property": "C24",
   "status": "proved",
   "theorems": [
    "C24_total",
    "C24_fails_iff_clash",
    "C24_sections_kept",
    "C24_repeated_package_lost"
   ],
   "note": "Total characterisation; C24_repeated_package_lost documents the loss for repeated package names."
  },
  {
   "property": "C25",
   "status": "proved",
   "theorems": [
    "C25_archive",
    "C25_non_ascii_refuted"
   ],
   "note": "ASCII text; refuted beyond it."
  },
  {
   "property": "C26",
   "status": "proved",
   "theorems": [
    "C26_render_same_text",
    "C26_generate_same_archive",
    "C26_later_renders",
    "C26_files_appended"
   ],
   "note": "Any backend, any history; also render(files) vs render() and the possible outcomes of later calls."
  },
  {
   "property": "C27",
   "status": "proved",
   "theorems": [
    "C27_json_stable_refuted",
    "C27_settings_never_change",
    "C27_only_deduplication"
   ],
   "note": "The plain claim is refuted; the true variants are proved for every history."
  },
  {
   "property": "C28",
   "status": "proved",
   "theorems": [
    "C28_rejected",
    "C28_accepted",
    "C28_openwrt_refuted",
    "C28_openwrt_missing_protocol",
    "C28_openwrt_rejected"
   ],
   "note": "Schema validation is an oracle; refutations for the OpenWrt radio check."
  },
  {
   "property": "C29",
   "status": "proved",
   "theorems": [
    "C29_caller_unchanged",
    "C29_nothing_shared",
    "C29_backend_cannot_reach_caller",
    "C29_caller_cannot_reach_backend"
   ],
   "note": "Heap model with sharing; the single-merge aliasing (one_merge_shares) is why the constructor needs its copy."
  },
  {
   "property": "C30",
   "status": "proved",
   "theorems": [
    "C30_parse_keeps_data"
   ],
   "note": ""
  },
  {
   "property": "C31",
   "status": "proved",
   "theorems": [
    "C31_custom_packages"
   ],
   "note": "Class of devices: SpecDevice.device."
  },
  {
   "property": "C32",
   "status": "proved",
   "theorems": [
    "C32_general",
    "C32_hostname_default",
    "C32_zone_of_text",
    "C32_parse_text",
    "C32_set_zones"
   ],
   "note": "Round trip for the class SpecDevice.device; defaults and TZ lookup for every block; the set-literal deviation is C32_set_zones."
  },
  {
   "property": "C33",
   "status": "proved",
   "theorems": [
    "C33_routes"
   ],
   "note": "Class SpecDevice.route_ok."
  },
  {
   "property": "C34",
   "status": "proved",
   "theorems": [
    "C34_rules"
   ],
   "note": "Class SpecDevice.rule_ok."
  },
  {
   "property": "C35",
   "status": "proved",
   "theorems": [
    "C35_switch"
   ],
   "note": "Class SpecDevice.switches_at."
  },
  {
   "property": "C36",
   "status": "proved",
   "theorems": [
    "C36_ntp_led"
   ],
   "note": "Classes ntp_ok, led_ok."
  },
  {
   "property": "C37",
   "status": "proved",
   "theorems": [
    "C37_radios"
   ],
   "note": "Class radio_ok (mac80211)."
  },
  {
   "property": "C38",
   "status": "proved",
   "theorems": [
    "C38_wireless",
    "C38_wireless_interface",
    "C38_key_elsewhere"
   ],
   "note": "Classes SpecWireless.wifi_ok, SpecEncryption.encryption_ok: per interface (C38_wireless_interface) and on whole devices (C38_wireless), wireless interfaces without addresses last."
  },
  {
   "property": "C39",
   "status": "proved",
   "theorems": [
    "C39_interfaces"
   ],
   "note": "Class SpecWhole.interfaces_at: Ethernet, loopback, bridges (no VLAN filtering), wireless, WireGuard, VXLAN, dialup, modem-manager with a PIN; not 802.1q VLANs. One protocol per interface."
  },
  {
   "property": "C40",
   "status": "proved",
   "theorems": [
    "C40_distinct_sections",
    "C40_refuted"
   ],
   "note": "True with distinct names; refuted without."
  },
  {
   "property": "C41",
   "status": "proved",
   "theorems": [
    "C41_cast",
    "C41_failure",
    "C41_idempotent",
    "C41_numbers",
    "C41_converters"
   ],
   "note": "For every schema and block."
  },
  {
   "property": "C42",
   "status": "proved",
   "theorems": [
    "C42_openvpn_client",
    "C42_openvpn_client_failure",
    "C42_shared_key"
   ],
   "note": "Every server; C42_shared_key composes it with the converter."
  },
  {
   "property": "C43",
   "status": "proved",
   "theorems": [
    "C43_text_round_trip",
    "C43_renders",
    "C43_server_round_trip",
    "C43_archive",
    "C43_remote_unreadable"
   ],
   "note": "Class server_ok; unparsable remotes are C43_remote_unreadable; archive for ASCII text."
  },
  {
   "property": "C44",
   "status": "proved",
   "theorems": [
    "C44_text_read",
    "C44_renders",
    "C44_archive",
    "C44_required",
    "C44_no_parser"
   ],
   "note": "Class wg_ok (texts of one line; refuted without: wg_injection); archive for ASCII text."
  },
  {
   "property": "C45",
   "status": "proved",
   "theorems": [
    "C45_wireguard_client",
    "C45_vxlan_client"
   ],
   "note": "Whether the result validates depends on the schema oracle and is not stated."
  },
  {
   "property": "C46",
   "status": "proved",
   "theorems": [
    "C46_zerotier_client",
    "C46_device_map"
   ],
   "note": "Client derivation and the device map."
  },
  {
   "property": "C47",
   "status": "proved",
   "theorems": [
    "C47_validate",
    "C47_radios",
    "C47_text_round_trip",
    "C47_members",
    "C47_scripts",
    "C47_script_once",
    "C47_user_script_shadowed",
    "C47_repeat",
    "C47_archive_not_parsed"
   ],
   "note": "UCI members for sections whose text does not contain \"package \" and is ASCII; script template texts are an oracle."
  },
  {
   "property": "C48",
   "status": "proved",
   "theorems": [
    "C48_arguments",
    "C48_values",
    "C48_exit_status",
    "C48_done",
    "C48_render",
    "C48_generate",
    "C48_write",
    "C48_output_valid",
    "C48_write_name",
    "C48_native_text_file",
    "C48_native_invalid"
   ],
   "note": "argparse itself, --verbose and --version are not modelled; json.loads/dumps and the file system are parameters."
  },
  {
   "property": "C49",
   "status": "proved",
   "theorems": [
    "C49_error_forgotten"
   ],
   "note": "Deviation shown by a concrete history."
  },
  {
   "property": "C50",
   "status": "proved",
   "theorems": [
    "C50_one_primary_vlan",
    "C50_decides"
   ],
   "note": ""
  },
  {
   "property": "C51",
   "status": "proved",
   "theorems": [
    "C51_device"
   ],
   "note": "Class SpecWhole.device: without ZeroTier networks."
  },
  {
   "property": "C52",
   "status": "proved",
   "theorems": [
    "C52_openvpn"
   ],
   "note": "Class SpecTunnel.tunnel_ok: disabled is given, the TLS key is a path and direction, the name is a section name."
  },
  {
   "property": "C53",
   "status": "proved",
   "theorems": [
    "C53_json",
    "C53_renders",
    "C53_round_trip",
    "C53_archive",
    "C53_archive_parse",
    "C53_slashes_refuted"
   ],
   "note": "Class SpecZt.network_ok: a JSON document with distinct keys, typed integer and boolean settings, a name, a one-line network id; round trip and archive parsing need texts without // and /* (C53_slashes_refuted shows what happens otherwise). Floats are their repr text; code points up to 255."
  },
  {
   "property": "C54",
   "status": "proved",
   "theorems": [
    "C54_dns",
    "C54_kept",
    "C54_refuted"
   ],
   "note": "Class SpecWhole.device; the parsed lists are exact. Refuted as a round trip when several interfaces show a list."
  },
  {
   "property": "C55",
   "status": "proved",
   "theorems": [
    "C55_zerotier_template",
    "C55_never_kept",
    "C55_device_map",
    "C55_archive"
   ],
   "note": "Class SpecZeroTier.zt_template: only zerotier, files and type keys; names that are section names, at least one network per VPN. C55_never_kept: the networks are always duplicated by parsing."
  }
 ]
}