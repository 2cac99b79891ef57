{"id": "C01", "title": "Merging is a per-key law", "statement": "merge_config(template, config) succeeds only with a dict that (1) keeps every template key absent from config with its value, (2) keeps the template's key order followed by the new config keys in config order, (3) for every config key holds the scalar of config, or the recursive merge when both sides are dicts, or the list merge when both are lists.", "quantifier": "every pair of dicts of any size and depth, every list of identifiers", "why_tests_cant": "the law must hold at every key of every nesting depth of arbitrary JSON documents", "anchors": ["netjsonconfig/utils.py:merge_config"]}
{"id": "C02", "title": "Merging has an identity on both sides", "statement": "merge_config({}, c) == c and merge_config(t, {}) == t, with unchanged key order.", "quantifier": "every dict", "why_tests_cant": "arbitrary documents", "anchors": ["netjsonconfig/utils.py:merge_config"]}
{"id": "C03", "title": "Merging a configuration onto itself changes nothing", "statement": "merge_config(c, c) == c whenever no list inside c contains two elements with the same identity (same identifier value, or the same shared object).", "quantifier": "every dict without repeated list identities, every list of identifiers", "why_tests_cant": "all shapes of nested lists and dicts", "anchors": ["netjsonconfig/utils.py:merge_config", "netjsonconfig/utils.py:merge_list"]}
{"id": "C04", "title": "A merge fails exactly on container conflicts", "statement": "merge_config raises ValidationError iff at some path reached through dicts present in both arguments one side holds a dict and the other a list; the only other failure is TypeError, only when a dict list element has an unhashable identifier value. It never raises when no path is shared with containers of different types and identifiers are hashable scalars.", "quantifier": "every pair of dicts, every identifiers list", "why_tests_cant": "absence of an exception for all inputs", "anchors": ["netjsonconfig/utils.py:merge_config", "netjsonconfig/utils.py:merge_list"]}
{"id": "C05", "title": "Template order: the last definer wins", "statement": "With templates t1..tn and config c, a top-level (or nested through dicts) scalar in the final config is the one of the last of t1..tn,c that defines it; a config that defines a scalar is never overridden by a template.", "quantifier": "every list of templates, every config, every path made of dict keys", "why_tests_cant": "any number of templates with any interleaving of definitions", "anchors": ["netjsonconfig/backends/base/backend.py:BaseBackend._merge_config", "netjsonconfig/utils.py:merge_config"]}
{"id": "C06", "title": "List merge is union by identity", "statement": "merge_list(l1, l2, ids) with pairwise distinct identities inside each list returns: every element of l1 in order, the ones whose identifier value also occurs in l2 (as a not-equal element) being merged with it, followed by the remaining elements of l2 in order without those equal to an element of l1; no element of either list is lost.", "quantifier": "every pair of lists, every identifiers list, every choice of object identities", "why_tests_cant": "lists of every length with every pattern of matching identifiers", "anchors": ["netjsonconfig/utils.py:merge_list"]}
{"id": "C07", "title": "A list merge keeps the last element of each identity", "statement": "In merge_list(l1, l2, ids) the last element of each identity in l1, and every element without identifier, is in the result, unchanged or merged with an element of l2 of the same identity; the same holds for the elements of l2 that are not equal to one of l1. Earlier elements of the same list that share an identifier are dropped (a concrete loss is exhibited).", "quantifier": "every pair of lists", "why_tests_cant": "universal claim; the code violates it", "anchors": ["netjsonconfig/utils.py:merge_list"]}
{"id": "C08", "title": "Lists nested inside a merged list element are united without identifiers", "statement": "When two list elements of equal identity are merged, a list they both have under one key becomes the old list followed by the new elements that are not equal to one of it, whatever the identifiers; so nested elements with equal identifiers are not merged (exhibited).", "quantifier": "every pair of lists of dicts containing lists", "why_tests_cant": "universal over nesting", "anchors": ["netjsonconfig/utils.py:merge_list"]}
{"id": "C09", "title": "Variable evaluation preserves structure", "statement": "evaluate_vars keeps dict keys, key order, list lengths, numbers, booleans and null; only string leaves may change, each to a function of that string and the context only.", "quantifier": "every document and context", "why_tests_cant": "all nestings", "anchors": ["netjsonconfig/utils.py:evaluate_vars"]}
{"id": "C10", "title": "Text without variables is untouched", "statement": "A string with no {{ name }} occurrence, or whose variables are all undefined in the context, is returned verbatim; an empty context leaves every document unchanged.", "quantifier": "every string, document and context", "why_tests_cant": "all strings, including those with stray braces and backslashes", "anchors": ["netjsonconfig/utils.py:evaluate_vars", "netjsonconfig/backends/base/backend.py:BaseBackend._evaluate_vars"]}
{"id": "C11", "title": "Variables are substituted, simultaneously and literally", "statement": "For a string made of literal segments and {{ var }} occurrences, the result is the concatenation of the segments with every defined variable replaced by str(context[var]) and every undefined one left verbatim, provided context values contain no backslash and do not themselves create new variable occurrences.", "quantifier": "every decomposition of a string in any number of segments, every context", "why_tests_cant": "number, order and repetition of variables are unbounded", "anchors": ["netjsonconfig/utils.py:evaluate_vars"]}
{"id": "C12", "title": "Context values and backslashes", "statement": "A context value whose backslashes are doubled is inserted literally, for every text and document. Undoubled backslashes are interpreted as regexp replacement escapes: they are rewritten or make the constructor raise re.error (exhibited).", "quantifier": "every context value", "why_tests_cant": "universal claim; violated by values containing a backslash", "anchors": ["netjsonconfig/utils.py:evaluate_vars"]}
{"id": "C13", "title": "References inside substituted values", "statement": "The variables that a text uses are substituted one after the other, in order of occurrence, each in what the text has become; so a reference inside a value is left alone whenever the text itself does not use that variable. Otherwise it may be evaluated again, depending on the order (exhibited).", "quantifier": "every string and context", "why_tests_cant": "universal claim", "anchors": ["netjsonconfig/utils.py:evaluate_vars"]}
{"id": "C14", "title": "Accepted file paths are safe", "statement": "If validate() accepts a configuration then every file path has, after removing one optional leading slash, only non-empty components different from '.' and '..', and only characters in [A-Za-z0-9._/-] outside {{ }} placeholders; hence the archive member name is relative and cannot escape the extraction directory.", "quantifier": "every configuration", "why_tests_cant": "every string may be tried as a path", "anchors": ["netjsonconfig/backends/base/backend.py:BaseBackend._validate_file_paths", "netjsonconfig/backends/base/backend.py:BaseBackend._validate_file_path_chars", "netjsonconfig/backends/base/backend.py:BaseBackend._process_files"]}
{"id": "C15", "title": "Every well-formed path is accepted", "statement": "The path check accepts exactly the strings described by C14 (no spurious rejection).", "quantifier": "every string", "why_tests_cant": "completeness over an infinite language", "anchors": ["netjsonconfig/backends/base/backend.py:BaseBackend._validate_file_path_chars"]}
{"id": "C16", "title": "Host name check", "statement": "_is_hostname accepts exactly strings of 2..256 characters of [A-Za-z0-9.-] beginning with an alphanumeric whose dot-separated labels have at most 63 characters - except that (bug) one trailing newline is also accepted.", "quantifier": "every string", "why_tests_cant": "infinite language", "anchors": ["netjsonconfig/backends/base/backend.py:BaseBackend._is_hostname"]}
{"id": "C17", "title": "Files are deduplicated by path", "statement": "After render(), each path occurs once in the files of the config; it keeps the position of its first occurrence and the contents and mode of its last one; other files are untouched; deduplication is idempotent.", "quantifier": "every list of files", "why_tests_cant": "every multiplicity and order", "anchors": ["netjsonconfig/backends/base/backend.py:BaseBackend._deduplicate_files"]}
{"id": "C18", "title": "Archive members reproduce the files", "statement": "generate() adds, for each file in order, a member with the path without leading slash, the octal mode (default 0644), mtime 0 and the UTF-8 contents.", "quantifier": "every configuration with ASCII file contents", "why_tests_cant": "all contents", "anchors": ["netjsonconfig/backends/base/backend.py:BaseBackend._process_files", "netjsonconfig/backends/base/backend.py:BaseBackend._add_file"]}
{"id": "C19", "title": "How much of a file its archive member holds", "statement": "A member holds the first n bytes of the UTF-8 encoding of the contents, n being the number of characters: exactly the contents for ASCII text, and otherwise the last bytes are lost, one for each non-ASCII character below U+0800 (the claim that members hold the whole file is refuted).", "quantifier": "every file contents", "why_tests_cant": "universal claim over non-ASCII text", "anchors": ["netjsonconfig/backends/base/backend.py:BaseBackend._add_file"]}
{"id": "C20", "title": "UCI text round trip", "statement": "Parsing the UCI text rendered for any intermediate data made of well-formed packages, sections and option values gives back the same packages, sections, types, names, options and lists (sorted by option name).", "quantifier": "every well-formed intermediate structure", "why_tests_cant": "all structures and all option values", "anchors": ["netjsonconfig/backends/openwrt/renderer.py", "netjsonconfig/backends/openwrt/parser.py", "netjsonconfig/backends/openwrt/templates/openwrt.jinja2"]}
{"id": "C21", "title": "UCI rendering and injection", "statement": "Option values without newline, quotes or runs of four spaces (with well-formed names) cannot introduce UCI lines, options or sections: parsing the text gives exactly the sections and options of the data. Other values can: a value with a newline and quotes adds a section (the unrestricted claim is refuted).", "quantifier": "every option value", "why_tests_cant": "universal over attacker-controlled strings", "anchors": ["netjsonconfig/backends/openwrt/templates/openwrt.jinja2"]}
{"id": "C22", "title": "UCI rendering preserves option values", "statement": "Every option value without newline, quotes or runs of four spaces appears verbatim between single quotes on its own line. The unrestricted claim is refuted: runs of four spaces are deleted, and newlines followed by option/list or repeated newlines are rewritten.", "quantifier": "every option value", "why_tests_cant": "universal", "anchors": ["netjsonconfig/backends/openwrt/renderer.py:OpenWrtRenderer.cleanup"]}
{"id": "C23", "title": "Options without a value are not rendered", "statement": "Removing any options that are None, the empty string or an empty list or dict, or whose name starts with '.' (other than type and name), does not change the rendered text, for any data; False, 0 and '0' are rendered.", "quantifier": "every block", "why_tests_cant": "all blocks", "anchors": ["netjsonconfig/backends/openwrt/templates/openwrt.jinja2"]}
{"id": "C24", "title": "UCI parser totality", "statement": "Parsing any UCI text either succeeds or fails with TypeError, exactly when in some section a `list` line names an option that already has a plain value; on success the last package of each name keeps all its sections. Sections of an earlier package with the same name are lost.", "quantifier": "every text", "why_tests_cant": "all strings", "anchors": ["netjsonconfig/backends/openwrt/parser.py"]}
{"id": "C25", "title": "generate() and parse() agree", "statement": "Parsing the archive produced by generate() yields the same intermediate data as parsing the rendered text, for well-formed ASCII data and files outside etc/config; refuted for non-ASCII text, where packages are lost.", "quantifier": "every well-formed intermediate structure", "why_tests_cant": "all structures", "anchors": ["netjsonconfig/backends/openwrt/openwrt.py:OpenWrt._generate_contents", "netjsonconfig/backends/openwrt/parser.py:OpenWrtParser.parse_tar"]}
{"id": "C26", "title": "Rendering twice gives the same text", "statement": "For every backend object and every history of render(), generate() and json() calls without errors, render() returns the same text as the first time.", "quantifier": "every history of calls", "why_tests_cant": "all call sequences", "anchors": ["netjsonconfig/backends/base/backend.py:BaseBackend.render", "netjsonconfig/backends/base/backend.py:BaseBackend.to_intermediate"]}
{"id": "C27", "title": "Which parts of json() depend on history", "statement": "Whatever sequence of render(), generate(), json() and validate() calls is made on an OpenWrt backend, successful or failing, the configuration shown by json() keeps the same value under every key of the schema other than files; without VPNs and custom sections the only possible change is the removal of duplicate files. (The plain claim that json() is the same before and after render() is false: custom packages lose config_name, VPN converters append files.)", "quantifier": "every configuration and every history of calls", "why_tests_cant": "all call sequences, including failing ones", "anchors": ["netjsonconfig/backends/openwrt/converters/default.py", "netjsonconfig/backends/openvpn/converters.py", "netjsonconfig/backends/openwrt/converters/zerotier.py", "netjsonconfig/backends/base/backend.py:BaseBackend.render"]}
{"id": "C28", "title": "Invalid configurations never produce output", "statement": "render(), generate(), validate() and json() raise ValidationError and return nothing when the schema or the file path check rejects the configuration, for any number of calls, and the object is left unchanged; nothing else is rejected. On OpenWrt this holds when every radio has a protocol and a determined band (otherwise a raw jsonschema error or KeyError escapes).", "quantifier": "every configuration, every validator, every history", "why_tests_cant": "all configurations and histories", "anchors": ["netjsonconfig/backends/base/backend.py:BaseBackend.validate", "netjsonconfig/backends/openwrt/openwrt.py:OpenWrt.validate"]}
{"id": "C29", "title": "Constructor isolation", "statement": "Constructing a backend never changes any object of the caller's config, templates or context, and shares no mutable object with them: no later sequence of in-place changes made through the backend's config can be seen in the caller's objects, nor the other way round.", "quantifier": "every object graph (with sharing) of config, templates and context, every sequence of mutations", "why_tests_cant": "aliasing must be excluded for every object graph", "anchors": ["netjsonconfig/backends/base/backend.py:BaseBackend.__init__", "netjsonconfig/utils.py:merge_config", "netjsonconfig/utils.py:evaluate_vars"]}
{"id": "C30", "title": "Parsing keeps the intermediate data", "statement": "After parse(), backend.intermediate_data equals the data produced by the parser (conversion works on a copy) so render() after parse() shows every parsed section.", "quantifier": "every parsed data and converters", "why_tests_cant": "all data", "anchors": ["netjsonconfig/backends/base/backend.py:BaseBackend.to_netjson"]}
{"id": "C31", "title": "Custom packages round trip", "statement": "Sections of packages unknown to the library (config_name a type other than device and bridge-vlan, text options) are rendered one by one, in order, with config_name as type and config_value, or the automatic name, as name and every other option unchanged; parsing the text gives back the same NetJSON.", "quantifier": "every device configuration of the documented class, with any number of packages, sections and options", "why_tests_cant": "all custom packages", "anchors": ["netjsonconfig/backends/openwrt/converters/default.py"]}
{"id": "C32", "title": "Timezone and hostname conversion", "statement": "The general block is rendered to one system section showing the time zone by name and by the TZ text of the table, and parsing gives it back; a section with only a TZ text of the table gets a zone with that text; the host name defaults to OpenWRT. (Deviation: two zones written as sets in the source are missing from the table in some processes, and rendering them raises KeyError.)", "quantifier": "every general block of the class, every zone of the table, both set iteration orders", "why_tests_cant": "completeness over the table and arbitrary extra keys", "anchors": ["netjsonconfig/backends/openwrt/converters/general.py", "netjsonconfig/backends/openwrt/timezones.py"]}
{"id": "C33", "title": "Routes round trip", "statement": "Each route is rendered to its own section: route6 for an IPv6 destination with the destination as target, else route with the address as target and the netmask of the prefix length; device, next and cost become interface, gateway and metric; everything else unchanged. Parsing gives back the same routes.", "quantifier": "every list of IPv4 and IPv6 routes of the class, any destination and prefix length", "why_tests_cant": "all addresses and prefix lengths", "anchors": ["netjsonconfig/backends/openwrt/converters/routes.py"]}
{"id": "C34", "title": "Policy rules round trip", "statement": "Each rule is rendered to its own section, of type rule6 iff its destination, or without one its source, is an IPv6 network, with every option unchanged; parsing gives back the same rules.", "quantifier": "every list of rules of the class", "why_tests_cant": "all rules", "anchors": ["netjsonconfig/backends/openwrt/converters/rules.py"]}
{"id": "C35", "title": "Switch VLANs stay attached", "statement": "Each switch is rendered to one switch section followed by one switch_vlan section for each of its VLANs, in order, naming the switch, with the VLAN number as default VLAN id; parsing gives every switch back with exactly its own VLANs.", "quantifier": "every list of switches with distinct names and any number of VLANs", "why_tests_cant": "any number of switches and VLANs", "anchors": ["netjsonconfig/backends/openwrt/converters/switch.py"]}
{"id": "C36", "title": "NTP and LED settings round trip", "statement": "NTP and LED settings are rendered to one section each with every option unchanged, and parsing gives them back.", "quantifier": "every NTP block, every list of LEDs of the class", "why_tests_cant": "all blocks", "anchors": ["netjsonconfig/backends/openwrt/converters/ntp.py", "netjsonconfig/backends/openwrt/converters/led.py"]}
{"id": "C37", "title": "Radio round trip", "statement": "Each mac80211 radio is rendered to a wifi-device with channel auto for 0, its band (DSA) or the hardware mode implied by protocol and channel, the htmode of protocol and width, and every other option unchanged; parsing gives back the same radio, with the same protocol, channel and width.", "quantifier": "every protocol, width, channel combination of the class, with and without DSA, plus arbitrary text options", "why_tests_cant": "the combination space plus arbitrary options", "anchors": ["netjsonconfig/backends/openwrt/converters/radios.py"]}
{"id": "C38", "title": "Wireless encryption round trip", "statement": "Every supported wireless encryption setting is translated to UCI and back without changing protocol, cipher or key; psk keys never appear in an option other than key.", "quantifier": "every encryption block", "why_tests_cant": "all keys and option combinations", "anchors": ["netjsonconfig/backends/openwrt/converters/wireless.py"]}
{"id": "C39", "title": "Interface round trip", "statement": "Every Ethernet, loopback, bridge, WireGuard, VXLAN, dialup or modem-manager interface is rendered to one interface section, preceded with DSA by a section of its network device when it has one: the addresses appear once each, as an option when alone in their family and as a list otherwise, IPv4 and IPv6 are not confused, the gateway, MAC address, MTU, bridge members and bridge options are in the section where OpenWrt looks for them, the options of WireGuard, VXLAN, dialup and modem-manager interfaces (port, addresses, VTEP, VNI, protocol, PIN) are under the names OpenWrt knows, other options are unchanged; parsing gives back the same interface, of the same type, with each gateway on the address it was given with.", "quantifier": "every list of interfaces of the class: no address, DHCP, or any number of static addresses of both families, WireGuard, VXLAN, dialup and modem-manager interfaces among the others; with and without DSA; arbitrary text options", "why_tests_cant": "all address lists, names, bridges and options, which share a package with routes, rules, switches and peers", "anchors": ["netjsonconfig/backends/openwrt/converters/interfaces.py:Interfaces"]}
{"id": "C40", "title": "Distinct NetJSON objects stay distinct UCI sections", "statement": "When the names of the sections are distinct, the packages system, network and wireless hold exactly one section for each object, in converter order. (The unrestricted claim is false: sections are merged by name, so a route named rule1 and the first rule become one section.)", "quantifier": "every device configuration of the class", "why_tests_cant": "universal", "anchors": ["netjsonconfig/backends/base/backend.py:BaseBackend.to_intermediate"]}
{"id": "C41", "title": "type_cast", "statement": "Casting a parsed block turns exactly the integer and boolean fields of the schema into int and bool ('1', true and 1 become true, anything else false), leaves others untouched, fails only when an integer field does not read as a number, and is idempotent; the converters' own field lists cast as the schema does.", "quantifier": "every block and schema", "why_tests_cant": "all blocks", "anchors": ["netjsonconfig/backends/base/converter.py:BaseConverter.type_cast"]}
{"id": "C42", "title": "OpenVPN client derivation", "statement": "auto_client of any server configuration gives one client that takes over the shared settings (cipher, compression, device, ...), with mode p2p, nobind, the server's host and port as its only remote, the client counterpart of the protocol, pull iff the server pushes, TLS iff the server uses it, the credential files given by the caller, and nothing else; it fails exactly for certificate purposes other than client and non-text key or log; an inline key reaches both ends with complementary directions.", "quantifier": "every server configuration and credentials", "why_tests_cant": "all servers", "anchors": ["netjsonconfig/backends/openvpn/openvpn.py:OpenVpn.auto_client", "netjsonconfig/backends/openvpn/converters.py"]}
{"id": "C43", "title": "OpenVPN text round trip", "statement": "Parsing the text rendered for any set of OpenVPN servers gives back the same servers in the same order, every setting with its type, except the settings that have no effect (false flags, zeros, empty values), and nothing else; the generated archive is read like the text as long as no user file ends in .conf. (Deviation) The text of a client, which has a remote, can never be parsed.", "quantifier": "every list of servers whose texts are single lines, every option name and value", "why_tests_cant": "all values and all lists", "anchors": ["netjsonconfig/backends/openvpn/parser.py", "netjsonconfig/backends/openvpn/templates/openvpn.jinja2", "netjsonconfig/backends/openvpn/converters.py"]}
{"id": "C44", "title": "WireGuard rendering keeps every peer", "statement": "The text rendered for any WireGuard configuration reads, in wg-quick syntax, as one Interface section per interface with exactly its settings, followed by one Peer section per peer with exactly its settings (endpoint as host:port only when both are given); generate() stores each interface in its own NAME.conf. (Deviation) The address is required although the schema does not say so; the backend cannot parse.", "quantifier": "every WireGuard configuration with one-line texts", "why_tests_cant": "all lists of interfaces and peers", "anchors": ["netjsonconfig/backends/wireguard/converters.py", "netjsonconfig/backends/wireguard/templates/wireguard.jinja2", "netjsonconfig/backends/base/backend.py:BaseVpnBackend"]}
{"id": "C45", "title": "WireGuard and VXLAN auto client", "statement": "The OpenWrt WireGuard client derived from any arguments is exactly one interface and one peer bound to it, the peer having the server's host, port, public key and network; the VXLAN variant adds one VXLAN interface whose tunnel link is that interface.", "quantifier": "every argument combination", "why_tests_cant": "all arguments", "anchors": ["netjsonconfig/backends/wireguard/wireguard.py:Wireguard.auto_client", "netjsonconfig/backends/openwrt/openwrt.py:OpenWrt.wireguard_auto_client"]}
{"id": "C46", "title": "ZeroTier client and device map", "statement": "The ZeroTier client derived from any arguments has every network of the server in order with the client options taking precedence (and the caller's networks are changed likewise); on OpenWrt each ZeroTier VPN produces one device map file, the only one of its path, with one line for each network and the user's own lines, all other files being kept.", "quantifier": "every configuration", "why_tests_cant": "all networks and files lists", "anchors": ["netjsonconfig/backends/openwrt/converters/zerotier.py", "netjsonconfig/backends/zerotier/zerotier.py:ZeroTier.auto_client"]}
{"id": "C47", "title": "OpenWisp archive", "statement": "The OpenWisp backend completes every radio without a disabled setting with false and leaves the others alone; its text, in which types, names and options are all quoted, is read by the parser exactly like OpenWrt text; generate() writes uci/PACKAGE.conf with exactly the sections of each package, then the files, and adds install.sh, uninstall.sh, one script per up/down command of each tap VPN and tc_script.sh with mode 755, each once, changing nothing else in the configuration; generating again gives the same archive when the paths are distinct. (Deviations: a user file with the path of a script is shadowed by the script; the archive is read as an empty configuration by the parser.)", "quantifier": "every configuration, any number of packages, VPNs, interfaces and files, any two consecutive calls", "why_tests_cant": "all configurations and all repetitions", "anchors": ["netjsonconfig/backends/openwisp/openwisp.py:OpenWisp", "netjsonconfig/backends/openwisp/templates/openwrt.jinja2"]}
{"id": "C48", "title": "Command line program", "statement": "The program accepts method arguments exactly when each has one equals sign, gives each name the last value given (True, 1, False and 0 as booleans), ends with status 1, 2, 3, 4 or 5 exactly in the documented cases, and otherwise prints, returns or writes exactly what render(), generate() or write() give for the configuration merged with the templates and the environment; nothing is output for a configuration that does not validate. (Deviations: name=1 writes True.tar.gz; a native text file is never accepted; an invalid native configuration is an uncaught exception instead of status 4.)", "quantifier": "every command line, environment, file system and backend class", "why_tests_cant": "all strings, all combinations of missing or malformed inputs and their precedence", "anchors": ["bin/netjsonconfig"]}
{"id": "C49", "title": "Errors are not remembered", "statement": "(Deviation) A render() that fails during conversion leaves the sections converted so far, so the next render() of the same object succeeds and silently omits the rest.", "quantifier": "every history of calls", "why_tests_cant": "needs a failing call followed by another", "anchors": ["netjsonconfig/backends/base/backend.py:BaseBackend.to_intermediate", "netjsonconfig/backends/base/backend.py:BaseBackend.render"]}
{"id": "C50", "title": "One primary VLAN per bridge port", "statement": "An OpenWrt configuration is accepted only if, within each bridge, every port is the primary port of at most one VLAN; a repetition raises ValidationError and a bridge without repetition is not rejected.", "quantifier": "every configuration", "why_tests_cant": "all lists of VLANs and ports", "anchors": ["netjsonconfig/backends/openwrt/openwrt.py:OpenWrt.validate"]}
{"id": "C51", "title": "Device round trip", "statement": "Rendering a valid device and parsing the text, on any OpenWrt object, gives back every setting except files and type, which UCI text does not hold, and dns_servers and dns_search, which come back once for each interface that shows them; the parsed configuration passes validate() whenever the schema accepts it.", "quantifier": "every device configuration of the documented class, any number of objects of every kind at once", "why_tests_cant": "all combinations of settings, whose sections share packages and are told apart by type only", "anchors": ["netjsonconfig/backends/openwrt/openwrt.py:OpenWrt", "netjsonconfig/backends/base/backend.py:BaseBackend.render", "netjsonconfig/backends/base/backend.py:BaseBackend.parse"]}
{"id": "C52", "title": "OpenVPN instances of a device", "statement": "On a valid OpenWrt device every OpenVPN instance has one section, in order, named after it, with its settings, enabled as the opposite of disabled, TLS ciphers as a list, each server address as host, port and protocol, and data ciphers as one text; parsing the text gives back the same instances, and no file or other setting changes.", "quantifier": "every device of the documented class, any number of instances with any settings", "why_tests_cant": "combinations of settings with special forms, any number of addresses and ciphers", "anchors": ["netjsonconfig/backends/openwrt/converters/openvpn.py:OpenVpn", "netjsonconfig/backends/openvpn/converters.py:OpenVpn"]}
{"id": "C53", "title": "ZeroTier networks as JSON", "statement": "Rendering with the ZeroTier backend writes every network as JSON, in order, without the options of its clients; reading that JSON gives the same settings whatever texts, numbers and nesting it holds; parsing the text, or the archive of files named after the network ids, gives back the same networks in order, provided that no text contains the start of a comment.", "quantifier": "every list of networks, every JSON document as settings, every text (quotes, newlines, HTML characters), any nesting", "why_tests_cant": "escaping, indentation, comment removal and splitting interact on arbitrary texts and nesting", "anchors": ["netjsonconfig/backends/zerotier/converters.py:ZeroTier", "netjsonconfig/backends/zerotier/parser.py:ZeroTierParser", "netjsonconfig/backends/zerotier/renderer.py:ZeroTierRenderer", "netjsonconfig/backends/zerotier/templates/zerotier.jinja2", "netjsonconfig/backends/base/backend.py:BaseVpnBackend._generate_contents"]}
{"id": "C54", "title": "DNS servers and search domains of a device", "statement": "On a valid OpenWrt device the section of every interface with static addresses shows the configured DNS servers on one line and those of other interfaces show none; every interface with addresses shows the search domains. Parsing the text lists each of them once per interface that shows it: a list is kept if and only if exactly one interface shows it, absent if none does, repeated otherwise.", "quantifier": "every device of the documented class: any lists of servers and domains, any number of interfaces of every kind", "why_tests_cant": "the number of copies depends on all the interfaces of the device", "anchors": ["netjsonconfig/backends/openwrt/converters/interfaces.py:Interfaces.__intermediate_dns_servers", "netjsonconfig/backends/openwrt/converters/interfaces.py:Interfaces.__netjson_dns"]}
{"id": "C55", "title": "ZeroTier VPNs of an OpenWrt template", "statement": "For a valid OpenWrt template with ZeroTier VPNs whose names are section names and whose texts UCI can carry, render writes for each VPN one zerotier section (enabled is the negation of disabled, the ids of its networks as the join list, the default configuration path written out) followed by one network section per network named after its interface. Parsing the text gives each VPN back with its settings and its networks known only by their ids, with interface names made from the last six characters of the ids; all networks with their options are added to the first VPN, so the VPNs never come back as they were. After rendering the configuration has one file at each path, and the file at the path of a device map lists, for every VPN with that path, the id and interface of each of its networks, followed by what the user gave for that path. The archive of generate has each of these maps with mode 644.", "quantifier": "all OpenWrt templates with any number of ZeroTier VPNs and networks, any flags, further text settings and files", "why_tests_cant": "tests render and parse one or two fixed VPNs; the claim is about any number of VPNs and networks and shows that none of them is restored unchanged", "anchors": ["netjsonconfig/backends/openwrt/converters/zerotier.py:ZeroTier", "netjsonconfig/backends/zerotier/converters.py:ZeroTier"]}
