# Formal model of openwisp/netjsonconfig in Rocq (Coq 8.16.1)

The model is Coq code over the standard library only, in `rocq/theories` (logical name `Verif`).
`properties.jsonl` lists the properties in English, `MANIFEST.json` maps them to theorems.

## How to read a theorem

Every theorem `Cxx_...` is in a file `Props_*.v`, with explicit quantifiers, followed by `Print Assumptions` and
by an `Example` in which a concrete input meets its hypotheses. Its statement uses

* the model of the API (`render`, `generate`, `parse`, `merge_config`, `validate`, `run` of the program, ...);
* a small specification file `Spec*.v`, which does not depend on the helpers of the code.

Proof files (`*Lemmas.v`, `*Proofs.v`, `Rt*.v`, `*Api.v`, `*Archive.v`, ...) need not be read.

## Model files (no proofs); each definition cites file and lines of /repo

| file | code modelled |
|---|---|
| `PyBase.v` | Python runtime fragment: strings (code points < 256), values, ordered dicts, `==`, truth, `str()`, `repr()`, `int()`, exceptions as values |
| `Merge.v` | `utils.merge_config`, `merge_list`, `_load`, `_merge_config` |
| `Vars.v` | `utils.evaluate_vars`, its regular expression, the replacement escapes of `re.sub` |
| `Heap.v` | the same constructor on a heap of shared objects: `deepcopy`, item assignment, merge, evaluation |
| `Files.v` | file path and host name checks, deduplication, `_add_file`, `_process_files`, UTF-8 |
| `Uci.v` | OpenWrt renderer (jinja template as a function, `cleanup`), parser, `parse_tar`, `_generate_contents` |
| `Backend.v` | backend object as a state machine: `validate`, `to_intermediate`, `render`, `generate`, `json`, `to_netjson`, `parse` |
| `Conv.v`, `TypeCast.v` | `BaseConverter`, `OpenWrtConverter`, `type_cast` |
| `Ip.v` | `ipaddress.ip_interface`, `ip_network`, `ip_address`, membership, printing (IPv4 and IPv6) |
| `Timezones.v` | the tables of `openwrt/timezones.py` |
| `OwrtConv.v` | converters general, ntp, led, routes, rules, switch, wireguard_peers, default |
| `OwrtInterfaces.v` | converter interfaces, both directions, DSA and swconfig |
| `OwrtWireless.v` | converters radios and wireless, both directions |
| `OpenVpnConv.v` | converters openvpn (base and OpenWrt) and zerotier |
| `ZtBackend.v` | backends/zerotier: converter, template, parser, archive |
| `Json.v` | Python's json.dumps, json.loads and jinja2's tojson (trusted reading, no code of /repo) |
| `OpenWrt.v` | the OpenWrt backend: converter list, schema keys, `validate` with its VLAN check |
| `VpnText.v` | OpenVPN and WireGuard converters, templates, parser, `BaseVpnBackend` archives |
| `AutoClient.v` | `auto_client` of OpenVPN, WireGuard, VXLAN, ZeroTier and of OpenWrt |
| `OpenWisp.v` | the OpenWISP 1.x backend: template, archive, scripts, `_sanitize_radios` |
| `Cli.v` | `bin/netjsonconfig` |

## Plan per property

| property | modelled | proof |
|---|---|---|
| C01-C08 merge | `Merge.v`; Python's `id()` is an oracle | induction on values; invariants of association lists; refutations by computed witnesses |
| C09-C13 variables | `Vars.v` | induction on strings as segments; exact description of the inserted text |
| C14-C19 files | `Files.v` | scanner equals declarative language; induction on the list of files |
| C20-C25 UCI text | `Uci.v` | induction over packages, sections, options on the text |
| C26-C28, C30, C49 histories | `Backend.v`, with any list of converters; `OpenWrt.v` | relation preserved by every call of a history |
| C29 isolation | `Heap.v` | regions of the heap closed under reachability, kept by every operation |
| C31-C37, C39, C40, C51 devices | all converters | each converter is a stage that appends its sections to a package and finds exactly them on the way back; stages are composed once for all (`RtStage`, `RtTrip`; interfaces in `RtAddress` to `RtIfStage`, those with a protocol of their own (WireGuard, VXLAN, dialup, modem manager) in `RtProto`), then with the text round trip (C20) and the object's methods (`DeviceApi`) |
| C52 OpenVPN instances | `OpenVpnConv.v`; class `SpecTunnel.tunnel_ok` | symbolic run of the section and of its reading (`RtTunnel.v`), then a stage of the device (`RtTunnelStage.v`) |
| C54 DNS lists | `OwrtInterfaces.v` (`dns_option`, `netjson_dns`) | a stage may leave values under further keys (`sg_more`); the loop of the parser collects one copy per interface (`RtIfStage`); kept iff one copy, with a device for which it is refuted |
| C55 ZeroTier of templates | `OpenVpnConv.v` (`zt_*`), the base converter of `Conv.v` | `RtZeroTier.v`: round trip of one VPN section and of one network section, the parser's loop by induction over the VPNs and their networks, then the whole API; the exact result of parsing, and that it is never the given one; `RtZtFiles.v`: the files after rendering, by a loop lemma that follows the file list path by path through the VPNs and the deduplication |
| C53 ZeroTier networks | `Json.v` (json.dumps, tojson, json.loads), `ZtBackend.v`; class `SpecZt.network_ok` | structural induction over JSON documents (`JsonProofs.v`), automaton for comments and lines (`ZtProofs.v`), then the API (`ZtApi.v`) |
| C38 wireless | `OwrtWireless.v`; class `SpecWireless.wifi_ok`, `SpecEncryption.encryption_ok` | case analysis over protocols on symbolic documents (`RtEnc.v`, `RtWifi.v`, `RtWifiBack.v`), composed with the device (`RtIfWifi.v`, `RtBridged.v`, `RtWifiStage.v`); non-interference of the key |
| C41 | `TypeCast.v` | induction on the fields; agreement with the extract used by the converters |
| C42, C45, C46 clients | `AutoClient.v`, `OpenVpnConv.v` | lookup in the resulting documents |
| C43, C44 VPN text | `VpnText.v` | text round trip by induction; an independent reader (`SpecWg.v`) for WireGuard, which has no parser |
| C47 | `OpenWisp.v` | as C20, C25; script set and its stability under repetition |
| C48 | `Cli.v` | case analysis on the program; induction on arguments |
| C50 | `OpenWrt.v` | induction on interfaces, VLANs and ports |

A property that is false of the code is proved in its strongest true form, together with a theorem `..._refuted`
(or another name given in the manifest's note) that exhibits a computed counterexample.

## Trusted base

* Coq 8.16.1's kernel (with its `vm_compute` reduction, used for concrete examples and witnesses).
* `Print Assumptions` of every property theorem says "Closed under the global context": no axiom is used. (The checker
  also lists seven constants `Coq.ssr.ssrunder.Under_rel.*`; these belong to the standard library,
  and no theorem depends on them.)
* The reading of the Python code. It was cross-checked: `crosscheck/` holds scripts that read the inputs and expected
  outputs of /repo's own unit tests as text and compare them with the model evaluated by Coq: 409 checks for OpenWrt and
  57 for OpenVPN, WireGuard and ZeroTier agree (no code of the project is run).

Oracles, which are explicit arguments of the theorems and therefore universally quantified:
`jsonschema` validation against each schema (`schema_ok`), `json.loads` and `json.dumps`, Python's `id()`, the order of
two set literals of `timezones.py` (hash seed; `f1`, `f2`), the texts of the OpenWISP shell script templates, the file
system and the environment of the command line program.

## Not modelled

* tar and gzip byte streams (an archive is a list of members with name, bytes, mode and mtime; owners and the tar format are
  not stated), `write` beyond the file name and contents, disk errors other than "cannot be written";
* jinja2 itself: each template is transcribed as a function of its inputs;
* JSON schemas: only the set of top-level keys, the declared types used by `type_cast`, and what the converters check;
* code points above 255; floats except as texts; IPv6 scope ids (rejected by the model);
* argparse, `--verbose`, `--version`, the error messages;

Simplifications inside a modelled function are stated in the comment of its definition ("Simplification: ...").

## Testing the theorems

`seeded/LOG.jsonl`: each line is one wrong program (an edit of a model definition in a scratch copy), the claim it
breaks, the theorems that fail, and what was tightened.
