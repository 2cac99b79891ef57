(** * SpecEncryption: the encryption of wireless interfaces, in NetJSON and in UCI. *)
From Verif Require Import PyBase Conv SpecUci SpecConv SpecDevice SpecShapes.

(** The protocols and the names that OpenWrt gives them; wps is a variant of
    WPA personal with further options. *)
Definition protocols : list (string * string) :=
  [("wep_open", "wep-open"); ("wep_shared", "wep-shared");
   ("wpa_personal", "psk"); ("wpa2_personal", "psk2"); ("wpa3_personal", "sae");
   ("wpa_personal_mixed", "psk-mixed"); ("wpa2_personal_mixed", "sae-mixed");
   ("wpa_enterprise", "wpa"); ("wpa2_enterprise", "wpa2"); ("wpa3_enterprise", "wpa3");
   ("wpa_enterprise_mixed", "wpa-mixed"); ("wpa2_enterprise_mixed", "wpa3-mixed");
   ("owe", "owe"); ("wps", "psk")].
Definition is_wep (p : string) : bool := existsb (String.eqb p) ["wep_open"; "wep_shared"].
Definition is_enterprise (p : string) : bool :=
  existsb (String.eqb p)
    ["wpa_enterprise"; "wpa2_enterprise"; "wpa3_enterprise"; "wpa_enterprise_mixed"; "wpa2_enterprise_mixed"].
(** Protocols with a choice of cipher *)
Definition has_ciphers (p : string) : bool :=
  is_enterprise p ||
  existsb (String.eqb p)
    ["wpa_personal"; "wpa2_personal"; "wpa3_personal"; "wpa_personal_mixed"; "wpa2_personal_mixed"].
Definition is_wps (p : string) : bool := String.eqb p "wps".
(** The options that every protocol may have *)
Definition encryption_options : list string :=
  ["server"; "port"; "wpa_group_rekey"; "auth_cache"; "acct_server"; "acct_secret"; "acct_interval"; "nasid";
   "ownip"; "dae_client"; "dae_port"; "dae_secret"; "dynamic_vlan"; "vlan_naming"; "vlan_tagged_interface";
   "vlan_bridge"; "eap_type"; "auth"; "anonymous_identity"; "identity"; "password"; "ca_cert"; "client_cert";
   "ca_cert_usesystem"; "subject_match"; "altsubject_match"; "domain_match"; "domain_suffix_match"; "priv_key";
   "priv_key_pwd"; "ieee80211w"].
Definition wps_options : list string :=
  ["wps_config"; "wps_device_name"; "wps_device_type"; "wps_label"; "wps_manufacturer"; "wps_pushbutton"; "wps_pin"].
Definition encryption_fields : list (string * jtype) :=
  [("port", JInt); ("dae_port", JInt); ("acct_interval", JInt); ("acct_server_port", JInt);
   ("wps_label", JBool); ("wps_pushbutton", JBool)].
(** The encryption of an interface, which is an access point if [ap]. *)
Definition encryption_ok (ap : bool) (e : dict) : Prop :=
  e = [("protocol", VStr "none")] \/
  NoDup (dkeys e) /\
  exists p, dget "protocol" e = text p /\ dmem p protocols = true /\
    (forall k, dmem k e = true ->
       In k (["protocol"; "cipher"; "key"] ++ encryption_options ++
             (if is_wps p then wps_options else []) ++
             (if is_enterprise p && ap then ["acct_server_port"] else []))) /\
    fields_survive encryption_fields [] e /\
    (if is_wps p then dget "cipher" e = None /\ exists k, In k wps_options /\ dmem k e = true
     else text_at "cipher" e (fun c => word c /\ (has_ciphers p = false -> c = "auto"))) /\
    (is_wep p = true -> text_at "key" e (fun k => p = "wep_shared" -> startswith "s:" k = false)) /\
    (is_enterprise p = true ->
       (ap = true -> dmem "key" e = true) /\
       (dmem "acct_secret" e = true -> dget "acct_secret" e <> dget "key" e) /\
       (dget "eap_type" e = text "tls" -> dget "auth" e = None)).
(** What the section shows instead of the fields of the encryption *)
Definition encryption_own (ap : bool) (e : dict) : list (string * option val) :=
  match dget "protocol" e with
  | Some (VStr p) =>
      if String.eqb p "none" then [("encryption", text "none"); ("protocol", None)]
      else
        [("encryption", match dget p protocols, dget "cipher" e with
                        | Some u, Some (VStr c) =>
                            text (if has_ciphers p && negb (String.eqb c "auto") then u +++ "+" +++ c else u)
                        | Some u, _ => text u
                        | None, _ => None
                        end);
         ("protocol", None); ("cipher", None)] ++
        (if is_wep p
         then [("key", text "1");
               ("key1", match dget "key" e with
                        | Some (VStr k) => text (if String.eqb p "wep_open" then "s:" +++ k else k)
                        | _ => None
                        end)]
         else if is_enterprise p && ap
         then [("auth_server", dget "server" e); ("auth_port", dget "port" e); ("auth_secret", dget "key" e);
               ("acct_secret", match dget "acct_secret" e with Some v => Some v | None => dget "key" e end);
               ("acct_port", dget "acct_server_port" e); ("acct_server_port", None)]
         else [])
  | _ => []
  end.
