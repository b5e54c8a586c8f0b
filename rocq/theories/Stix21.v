(** Specification only (models no code): the property tables of the STIX 2.1
    standard for the object types the library has, written down from the
    standard and not from /repo. *)
From Verif Require Import GoStr Json Time Base64.

(** What kind of JSON value a property has. *)
Inductive shape := Str | Time | Bin | Int | Num | Bool | Any | ListOf (s : shape) | MapOf (s : shape) | Rec (name : string).

(** A property: name, kind of value, whether it is written for every object:
    the required properties, and the booleans, which are written even when
    false.  (identity_class is optional in the standard; the library wants it.) *)
Definition row : Type := (string * shape * bool)%type.
(** A property written for every object. *)
Definition req (k : string) (s : shape) : row := (k, s, true).
(** An optional property. *)
Definition opt (k : string) (s : shape) : row := (k, s, false).

(** Common properties of domain and relationship objects. *)
Definition common : list row :=
  [req "type" Str; req "id" Str; req "spec_version" Str; opt "created_by_ref" Str; req "created" Time; req "modified" Time;
   req "revoked" Bool; opt "labels" (ListOf Str); opt "confidence" Int; opt "lang" Str;
   opt "external_references" (ListOf (Rec "external-reference")); opt "object_marking_refs" (ListOf Str); opt "granular_markings" (ListOf (Rec "granular-marking"));
   opt "extensions" (MapOf Any)].
(** Common properties of cyber-observable objects. *)
Definition observable : list row :=
  [req "type" Str; req "id" Str; opt "spec_version" Str; opt "object_marking_refs" (ListOf Str); opt "granular_markings" (ListOf (Rec "granular-marking"));
   req "defanged" Bool; opt "extensions" (MapOf Any)].

(** The tables of the object types (STIX 2.1, sections 4 to 7). *)
Definition stix_objects : list (string * list row) :=
  [("attack-pattern", common ++ [req "name" Str; opt "description" Str; opt "aliases" (ListOf Str); opt "kill_chain_phases" (ListOf (Rec "kill-chain-phase"))]);
   ("campaign", common ++ [req "name" Str; opt "description" Str; opt "aliases" (ListOf Str); opt "first_seen" Time; opt "last_seen" Time; opt "objective" Str]);
   ("course-of-action", common ++ [req "name" Str; opt "description" Str]);
   ("grouping", common ++ [opt "name" Str; opt "description" Str; req "context" Str; req "object_refs" (ListOf Str)]);
   ("identity", common ++ [req "name" Str; opt "description" Str; opt "roles" (ListOf Str); req "identity_class" Str; opt "sectors" (ListOf Str);
      opt "contact_information" Str]);
   ("incident", common ++ [req "name" Str; opt "description" Str]);
   ("indicator", common ++ [opt "name" Str; opt "description" Str; opt "indicator_types" (ListOf Str); req "pattern" Str; req "pattern_type" Str;
      opt "pattern_version" Str; req "valid_from" Time; opt "valid_until" Time; opt "kill_chain_phases" (ListOf (Rec "kill-chain-phase"))]);
   ("infrastructure", common ++ [req "name" Str; opt "description" Str; opt "infrastructure_types" (ListOf Str); opt "aliases" (ListOf Str);
      opt "kill_chain_phases" (ListOf (Rec "kill-chain-phase")); opt "first_seen" Time; opt "last_seen" Time]);
   ("intrusion-set", common ++ [req "name" Str; opt "description" Str; opt "aliases" (ListOf Str); opt "first_seen" Time; opt "last_seen" Time;
      opt "goals" (ListOf Str); opt "resource_level" Str; opt "primary_motivation" Str; opt "secondary_motivations" (ListOf Str)]);
   ("location", common ++ [opt "name" Str; opt "description" Str; opt "latitude" Num; opt "longitude" Num; opt "precision" Num; opt "region" Str;
      opt "country" Str; opt "administrative_area" Str; opt "city" Str; opt "street_address" Str; opt "postal_code" Str]);
   ("malware", common ++ [opt "name" Str; opt "description" Str; opt "malware_types" (ListOf Str); req "is_family" Bool; opt "aliases" (ListOf Str);
      opt "kill_chain_phases" (ListOf (Rec "kill-chain-phase")); opt "first_seen" Time; opt "last_seen" Time; opt "operating_system_refs" (ListOf Str);
      opt "architecture_execution_envs" (ListOf Str); opt "implementation_languages" (ListOf Str); opt "capabilities" (ListOf Str);
      opt "sample_refs" (ListOf Str)]);
   ("malware-analysis", common ++ [req "product" Str; opt "version" Str; opt "host_vm_ref" Str; opt "operating_system_ref" Str;
      opt "installed_software_refs" (ListOf Str); opt "configuration_version" Str; opt "modules" (ListOf Str); opt "analysis_engine_version" Str;
      opt "analysis_definition_version" Str; opt "submitted" Time; opt "analysis_started" Time; opt "analysis_ended" Time; opt "result_name" Str;
      opt "result" Str; opt "analysis_sco_refs" (ListOf Str); opt "sample_ref" Str]);
   ("note", common ++ [opt "abstract" Str; req "content" Str; opt "authors" (ListOf Str); req "object_refs" (ListOf Str)]);
   ("observed-data", common ++ [req "first_observed" Time; req "last_observed" Time; req "number_observed" Int; opt "objects" (MapOf (Rec "observable"));
      opt "object_refs" (ListOf Str)]);
   ("opinion", common ++ [opt "explanation" Str; opt "authors" (ListOf Str); req "opinion" Str; req "object_refs" (ListOf Str)]);
   ("report", common ++ [req "name" Str; opt "description" Str; opt "report_types" (ListOf Str); req "published" Time; req "object_refs" (ListOf Str)]);
   ("threat-actor", common ++ [req "name" Str; opt "description" Str; opt "threat_actor_types" (ListOf Str); opt "aliases" (ListOf Str);
      opt "first_seen" Time; opt "last_seen" Time; opt "roles" (ListOf Str); opt "goals" (ListOf Str); opt "sophistication" Str;
      opt "resource_level" Str; opt "primary_motivation" Str; opt "secondary_motivations" (ListOf Str); opt "personal_motivations" (ListOf Str)]);
   ("tool", common ++ [req "name" Str; opt "description" Str; opt "tool_types" (ListOf Str); opt "aliases" (ListOf Str);
      opt "kill_chain_phases" (ListOf (Rec "kill-chain-phase")); opt "tool_version" Str]);
   ("vulnerability", common ++ [req "name" Str; opt "description" Str]);
   ("relationship", common ++ [req "relationship_type" Str; opt "description" Str; req "source_ref" Str; req "target_ref" Str;
      opt "start_time" Time; opt "stop_time" Time]);
   ("sighting", common ++ [opt "description" Str; opt "first_seen" Time; opt "last_seen" Time; opt "count" Int; req "sighting_of_ref" Str;
      opt "observed_data_refs" (ListOf Str); opt "where_sighted_refs" (ListOf Str); req "summary" Bool]);
   ("language-content",
      [req "type" Str; req "id" Str; req "spec_version" Str; opt "created_by_ref" Str; req "created" Time; req "modified" Time; req "revoked" Bool;
       opt "labels" (ListOf Str); opt "confidence" Int; opt "external_references" (ListOf (Rec "external-reference")); opt "object_marking_refs" (ListOf Str);
       opt "granular_markings" (ListOf (Rec "granular-marking")); opt "extensions" (MapOf Any); req "object_ref" Str; opt "object_modified" Time; req "contents" (MapOf (MapOf Any))]);
   ("marking-definition",
      [req "type" Str; req "id" Str; req "spec_version" Str; opt "created_by_ref" Str; req "created" Time; opt "external_references" (ListOf (Rec "external-reference"));
       opt "object_marking_refs" (ListOf Str); opt "granular_markings" (ListOf (Rec "granular-marking")); opt "extensions" (MapOf Any); opt "name" Str;
       req "definition_type" Str; req "definition" Any]);
   ("extension-definition",
      [req "type" Str; req "id" Str; req "spec_version" Str; req "created_by_ref" Str; req "created" Time; req "modified" Time; opt "revoked" Bool;
       opt "labels" (ListOf Str); opt "external_references" (ListOf (Rec "external-reference")); opt "object_marking_refs" (ListOf Str);
       opt "granular_markings" (ListOf (Rec "granular-marking")); req "name" Str; opt "description" Str; req "schema" Str; req "version" Str;
       req "extension_types" (ListOf Str); opt "extension_properties" (ListOf Str)]);
   ("artifact", observable ++ [opt "mime_type" Str; opt "payload_bin" Bin; opt "url" Str; opt "hashes" (MapOf Str); opt "encryption_algorithm" Str;
      opt "decryption_key" Str]);
   ("autonomous-system", observable ++ [req "number" Int; opt "name" Str; opt "rir" Str]);
   ("directory", observable ++ [req "path" Str; opt "path_enc" Str; opt "ctime" Time; opt "mtime" Time; opt "atime" Time; opt "contains_refs" (ListOf Str)]);
   ("domain-name", observable ++ [req "value" Str; opt "resolves_to_refs" (ListOf Str)]);
   ("email-addr", observable ++ [req "value" Str; opt "display_name" Str; opt "belongs_to_ref" Str]);
   ("email-message", observable ++ [req "is_multipart" Bool; opt "date" Time; opt "content_type" Str; opt "from_ref" Str; opt "sender_ref" Str;
      opt "to_refs" (ListOf Str); opt "cc_refs" (ListOf Str); opt "bcc_refs" (ListOf Str); opt "message_id" Str; opt "subject" Str;
      opt "received_lines" (ListOf Str); opt "additional_header_fields" (MapOf (ListOf Str)); opt "body" Str; opt "body_multipart" (ListOf (Rec "mime-part"));
      opt "raw_email_ref" Str]);
   ("file", observable ++ [opt "hashes" (MapOf Str); opt "size" Int; opt "name" Str; opt "name_enc" Str; opt "magic_number_hex" Str; opt "mime_type" Str;
      opt "ctime" Time; opt "mtime" Time; opt "atime" Time; opt "parent_directory_ref" Str; opt "contains_refs" (ListOf Str); opt "content_ref" Str]);
   ("ipv4-addr", observable ++ [req "value" Str; opt "resolves_to_refs" (ListOf Str); opt "belongs_to_refs" (ListOf Str)]);
   ("ipv6-addr", observable ++ [req "value" Str; opt "resolves_to_refs" (ListOf Str); opt "belongs_to_refs" (ListOf Str)]);
   ("mac-addr", observable ++ [req "value" Str]);
   ("mutex", observable ++ [req "name" Str]);
   ("network-traffic", observable ++ [opt "start" Time; opt "end" Time; req "is_active" Bool; opt "src_ref" Str; opt "dst_ref" Str; opt "src_port" Int;
      opt "dst_port" Int; req "protocols" (ListOf Str); opt "src_byte_count" Int; opt "dst_byte_count" Int; opt "src_packets" Int;
      opt "dst_packets" Int; opt "ipfix" (MapOf Any); opt "src_payload_ref" Str; opt "dst_payload_ref" Str; opt "encapsulates_refs" (ListOf Str);
      opt "encapsulated_by_ref" Str]);
   ("process", observable ++ [req "is_hidden" Bool; opt "pid" Int; opt "created_time" Time; opt "cwd" Str; opt "command_line" Str;
      opt "environment_variables" (MapOf Str); opt "opened_connection_refs" (ListOf Str); opt "creator_user_ref" Str; opt "image_ref" Str;
      opt "parent_ref" Str; opt "child_refs" (ListOf Str)]);
   ("software", observable ++ [req "name" Str; opt "cpe" Str; opt "swid" Str; opt "languages" (ListOf Str); opt "vendor" Str; opt "version" Str]);
   ("url", observable ++ [req "value" Str]);
   ("user-account", observable ++ [opt "user_id" Str; opt "credential" Str; opt "account_login" Str; opt "account_type" Str; opt "display_name" Str;
      req "is_service_account" Bool; req "is_privileged" Bool; req "can_escalate_privs" Bool; req "is_disabled" Bool; opt "account_created" Time;
      opt "account_expires" Time; opt "credential_last_changed" Time; opt "account_first_login" Time; opt "account_last_login" Time]);
   ("windows-registry-key", observable ++ [opt "key" Str; opt "values" (ListOf (Rec "windows-registry-value")); opt "modified_time" Time; opt "creator_user_ref" Str;
      opt "number_of_subkeys" Int]);
   ("x509-certificate", observable ++ [req "is_self_signed" Bool; opt "hashes" (MapOf Str); opt "version" Str; opt "serial_number" Str;
      opt "signature_algorithm" Str; opt "issuer" Str; opt "validity_not_before" Time; opt "validity_not_after" Time; opt "subject" Str;
      opt "subject_public_key_algorithm" Str; opt "subject_public_key_modulus" Str; opt "subject_public_key_exponent" Int;
      opt "x509_v3_extensions" (Rec "x509-v3-extensions")])].

(** The values with properties of their own.  These are written by
    encoding/json, which leaves out false booleans of optional properties, but
    no struct (optional_header) and no number without omitempty
    (size_of_headers). *)
Definition stix_records : list (string * list row) :=
  [("external-reference", [req "source_name" Str; opt "description" Str; opt "url" Str; opt "hashes" (MapOf Str); opt "external_id" Str]);
   ("granular-marking", [opt "lang" Str; opt "marking_ref" Str; req "selectors" (ListOf Str)]);
   ("kill-chain-phase", [req "kill_chain_name" Str; req "phase_name" Str]);
   ("observable", [req "type" Str; req "id" Str; opt "spec_version" Str; opt "object_marking_refs" (ListOf Str);
      opt "granular_markings" (ListOf (Rec "granular-marking")); opt "defanged" Bool; opt "extensions" (MapOf Any)]);
   ("mime-part", [opt "body" Str; opt "body_raw_ref" Str; opt "content_type" Str; opt "content_disposition" Str]);
   ("windows-registry-value", [opt "name" Str; opt "data" Str; opt "data_type" Str]);
   ("x509-v3-extensions", [opt "basic_constraints" Str; opt "name_constraints" Str; opt "policy_constraints" Str; opt "key_usage" Str;
      opt "extended_key_usage" Str; opt "subject_key_identifier" Str; opt "authority_key_identifier" Str; opt "subject_alternative_name" Str;
      opt "issuer_alternative_name" Str; opt "subject_directory_attributes" Str; opt "crl_distribution_points" Str; opt "inhibit_any_policy" Str;
      opt "private_key_usage_period_not_before" Time; opt "private_key_usage_period_not_after" Time; opt "certificate_policies" Str;
      opt "policy_mappings" Str]);
   ("alternate-data-stream", [req "name" Str; opt "hashes" (MapOf Str); opt "size" Int]);
   ("windows-pe-section", [req "name" Str; opt "size" Int; opt "entropy" Num; opt "hashes" (MapOf Str)]);
   ("windows-pe-optional-header", [opt "magic_hex" Str; opt "major_linker_version" Int; opt "minor_linker_version" Int; opt "size_of_code" Int;
      opt "size_of_initialized_data" Int; opt "size_of_uninitialized_data" Int; opt "address_of_entry_point" Int; opt "base_of_code" Int;
      opt "base_of_data" Int; opt "image_base" Int; opt "section_alignment" Int; opt "file_alignment" Int; opt "major_os_version" Int;
      opt "minor_os_version" Int; opt "major_image_version" Int; opt "minor_image_version" Int; opt "major_subsystem_version" Int;
      opt "minor_subsystem_version" Int; opt "win32_version_value_hex" Str; opt "size_of_image" Int; req "size_of_headers" Int;
      opt "checksum_hex" Str; opt "subsystem_hex" Str; opt "dll_characteristics_hex" Str; opt "size_of_stack_reserve" Int;
      opt "size_of_stack_commit" Int; opt "size_of_heap_reserve" Int; opt "size_of_heap_commit" Int; opt "loader_flags_hex" Str;
      opt "number_of_rva_and_sizes" Int; opt "hashes" (MapOf Str)]);
   (* the predefined object extensions, by their extension key *)
   ("archive-ext", [req "contains_refs" (ListOf Str); opt "comment" Str]);
   ("ntfs-ext", [opt "sid" Str; opt "alternate_data_streams" (ListOf (Rec "alternate-data-stream"))]);
   ("pdf-ext", [opt "version" Str; opt "is_optimized" Bool; opt "document_info_dict" (MapOf Str); opt "pdfid0" Str; opt "pdfid1" Str]);
   ("raster-image-ext", [opt "image_height" Int; opt "image_width" Int; opt "bits_per_pixel" Int; opt "exif_tags" (MapOf Any)]);
   ("windows-pebinary-ext", [req "pe_type" Str; opt "imphash" Str; opt "machine_hex" Str; opt "number_of_sections" Int; opt "time_date_stamp" Time;
      opt "pointer_to_symbol_table_hex" Str; opt "number_of_symbols" Int; opt "size_of_optional_header" Int; opt "characteristics_hex" Str;
      opt "file_header_hashes" (MapOf Str); req "optional_header" (Rec "windows-pe-optional-header");
      opt "sections" (ListOf (Rec "windows-pe-section"))]);
   ("http-request-ext", [req "request_method" Str; req "request_value" Str; opt "request_version" Str; opt "request_header" (MapOf (ListOf Str));
      opt "message_body_length" Int; opt "message_body_data_ref" Str]);
   ("icmp-ext", [req "icmp_type_hex" Str; req "icmp_code_hex" Str]);
   ("socket-ext", [req "address_family" Str; opt "is_blocking" Bool; req "is_listening" Bool; opt "options" (MapOf Int); opt "socket_type" Str;
      opt "socket_descriptor" Int; opt "socket_handle" Int]);
   ("tcp-ext", [opt "src_flags_hex" Str; opt "dst_flags_hex" Str]);
   ("windows-process-ext", [opt "aslr_enabled" Bool; opt "dep_enabled" Bool; opt "priority" Str; opt "owner_sid" Str; opt "window_title" Str;
      opt "startup_info" (MapOf Any); opt "integrity_level" Str]);
   ("windows-service-ext", [opt "service_name" Str; opt "descriptions" (ListOf Str); opt "display_name" Str; opt "group_name" Str;
      opt "start_type" Str; opt "service_dll_refs" (ListOf Str); opt "service_type" Str; opt "service_status" Str]);
   ("unix-account-ext", [opt "gid" Int; opt "groups" (ListOf Str); opt "home_dir" Str; opt "shell" Str])].

(** The predefined extensions of each object type. *)
Definition stix_extensions : list (string * list string) :=
  [("file", ["archive-ext"; "ntfs-ext"; "pdf-ext"; "raster-image-ext"; "windows-pebinary-ext"]);
   ("network-traffic", ["http-request-ext"; "icmp-ext"; "socket-ext"; "tcp-ext"]);
   ("process", ["windows-process-ext"; "windows-service-ext"]);
   ("user-account", ["unix-account-ext"])].

(** [conforms s j]: [j] is a value of kind [s].  Null stands for a missing
    element of a list or map, or for a missing list that is always written. *)
Definition may_null (s : shape) : bool := match s with Str | Int | Num | Bool => false | _ => true end.
(** The kinds of values, see above. *)
Inductive conforms : shape -> json -> Prop :=
| c_str r : conforms Str (JStr r)
| c_time t : conforms Time (JStr (ts_string t))
| c_bin b : conforms Bin (JStr (b64_encode b))
| c_int z : conforms Int (JNum (Z_to_string z))
| c_num l : conforms Num (JNum l)
| c_bool b : conforms Bool (JBool b)
| c_any j : conforms Any j
| c_list s l : (forall x, In x l -> (x = JNull /\ may_null s = true) \/ conforms s x) -> conforms (ListOf s) (JArr l)
| c_map s ms : (forall k x, In (k, x) ms -> (x = JNull /\ may_null s = true) \/ conforms s x) -> conforms (MapOf s) (JObj ms)
| c_rec name rows ms : In (name, rows) stix_records -> NoDup (akeys ms) ->
    (forall k x, In (k, x) ms -> exists s b, In (k, s, b) rows /\ ((x = JNull /\ may_null s = true /\ b = true) \/ conforms s x)) ->
    (forall k s, In (k, s, true) rows -> In k (akeys ms)) -> conforms (Rec name) (JObj ms).
