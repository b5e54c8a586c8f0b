(** Generated by tools/gen_schema.py from /repo: all struct definitions. *)
From Verif Require Import GoStr Consts GoTypes.

(** type GranularMarking struct, meta.go:334-345 *)
Definition fs_GranularMarking : list (fmeta * gty) :=
  [(Fmeta "Lang" "lang" true false, GString "string"); (* meta.go:338 *)
   (Fmeta "Marking" "marking_ref" true false, GString "Identifier"); (* meta.go:341 *)
   (Fmeta "Selectors" "selectors" false false, GSlice (GString "string")) (* meta.go:344 *)
  ].
Definition ty_GranularMarking : gty := GStruct "GranularMarking" fs_GranularMarking.

(** type STIXCyberObservableObject struct, object.go:318-350 *)
Definition fs_STIXCyberObservableObject : list (fmeta * gty) :=
  [(Fmeta "Type" "type" false false, GString "STIXType"); (* object.go:321 *)
   (Fmeta "ID" "id" false false, GString "Identifier"); (* object.go:326 *)
   (Fmeta "SpecVersion" "spec_version" true false, GString "string"); (* object.go:328 *)
   (Fmeta "ObjectMarking" "object_marking_refs" true false, GSlice (GString "Identifier")); (* object.go:335 *)
   (Fmeta "GranularMarking" "granular_markings" true false, GSlice (GPtr (ty_GranularMarking))); (* object.go:342 *)
   (Fmeta "Defanged" "defanged" true false, GBool); (* object.go:345 *)
   (Fmeta "Extensions" "extensions" true false, GExt); (* object.go:347 *)
   (Fmeta "toplevelProperties" "" false false, GPtr (GMap "CustomObject" "string" GIface)) (* object.go:349 *)
  ].
Definition ty_STIXCyberObservableObject : gty := GStruct "STIXCyberObservableObject" fs_STIXCyberObservableObject.

(** type Artifact struct, artifact.go:15-40 *)
Definition fs_Artifact : list (fmeta * gty) :=
  [(Fmeta "STIXCyberObservableObject" "" false true, ty_STIXCyberObservableObject); (* artifact.go:16 *)
   (Fmeta "MimeType" "mime_type" true false, GString "string"); (* artifact.go:23 *)
   (Fmeta "Payload" "payload_bin" true false, GBinary); (* artifact.go:26 *)
   (Fmeta "URL" "url" true false, GString "string"); (* artifact.go:29 *)
   (Fmeta "Hashes" "hashes" true false, GMap "Hashes" "HashAlgorithm" (GString "string")); (* artifact.go:32 *)
   (Fmeta "Encryption" "encryption_algorithm" true false, GEnum "EncryptionAlgorithm"); (* artifact.go:35 *)
   (Fmeta "Key" "decryption_key" true false, GString "string") (* artifact.go:39 *)
  ].
Definition ty_Artifact : gty := GStruct "Artifact" fs_Artifact.

(** type AutonomousSystem struct, as.go:9-19 *)
Definition fs_AutonomousSystem : list (fmeta * gty) :=
  [(Fmeta "STIXCyberObservableObject" "" false true, ty_STIXCyberObservableObject); (* as.go:10 *)
   (Fmeta "Number" "number" false false, GInt "int64"); (* as.go:13 *)
   (Fmeta "Name" "name" true false, GString "string"); (* as.go:15 *)
   (Fmeta "RIR" "rir" true false, GString "string") (* as.go:18 *)
  ].
Definition ty_AutonomousSystem : gty := GStruct "AutonomousSystem" fs_AutonomousSystem.

(** type ExternalReference struct, data-types.go:87-100 *)
Definition fs_ExternalReference : list (fmeta * gty) :=
  [(Fmeta "Name" "source_name" false false, GString "string"); (* data-types.go:90 *)
   (Fmeta "Description" "description" true false, GString "string"); (* data-types.go:92 *)
   (Fmeta "URL" "url" true false, GString "string"); (* data-types.go:94 *)
   (Fmeta "Hashes" "hashes" true false, GMap "Hashes" "HashAlgorithm" (GString "string")); (* data-types.go:97 *)
   (Fmeta "ExternalID" "external_id" true false, GString "string") (* data-types.go:99 *)
  ].
Definition ty_ExternalReference : gty := GStruct "ExternalReference" fs_ExternalReference.

(** type STIXDomainObject struct, object.go:173-257 *)
Definition fs_STIXDomainObject : list (fmeta * gty) :=
  [(Fmeta "Type" "type" false false, GString "STIXType"); (* object.go:176 *)
   (Fmeta "ID" "id" false false, GString "Identifier"); (* object.go:181 *)
   (Fmeta "SpecVersion" "spec_version" false false, GString "string"); (* object.go:183 *)
   (Fmeta "CreatedBy" "created_by_ref" true false, GString "Identifier"); (* object.go:188 *)
   (Fmeta "Created" "created" false false, GPtr (GTime)); (* object.go:195 *)
   (Fmeta "Modified" "modified" false false, GPtr (GTime)); (* object.go:206 *)
   (Fmeta "Revoked" "revoked" true false, GBool); (* object.go:212 *)
   (Fmeta "Labels" "labels" true false, GSlice (GString "string")); (* object.go:222 *)
   (Fmeta "Confidence" "confidence" true false, GInt "int"); (* object.go:226 *)
   (Fmeta "Lang" "lang" true false, GString "string"); (* object.go:232 *)
   (Fmeta "ExternalReferences" "external_references" true false, GSlice (GPtr (ty_ExternalReference))); (* object.go:236 *)
   (Fmeta "ObjectMarking" "object_marking_refs" true false, GSlice (GString "Identifier")); (* object.go:243 *)
   (Fmeta "GranularMarking" "granular_markings" true false, GSlice (GPtr (ty_GranularMarking))); (* object.go:250 *)
   (Fmeta "Extensions" "extensions" true false, GExt); (* object.go:254 *)
   (Fmeta "toplevelProperties" "" false false, GPtr (GMap "CustomObject" "string" GIface)) (* object.go:256 *)
  ].
Definition ty_STIXDomainObject : gty := GStruct "STIXDomainObject" fs_STIXDomainObject.

(** type KillChainPhase struct, data-types.go:402-411 *)
Definition fs_KillChainPhase : list (fmeta * gty) :=
  [(Fmeta "Name" "kill_chain_name" false false, GString "string"); (* data-types.go:406 *)
   (Fmeta "Phase" "phase_name" false false, GString "string") (* data-types.go:410 *)
  ].
Definition ty_KillChainPhase : gty := GStruct "KillChainPhase" fs_KillChainPhase.

(** type AttackPattern struct, attack.go:18-30 *)
Definition fs_AttackPattern : list (fmeta * gty) :=
  [(Fmeta "STIXDomainObject" "" false true, ty_STIXDomainObject); (* attack.go:19 *)
   (Fmeta "Name" "name" false false, GString "string"); (* attack.go:21 *)
   (Fmeta "Description" "description" true false, GString "string"); (* attack.go:24 *)
   (Fmeta "Aliases" "aliases" true false, GSlice (GString "string")); (* attack.go:26 *)
   (Fmeta "KillChainPhase" "kill_chain_phases" true false, GSlice (GPtr (ty_KillChainPhase))) (* attack.go:29 *)
  ].
Definition ty_AttackPattern : gty := GStruct "AttackPattern" fs_AttackPattern.

(** type Campaign struct, campaign.go:22-39 *)
Definition fs_Campaign : list (fmeta * gty) :=
  [(Fmeta "STIXDomainObject" "" false true, ty_STIXDomainObject); (* campaign.go:23 *)
   (Fmeta "Name" "name" false false, GString "string"); (* campaign.go:25 *)
   (Fmeta "Description" "description" true false, GString "string"); (* campaign.go:28 *)
   (Fmeta "Aliases" "aliases" true false, GSlice (GString "string")); (* campaign.go:30 *)
   (Fmeta "FirstSeen" "first_seen" true false, GPtr (GTime)); (* campaign.go:32 *)
   (Fmeta "LastSeen" "last_seen" true false, GPtr (GTime)); (* campaign.go:34 *)
   (Fmeta "Objective" "objective" true false, GString "string") (* campaign.go:38 *)
  ].
Definition ty_Campaign : gty := GStruct "Campaign" fs_Campaign.

(** type CourseOfAction struct, course-of-action.go:14-23 *)
Definition fs_CourseOfAction : list (fmeta * gty) :=
  [(Fmeta "STIXDomainObject" "" false true, ty_STIXDomainObject); (* course-of-action.go:15 *)
   (Fmeta "Name" "name" false false, GString "string"); (* course-of-action.go:17 *)
   (Fmeta "Description" "description" true false, GString "string") (* course-of-action.go:22 *)
  ].
Definition ty_CourseOfAction : gty := GStruct "CourseOfAction" fs_CourseOfAction.

(** type Directory struct, directory.go:10-32 *)
Definition fs_Directory : list (fmeta * gty) :=
  [(Fmeta "STIXCyberObservableObject" "" false true, ty_STIXCyberObservableObject); (* directory.go:11 *)
   (Fmeta "Path" "path" false false, GString "string"); (* directory.go:14 *)
   (Fmeta "PathEnc" "path_enc" true false, GString "string"); (* directory.go:21 *)
   (Fmeta "Ctime" "ctime" true false, GPtr (GTime)); (* directory.go:23 *)
   (Fmeta "Mtime" "mtime" true false, GPtr (GTime)); (* directory.go:26 *)
   (Fmeta "Atime" "atime" true false, GPtr (GTime)); (* directory.go:28 *)
   (Fmeta "Contains" "contains_refs" true false, GSlice (GString "Identifier")) (* directory.go:31 *)
  ].
Definition ty_Directory : gty := GStruct "Directory" fs_Directory.

(** type DomainName struct, dns.go:9-20 *)
Definition fs_DomainName : list (fmeta * gty) :=
  [(Fmeta "STIXCyberObservableObject" "" false true, ty_STIXCyberObservableObject); (* dns.go:10 *)
   (Fmeta "Value" "value" false false, GString "string"); (* dns.go:14 *)
   (Fmeta "ResolvesTo" "resolves_to_refs" true false, GSlice (GString "Identifier")) (* dns.go:19 *)
  ].
Definition ty_DomainName : gty := GStruct "DomainName" fs_DomainName.

(** type EmailAddress struct, email.go:12-23 *)
Definition fs_EmailAddress : list (fmeta * gty) :=
  [(Fmeta "STIXCyberObservableObject" "" false true, ty_STIXCyberObservableObject); (* email.go:13 *)
   (Fmeta "Value" "value" false false, GString "string"); (* email.go:16 *)
   (Fmeta "DisplayName" "display_name" true false, GString "string"); (* email.go:19 *)
   (Fmeta "BelongsTo" "belongs_to_ref" true false, GString "Identifier") (* email.go:22 *)
  ].
Definition ty_EmailAddress : gty := GStruct "EmailAddress" fs_EmailAddress.

(** type EmailMIME struct, email.go:134-149 *)
Definition fs_EmailMIME : list (fmeta * gty) :=
  [(Fmeta "Body" "body" true false, GString "string"); (* email.go:138 *)
   (Fmeta "BodyRaw" "body_raw_ref" true false, GString "Identifier"); (* email.go:142 *)
   (Fmeta "ContentType" "content_type" true false, GString "string"); (* email.go:145 *)
   (Fmeta "ContentDisposition" "content_disposition" true false, GString "string") (* email.go:148 *)
  ].
Definition ty_EmailMIME : gty := GStruct "EmailMIME" fs_EmailMIME.

(** type EmailMessage struct, email.go:55-104 *)
Definition fs_EmailMessage : list (fmeta * gty) :=
  [(Fmeta "STIXCyberObservableObject" "" false true, ty_STIXCyberObservableObject); (* email.go:56 *)
   (Fmeta "IsMultipart" "is_multipart" false false, GBool); (* email.go:59 *)
   (Fmeta "Date" "date" true false, GPtr (GTime)); (* email.go:61 *)
   (Fmeta "ContentType" "content_type" true false, GString "string"); (* email.go:64 *)
   (Fmeta "From" "from_ref" true false, GString "Identifier"); (* email.go:69 *)
   (Fmeta "Sender" "sender_ref" true false, GString "Identifier"); (* email.go:73 *)
   (Fmeta "To" "to_refs" true false, GSlice (GString "Identifier")); (* email.go:76 *)
   (Fmeta "CC" "cc_refs" true false, GSlice (GString "Identifier")); (* email.go:79 *)
   (Fmeta "BCC" "bcc_refs" true false, GSlice (GString "Identifier")); (* email.go:82 *)
   (Fmeta "MessageID" "message_id" true false, GString "string"); (* email.go:84 *)
   (Fmeta "Subject" "subject" true false, GString "string"); (* email.go:86 *)
   (Fmeta "ReceivedLines" "received_lines" true false, GSlice (GString "string")); (* email.go:89 *)
   (Fmeta "AdditionalHeaderFields" "additional_header_fields" true false, GMap "" "string" (GSlice (GString "string"))); (* email.go:93 *)
   (Fmeta "Body" "body" true false, GString "string"); (* email.go:96 *)
   (Fmeta "BodyMultipart" "body_multipart" true false, GSlice (ty_EmailMIME)); (* email.go:99 *)
   (Fmeta "RawEmail" "raw_email_ref" true false, GString "Identifier") (* email.go:103 *)
  ].
Definition ty_EmailMessage : gty := GStruct "EmailMessage" fs_EmailMessage.

(** type ExtensionDefinition struct, extension.go:67-167 *)
Definition fs_ExtensionDefinition : list (fmeta * gty) :=
  [(Fmeta "Type" "type" false false, GString "STIXType"); (* extension.go:70 *)
   (Fmeta "ID" "id" false false, GString "Identifier"); (* extension.go:75 *)
   (Fmeta "SpecVersion" "spec_version" false false, GString "string"); (* extension.go:77 *)
   (Fmeta "CreatedBy" "created_by_ref" false false, GString "Identifier"); (* extension.go:82 *)
   (Fmeta "Created" "created" false false, GPtr (GTime)); (* extension.go:89 *)
   (Fmeta "Modified" "modified" false false, GPtr (GTime)); (* extension.go:100 *)
   (Fmeta "Revoked" "revoked" true false, GBool); (* extension.go:106 *)
   (Fmeta "Labels" "labels" true false, GSlice (GString "string")); (* extension.go:116 *)
   (Fmeta "ExternalReferences" "external_references" true false, GSlice (GPtr (ty_ExternalReference))); (* extension.go:120 *)
   (Fmeta "ObjectMarking" "object_marking_refs" true false, GSlice (GString "Identifier")); (* extension.go:127 *)
   (Fmeta "GranularMarking" "granular_markings" true false, GSlice (GPtr (ty_GranularMarking))); (* extension.go:134 *)
   (Fmeta "Name" "name" false false, GString "string"); (* extension.go:136 *)
   (Fmeta "Description" "description" true false, GString "string"); (* extension.go:142 *)
   (Fmeta "Schema" "schema" false false, GString "string"); (* extension.go:149 *)
   (Fmeta "Version" "version" false false, GString "string"); (* extension.go:155 *)
   (Fmeta "ExtensionTypes" "extension_types" false false, GSlice (GEnum "ExtensionType")); (* extension.go:160 *)
   (Fmeta "ExtensionProperties" "extension_properties" true false, GSlice (GString "string")) (* extension.go:166 *)
  ].
Definition ty_ExtensionDefinition : gty := GStruct "ExtensionDefinition" fs_ExtensionDefinition.

(** type File struct, file.go:13-53 *)
Definition fs_File : list (fmeta * gty) :=
  [(Fmeta "STIXCyberObservableObject" "" false true, ty_STIXCyberObservableObject); (* file.go:14 *)
   (Fmeta "Hashes" "hashes" true false, GMap "Hashes" "HashAlgorithm" (GString "string")); (* file.go:16 *)
   (Fmeta "Size" "size" true false, GInt "int64"); (* file.go:19 *)
   (Fmeta "Name" "name" true false, GString "string"); (* file.go:21 *)
   (Fmeta "NameEnc" "name_enc" true false, GString "string"); (* file.go:28 *)
   (Fmeta "MagicNumber" "magic_number_hex" true false, GString "Hex"); (* file.go:32 *)
   (Fmeta "MimeType" "mime_type" true false, GString "string"); (* file.go:35 *)
   (Fmeta "Ctime" "ctime" true false, GPtr (GTime)); (* file.go:37 *)
   (Fmeta "Mtime" "mtime" true false, GPtr (GTime)); (* file.go:39 *)
   (Fmeta "Atime" "atime" true false, GPtr (GTime)); (* file.go:41 *)
   (Fmeta "ParentDirectory" "parent_directory_ref" true false, GString "Identifier"); (* file.go:44 *)
   (Fmeta "Contains" "contains_refs" true false, GSlice (GString "Identifier")); (* file.go:49 *)
   (Fmeta "Content" "content_ref" true false, GString "Identifier") (* file.go:52 *)
  ].
Definition ty_File : gty := GStruct "File" fs_File.

(** type ArchiveFileExtension struct, file.go:139-145 *)
Definition fs_ArchiveFileExtension : list (fmeta * gty) :=
  [(Fmeta "Contains" "contains_refs" false false, GSlice (GString "Identifier")); (* file.go:142 *)
   (Fmeta "Comment" "comment" true false, GString "string") (* file.go:144 *)
  ].
Definition ty_ArchiveFileExtension : gty := GStruct "ArchiveFileExtension" fs_ArchiveFileExtension.

(** type AltDataStream struct, file.go:161-169 *)
Definition fs_AltDataStream : list (fmeta * gty) :=
  [(Fmeta "Name" "name" false false, GString "string"); (* file.go:163 *)
   (Fmeta "Hashes" "hashes" true false, GMap "Hashes" "HashAlgorithm" (GString "string")); (* file.go:166 *)
   (Fmeta "Size" "size" true false, GInt "int64") (* file.go:168 *)
  ].
Definition ty_AltDataStream : gty := GStruct "AltDataStream" fs_AltDataStream.

(** type NTFSFileExtension struct, file.go:152-158 *)
Definition fs_NTFSFileExtension : list (fmeta * gty) :=
  [(Fmeta "SID" "sid" true false, GString "string"); (* file.go:154 *)
   (Fmeta "AltDataStreams" "alternate_data_streams" true false, GSlice (ty_AltDataStream)) (* file.go:157 *)
  ].
Definition ty_NTFSFileExtension : gty := GStruct "NTFSFileExtension" fs_NTFSFileExtension.

(** type PDFExtension struct, file.go:175-194 *)
Definition fs_PDFExtension : list (fmeta * gty) :=
  [(Fmeta "Version" "version" true false, GString "string"); (* file.go:179 *)
   (Fmeta "IsOptimized" "is_optimized" true false, GBool); (* file.go:181 *)
   (Fmeta "DocumentInfo" "document_info_dict" true false, GMap "" "string" (GString "string")); (* file.go:189 *)
   (Fmeta "PDFid0" "pdfid0" true false, GString "string"); (* file.go:191 *)
   (Fmeta "PDFid1" "pdfid1" true false, GString "string") (* file.go:193 *)
  ].
Definition ty_PDFExtension : gty := GStruct "PDFExtension" fs_PDFExtension.

(** type RasterImageExtension struct, file.go:200-216 *)
Definition fs_RasterImageExtension : list (fmeta * gty) :=
  [(Fmeta "Height" "image_height" true false, GInt "int64"); (* file.go:202 *)
   (Fmeta "Width" "image_width" true false, GInt "int64"); (* file.go:204 *)
   (Fmeta "BitsPerPixel" "bits_per_pixel" true false, GInt "int64"); (* file.go:208 *)
   (Fmeta "ExifTags" "exif_tags" true false, GMap "" "string" (GIface)) (* file.go:215 *)
  ].
Definition ty_RasterImageExtension : gty := GStruct "RasterImageExtension" fs_RasterImageExtension.

(** type WindowsPEOptionalHeader struct, file.go:275-365 *)
Definition fs_WindowsPEOptionalHeader : list (fmeta * gty) :=
  [(Fmeta "Magic" "magic_hex" true false, GString "Hex"); (* file.go:277 *)
   (Fmeta "MajorLinkerVersion" "major_linker_version" true false, GInt "int64"); (* file.go:279 *)
   (Fmeta "MinorLinkerVersion" "minor_linker_version" true false, GInt "int64"); (* file.go:281 *)
   (Fmeta "SizeOfCode" "size_of_code" true false, GInt "int64"); (* file.go:285 *)
   (Fmeta "SizeOfInitializedData" "size_of_initialized_data" true false, GInt "int64"); (* file.go:289 *)
   (Fmeta "SizeOfUninitializedData" "size_of_uninitialized_data" true false, GInt "int64"); (* file.go:294 *)
   (Fmeta "AddressOfEntryPoint" "address_of_entry_point" true false, GInt "int64"); (* file.go:297 *)
   (Fmeta "BaseOfCode" "base_of_code" true false, GInt "int64"); (* file.go:300 *)
   (Fmeta "BaseOfData" "base_of_data" true false, GInt "int64"); (* file.go:303 *)
   (Fmeta "ImageBase" "image_base" true false, GInt "int64"); (* file.go:306 *)
   (Fmeta "SectionAlignment" "section_alignment" true false, GInt "int64"); (* file.go:309 *)
   (Fmeta "FileAlignment" "file_alignment" true false, GInt "int64"); (* file.go:312 *)
   (Fmeta "MajorOSVersion" "major_os_version" true false, GInt "int64"); (* file.go:315 *)
   (Fmeta "MinorOSVersion" "minor_os_version" true false, GInt "int64"); (* file.go:318 *)
   (Fmeta "MajorImageVersion" "major_image_version" true false, GInt "int64"); (* file.go:320 *)
   (Fmeta "MinorImageVersion" "minor_image_version" true false, GInt "int64"); (* file.go:322 *)
   (Fmeta "MajorSubsystemVersion" "major_subsystem_version" true false, GInt "int64"); (* file.go:325 *)
   (Fmeta "MinorSubsystemVersion" "minor_subsystem_version" true false, GInt "int64"); (* file.go:328 *)
   (Fmeta "Win32VersionValue" "win32_version_value_hex" true false, GString "Hex"); (* file.go:330 *)
   (Fmeta "SizeOfImage" "size_of_image" true false, GInt "int64"); (* file.go:334 *)
   (Fmeta "SizeOfHeaders" "size_of_headers" false false, GInt "int64"); (* file.go:338 *)
   (Fmeta "Checksum" "checksum_hex" true false, GString "Hex"); (* file.go:340 *)
   (Fmeta "Subsystem" "subsystem_hex" true false, GString "Hex"); (* file.go:343 *)
   (Fmeta "DLLCharacteristics" "dll_characteristics_hex" true false, GString "Hex"); (* file.go:345 *)
   (Fmeta "SizeOfStackReserve" "size_of_stack_reserve" true false, GInt "int64"); (* file.go:348 *)
   (Fmeta "SizeOfStackCommit" "size_of_stack_commit" true false, GInt "int64"); (* file.go:351 *)
   (Fmeta "SizeOfHeapReserve" "size_of_heap_reserve" true false, GInt "int64"); (* file.go:354 *)
   (Fmeta "SizeOfHeapCommit" "size_of_heap_commit" true false, GInt "int64"); (* file.go:357 *)
   (Fmeta "LoaderFlags" "loader_flags_hex" true false, GString "Hex"); (* file.go:359 *)
   (Fmeta "NumberOfRVAAndSizes" "number_of_rva_and_sizes" true false, GInt "int64"); (* file.go:362 *)
   (Fmeta "Hashes" "hashes" true false, GMap "Hashes" "HashAlgorithm" (GString "string")) (* file.go:364 *)
  ].
Definition ty_WindowsPEOptionalHeader : gty := GStruct "WindowsPEOptionalHeader" fs_WindowsPEOptionalHeader.

(** type WindowsPESection struct, file.go:368-382 *)
Definition fs_WindowsPESection : list (fmeta * gty) :=
  [(Fmeta "Name" "name" false false, GString "string"); (* file.go:370 *)
   (Fmeta "Size" "size" true false, GInt "int64"); (* file.go:373 *)
   (Fmeta "Entropy" "entropy" true false, GFloat); (* file.go:379 *)
   (Fmeta "Hashes" "hashes" true false, GMap "Hashes" "HashAlgorithm" (GString "string")) (* file.go:381 *)
  ].
Definition ty_WindowsPESection : gty := GStruct "WindowsPESection" fs_WindowsPESection.

(** type WindowsPEBinaryExtension struct, file.go:224-256 *)
Definition fs_WindowsPEBinaryExtension : list (fmeta * gty) :=
  [(Fmeta "PEType" "pe_type" false false, GString "WindowsPEBinaryType"); (* file.go:226 *)
   (Fmeta "ImpHash" "imphash" true false, GString "string"); (* file.go:229 *)
   (Fmeta "Machine" "machine_hex" true false, GString "Hex"); (* file.go:231 *)
   (Fmeta "NumberOfSections" "number_of_sections" true false, GInt "int64"); (* file.go:234 *)
   (Fmeta "TimeDateStamp" "time_date_stamp" true false, GPtr (GTime)); (* file.go:237 *)
   (Fmeta "PointerToSymbolTable" "pointer_to_symbol_table_hex" true false, GString "Hex"); (* file.go:239 *)
   (Fmeta "NumberOfSymbols" "number_of_symbols" true false, GInt "int64"); (* file.go:242 *)
   (Fmeta "SizeOfOptionalHeader" "size_of_optional_header" true false, GInt "int64"); (* file.go:245 *)
   (Fmeta "Characteristics" "characteristics_hex" true false, GString "Hex"); (* file.go:248 *)
   (Fmeta "FileHeaderHash" "file_header_hashes" true false, GMap "Hashes" "HashAlgorithm" (GString "string")); (* file.go:251 *)
   (Fmeta "OptionalHeader" "optional_header" true false, ty_WindowsPEOptionalHeader); (* file.go:253 *)
   (Fmeta "Sections" "sections" true false, GSlice (ty_WindowsPESection)) (* file.go:255 *)
  ].
Definition ty_WindowsPEBinaryExtension : gty := GStruct "WindowsPEBinaryExtension" fs_WindowsPEBinaryExtension.

(** type Grouping struct, grouping.go:21-35 *)
Definition fs_Grouping : list (fmeta * gty) :=
  [(Fmeta "STIXDomainObject" "" false true, ty_STIXDomainObject); (* grouping.go:22 *)
   (Fmeta "Name" "name" true false, GString "string"); (* grouping.go:24 *)
   (Fmeta "Description" "description" true false, GString "string"); (* grouping.go:27 *)
   (Fmeta "Context" "context" false false, GString "string"); (* grouping.go:31 *)
   (Fmeta "Objects" "object_refs" false false, GSlice (GString "Identifier")) (* grouping.go:34 *)
  ].
Definition ty_Grouping : gty := GStruct "Grouping" fs_Grouping.

(** type Identity struct, identity.go:13-35 *)
Definition fs_Identity : list (fmeta * gty) :=
  [(Fmeta "STIXDomainObject" "" false true, ty_STIXDomainObject); (* identity.go:14 *)
   (Fmeta "Name" "name" false false, GString "string"); (* identity.go:18 *)
   (Fmeta "Description" "description" true false, GString "string"); (* identity.go:21 *)
   (Fmeta "Roles" "roles" true false, GSlice (GString "string")); (* identity.go:25 *)
   (Fmeta "Class" "identity_class" false false, GString "string"); (* identity.go:28 *)
   (Fmeta "Sectors" "sectors" true false, GSlice (GString "string")); (* identity.go:30 *)
   (Fmeta "ContactInformation" "contact_information" true false, GString "string") (* identity.go:34 *)
  ].
Definition ty_Identity : gty := GStruct "Identity" fs_Identity.

(** type Incident struct, incident.go:12-19 *)
Definition fs_Incident : list (fmeta * gty) :=
  [(Fmeta "STIXDomainObject" "" false true, ty_STIXDomainObject); (* incident.go:13 *)
   (Fmeta "Name" "name" false false, GString "string"); (* incident.go:15 *)
   (Fmeta "Description" "description" true false, GString "string") (* incident.go:18 *)
  ].
Definition ty_Incident : gty := GStruct "Incident" fs_Incident.

(** type Indicator struct, indicator.go:16-48 *)
Definition fs_Indicator : list (fmeta * gty) :=
  [(Fmeta "STIXDomainObject" "" false true, ty_STIXDomainObject); (* indicator.go:17 *)
   (Fmeta "Name" "name" true false, GString "string"); (* indicator.go:21 *)
   (Fmeta "Description" "description" true false, GString "string"); (* indicator.go:24 *)
   (Fmeta "Types" "indicator_types" true false, GSlice (GString "string")); (* indicator.go:27 *)
   (Fmeta "Pattern" "pattern" false false, GString "string"); (* indicator.go:29 *)
   (Fmeta "PatternType" "pattern_type" false false, GString "string"); (* indicator.go:33 *)
   (Fmeta "PatternVersion" "pattern_version" true false, GString "string"); (* indicator.go:37 *)
   (Fmeta "ValidFrom" "valid_from" false false, GPtr (GTime)); (* indicator.go:40 *)
   (Fmeta "ValidUntil" "valid_until" true false, GPtr (GTime)); (* indicator.go:44 *)
   (Fmeta "KillChainPhase" "kill_chain_phases" true false, GSlice (GPtr (ty_KillChainPhase))) (* indicator.go:47 *)
  ].
Definition ty_Indicator : gty := GStruct "Indicator" fs_Indicator.

(** type Infrastructure struct, infrastructure.go:13-36 *)
Definition fs_Infrastructure : list (fmeta * gty) :=
  [(Fmeta "STIXDomainObject" "" false true, ty_STIXDomainObject); (* infrastructure.go:14 *)
   (Fmeta "Name" "name" false false, GString "string"); (* infrastructure.go:17 *)
   (Fmeta "Description" "description" true false, GString "string"); (* infrastructure.go:22 *)
   (Fmeta "Types" "infrastructure_types" true false, GSlice (GString "string")); (* infrastructure.go:24 *)
   (Fmeta "Aliases" "aliases" true false, GSlice (GString "string")); (* infrastructure.go:26 *)
   (Fmeta "KillChainPhase" "kill_chain_phases" true false, GSlice (GPtr (ty_KillChainPhase))); (* infrastructure.go:29 *)
   (Fmeta "FirstSeen" "first_seen" true false, GPtr (GTime)); (* infrastructure.go:32 *)
   (Fmeta "LastSeen" "last_seen" true false, GPtr (GTime)) (* infrastructure.go:35 *)
  ].
Definition ty_Infrastructure : gty := GStruct "Infrastructure" fs_Infrastructure.

(** type IntrusionSet struct, intrusion-set.go:25-74 *)
Definition fs_IntrusionSet : list (fmeta * gty) :=
  [(Fmeta "STIXDomainObject" "" false true, ty_STIXDomainObject); (* intrusion-set.go:26 *)
   (Fmeta "Name" "name" false false, GString "string"); (* intrusion-set.go:28 *)
   (Fmeta "Description" "description" true false, GString "string"); (* intrusion-set.go:31 *)
   (Fmeta "Aliases" "aliases" true false, GSlice (GString "string")); (* intrusion-set.go:33 *)
   (Fmeta "FirstSeen" "first_seen" true false, GPtr (GTime)); (* intrusion-set.go:39 *)
   (Fmeta "LastSeen" "last_seen" true false, GPtr (GTime)); (* intrusion-set.go:45 *)
   (Fmeta "Goals" "goals" true false, GSlice (GString "string")); (* intrusion-set.go:53 *)
   (Fmeta "ResourceLevel" "resource_level" true false, GString "string"); (* intrusion-set.go:58 *)
   (Fmeta "PrimaryMotivation" "primary_motivation" true false, GString "string"); (* intrusion-set.go:65 *)
   (Fmeta "SecondaryMotivations" "secondary_motivations" true false, GSlice (GString "string")) (* intrusion-set.go:73 *)
  ].
Definition ty_IntrusionSet : gty := GStruct "IntrusionSet" fs_IntrusionSet.

(** type IPv4Address struct, ip.go:10-22 *)
Definition fs_IPv4Address : list (fmeta * gty) :=
  [(Fmeta "STIXCyberObservableObject" "" false true, ty_STIXCyberObservableObject); (* ip.go:11 *)
   (Fmeta "Value" "value" false false, GString "string"); (* ip.go:15 *)
   (Fmeta "ResolvesTo" "resolves_to_refs" true false, GSlice (GString "Identifier")); (* ip.go:18 *)
   (Fmeta "BelongsTo" "belongs_to_refs" true false, GSlice (GString "Identifier")) (* ip.go:21 *)
  ].
Definition ty_IPv4Address : gty := GStruct "IPv4Address" fs_IPv4Address.

(** type IPv6Address struct, ip.go:64-76 *)
Definition fs_IPv6Address : list (fmeta * gty) :=
  [(Fmeta "STIXCyberObservableObject" "" false true, ty_STIXCyberObservableObject); (* ip.go:65 *)
   (Fmeta "Value" "value" false false, GString "string"); (* ip.go:69 *)
   (Fmeta "ResolvesTo" "resolves_to_refs" true false, GSlice (GString "Identifier")); (* ip.go:72 *)
   (Fmeta "BelongsTo" "belongs_to_refs" true false, GSlice (GString "Identifier")) (* ip.go:75 *)
  ].
Definition ty_IPv6Address : gty := GStruct "IPv6Address" fs_IPv6Address.

(** type Location struct, location.go:41-79 *)
Definition fs_Location : list (fmeta * gty) :=
  [(Fmeta "STIXDomainObject" "" false true, ty_STIXDomainObject); (* location.go:42 *)
   (Fmeta "Name" "name" true false, GString "string"); (* location.go:44 *)
   (Fmeta "Description" "description" true false, GString "string"); (* location.go:46 *)
   (Fmeta "Latitude" "latitude" true false, GFloat); (* location.go:51 *)
   (Fmeta "Longitude" "longitude" true false, GFloat); (* location.go:56 *)
   (Fmeta "Precision" "precision" true false, GFloat); (* location.go:62 *)
   (Fmeta "Region" "region" true false, GString "string"); (* location.go:64 *)
   (Fmeta "Country" "country" true false, GString "string"); (* location.go:67 *)
   (Fmeta "AdministrativeArea" "administrative_area" true false, GString "string"); (* location.go:70 *)
   (Fmeta "City" "city" true false, GString "string"); (* location.go:72 *)
   (Fmeta "StreetAddress" "street_address" true false, GString "string"); (* location.go:76 *)
   (Fmeta "PostalCode" "postal_code" true false, GString "string") (* location.go:78 *)
  ].
Definition ty_Location : gty := GStruct "Location" fs_Location.

(** type MACAddress struct, mac.go:9-13 *)
Definition fs_MACAddress : list (fmeta * gty) :=
  [(Fmeta "STIXCyberObservableObject" "" false true, ty_STIXCyberObservableObject); (* mac.go:10 *)
   (Fmeta "Value" "value" false false, GString "string") (* mac.go:12 *)
  ].
Definition ty_MACAddress : gty := GStruct "MACAddress" fs_MACAddress.

(** type MalwareAnalysis struct, malware-analysis.go:8-80 *)
Definition fs_MalwareAnalysis : list (fmeta * gty) :=
  [(Fmeta "STIXDomainObject" "" false true, ty_STIXDomainObject); (* malware-analysis.go:9 *)
   (Fmeta "Product" "product" false false, GString "string"); (* malware-analysis.go:14 *)
   (Fmeta "Version" "version" true false, GString "string"); (* malware-analysis.go:16 *)
   (Fmeta "HostVM" "host_vm_ref" true false, GString "Identifier"); (* malware-analysis.go:24 *)
   (Fmeta "OperatingSystem" "operating_system_ref" true false, GString "Identifier"); (* malware-analysis.go:29 *)
   (Fmeta "InstalledSoftware" "installed_software_refs" true false, GSlice (GString "Identifier")); (* malware-analysis.go:34 *)
   (Fmeta "ConfigurationVersion" "configuration_version" true false, GString "string"); (* malware-analysis.go:41 *)
   (Fmeta "Modules" "modules" true false, GSlice (GString "string")); (* malware-analysis.go:45 *)
   (Fmeta "AnalysisEngineVersion" "analysis_engine_version" true false, GString "string"); (* malware-analysis.go:48 *)
   (Fmeta "AnalysisDefinitionVersion" "analysis_definition_version" true false, GString "string"); (* malware-analysis.go:51 *)
   (Fmeta "Submitted" "submitted" true false, GPtr (GTime)); (* malware-analysis.go:56 *)
   (Fmeta "AnalysisStarted" "analysis_started" true false, GPtr (GTime)); (* malware-analysis.go:59 *)
   (Fmeta "AnalysisEnded" "analysis_ended" true false, GPtr (GTime)); (* malware-analysis.go:61 *)
   (Fmeta "ResultName" "result_name" true false, GString "string"); (* malware-analysis.go:64 *)
   (Fmeta "Result" "result" true false, GString "string"); (* malware-analysis.go:67 *)
   (Fmeta "AnalysisSCOs" "analysis_sco_refs" true false, GSlice (GString "Identifier")); (* malware-analysis.go:70 *)
   (Fmeta "Sample" "sample_ref" true false, GString "Identifier") (* malware-analysis.go:79 *)
  ].
Definition ty_MalwareAnalysis : gty := GStruct "MalwareAnalysis" fs_MalwareAnalysis.

(** type Malware struct, malware.go:27-76 *)
Definition fs_Malware : list (fmeta * gty) :=
  [(Fmeta "STIXDomainObject" "" false true, ty_STIXDomainObject); (* malware.go:28 *)
   (Fmeta "Name" "name" true false, GString "string"); (* malware.go:33 *)
   (Fmeta "Description" "description" true false, GString "string"); (* malware.go:37 *)
   (Fmeta "Types" "malware_types" true false, GSlice (GString "string")); (* malware.go:40 *)
   (Fmeta "IsFamily" "is_family" false false, GBool); (* malware.go:43 *)
   (Fmeta "Aliases" "aliases" true false, GSlice (GString "string")); (* malware.go:46 *)
   (Fmeta "KillChainPhase" "kill_chain_phases" true false, GSlice (GPtr (ty_KillChainPhase))); (* malware.go:49 *)
   (Fmeta "FirstSeen" "first_seen" true false, GPtr (GTime)); (* malware.go:52 *)
   (Fmeta "LastSeen" "last_seen" true false, GPtr (GTime)); (* malware.go:55 *)
   (Fmeta "OperatingSystems" "operating_system_refs" true false, GSlice (GString "Identifier")); (* malware.go:61 *)
   (Fmeta "Architecture" "architecture_execution_envs" true false, GSlice (GString "string")); (* malware.go:64 *)
   (Fmeta "Languages" "implementation_languages" true false, GSlice (GString "string")); (* malware.go:67 *)
   (Fmeta "Capabilities" "capabilities" true false, GSlice (GString "string")); (* malware.go:70 *)
   (Fmeta "Samples" "sample_refs" true false, GSlice (GString "Identifier")) (* malware.go:75 *)
  ].
Definition ty_Malware : gty := GStruct "Malware" fs_Malware.

(** type LanguageContent struct, meta.go:16-133 *)
Definition fs_LanguageContent : list (fmeta * gty) :=
  [(Fmeta "Type" "type" false false, GString "STIXType"); (* meta.go:19 *)
   (Fmeta "ID" "id" false false, GString "Identifier"); (* meta.go:24 *)
   (Fmeta "SpecVersion" "spec_version" false false, GString "string"); (* meta.go:26 *)
   (Fmeta "CreatedBy" "created_by_ref" true false, GString "Identifier"); (* meta.go:31 *)
   (Fmeta "Created" "created" false false, GPtr (GTime)); (* meta.go:38 *)
   (Fmeta "Modified" "modified" false false, GPtr (GTime)); (* meta.go:49 *)
   (Fmeta "Revoked" "revoked" true false, GBool); (* meta.go:55 *)
   (Fmeta "Labels" "labels" true false, GSlice (GString "string")); (* meta.go:65 *)
   (Fmeta "Confidence" "confidence" true false, GInt "int"); (* meta.go:69 *)
   (Fmeta "ExternalReferences" "external_references" true false, GSlice (GPtr (ty_ExternalReference))); (* meta.go:73 *)
   (Fmeta "ObjectMarking" "object_marking_refs" true false, GSlice (GString "Identifier")); (* meta.go:80 *)
   (Fmeta "GranularMarking" "granular_markings" true false, GSlice (GPtr (ty_GranularMarking))); (* meta.go:87 *)
   (Fmeta "Extensions" "extensions" true false, GExt); (* meta.go:89 *)
   (Fmeta "Object" "object_ref" false false, GString "Identifier"); (* meta.go:92 *)
   (Fmeta "ObjectModified" "object_modified" true false, GPtr (GTime)); (* meta.go:96 *)
   (Fmeta "Contents" "contents" false false, GMap "" "string" (GMap "" "string" (GIface))); (* meta.go:130 *)
   (Fmeta "toplevelProperties" "" false false, GPtr (GMap "CustomObject" "string" GIface)) (* meta.go:132 *)
  ].
Definition ty_LanguageContent : gty := GStruct "LanguageContent" fs_LanguageContent.

(** type MarkingDefinition struct, meta.go:216-269 *)
Definition fs_MarkingDefinition : list (fmeta * gty) :=
  [(Fmeta "Type" "type" false false, GString "STIXType"); (* meta.go:219 *)
   (Fmeta "ID" "id" false false, GString "Identifier"); (* meta.go:224 *)
   (Fmeta "SpecVersion" "spec_version" false false, GString "string"); (* meta.go:226 *)
   (Fmeta "CreatedBy" "created_by_ref" true false, GString "Identifier"); (* meta.go:231 *)
   (Fmeta "Created" "created" false false, GPtr (GTime)); (* meta.go:238 *)
   (Fmeta "ExternalReferences" "external_references" true false, GSlice (GPtr (ty_ExternalReference))); (* meta.go:242 *)
   (Fmeta "ObjectMarking" "object_marking_refs" true false, GSlice (GString "Identifier")); (* meta.go:249 *)
   (Fmeta "GranularMarking" "granular_markings" true false, GSlice (GPtr (ty_GranularMarking))); (* meta.go:256 *)
   (Fmeta "Extensions" "extensions" true false, GExt); (* meta.go:258 *)
   (Fmeta "Name" "name" true false, GString "string"); (* meta.go:260 *)
   (Fmeta "DefinitionType" "definition_type" false false, GString "string"); (* meta.go:263 *)
   (Fmeta "Definition" "definition" false false, GIface); (* meta.go:266 *)
   (Fmeta "toplevelProperties" "" false false, GPtr (GMap "CustomObject" "string" GIface)) (* meta.go:268 *)
  ].
Definition ty_MarkingDefinition : gty := GStruct "MarkingDefinition" fs_MarkingDefinition.

(** type StatementMarking struct, meta.go:352-356 *)
Definition fs_StatementMarking : list (fmeta * gty) :=
  [(Fmeta "Statement" "statement" false false, GString "string") (* meta.go:355 *)
  ].
Definition ty_StatementMarking : gty := GStruct "StatementMarking" fs_StatementMarking.

(** type TLPMarking struct, meta.go:361-365 *)
Definition fs_TLPMarking : list (fmeta * gty) :=
  [(Fmeta "TLP" "tlp" false false, GString "string") (* meta.go:364 *)
  ].
Definition ty_TLPMarking : gty := GStruct "TLPMarking" fs_TLPMarking.

(** type Mutex struct, mutex.go:9-13 *)
Definition fs_Mutex : list (fmeta * gty) :=
  [(Fmeta "STIXCyberObservableObject" "" false true, ty_STIXCyberObservableObject); (* mutex.go:10 *)
   (Fmeta "Name" "name" false false, GString "string") (* mutex.go:12 *)
  ].
Definition ty_Mutex : gty := GStruct "Mutex" fs_Mutex.

(** type NetworkTraffic struct, network.go:23-89 *)
Definition fs_NetworkTraffic : list (fmeta * gty) :=
  [(Fmeta "STIXCyberObservableObject" "" false true, ty_STIXCyberObservableObject); (* network.go:24 *)
   (Fmeta "Start" "start" true false, GPtr (GTime)); (* network.go:27 *)
   (Fmeta "End" "end" true false, GPtr (GTime)); (* network.go:29 *)
   (Fmeta "IsActive" "is_active" true false, GBool); (* network.go:31 *)
   (Fmeta "Src" "src_ref" true false, GString "Identifier"); (* network.go:34 *)
   (Fmeta "Dst" "dst_ref" true false, GString "Identifier"); (* network.go:37 *)
   (Fmeta "SrcPort" "src_port" true false, GInt "int64"); (* network.go:40 *)
   (Fmeta "DstPort" "dst_port" true false, GInt "int64"); (* network.go:43 *)
   (Fmeta "Protocols" "protocols" false false, GSlice (GString "string")); (* network.go:59 *)
   (Fmeta "SrcByteCount" "src_byte_count" true false, GInt "int64"); (* network.go:62 *)
   (Fmeta "DstByteCount" "dst_byte_count" true false, GInt "int64"); (* network.go:65 *)
   (Fmeta "SrcPackets" "src_packets" true false, GInt "int64"); (* network.go:68 *)
   (Fmeta "DstPackets" "dst_packets" true false, GInt "int64"); (* network.go:71 *)
   (Fmeta "IPFIX" "ipfix" true false, GMap "" "string" (GIface)); (* network.go:78 *)
   (Fmeta "SrcPayload" "src_payload_ref" true false, GString "Identifier"); (* network.go:80 *)
   (Fmeta "DstPayload" "dst_payload_ref" true false, GString "Identifier"); (* network.go:82 *)
   (Fmeta "Encapsulates" "encapsulates_refs" true false, GSlice (GString "Identifier")); (* network.go:85 *)
   (Fmeta "Encapsulated" "encapsulated_by_ref" true false, GString "Identifier") (* network.go:88 *)
  ].
Definition ty_NetworkTraffic : gty := GStruct "NetworkTraffic" fs_NetworkTraffic.

(** type HTTPRequestExtension struct, network.go:196-214 *)
Definition fs_HTTPRequestExtension : list (fmeta * gty) :=
  [(Fmeta "Method" "request_method" false false, GString "string"); (* network.go:199 *)
   (Fmeta "Value" "request_value" false false, GString "string"); (* network.go:202 *)
   (Fmeta "HTTPVersion" "request_version" true false, GString "string"); (* network.go:205 *)
   (Fmeta "Header" "request_header" true false, GMap "" "string" (GSlice (GString "string"))); (* network.go:208 *)
   (Fmeta "BodyLength" "message_body_length" true false, GInt "int64"); (* network.go:211 *)
   (Fmeta "Body" "message_body_data_ref" true false, GString "Identifier") (* network.go:213 *)
  ].
Definition ty_HTTPRequestExtension : gty := GStruct "HTTPRequestExtension" fs_HTTPRequestExtension.

(** type ICMPExtension struct, network.go:218-223 *)
Definition fs_ICMPExtension : list (fmeta * gty) :=
  [(Fmeta "Type" "icmp_type_hex" false false, GString "Hex"); (* network.go:220 *)
   (Fmeta "Code" "icmp_code_hex" false false, GString "Hex") (* network.go:222 *)
  ].
Definition ty_ICMPExtension : gty := GStruct "ICMPExtension" fs_ICMPExtension.

(** type SocketExtension struct, network.go:226-251 *)
Definition fs_SocketExtension : list (fmeta * gty) :=
  [(Fmeta "AddressFamily" "address_family" false false, GEnum "SocketAddressFamily"); (* network.go:229 *)
   (Fmeta "IsBlocking" "is_blocking" true false, GBool); (* network.go:231 *)
   (Fmeta "IsListening" "is_listening" false false, GBool); (* network.go:233 *)
   (Fmeta "Options" "options" true false, GMap "" "string" (GInt "int64")); (* network.go:242 *)
   (Fmeta "SocketType" "socket_type" true false, GEnum "SocketType"); (* network.go:244 *)
   (Fmeta "SocketDescriptor" "socket_descriptor" true false, GInt "int64"); (* network.go:247 *)
   (Fmeta "SocketHandle" "socket_handle" true false, GInt "int64") (* network.go:250 *)
  ].
Definition ty_SocketExtension : gty := GStruct "SocketExtension" fs_SocketExtension.

(** type TCPExtension struct, network.go:380-389 *)
Definition fs_TCPExtension : list (fmeta * gty) :=
  [(Fmeta "SrcFlags" "src_flags_hex" true false, GString "Hex"); (* network.go:384 *)
   (Fmeta "DstFlags" "dst_flags_hex" true false, GString "Hex") (* network.go:388 *)
  ].
Definition ty_TCPExtension : gty := GStruct "TCPExtension" fs_TCPExtension.

(** type Note struct, note.go:17-28 *)
Definition fs_Note : list (fmeta * gty) :=
  [(Fmeta "STIXDomainObject" "" false true, ty_STIXDomainObject); (* note.go:18 *)
   (Fmeta "Abstract" "abstract" true false, GString "string"); (* note.go:20 *)
   (Fmeta "Content" "content" false false, GString "string"); (* note.go:22 *)
   (Fmeta "Authors" "authors" true false, GSlice (GString "string")); (* note.go:25 *)
   (Fmeta "Objects" "object_refs" false false, GSlice (GString "Identifier")) (* note.go:27 *)
  ].
Definition ty_Note : gty := GStruct "Note" fs_Note.

(** type STIXRelationshipObject struct, object.go:36-118 *)
Definition fs_STIXRelationshipObject : list (fmeta * gty) :=
  [(Fmeta "Type" "type" false false, GString "STIXType"); (* object.go:39 *)
   (Fmeta "ID" "id" false false, GString "Identifier"); (* object.go:44 *)
   (Fmeta "SpecVersion" "spec_version" false false, GString "string"); (* object.go:46 *)
   (Fmeta "CreatedBy" "created_by_ref" true false, GString "Identifier"); (* object.go:51 *)
   (Fmeta "Created" "created" false false, GPtr (GTime)); (* object.go:58 *)
   (Fmeta "Modified" "modified" false false, GPtr (GTime)); (* object.go:69 *)
   (Fmeta "Revoked" "revoked" true false, GBool); (* object.go:75 *)
   (Fmeta "Labels" "labels" true false, GSlice (GString "string")); (* object.go:85 *)
   (Fmeta "Confidence" "confidence" true false, GInt "int"); (* object.go:89 *)
   (Fmeta "Lang" "lang" true false, GString "string"); (* object.go:95 *)
   (Fmeta "ExternalReferences" "external_references" true false, GSlice (GPtr (ty_ExternalReference))); (* object.go:99 *)
   (Fmeta "ObjectMarking" "object_marking_refs" true false, GSlice (GString "Identifier")); (* object.go:106 *)
   (Fmeta "GranularMarking" "granular_markings" true false, GSlice (GPtr (ty_GranularMarking))); (* object.go:113 *)
   (Fmeta "Extensions" "extensions" true false, GExt); (* object.go:115 *)
   (Fmeta "toplevelProperties" "" false false, GPtr (GMap "CustomObject" "string" GIface)) (* object.go:117 *)
  ].
Definition ty_STIXRelationshipObject : gty := GStruct "STIXRelationshipObject" fs_STIXRelationshipObject.

(** type ObservedData struct, observed-data.go:51-80 *)
Definition fs_ObservedData : list (fmeta * gty) :=
  [(Fmeta "STIXDomainObject" "" false true, ty_STIXDomainObject); (* observed-data.go:52 *)
   (Fmeta "FirstObserved" "first_observed" false false, GPtr (GTime)); (* observed-data.go:55 *)
   (Fmeta "LastObserved" "last_observed" false false, GPtr (GTime)); (* observed-data.go:58 *)
   (Fmeta "NumberObserved" "number_observed" false false, GInt "int64"); (* observed-data.go:62 *)
   (Fmeta "Objects" "objects" true false, GMap "" "string" (GPtr (ty_STIXCyberObservableObject))); (* observed-data.go:76 *)
   (Fmeta "ObjectRefs" "object_refs" true false, GSlice (GString "Identifier")) (* observed-data.go:79 *)
  ].
Definition ty_ObservedData : gty := GStruct "ObservedData" fs_ObservedData.

(** type Opinion struct, opinion.go:29-44 *)
Definition fs_Opinion : list (fmeta * gty) :=
  [(Fmeta "STIXDomainObject" "" false true, ty_STIXDomainObject); (* opinion.go:30 *)
   (Fmeta "Explanation" "explanation" true false, GString "string"); (* opinion.go:35 *)
   (Fmeta "Authors" "authors" true false, GSlice (GString "string")); (* opinion.go:38 *)
   (Fmeta "Value" "opinion" false false, GEnum "OpinionValue"); (* opinion.go:41 *)
   (Fmeta "Objects" "object_refs" false false, GSlice (GString "Identifier")) (* opinion.go:43 *)
  ].
Definition ty_Opinion : gty := GStruct "Opinion" fs_Opinion.

(** type Process struct, process.go:13-45 *)
Definition fs_Process : list (fmeta * gty) :=
  [(Fmeta "STIXCyberObservableObject" "" false true, ty_STIXCyberObservableObject); (* process.go:14 *)
   (Fmeta "IsHidden" "is_hidden" true false, GBool); (* process.go:16 *)
   (Fmeta "PID" "pid" true false, GInt "int64"); (* process.go:18 *)
   (Fmeta "CreatedTime" "created_time" true false, GPtr (GTime)); (* process.go:20 *)
   (Fmeta "Cwd" "cwd" true false, GString "string"); (* process.go:22 *)
   (Fmeta "CommandLine" "command_line" true false, GString "string"); (* process.go:26 *)
   (Fmeta "EnvVars" "environment_variables" true false, GMap "" "string" (GString "string")); (* process.go:29 *)
   (Fmeta "OpenedConnections" "opened_connection_refs" true false, GSlice (GString "Identifier")); (* process.go:32 *)
   (Fmeta "CreatorUser" "creator_user_ref" true false, GString "Identifier"); (* process.go:35 *)
   (Fmeta "Image" "image_ref" true false, GString "Identifier"); (* process.go:38 *)
   (Fmeta "Parent" "parent_ref" true false, GString "Identifier"); (* process.go:41 *)
   (Fmeta "Child" "child_refs" true false, GSlice (GString "Identifier")) (* process.go:44 *)
  ].
Definition ty_Process : gty := GStruct "Process" fs_Process.

(** type WindowsProcessExtension struct, process.go:88-112 *)
Definition fs_WindowsProcessExtension : list (fmeta * gty) :=
  [(Fmeta "ASLR" "aslr_enabled" true false, GBool); (* process.go:91 *)
   (Fmeta "DEP" "dep_enabled" true false, GBool); (* process.go:94 *)
   (Fmeta "Priority" "priority" true false, GString "string"); (* process.go:97 *)
   (Fmeta "OwnerSID" "owner_sid" true false, GString "string"); (* process.go:100 *)
   (Fmeta "WindowTitle" "window_title" true false, GString "string"); (* process.go:102 *)
   (Fmeta "StartupInfo" "startup_info" true false, GMap "" "string" (GIface)); (* process.go:108 *)
   (Fmeta "IntegrityLevel" "integrity_level" true false, GEnum "WindowsIntegrityLevel") (* process.go:111 *)
  ].
Definition ty_WindowsProcessExtension : gty := GStruct "WindowsProcessExtension" fs_WindowsProcessExtension.

(** type WindowsServiceExtension struct, process.go:168-188 *)
Definition fs_WindowsServiceExtension : list (fmeta * gty) :=
  [(Fmeta "Name" "service_name" true false, GString "string"); (* process.go:170 *)
   (Fmeta "Descriptions" "descriptions" true false, GSlice (GString "string")); (* process.go:172 *)
   (Fmeta "DisplayName" "display_name" true false, GString "string"); (* process.go:175 *)
   (Fmeta "GroupName" "group_name" true false, GString "string"); (* process.go:178 *)
   (Fmeta "StartType" "start_type" true false, GEnum "WindowsServiceStartType"); (* process.go:180 *)
   (Fmeta "ServiceDLL" "service_dll_refs" true false, GSlice (GString "Identifier")); (* process.go:183 *)
   (Fmeta "ServiceType" "service_type" true false, GEnum "WindowsServiceType"); (* process.go:185 *)
   (Fmeta "ServiceStatus" "service_status" true false, GEnum "WindowsServiceStatusType") (* process.go:187 *)
  ].
Definition ty_WindowsServiceExtension : gty := GStruct "WindowsServiceExtension" fs_WindowsServiceExtension.

(** type RegistryValue struct, regkey.go:68-77 *)
Definition fs_RegistryValue : list (fmeta * gty) :=
  [(Fmeta "Name" "name" true false, GString "string"); (* regkey.go:71 *)
   (Fmeta "Data" "data" true false, GString "string"); (* regkey.go:73 *)
   (Fmeta "DataType" "data_type" true false, GEnum "RegistryDataType") (* regkey.go:76 *)
  ].
Definition ty_RegistryValue : gty := GStruct "RegistryValue" fs_RegistryValue.

(** type RegistryKey struct, regkey.go:14-32 *)
Definition fs_RegistryKey : list (fmeta * gty) :=
  [(Fmeta "STIXCyberObservableObject" "" false true, ty_STIXCyberObservableObject); (* regkey.go:15 *)
   (Fmeta "Key" "key" true false, GString "string"); (* regkey.go:20 *)
   (Fmeta "Values" "values" true false, GSlice (GPtr (ty_RegistryValue))); (* regkey.go:22 *)
   (Fmeta "ModifiedTime" "modified_time" true false, GPtr (GTime)); (* regkey.go:25 *)
   (Fmeta "CreatorUser" "creator_user_ref" true false, GString "Identifier"); (* regkey.go:28 *)
   (Fmeta "NumberOfSubkeys" "number_of_subkeys" true false, GInt "int64") (* regkey.go:31 *)
  ].
Definition ty_RegistryKey : gty := GStruct "RegistryKey" fs_RegistryKey.

(** type Relationship struct, relationship.go:25-61 *)
Definition fs_Relationship : list (fmeta * gty) :=
  [(Fmeta "STIXRelationshipObject" "" false true, ty_STIXRelationshipObject); (* relationship.go:26 *)
   (Fmeta "RelationshipType" "relationship_type" false false, GString "RelationshipType"); (* relationship.go:31 *)
   (Fmeta "Description" "description" true false, GString "string"); (* relationship.go:35 *)
   (Fmeta "Source" "source_ref" false false, GString "Identifier"); (* relationship.go:39 *)
   (Fmeta "Target" "target_ref" false false, GString "Identifier"); (* relationship.go:43 *)
   (Fmeta "StartTime" "start_time" true false, GPtr (GTime)); (* relationship.go:51 *)
   (Fmeta "StopTime" "stop_time" true false, GPtr (GTime)) (* relationship.go:60 *)
  ].
Definition ty_Relationship : gty := GStruct "Relationship" fs_Relationship.

(** type Report struct, report.go:21-36 *)
Definition fs_Report : list (fmeta * gty) :=
  [(Fmeta "STIXDomainObject" "" false true, ty_STIXDomainObject); (* report.go:22 *)
   (Fmeta "Name" "name" false false, GString "string"); (* report.go:24 *)
   (Fmeta "Description" "description" true false, GString "string"); (* report.go:27 *)
   (Fmeta "Types" "report_types" true false, GSlice (GString "string")); (* report.go:30 *)
   (Fmeta "Published" "published" false false, GPtr (GTime)); (* report.go:33 *)
   (Fmeta "Objects" "object_refs" false false, GSlice (GString "Identifier")) (* report.go:35 *)
  ].
Definition ty_Report : gty := GStruct "Report" fs_Report.

(** type Sighting struct, sighting.go:47-99 *)
Definition fs_Sighting : list (fmeta * gty) :=
  [(Fmeta "STIXRelationshipObject" "" false true, ty_STIXRelationshipObject); (* sighting.go:48 *)
   (Fmeta "Description" "description" true false, GString "string"); (* sighting.go:50 *)
   (Fmeta "FirstSeen" "first_seen" true false, GPtr (GTime)); (* sighting.go:53 *)
   (Fmeta "LastSeen" "last_seen" true false, GPtr (GTime)); (* sighting.go:58 *)
   (Fmeta "Count" "count" true false, GInt "int64"); (* sighting.go:70 *)
   (Fmeta "SightingOf" "sighting_of_ref" false false, GString "Identifier"); (* sighting.go:80 *)
   (Fmeta "ObservedData" "observed_data_refs" true false, GSlice (GString "Identifier")); (* sighting.go:86 *)
   (Fmeta "WhereSighted" "where_sighted_refs" true false, GSlice (GString "Identifier")); (* sighting.go:94 *)
   (Fmeta "Summary" "summary" true false, GBool) (* sighting.go:98 *)
  ].
Definition ty_Sighting : gty := GStruct "Sighting" fs_Sighting.

(** type Software struct, software.go:13-32 *)
Definition fs_Software : list (fmeta * gty) :=
  [(Fmeta "STIXCyberObservableObject" "" false true, ty_STIXCyberObservableObject); (* software.go:14 *)
   (Fmeta "Name" "name" false false, GString "string"); (* software.go:16 *)
   (Fmeta "CPE" "cpe" true false, GString "string"); (* software.go:20 *)
   (Fmeta "SWID" "swid" true false, GString "string"); (* software.go:24 *)
   (Fmeta "Languages" "languages" true false, GSlice (GString "string")); (* software.go:27 *)
   (Fmeta "Vendor" "vendor" true false, GString "string"); (* software.go:29 *)
   (Fmeta "Version" "version" true false, GString "string") (* software.go:31 *)
  ].
Definition ty_Software : gty := GStruct "Software" fs_Software.

(** type ThreatActor struct, threat-actor.go:17-74 *)
Definition fs_ThreatActor : list (fmeta * gty) :=
  [(Fmeta "STIXDomainObject" "" false true, ty_STIXDomainObject); (* threat-actor.go:18 *)
   (Fmeta "Name" "name" false false, GString "string"); (* threat-actor.go:20 *)
   (Fmeta "Description" "description" true false, GString "string"); (* threat-actor.go:23 *)
   (Fmeta "Types" "threat_actor_types" true false, GSlice (GString "string")); (* threat-actor.go:25 *)
   (Fmeta "Aliases" "aliases" true false, GSlice (GString "string")); (* threat-actor.go:28 *)
   (Fmeta "FirstSeen" "first_seen" true false, GPtr (GTime)); (* threat-actor.go:30 *)
   (Fmeta "LastSeen" "last_seen" true false, GPtr (GTime)); (* threat-actor.go:32 *)
   (Fmeta "Roles" "roles" true false, GSlice (GString "string")); (* threat-actor.go:34 *)
   (Fmeta "Goals" "goals" true false, GSlice (GString "string")); (* threat-actor.go:40 *)
   (Fmeta "Sophistication" "sophistication" true false, GString "string"); (* threat-actor.go:43 *)
   (Fmeta "ResourceLevel" "resource_level" true false, GString "string"); (* threat-actor.go:49 *)
   (Fmeta "PrimaryMotivation" "primary_motivation" true false, GString "string"); (* threat-actor.go:53 *)
   (Fmeta "SecondaryMotivations" "secondary_motivations" true false, GSlice (GString "string")); (* threat-actor.go:59 *)
   (Fmeta "PersonalMotivations" "personal_motivations" true false, GSlice (GString "string")) (* threat-actor.go:73 *)
  ].
Definition ty_ThreatActor : gty := GStruct "ThreatActor" fs_ThreatActor.

(** type Tool struct, tool.go:24-40 *)
Definition fs_Tool : list (fmeta * gty) :=
  [(Fmeta "STIXDomainObject" "" false true, ty_STIXDomainObject); (* tool.go:25 *)
   (Fmeta "Name" "name" false false, GString "string"); (* tool.go:27 *)
   (Fmeta "Description" "description" true false, GString "string"); (* tool.go:30 *)
   (Fmeta "Types" "tool_types" true false, GSlice (GString "string")); (* tool.go:32 *)
   (Fmeta "Aliases" "aliases" true false, GSlice (GString "string")); (* tool.go:34 *)
   (Fmeta "KillChainPhase" "kill_chain_phases" true false, GSlice (GPtr (ty_KillChainPhase))); (* tool.go:37 *)
   (Fmeta "Version" "tool_version" true false, GString "string") (* tool.go:39 *)
  ].
Definition ty_Tool : gty := GStruct "Tool" fs_Tool.

(** type URL struct, url.go:9-15 *)
Definition fs_URL : list (fmeta * gty) :=
  [(Fmeta "STIXCyberObservableObject" "" false true, ty_STIXCyberObservableObject); (* url.go:10 *)
   (Fmeta "Value" "value" false false, GString "string") (* url.go:14 *)
  ].
Definition ty_URL : gty := GStruct "URL" fs_URL.

(** type UserAccount struct, user.go:16-65 *)
Definition fs_UserAccount : list (fmeta * gty) :=
  [(Fmeta "STIXCyberObservableObject" "" false true, ty_STIXCyberObservableObject); (* user.go:17 *)
   (Fmeta "UserID" "user_id" true false, GString "string"); (* user.go:24 *)
   (Fmeta "Credential" "credential" true false, GString "string"); (* user.go:29 *)
   (Fmeta "AccountLogin" "account_login" true false, GString "string"); (* user.go:36 *)
   (Fmeta "AccountType" "account_type" true false, GString "string"); (* user.go:38 *)
   (Fmeta "DisplayName" "display_name" true false, GString "string"); (* user.go:41 *)
   (Fmeta "IsServiceAccount" "is_service_account" true false, GBool); (* user.go:44 *)
   (Fmeta "IsPrivileged" "is_privileged" true false, GBool); (* user.go:47 *)
   (Fmeta "CanEscalatePrivs" "can_escalate_privs" true false, GBool); (* user.go:51 *)
   (Fmeta "IsDisabled" "is_disabled" true false, GBool); (* user.go:53 *)
   (Fmeta "AccountCreated" "account_created" true false, GPtr (GTime)); (* user.go:55 *)
   (Fmeta "AccountExpires" "account_expires" true false, GPtr (GTime)); (* user.go:57 *)
   (Fmeta "CredentialLastChanged" "credential_last_changed" true false, GPtr (GTime)); (* user.go:60 *)
   (Fmeta "AccountFirstLogin" "account_first_login" true false, GPtr (GTime)); (* user.go:62 *)
   (Fmeta "AccountLastLogin" "account_last_login" true false, GPtr (GTime)) (* user.go:64 *)
  ].
Definition ty_UserAccount : gty := GStruct "UserAccount" fs_UserAccount.

(** type UNIXAccountExtension struct, user.go:134-144 *)
Definition fs_UNIXAccountExtension : list (fmeta * gty) :=
  [(Fmeta "GID" "gid" true false, GInt "int64"); (* user.go:136 *)
   (Fmeta "Groups" "groups" true false, GSlice (GString "string")); (* user.go:139 *)
   (Fmeta "Home" "home_dir" true false, GString "string"); (* user.go:141 *)
   (Fmeta "Shell" "shell" true false, GString "string") (* user.go:143 *)
  ].
Definition ty_UNIXAccountExtension : gty := GStruct "UNIXAccountExtension" fs_UNIXAccountExtension.

(** type Vulnerability struct, vulnerability.go:20-27 *)
Definition fs_Vulnerability : list (fmeta * gty) :=
  [(Fmeta "STIXDomainObject" "" false true, ty_STIXDomainObject); (* vulnerability.go:21 *)
   (Fmeta "Name" "name" false false, GString "string"); (* vulnerability.go:23 *)
   (Fmeta "Description" "description" true false, GString "string") (* vulnerability.go:26 *)
  ].
Definition ty_Vulnerability : gty := GStruct "Vulnerability" fs_Vulnerability.

(** type X509v3Extension struct, x509.go:88-158 *)
Definition fs_X509v3Extension : list (fmeta * gty) :=
  [(Fmeta "BasicConstraints" "basic_constraints" true false, GString "string"); (* x509.go:94 *)
   (Fmeta "NameConstraints" "name_constraints" true false, GString "string"); (* x509.go:98 *)
   (Fmeta "PolicyConstraints" "policy_constraints" true false, GString "string"); (* x509.go:102 *)
   (Fmeta "KeyUsage" "key_usage" true false, GString "string"); (* x509.go:106 *)
   (Fmeta "ExtendedKeyUsage" "extended_key_usage" true false, GString "string"); (* x509.go:110 *)
   (Fmeta "SubjectKeyIdentifier" "subject_key_identifier" true false, GString "string"); (* x509.go:114 *)
   (Fmeta "AuthorityKeyIdentifier" "authority_key_identifier" true false, GString "string"); (* x509.go:119 *)
   (Fmeta "SubjectAltName" "subject_alternative_name" true false, GString "string"); (* x509.go:123 *)
   (Fmeta "IssuerAltName" "issuer_alternative_name" true false, GString "string"); (* x509.go:127 *)
   (Fmeta "SubjectDirectoryAttributes" "subject_directory_attributes" true false, GString "string"); (* x509.go:131 *)
   (Fmeta "CRLDistributionPoints" "crl_distribution_points" true false, GString "string"); (* x509.go:134 *)
   (Fmeta "InhibitAnyPolicy" "inhibit_any_policy" true false, GString "string"); (* x509.go:138 *)
   (Fmeta "PrivateKeyUsagePeriodNotBefore" "private_key_usage_period_not_before" true false, GPtr (GTime)); (* x509.go:142 *)
   (Fmeta "PrivateKeyUsagePeriodNotAfter" "private_key_usage_period_not_after" true false, GPtr (GTime)); (* x509.go:146 *)
   (Fmeta "CertificatePolicies" "certificate_policies" true false, GString "string"); (* x509.go:151 *)
   (Fmeta "PolicyMappings" "policy_mappings" true false, GString "string") (* x509.go:157 *)
  ].
Definition ty_X509v3Extension : gty := GStruct "X509v3Extension" fs_X509v3Extension.

(** type X509Certificate struct, x509.go:15-55 *)
Definition fs_X509Certificate : list (fmeta * gty) :=
  [(Fmeta "STIXCyberObservableObject" "" false true, ty_STIXCyberObservableObject); (* x509.go:16 *)
   (Fmeta "SelfSigned" "is_self_signed" true false, GBool); (* x509.go:19 *)
   (Fmeta "Hashes" "hashes" true false, GMap "Hashes" "HashAlgorithm" (GString "string")); (* x509.go:22 *)
   (Fmeta "Version" "version" true false, GString "string"); (* x509.go:24 *)
   (Fmeta "SerialNumber" "serial_number" true false, GString "string"); (* x509.go:27 *)
   (Fmeta "SignatureAlgorithm" "signature_algorithm" true false, GString "string"); (* x509.go:30 *)
   (Fmeta "Issuer" "issuer" true false, GString "string"); (* x509.go:33 *)
   (Fmeta "ValidityNotBefore" "validity_not_before" true false, GPtr (GTime)); (* x509.go:36 *)
   (Fmeta "ValidityNotAfter" "validity_not_after" true false, GPtr (GTime)); (* x509.go:39 *)
   (Fmeta "Subject" "subject" true false, GString "string"); (* x509.go:42 *)
   (Fmeta "SubjectPublicKeyAlgorithm" "subject_public_key_algorithm" true false, GString "string"); (* x509.go:45 *)
   (Fmeta "SubjectPublicKeyModulus" "subject_public_key_modulus" true false, GString "string"); (* x509.go:48 *)
   (Fmeta "SubjectPublicKeyExponent" "subject_public_key_exponent" true false, GInt "int64"); (* x509.go:51 *)
   (Fmeta "X509v3Extensions" "x509_v3_extensions" true false, ty_X509v3Extension) (* x509.go:54 *)
  ].
Definition ty_X509Certificate : gty := GStruct "X509Certificate" fs_X509Certificate.

(** The type switch of processObjects, stix.go:1012-1095: STIX type, Go type. *)
Definition builtin_types : list (string * gty) :=
  [(TypeAutonomousSystem, ty_AutonomousSystem);
   (TypeArtifact, ty_Artifact);
   (TypeAttackPattern, ty_AttackPattern);
   (TypeCampaign, ty_Campaign);
   (TypeCourseOfAction, ty_CourseOfAction);
   (TypeDirectory, ty_Directory);
   (TypeDomainName, ty_DomainName);
   (TypeEmailAddress, ty_EmailAddress);
   (TypeEmailMessage, ty_EmailMessage);
   (TypeExtensionDefinition, ty_ExtensionDefinition);
   (TypeFile, ty_File);
   (TypeGrouping, ty_Grouping);
   (TypeIncident, ty_Incident);
   (TypeIPv4Addr, ty_IPv4Address);
   (TypeIPv6Addr, ty_IPv6Address);
   (TypeIdentity, ty_Identity);
   (TypeIndicator, ty_Indicator);
   (TypeInfrastructure, ty_Infrastructure);
   (TypeIntrusionSet, ty_IntrusionSet);
   (TypeLanguageContent, ty_LanguageContent);
   (TypeLocation, ty_Location);
   (TypeMACAddress, ty_MACAddress);
   (TypeMalware, ty_Malware);
   (TypeMalwareAnalysis, ty_MalwareAnalysis);
   (TypeMarkingDefinition, ty_MarkingDefinition);
   (TypeMutex, ty_Mutex);
   (TypeNetworkTraffic, ty_NetworkTraffic);
   (TypeNote, ty_Note);
   (TypeObservedData, ty_ObservedData);
   (TypeOpinion, ty_Opinion);
   (TypeProcess, ty_Process);
   (TypeRegistryKey, ty_RegistryKey);
   (TypeRelationship, ty_Relationship);
   (TypeReport, ty_Report);
   (TypeSighting, ty_Sighting);
   (TypeSoftware, ty_Software);
   (TypeThreatActor, ty_ThreatActor);
   (TypeTool, ty_Tool);
   (TypeURL, ty_URL);
   (TypeUserAccount, ty_UserAccount);
   (TypeVulnerability, ty_Vulnerability);
   (TypeX509Certificate, ty_X509Certificate)].

(** Go types whose MarshalJSON is marshalToJSONHelper (one-line methods in the object files). *)
Definition helper_types : list string :=
  ["Artifact";
   "AttackPattern";
   "AutonomousSystem";
   "Campaign";
   "CourseOfAction";
   "Directory";
   "DomainName";
   "EmailAddress";
   "EmailMessage";
   "File";
   "Grouping";
   "IPv4Address";
   "IPv6Address";
   "Identity";
   "Incident";
   "Indicator";
   "Infrastructure";
   "IntrusionSet";
   "LanguageContent";
   "Location";
   "MACAddress";
   "Malware";
   "MalwareAnalysis";
   "MarkingDefinition";
   "Mutex";
   "NetworkTraffic";
   "Note";
   "ObservedData";
   "Opinion";
   "Process";
   "RegistryKey";
   "Relationship";
   "Report";
   "Sighting";
   "Software";
   "ThreatActor";
   "Tool";
   "URL";
   "UserAccount";
   "Vulnerability";
   "X509Certificate"].

(** Types with a method addCustomProperties of their own (stix.go:31-33); embedding promotes it. *)
Definition custom_prop_types : list string :=
  ["LanguageContent"; "MarkingDefinition"; "STIXCyberObservableObject"; "STIXDomainObject"; "STIXRelationshipObject"].
