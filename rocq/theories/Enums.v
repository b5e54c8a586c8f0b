(** Generated by tools/gen_schema.py from /repo: the JSON enumerations.
    Each table is the Go map from enumeration value to JSON name. *)
From Verif Require Import GoStr.

(** type EncryptionAlgorithm, artifact.go:81; constants artifact.go:106-120; names artifact.go:122-127 *)
Definition map_EncryptionAlgorithm : list (N * string) :=
  [(0, "");
   (1, "AES-256-GCM");
   (2, "ChaCha20-Poly1305");
   (3, "mime-type-indicated")]%N.

(** type ExtensionType, extension.go:226; constants extension.go:257-274; names extension.go:276-283 *)
Definition map_ExtensionType : list (N * string) :=
  [(0, "");
   (1, "new-sdo");
   (2, "new-sco");
   (3, "new-sro");
   (4, "property-extension");
   (5, "toplevel-property-extension")]%N.

(** type SocketAddressFamily, network.go:254; constants network.go:283-303; names network.go:305-315 *)
Definition map_SocketAddressFamily : list (N * string) :=
  [(0, "");
   (1, "AF_UNSPEC");
   (2, "AF_INET");
   (3, "AF_IPX");
   (4, "AF_APPLETALK");
   (5, "AF_NETBIOS");
   (6, "AF_INET6");
   (7, "AF_IRDA");
   (8, "AF_BTH")]%N.

(** type SocketType, network.go:318; constants network.go:347-367; names network.go:369-376 *)
Definition map_SocketType : list (N * string) :=
  [(0, "");
   (1, "SOCK_STREAM");
   (2, "SOCK_DGRAM");
   (3, "SOCK_RAW");
   (4, "SOCK_RDM");
   (5, "SOCK_SEQPACKET")]%N.

(** type OpinionValue, opinion.go:70; constants opinion.go:72-88; names opinion.go:90-96 *)
Definition map_OpinionValue : list (N * string) :=
  [(1, "strongly-disagree");
   (2, "disagree");
   (3, "neutral");
   (4, "agree");
   (5, "strongly-agree")]%N.

(** type WindowsIntegrityLevel, process.go:116; constants process.go:145-156; names process.go:158-164 *)
Definition map_WindowsIntegrityLevel : list (N * string) :=
  [(0, "");
   (1, "low");
   (2, "medium");
   (3, "high");
   (4, "system")]%N.

(** type WindowsServiceStartType, process.go:191; constants process.go:220-238; names process.go:240-247 *)
Definition map_WindowsServiceStartType : list (N * string) :=
  [(0, "");
   (1, "SERVICE_AUTO_START");
   (2, "SERVICE_BOOT_START");
   (3, "SERVICE_DEMAND_START");
   (4, "SERVICE_DISABLED");
   (5, "SERVICE_SYSTEM_ALERT")]%N.

(** type WindowsServiceType, process.go:250; constants process.go:279-290; names process.go:292-298 *)
Definition map_WindowsServiceType : list (N * string) :=
  [(0, "");
   (1, "SERVICE_KERNEL_DRIVER");
   (2, "SERVICE_FILE_SYSTEM_DRIVER");
   (3, "SERVICE_WIN32_OWN_PROCESS");
   (4, "SERVICE_WIN32_SHARE_PROCESS")]%N.

(** type WindowsServiceStatusType, process.go:301; constants process.go:330-347; names process.go:349-358 *)
Definition map_WindowsServiceStatusType : list (N * string) :=
  [(0, "");
   (1, "SERVICE_CONTINUE_PENDING");
   (2, "SERVICE_PAUSE_PENDING");
   (3, "SERVICE_PAUSED");
   (4, "SERVICE_RUNNING");
   (5, "SERVICE_START_PENDING");
   (6, "SERVICE_STOP_PENDING");
   (7, "SERVICE_STOPPED")]%N.

(** type RegistryDataType, regkey.go:94; constants regkey.go:123-168; names regkey.go:170-186 *)
Definition map_RegistryDataType : list (N * string) :=
  [(0, "");
   (1, "REG_NONE");
   (2, "REG_SZ");
   (3, "REG_EXPAND_SZ");
   (4, "REG_BINARY");
   (5, "REG_DWORD");
   (6, "REG_DWORD_BIG_ENDIAN");
   (7, "REG_DWORD_LITTLE_ENDIAN");
   (8, "REG_LINK");
   (9, "REG_MULTI_SZ");
   (10, "REG_RESOURCE_LIST");
   (11, "REG_FULL_RESOURCE_DESCRIPTION");
   (12, "REG_RESOURCE_REQUIREMENTS_LIST");
   (13, "REG_QWORD");
   (14, "REG_INVALID_TYPE")]%N.

Definition enum_table : list (string * list (N * string)) :=
  [("EncryptionAlgorithm", map_EncryptionAlgorithm);
   ("ExtensionType", map_ExtensionType);
   ("SocketAddressFamily", map_SocketAddressFamily);
   ("SocketType", map_SocketType);
   ("OpinionValue", map_OpinionValue);
   ("WindowsIntegrityLevel", map_WindowsIntegrityLevel);
   ("WindowsServiceStartType", map_WindowsServiceStartType);
   ("WindowsServiceType", map_WindowsServiceType);
   ("WindowsServiceStatusType", map_WindowsServiceStatusType);
   ("RegistryDataType", map_RegistryDataType)].


(** the names of the declared constants *)
Definition enum_consts : list (string * list (string * N)) :=
  [("EncryptionAlgorithm", [("EncryptionAlgorithmNone", 0); ("EncryptionAlgorithmAES256GCM", 1); ("EncryptionAlgorithmChaCha20Poly1305", 2); ("EncryptionAlgorithmMimeTypeIndicated", 3)]);
   ("ExtensionType", [("ExtensionTypeInvalid", 0); ("ExtensionTypeNewSDO", 1); ("ExtensionTypeNewSCO", 2); ("ExtensionTypeNewSRO", 3); ("ExtensionTypePropertyExtension", 4); ("ExtensionTypeToplevelPropertyExtension", 5)]);
   ("SocketAddressFamily", [("SocketFamilyUnknownValue", 0); ("SocketFamilyUNSPEC", 1); ("SocketFamilyINET", 2); ("SocketFamilyIPX", 3); ("SocketFamilyAPPLETALK", 4); ("SocketFamilyNETBIOS", 5); ("SocketFamilyINET6", 6); ("SocketFamilyIRDA", 7); ("SocketFamilyBTH", 8)]);
   ("SocketType", [("SocketTypeUnknown", 0); ("SocketTypeStream", 1); ("SocketTypeDgram", 2); ("SocketTypeRaw", 3); ("SocketTypeRdm", 4); ("SocketTypeSeqpacket", 5)]);
   ("OpinionValue", [("OpinionStronglyDisagree", 1); ("OpinionDisagree", 2); ("OpinionNeutral", 3); ("OpinionAgree", 4); ("OpinionStronglyAgree", 5)]);
   ("WindowsIntegrityLevel", [("IntegrityLevelUnknown", 0); ("IntegrityLevelLow", 1); ("IntegrityLevelMedium", 2); ("IntegrityLevelHigh", 3); ("IntegrityLevelSystem", 4)]);
   ("WindowsServiceStartType", [("ServiceStartUnknown", 0); ("ServiceStartAuto", 1); ("ServiceStartBoot", 2); ("ServiceStartDemand", 3); ("ServiceStartDisabled", 4); ("ServiceStartSystem", 5)]);
   ("WindowsServiceType", [("ServiceUnknown", 0); ("ServiceKernelDriver", 1); ("ServiceFileSystemDriver", 2); ("ServiceWin32OwnProcess", 3); ("ServiceWin32ShareProcess", 4)]);
   ("WindowsServiceStatusType", [("ServiceStatusUnknown", 0); ("ServiceStatusContinuePending", 1); ("ServiceStatusPausePending", 2); ("ServiceStatusPaused", 3); ("ServiceStatusRunning", 4); ("ServiceStatusStartPending", 5); ("ServiceStatusStopPending", 6); ("ServiceStatusStopped", 7)]);
   ("RegistryDataType", [("RegUnknownValue", 0); ("RegNone", 1); ("RegSz", 2); ("RegExpandSz", 3); ("RegBinary", 4); ("RegDword", 5); ("RegDwordBigEndian", 6); ("RegDwordLittleEndian", 7); ("RegLink", 8); ("RegMultiSz", 9); ("RegResourceList", 10); ("RegFullResourceDescription", 11); ("RegResourceRequirementsList", 12); ("RegQword", 13); ("RegInvalidType", 14)])]%N.
