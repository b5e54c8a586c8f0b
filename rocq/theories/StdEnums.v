(** Specification only (models no code): the enumerations of the STIX 2.1
    standard (section 10, the vocabularies with suffix -enum), with the constant
    of the library that stands for each term. *)
From Verif Require Import GoStr.

Definition std_enums : list (string * list (string * string)) :=
  [(* encryption-algorithm-enum *)
   ("EncryptionAlgorithm",
    [("EncryptionAlgorithmAES256GCM", "AES-256-GCM"); ("EncryptionAlgorithmChaCha20Poly1305", "ChaCha20-Poly1305");
     ("EncryptionAlgorithmMimeTypeIndicated", "mime-type-indicated")]);
   (* extension-type-enum *)
   ("ExtensionType",
    [("ExtensionTypeNewSDO", "new-sdo"); ("ExtensionTypeNewSCO", "new-sco"); ("ExtensionTypeNewSRO", "new-sro");
     ("ExtensionTypePropertyExtension", "property-extension"); ("ExtensionTypeToplevelPropertyExtension", "toplevel-property-extension")]);
   (* network-socket-address-family-enum *)
   ("SocketAddressFamily",
    [("SocketFamilyUNSPEC", "AF_UNSPEC"); ("SocketFamilyINET", "AF_INET"); ("SocketFamilyIPX", "AF_IPX"); ("SocketFamilyAPPLETALK", "AF_APPLETALK");
     ("SocketFamilyNETBIOS", "AF_NETBIOS"); ("SocketFamilyINET6", "AF_INET6"); ("SocketFamilyIRDA", "AF_IRDA"); ("SocketFamilyBTH", "AF_BTH")]);
   (* network-socket-type-enum *)
   ("SocketType",
    [("SocketTypeStream", "SOCK_STREAM"); ("SocketTypeDgram", "SOCK_DGRAM"); ("SocketTypeRaw", "SOCK_RAW"); ("SocketTypeRdm", "SOCK_RDM");
     ("SocketTypeSeqpacket", "SOCK_SEQPACKET")]);
   (* opinion-enum *)
   ("OpinionValue",
    [("OpinionStronglyAgree", "strongly-agree"); ("OpinionAgree", "agree"); ("OpinionNeutral", "neutral"); ("OpinionDisagree", "disagree");
     ("OpinionStronglyDisagree", "strongly-disagree")]);
   (* windows-integrity-level-enum *)
   ("WindowsIntegrityLevel",
    [("IntegrityLevelLow", "low"); ("IntegrityLevelMedium", "medium"); ("IntegrityLevelHigh", "high"); ("IntegrityLevelSystem", "system")]);
   (* windows-service-start-type-enum *)
   ("WindowsServiceStartType",
    [("ServiceStartAuto", "SERVICE_AUTO_START"); ("ServiceStartBoot", "SERVICE_BOOT_START"); ("ServiceStartDemand", "SERVICE_DEMAND_START");
     ("ServiceStartDisabled", "SERVICE_DISABLED"); ("ServiceStartSystem", "SERVICE_SYSTEM_ALERT")]);
   (* windows-service-type-enum *)
   ("WindowsServiceType",
    [("ServiceKernelDriver", "SERVICE_KERNEL_DRIVER"); ("ServiceFileSystemDriver", "SERVICE_FILE_SYSTEM_DRIVER");
     ("ServiceWin32OwnProcess", "SERVICE_WIN32_OWN_PROCESS"); ("ServiceWin32ShareProcess", "SERVICE_WIN32_SHARE_PROCESS")]);
   (* windows-service-status-enum *)
   ("WindowsServiceStatusType",
    [("ServiceStatusContinuePending", "SERVICE_CONTINUE_PENDING"); ("ServiceStatusPausePending", "SERVICE_PAUSE_PENDING"); ("ServiceStatusPaused", "SERVICE_PAUSED");
     ("ServiceStatusRunning", "SERVICE_RUNNING"); ("ServiceStatusStartPending", "SERVICE_START_PENDING"); ("ServiceStatusStopPending", "SERVICE_STOP_PENDING");
     ("ServiceStatusStopped", "SERVICE_STOPPED")]);
   (* windows-registry-datatype-enum *)
   ("RegistryDataType",
    [("RegNone", "REG_NONE"); ("RegSz", "REG_SZ"); ("RegExpandSz", "REG_EXPAND_SZ"); ("RegBinary", "REG_BINARY"); ("RegDword", "REG_DWORD");
     ("RegDwordBigEndian", "REG_DWORD_BIG_ENDIAN"); ("RegDwordLittleEndian", "REG_DWORD_LITTLE_ENDIAN"); ("RegLink", "REG_LINK"); ("RegMultiSz", "REG_MULTI_SZ");
     ("RegResourceList", "REG_RESOURCE_LIST"); ("RegFullResourceDescription", "REG_FULL_RESOURCE_DESCRIPTION");
     ("RegResourceRequirementsList", "REG_RESOURCE_REQUIREMENTS_LIST"); ("RegQword", "REG_QWORD"); ("RegInvalidType", "REG_INVALID_TYPE")])].

(** The properties with enumerated values: object type, extension or nested
    type; property; the enumeration; whether it is a list. *)
Definition std_enum_props : list (string * string * string * bool) :=
  [("artifact", "encryption_algorithm", "EncryptionAlgorithm", false);
   ("extension-definition", "extension_types", "ExtensionType", true);
   ("socket-ext", "address_family", "SocketAddressFamily", false);
   ("socket-ext", "socket_type", "SocketType", false);
   ("opinion", "opinion", "OpinionValue", false);
   ("windows-process-ext", "integrity_level", "WindowsIntegrityLevel", false);
   ("windows-service-ext", "start_type", "WindowsServiceStartType", false);
   ("windows-service-ext", "service_type", "WindowsServiceType", false);
   ("windows-service-ext", "service_status", "WindowsServiceStatusType", false);
   ("windows-registry-value-type", "data_type", "RegistryDataType", false)].
