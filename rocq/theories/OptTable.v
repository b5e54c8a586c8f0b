(** Generated by tools/gen_schema.py from /repo/option.go: the option constructors. *)
From Verif Require Import GoStr Consts GoTypes Schema.

(** An option constructor: its name, the field it sets, the type of its argument,
    the kind it passes to setField, and the object types its comment names
    (option.go:14-1448). *)
Record optrow := OptRow { or_name : string; or_field : string; or_ty : gty; or_kind : gkind; or_docs : list string }.

(** name, field and kind passed to setField, type of the value, object types named in the doc comment *)
Definition option_table : list optrow :=
  [OptRow "OptionSpecVersion" "SpecVersion" (GString "string") KString ["AttackPattern"; "Campaign"; "CourseOfAction"; "Grouping"; "Incident"; "Identity"; "Indicator"; "Infrastructure"; "IntrusionSet"; "Location"; "Malware"; "MalwareAnalysis"; "Note"; "ObservedData"; "Opinion"; "Report"; "ThreatActor"; "Tool"; "Vulnerability"; "Relationship"; "Sighting"; "LanguageContent"; "MarkingDefinition"; "Bundle"]; (* option.go:25 *)
   OptRow "OptionCreatedBy" "CreatedBy" (GString "Identifier") KString ["AttackPattern"; "Campaign"; "CourseOfAction"; "Grouping"; "Incident"; "Identity"; "Indicator"; "Infrastructure"; "IntrusionSet"; "Location"; "Malware"; "MalwareAnalysis"; "Note"; "ObservedData"; "Opinion"; "Report"; "ThreatActor"; "Tool"; "Vulnerability"; "Relationship"; "Sighting"; "LanguageContent"; "MarkingDefinition"]; (* option.go:36 *)
   OptRow "OptionCreated" "Created" (GPtr (GTime)) KPtr ["AttackPattern"; "Campaign"; "CourseOfAction"; "Grouping"; "Incident"; "Identity"; "Indicator"; "Infrastructure"; "IntrusionSet"; "Location"; "Malware"; "MalwareAnalysis"; "Note"; "ObservedData"; "Opinion"; "Report"; "ThreatActor"; "Tool"; "Vulnerability"; "Relationship"; "Sighting"; "LanguageContent"; "MarkingDefinition"]; (* option.go:47 *)
   OptRow "OptionModified" "Modified" (GPtr (GTime)) KPtr ["AttackPattern"; "Campaign"; "CourseOfAction"; "Grouping"; "Incident"; "Identity"; "Indicator"; "Infrastructure"; "IntrusionSet"; "Location"; "Malware"; "MalwareAnalysis"; "Note"; "ObservedData"; "Opinion"; "Report"; "ThreatActor"; "Tool"; "Vulnerability"; "Relationship"; "Sighting"; "LanguageContent"]; (* option.go:57 *)
   OptRow "OptionRevoked" "Revoked" (GBool) KBool ["AttackPattern"; "Campaign"; "CourseOfAction"; "Grouping"; "Incident"; "Identity"; "Indicator"; "Infrastructure"; "IntrusionSet"; "Location"; "Malware"; "MalwareAnalysis"; "Note"; "ObservedData"; "Opinion"; "Report"; "ThreatActor"; "Tool"; "Vulnerability"; "Relationship"; "Sighting"; "LanguageContent"]; (* option.go:67 *)
   OptRow "OptionLabels" "Labels" (GSlice (GString "string")) KSlice ["AttackPattern"; "Campaign"; "CourseOfAction"; "Grouping"; "Incident"; "Identity"; "Indicator"; "Infrastructure"; "IntrusionSet"; "Location"; "Malware"; "MalwareAnalysis"; "Note"; "ObservedData"; "Opinion"; "Report"; "ThreatActor"; "Tool"; "Vulnerability"; "Relationship"; "Sighting"; "LanguageContent"]; (* option.go:77 *)
   OptRow "OptionConfidence" "Confidence" (GInt "int") KInt ["AttackPattern"; "Campaign"; "CourseOfAction"; "Grouping"; "Incident"; "Identity"; "Indicator"; "Infrastructure"; "IntrusionSet"; "Location"; "Malware"; "MalwareAnalysis"; "Note"; "ObservedData"; "Opinion"; "Report"; "ThreatActor"; "Tool"; "Vulnerability"; "Relationship"; "Sighting"; "LanguageContent"]; (* option.go:87 *)
   OptRow "OptionLang" "Lang" (GString "string") KString ["AttackPattern"; "Campaign"; "CourseOfAction"; "Grouping"; "Incident"; "Identity"; "Indicator"; "Infrastructure"; "IntrusionSet"; "Location"; "Malware"; "MalwareAnalysis"; "Note"; "ObservedData"; "Opinion"; "Report"; "ThreatActor"; "Tool"; "Vulnerability"; "Relationship"; "Sighting"]; (* option.go:96 *)
   OptRow "OptionExternalReferences" "ExternalReferences" (GSlice (GPtr (ty_ExternalReference))) KSlice ["AttackPattern"; "Campaign"; "CourseOfAction"; "Grouping"; "Incident"; "Identity"; "Indicator"; "Infrastructure"; "IntrusionSet"; "Location"; "Malware"; "MalwareAnalysis"; "Note"; "ObservedData"; "Opinion"; "Report"; "ThreatActor"; "Tool"; "Vulnerability"; "Relationship"; "Sighting"; "LanguageContent"; "MarkingDefinition"]; (* option.go:107 *)
   OptRow "OptionObjectMarking" "ObjectMarking" (GSlice (GString "Identifier")) KSlice ["AttackPattern"; "Campaign"; "CourseOfAction"; "Grouping"; "Incident"; "Identity"; "Indicator"; "Infrastructure"; "IntrusionSet"; "Location"; "Malware"; "MalwareAnalysis"; "Note"; "ObservedData"; "Opinion"; "Report"; "ThreatActor"; "Tool"; "Vulnerability"; "AutonomousSystem"; "Artifact"; "Directory"; "DomainName"; "EmailAddress"; "EmailMessage"; "File"; "IPv4Address"; "IPv6Address"; "MACAddress"; "Mutex"; "NetworkTraffic"; "Process"; "RegistryKey"; "Software"; "URL"; "UserAccount"; "X509Certificate"; "Relationship"; "Sighting"; "LanguageContent"; "MarkingDefinition"]; (* option.go:119 *)
   OptRow "OptionGranularMarking" "GranularMarking" (GSlice (GPtr (ty_GranularMarking))) KSlice ["AttackPattern"; "Campaign"; "CourseOfAction"; "Grouping"; "Incident"; "Identity"; "Indicator"; "Infrastructure"; "IntrusionSet"; "Location"; "Malware"; "MalwareAnalysis"; "Note"; "ObservedData"; "Opinion"; "Report"; "ThreatActor"; "Tool"; "Vulnerability"; "AutonomousSystem"; "Artifact"; "Directory"; "DomainName"; "EmailAddress"; "EmailMessage"; "File"; "IPv4Address"; "IPv6Address"; "MACAddress"; "Mutex"; "NetworkTraffic"; "Process"; "RegistryKey"; "Software"; "URL"; "UserAccount"; "X509Certificate"; "Relationship"; "Sighting"; "LanguageContent"; "MarkingDefinition"]; (* option.go:131 *)
   OptRow "OptionDefanged" "Defanged" (GBool) KBool ["AutonomousSystem"; "Artifact"; "Directory"; "DomainName"; "EmailAddress"; "EmailMessage"; "File"; "IPv4Address"; "IPv6Address"; "MACAddress"; "Mutex"; "NetworkTraffic"; "Process"; "RegistryKey"; "Software"; "URL"; "UserAccount"; "X509Certificate"]; (* option.go:139 *)
   OptRow "OptionExtensionProperties" "ExtensionProperties" (GSlice (GString "string")) KSlice ["ExtensionDefinition"]; (* option.go:214 *)
   OptRow "OptionDescription" "Description" (GString "string") KString ["AttackPattern"; "Campaign"; "CourseOfAction"; "Grouping"; "Identity"; "Indicator"; "Infrastructure"; "IntrusionSet"; "Location"; "Malware"; "Report"; "ThreatActor"; "Tool"; "Vulnerability"; "Relationship"; "Sighting"]; (* option.go:241 *)
   OptRow "OptionAliases" "Aliases" (GSlice (GString "string")) KSlice ["AttackPattern"; "Campaign"; "Infrastructure"; "IntrusionSet"; "Malware"; "ThreatActor"; "Tool"]; (* option.go:255 *)
   OptRow "OptionKillChainPhase" "KillChainPhase" (GSlice (GPtr (ty_KillChainPhase))) KSlice ["AttackPattern"; "Indicator"; "Infrastructure"; "Malware"; "Tool"]; (* option.go:267 *)
   OptRow "OptionFirstSeen" "FirstSeen" (GPtr (GTime)) KPtr ["Campaign"; "Infrastructure"; "IntrusionSet"; "Malware"; "ThreatActor"; "Sighting"]; (* option.go:280 *)
   OptRow "OptionLastSeen" "LastSeen" (GPtr (GTime)) KPtr ["Campaign"; "Infrastructure"; "IntrusionSet"; "Malware"; "ThreatActor"; "Sighting"]; (* option.go:293 *)
   OptRow "OptionObjective" "Objective" (GString "string") KString ["Campaign"]; (* option.go:301 *)
   OptRow "OptionName" "Name" (GString "string") KString ["Grouping"; "Indicator"; "Location"; "Malware"; "AutonomousSystem"; "MarkingDefinition"]; (* option.go:314 *)
   OptRow "OptionClass" "Class" (GString "string") KString ["Identity"]; (* option.go:322 *)
   OptRow "OptionRoles" "Roles" (GSlice (GString "string")) KSlice ["Identity"; "ThreatActor"]; (* option.go:331 *)
   OptRow "OptionSectors" "Sectors" (GSlice (GString "string")) KSlice ["Identity"]; (* option.go:339 *)
   OptRow "OptionContactInformation" "ContactInformation" (GString "string") KString ["Identity"]; (* option.go:347 *)
   OptRow "OptionTypes" "Types" (GSlice (GString "string")) KSlice ["Indicator"; "Infrastructure"; "Malware"; "Report"; "ThreatActor"; "Tool"]; (* option.go:360 *)
   OptRow "OptionPatternVersion" "PatternVersion" (GString "string") KString ["Indicator"]; (* option.go:368 *)
   OptRow "OptionValidUntil" "ValidUntil" (GPtr (GTime)) KPtr ["Indicator"]; (* option.go:376 *)
   OptRow "OptionGoals" "Goals" (GSlice (GString "string")) KSlice ["IntrusionSet"; "ThreatActor"]; (* option.go:385 *)
   OptRow "OptionResourceLevel" "ResourceLevel" (GString "string") KString ["IntrusionSet"; "ThreatActor"]; (* option.go:394 *)
   OptRow "OptionPrimaryMotivation" "PrimaryMotivation" (GString "string") KString ["IntrusionSet"; "ThreatActor"]; (* option.go:403 *)
   OptRow "OptionSecondaryMotivations" "SecondaryMotivations" (GSlice (GString "string")) KSlice ["IntrusionSet"; "ThreatActor"]; (* option.go:412 *)
   OptRow "OptionPrecision" "Precision" (GFloat) KFloat64 ["Location"]; (* option.go:420 *)
   OptRow "OptionAdministrativeArea" "AdministrativeArea" (GString "string") KString ["Location"]; (* option.go:428 *)
   OptRow "OptionCity" "City" (GString "string") KString ["Location"]; (* option.go:436 *)
   OptRow "OptionStreetAddress" "StreetAddress" (GString "string") KString ["Location"]; (* option.go:444 *)
   OptRow "OptionPostalCode" "PostalCode" (GString "string") KString ["Location"]; (* option.go:452 *)
   OptRow "OptionOperatingSystems" "OperatingSystems" (GSlice (GString "Identifier")) KSlice ["Malware"]; (* option.go:460 *)
   OptRow "OptionArchitecture" "Architecture" (GSlice (GString "string")) KSlice ["Malware"]; (* option.go:468 *)
   OptRow "OptionLanguages" "Languages" (GSlice (GString "string")) KSlice ["Malware"; "Software"]; (* option.go:477 *)
   OptRow "OptionCapabilities" "Capabilities" (GSlice (GString "string")) KSlice ["Malware"]; (* option.go:485 *)
   OptRow "OptionSamples" "Samples" (GSlice (GString "Identifier")) KSlice ["Malware"]; (* option.go:493 *)
   OptRow "OptionVersion" "Version" (GString "string") KString ["MalwareAnalysis"; "Tool"; "Software"; "X509Certificate"]; (* option.go:504 *)
   OptRow "OptionHostVM" "HostVM" (GString "Identifier") KString ["MalwareAnalysis"]; (* option.go:512 *)
   OptRow "OptionOperatingSystem" "OperatingSystem" (GString "Identifier") KString ["MalwareAnalysis"]; (* option.go:520 *)
   OptRow "OptionInstalledSoftware" "InstalledSoftware" (GSlice (GString "Identifier")) KSlice ["MalwareAnalysis"]; (* option.go:528 *)
   OptRow "OptionConfigurationVersion" "ConfigurationVersion" (GString "string") KString ["MalwareAnalysis"]; (* option.go:537 *)
   OptRow "OptionModules" "Modules" (GSlice (GString "string")) KSlice ["MalwareAnalysis"]; (* option.go:545 *)
   OptRow "OptionAnalysisEngineVersion" "AnalysisEngineVersion" (GString "string") KString ["MalwareAnalysis"]; (* option.go:554 *)
   OptRow "OptionAnalysisDefinitionVersion" "AnalysisDefinitionVersion" (GString "string") KString ["MalwareAnalysis"]; (* option.go:563 *)
   OptRow "OptionSubmitted" "Submitted" (GPtr (GTime)) KPtr ["MalwareAnalysis"]; (* option.go:571 *)
   OptRow "OptionAnalysisStarted" "AnalysisStarted" (GPtr (GTime)) KPtr ["MalwareAnalysis"]; (* option.go:579 *)
   OptRow "OptionAnalysisEnded" "AnalysisEnded" (GPtr (GTime)) KPtr ["MalwareAnalysis"]; (* option.go:587 *)
   OptRow "OptionResultName" "ResultName" (GString "string") KString ["MalwareAnalysis"]; (* option.go:595 *)
   OptRow "OptionSample" "Sample" (GString "Identifier") KString ["MalwareAnalysis"]; (* option.go:603 *)
   OptRow "OptionAbstract" "Abstract" (GString "string") KString ["Note"]; (* option.go:611 *)
   OptRow "OptionAuthors" "Authors" (GSlice (GString "string")) KSlice ["Note"; "Opinion"]; (* option.go:620 *)
   OptRow "OptionExplanation" "Explanation" (GString "string") KString ["Opinion"]; (* option.go:628 *)
   OptRow "OptionSophistication" "Sophistication" (GString "string") KString ["ThreatActor"]; (* option.go:636 *)
   OptRow "OptionPersonalMotivations" "PersonalMotivations" (GSlice (GString "string")) KSlice ["ThreatActor"]; (* option.go:644 *)
   OptRow "OptionStartTime" "StartTime" (GPtr (GTime)) KPtr ["Relationship"]; (* option.go:652 *)
   OptRow "OptionStopTime" "StopTime" (GPtr (GTime)) KPtr ["Relationship"]; (* option.go:660 *)
   OptRow "OptionCount" "Count" (GInt "int64") KInt64 ["Sighting"]; (* option.go:668 *)
   OptRow "OptionObservedData" "ObservedData" (GSlice (GString "Identifier")) KSlice ["Sighting"]; (* option.go:676 *)
   OptRow "OptionWhereSighted" "WhereSighted" (GSlice (GString "Identifier")) KSlice ["Sighting"]; (* option.go:684 *)
   OptRow "OptionSummary" "Summary" (GBool) KBool ["Sighting"]; (* option.go:692 *)
   OptRow "OptionMimeType" "MimeType" (GString "string") KString ["Artifact"; "File"]; (* option.go:701 *)
   OptRow "OptionPayload" "Payload" (GBinary) KSlice ["Artifact"]; (* option.go:709 *)
   OptRow "OptionURL" "URL" (GString "string") KString ["Artifact"]; (* option.go:717 *)
   OptRow "OptionHashes" "Hashes" (GMap "Hashes" "HashAlgorithm" (GString "string")) KMap ["Artifact"; "File"; "X509Certificate"]; (* option.go:727 *)
   OptRow "OptionEncryption" "Encryption" (GEnum "EncryptionAlgorithm") KUint8 ["Artifact"]; (* option.go:735 *)
   OptRow "OptionKey" "Key" (GString "string") KString ["Artifact"; "RegistryKey"]; (* option.go:744 *)
   OptRow "OptionRIR" "RIR" (GString "string") KString ["AutonomousSystem"]; (* option.go:752 *)
   OptRow "OptionPathEncoding" "PathEnc" (GString "string") KString ["Directory"]; (* option.go:760 *)
   OptRow "OptionCtime" "Ctime" (GPtr (GTime)) KPtr ["Directory"; "File"]; (* option.go:769 *)
   OptRow "OptionMtime" "Mtime" (GPtr (GTime)) KPtr ["Directory"; "File"]; (* option.go:778 *)
   OptRow "OptionAtime" "Atime" (GPtr (GTime)) KPtr ["Directory"; "File"]; (* option.go:787 *)
   OptRow "OptionContains" "Contains" (GSlice (GString "Identifier")) KSlice ["Directory"; "File"]; (* option.go:796 *)
   OptRow "OptionResolvesTo" "ResolvesTo" (GSlice (GString "Identifier")) KSlice ["DomainName"; "IPv4Address"; "IPv6Address"]; (* option.go:806 *)
   OptRow "OptionDisplayName" "DisplayName" (GString "string") KString ["EmailAddress"; "UserAccount"]; (* option.go:815 *)
   OptRow "OptionBelongsTo" "BelongsTo" (GString "Identifier") KString ["EmailAddress"; "IPv4Address"; "IPv6Address"]; (* option.go:825 *)
   OptRow "OptionDate" "Date" (GPtr (GTime)) KPtr ["EmailMessage"]; (* option.go:833 *)
   OptRow "OptionContentType" "ContentType" (GString "string") KString ["EmailMessage"]; (* option.go:841 *)
   OptRow "OptionFrom" "From" (GString "Identifier") KString ["EmailMessage"]; (* option.go:849 *)
   OptRow "OptionSender" "Sender" (GString "Identifier") KString ["EmailMessage"]; (* option.go:857 *)
   OptRow "OptionTo" "To" (GSlice (GString "Identifier")) KSlice ["EmailMessage"]; (* option.go:865 *)
   OptRow "OptionCC" "CC" (GSlice (GString "Identifier")) KSlice ["EmailMessage"]; (* option.go:873 *)
   OptRow "OptionBCC" "BCC" (GSlice (GString "Identifier")) KSlice ["EmailMessage"]; (* option.go:881 *)
   OptRow "OptionMessageID" "MessageID" (GString "string") KString ["EmailMessage"]; (* option.go:889 *)
   OptRow "OptionSubject" "Subject" (GString "string") KString ["EmailMessage"]; (* option.go:897 *)
   OptRow "OptionReceivedLines" "ReceivedLines" (GSlice (GString "string")) KSlice ["EmailMessage"]; (* option.go:905 *)
   OptRow "OptionAdditionalHeaderFields" "AdditionalHeaderFields" (GMap "" "string" (GSlice (GString "string"))) KMap ["EmailMessage"]; (* option.go:914 *)
   OptRow "OptionBody" "Body" (GString "string") KString ["EmailMessage"]; (* option.go:922 *)
   OptRow "OptionBodyMultipart" "BodyMultipart" (GSlice (ty_EmailMIME)) KSlice ["EmailMessage"]; (* option.go:930 *)
   OptRow "OptionRawEmail" "RawEmail" (GString "Identifier") KString ["EmailMessage"]; (* option.go:938 *)
   OptRow "OptionSize" "Size" (GInt "int64") KInt64 ["File"]; (* option.go:946 *)
   OptRow "OptionNameEnc" "NameEnc" (GString "string") KString ["File"]; (* option.go:954 *)
   OptRow "OptionMagicNumber" "MagicNumber" (GString "Hex") KString ["File"]; (* option.go:962 *)
   OptRow "OptionParentDirectory" "ParentDirectory" (GString "Identifier") KString ["File"]; (* option.go:970 *)
   OptRow "OptionContent" "Content" (GString "Identifier") KString ["File"]; (* option.go:978 *)
   OptRow "OptionStart" "Start" (GPtr (GTime)) KPtr ["NetworkTraffic"]; (* option.go:986 *)
   OptRow "OptionEnd" "End" (GPtr (GTime)) KPtr ["NetworkTraffic"]; (* option.go:994 *)
   OptRow "OptionIsActive" "IsActive" (GBool) KBool ["NetworkTraffic"]; (* option.go:1002 *)
   OptRow "OptionSrc" "Src" (GString "Identifier") KString ["NetworkTraffic"]; (* option.go:1010 *)
   OptRow "OptionDst" "Dst" (GString "Identifier") KString ["NetworkTraffic"]; (* option.go:1018 *)
   OptRow "OptionSrcPort" "SrcPort" (GInt "int64") KInt64 ["NetworkTraffic"]; (* option.go:1026 *)
   OptRow "OptionDstPort" "DstPort" (GInt "int64") KInt64 ["NetworkTraffic"]; (* option.go:1034 *)
   OptRow "OptionSrcByteCount" "SrcByteCount" (GInt "int64") KInt64 ["NetworkTraffic"]; (* option.go:1042 *)
   OptRow "OptionDstByteCount" "DstByteCount" (GInt "int64") KInt64 ["NetworkTraffic"]; (* option.go:1050 *)
   OptRow "OptionSrcPackets" "SrcPackets" (GInt "int64") KInt64 ["NetworkTraffic"]; (* option.go:1058 *)
   OptRow "OptionDstPackets" "DstPackets" (GInt "int64") KInt64 ["NetworkTraffic"]; (* option.go:1066 *)
   OptRow "OptionIPFIX" "IPFIX" (GMap "" "string" (GIface)) KMap ["NetworkTraffic"]; (* option.go:1074 *)
   OptRow "OptionSrcPayload" "SrcPayload" (GString "Identifier") KString ["NetworkTraffic"]; (* option.go:1082 *)
   OptRow "OptionDstPayload" "DstPayload" (GString "Identifier") KString ["NetworkTraffic"]; (* option.go:1090 *)
   OptRow "OptionEncapsulates" "Encapsulates" (GSlice (GString "Identifier")) KSlice ["NetworkTraffic"]; (* option.go:1098 *)
   OptRow "OptionEncapsulated" "Encapsulated" (GString "Identifier") KString ["NetworkTraffic"]; (* option.go:1106 *)
   OptRow "OptionIsHidden" "IsHidden" (GBool) KBool ["Process"]; (* option.go:1114 *)
   OptRow "OptionPID" "PID" (GInt "int64") KInt64 ["Process"]; (* option.go:1122 *)
   OptRow "OptionCreatedTime" "CreatedTime" (GPtr (GTime)) KPtr ["Process"]; (* option.go:1130 *)
   OptRow "OptionCwd" "Cwd" (GString "string") KString ["Process"]; (* option.go:1138 *)
   OptRow "OptionCommandLine" "CommandLine" (GString "string") KString ["Process"]; (* option.go:1146 *)
   OptRow "OptionEnvVars" "EnvVars" (GMap "" "string" (GString "string")) KMap ["Process"]; (* option.go:1154 *)
   OptRow "OptionOpenedConnections" "OpenedConnections" (GSlice (GString "Identifier")) KSlice ["Process"]; (* option.go:1162 *)
   OptRow "OptionCreatorUser" "CreatorUser" (GString "Identifier") KString ["Process"; "RegistryKey"]; (* option.go:1171 *)
   OptRow "OptionImage" "Image" (GString "Identifier") KString ["Process"]; (* option.go:1179 *)
   OptRow "OptionParent" "Parent" (GString "Identifier") KString ["Process"]; (* option.go:1187 *)
   OptRow "OptionChild" "Child" (GSlice (GString "Identifier")) KSlice ["Process"]; (* option.go:1195 *)
   OptRow "OptionCPE" "CPE" (GString "string") KString ["Software"]; (* option.go:1203 *)
   OptRow "OptionSWID" "SWID" (GString "string") KString ["Software"]; (* option.go:1211 *)
   OptRow "OptionVendor" "Vendor" (GString "string") KString ["Software"]; (* option.go:1219 *)
   OptRow "OptionUserID" "UserID" (GString "string") KString ["Software"]; (* option.go:1227 *)
   OptRow "OptionCredential" "Credential" (GString "string") KString []; (* option.go:1234 *)
   OptRow "OptionAccountLogin" "AccountLogin" (GString "string") KString ["UserAccount"]; (* option.go:1242 *)
   OptRow "OptionAccountType" "AccountType" (GString "string") KString ["UserAccount"]; (* option.go:1250 *)
   OptRow "OptionIsServiceAccount" "IsServiceAccount" (GBool) KBool ["UserAccount"]; (* option.go:1258 *)
   OptRow "OptionIsPrivileged" "IsPrivileged" (GBool) KBool ["UserAccount"]; (* option.go:1266 *)
   OptRow "OptionCanEscalatePrivs" "CanEscalatePrivs" (GBool) KBool ["UserAccount"]; (* option.go:1274 *)
   OptRow "OptionIsDisabled" "IsDisabled" (GBool) KBool ["UserAccount"]; (* option.go:1282 *)
   OptRow "OptionAccountCreated" "AccountCreated" (GPtr (GTime)) KPtr ["UserAccount"]; (* option.go:1290 *)
   OptRow "OptionAccountExpires" "AccountExpires" (GPtr (GTime)) KPtr ["UserAccount"]; (* option.go:1298 *)
   OptRow "OptionCredentialLastChanged" "CredentialLastChanged" (GPtr (GTime)) KPtr ["UserAccount"]; (* option.go:1307 *)
   OptRow "OptionAccountFirstLogin" "AccountFirstLogin" (GPtr (GTime)) KPtr ["UserAccount"]; (* option.go:1315 *)
   OptRow "OptionAccountLastLogin" "AccountLastLogin" (GPtr (GTime)) KPtr ["UserAccount"]; (* option.go:1323 *)
   OptRow "OptionValues" "Values" (GSlice (GPtr (ty_RegistryValue))) KSlice ["RegistryKey"]; (* option.go:1331 *)
   OptRow "OptionModifiedTime" "ModifiedTime" (GPtr (GTime)) KPtr ["RegistryKey"]; (* option.go:1339 *)
   OptRow "OptionNumberOfSubkeys" "NumberOfSubkeys" (GInt "int64") KInt64 ["RegistryKey"]; (* option.go:1347 *)
   OptRow "OptionSelfSigned" "SelfSigned" (GBool) KBool ["X509Certificate"]; (* option.go:1355 *)
   OptRow "OptionSerialNumber" "SerialNumber" (GString "string") KString ["X509Certificate"]; (* option.go:1363 *)
   OptRow "OptionSignatureAlgorithm" "SignatureAlgorithm" (GString "string") KString ["X509Certificate"]; (* option.go:1371 *)
   OptRow "OptionIssuer" "Issuer" (GString "string") KString ["X509Certificate"]; (* option.go:1379 *)
   OptRow "OptionValidityNotBefore" "ValidityNotBefore" (GPtr (GTime)) KPtr ["X509Certificate"]; (* option.go:1388 *)
   OptRow "OptionValidityNotAfter" "ValidityNotAfter" (GPtr (GTime)) KPtr ["X509Certificate"]; (* option.go:1397 *)
   OptRow "OptionSubjectPublicKeyAlgorithm" "SubjectPublicKeyAlgorithm" (GString "string") KString ["X509Certificate"]; (* option.go:1406 *)
   OptRow "OptionSubjectPublicKeyModulus" "SubjectPublicKeyModulus" (GString "string") KString ["X509Certificate"]; (* option.go:1415 *)
   OptRow "OptionSubjectPublicKeyExponent" "SubjectPublicKeyExponent" (GInt "int64") KInt64 ["X509Certificate"]; (* option.go:1424 *)
   OptRow "OptionV3Extensions" "X509v3Extensions" (ty_X509v3Extension) KStruct ["X509Certificate"]; (* option.go:1432 *)
   OptRow "OptionObjectModified" "ObjectModified" (GPtr (GTime)) KPtr ["LanguageContent"] (* option.go:1440 *)
  ].

(** OptionExtension, option.go:147, documented object types *)
Definition option_extension_docs : list string := ["AutonomousSystem"; "Artifact"; "AttackPattern"; "Campaign"; "CourseOfAction"; "Directory"; "DomainName"; "EmailAddress"; "EmailMessage"; "File"; "Grouping"; "Incident"; "IPv4Address"; "IPv6Address"; "Identity"; "Indicator"; "Infrastructure"; "IntrusionSet"; "LanguageContent"; "Location"; "MACAddress"; "Malware"; "MalwareAnalysis"; "MarkingDefinition"; "Mutex"; "NetworkTraffic"; "Note"; "ObservedData"; "Opinion"; "Process"; "RegistryKey"; "Relationship"; "Report"; "Sighting"; "Software"; "ThreatActor"; "Tool"; "URL"; "UserAccount"; "Vulnerability"; "X509Certificate"].
