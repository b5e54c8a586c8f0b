(** Generated by tools/gen_schema.py from /repo: string constants. *)
From Verif Require Import GoStr.

(** STIX types *)
Definition TypeAutonomousSystem : string := "autonomous-system". (* data-types.go:235 *)
Definition TypeArtifact : string := "artifact". (* data-types.go:237 *)
Definition TypeAttackPattern : string := "attack-pattern". (* data-types.go:239 *)
Definition TypeBundle : string := "bundle". (* data-types.go:241 *)
Definition TypeCampaign : string := "campaign". (* data-types.go:243 *)
Definition TypeCourseOfAction : string := "course-of-action". (* data-types.go:245 *)
Definition TypeDirectory : string := "directory". (* data-types.go:247 *)
Definition TypeDomainName : string := "domain-name". (* data-types.go:249 *)
Definition TypeEmailAddress : string := "email-addr". (* data-types.go:251 *)
Definition TypeEmailMIME : string := "mime-part-type". (* data-types.go:253 *)
Definition TypeEmailMessage : string := "email-message". (* data-types.go:255 *)
Definition TypeExtensionDefinition : string := "extension-definition". (* data-types.go:257 *)
Definition TypeFile : string := "file". (* data-types.go:259 *)
Definition TypeGrouping : string := "grouping". (* data-types.go:261 *)
Definition TypeIncident : string := "incident". (* data-types.go:263 *)
Definition TypeIPv4Addr : string := "ipv4-addr". (* data-types.go:265 *)
Definition TypeIPv6Addr : string := "ipv6-addr". (* data-types.go:267 *)
Definition TypeIdentity : string := "identity". (* data-types.go:269 *)
Definition TypeIndicator : string := "indicator". (* data-types.go:271 *)
Definition TypeInfrastructure : string := "infrastructure". (* data-types.go:273 *)
Definition TypeIntrusionSet : string := "intrusion-set". (* data-types.go:275 *)
Definition TypeLanguageContent : string := "language-content". (* data-types.go:277 *)
Definition TypeLocation : string := "location". (* data-types.go:279 *)
Definition TypeMACAddress : string := "mac-addr". (* data-types.go:281 *)
Definition TypeMalware : string := "malware". (* data-types.go:283 *)
Definition TypeMalwareAnalysis : string := "malware-analysis". (* data-types.go:285 *)
Definition TypeMarkingDefinition : string := "marking-definition". (* data-types.go:287 *)
Definition TypeMutex : string := "mutex". (* data-types.go:289 *)
Definition TypeNetworkTraffic : string := "network-traffic". (* data-types.go:291 *)
Definition TypeNote : string := "note". (* data-types.go:293 *)
Definition TypeObservedData : string := "observed-data". (* data-types.go:295 *)
Definition TypeOpinion : string := "opinion". (* data-types.go:297 *)
Definition TypeProcess : string := "process". (* data-types.go:299 *)
Definition TypeRegistryKey : string := "windows-registry-key". (* data-types.go:301 *)
Definition TypeRelationship : string := "relationship". (* data-types.go:303 *)
Definition TypeReport : string := "report". (* data-types.go:305 *)
Definition TypeSighting : string := "sighting". (* data-types.go:307 *)
Definition TypeSoftware : string := "software". (* data-types.go:309 *)
Definition TypeThreatActor : string := "threat-actor". (* data-types.go:311 *)
Definition TypeTool : string := "tool". (* data-types.go:313 *)
Definition TypeURL : string := "url". (* data-types.go:315 *)
Definition TypeUserAccount : string := "user-account". (* data-types.go:317 *)
Definition TypeVulnerability : string := "vulnerability". (* data-types.go:319 *)
Definition TypeX509Certificate : string := "x509-certificate". (* data-types.go:321 *)

(** Extension keys *)
Definition ExtArchive : string := "archive-ext". (* data-types.go:373 *)
Definition ExtNTFS : string := "ntfs-ext". (* data-types.go:375 *)
Definition ExtPDF : string := "pdf-ext". (* data-types.go:377 *)
Definition ExtRasterImage : string := "raster-image-ext". (* data-types.go:379 *)
Definition ExtWindowsPEBinary : string := "windows-pebinary-ext". (* data-types.go:381 *)
Definition ExtHTTPRequest : string := "http-request-ext". (* data-types.go:383 *)
Definition ExtICMP : string := "icmp-ext". (* data-types.go:385 *)
Definition ExtSocket : string := "socket-ext". (* data-types.go:387 *)
Definition ExtTCP : string := "tcp-ext". (* data-types.go:389 *)
Definition ExtWindowsProcess : string := "windows-process-ext". (* data-types.go:391 *)
Definition ExtWindowsService : string := "windows-service-ext". (* data-types.go:393 *)
Definition ExtUnixAccount : string := "unix-account-ext". (* data-types.go:395 *)

(** Relationship types *)
Definition RelationshipTypeAnalysisOf : string := "analysis-of". (* relationship.go:90 *)
Definition RelationshipTypeAttributedTo : string := "attributed-to". (* relationship.go:92 *)
Definition RelationshipTypeAuthoredBy : string := "authored-by". (* relationship.go:94 *)
Definition RelationshipTypeBasedOn : string := "based-on". (* relationship.go:96 *)
Definition RelationshipTypeBeaconsTo : string := "beacons-to". (* relationship.go:98 *)
Definition RelationshipTypeBelongsTo : string := "belongs-to". (* relationship.go:100 *)
Definition RelationshipTypeCharacterizes : string := "characterizes". (* relationship.go:102 *)
Definition RelationshipTypeCommunicatesWith : string := "communicates-with". (* relationship.go:104 *)
Definition RelationshipTypeCompromises : string := "compromises". (* relationship.go:106 *)
Definition RelationshipTypeConsistsOf : string := "consists-of". (* relationship.go:108 *)
Definition RelationshipTypeControls : string := "controls". (* relationship.go:110 *)
Definition RelationshipTypeDelivers : string := "delivers". (* relationship.go:112 *)
Definition RelationshipTypeDerivedFrom : string := "derived-from". (* relationship.go:114 *)
Definition RelationshipTypeDownloads : string := "downloads". (* relationship.go:116 *)
Definition RelationshipTypeDrops : string := "drops". (* relationship.go:118 *)
Definition RelationshipTypeDuplicateOf : string := "duplicate-of". (* relationship.go:120 *)
Definition RelationshipTypeDynamicAnalysisOf : string := "dynamic-analysis-of". (* relationship.go:122 *)
Definition RelationshipTypeExfiltratesTo : string := "exfiltrates-to". (* relationship.go:124 *)
Definition RelationshipTypeExploits : string := "exploits". (* relationship.go:126 *)
Definition RelationshipTypeHas : string := "has". (* relationship.go:128 *)
Definition RelationshipTypeHosts : string := "hosts". (* relationship.go:130 *)
Definition RelationshipTypeImpersonates : string := "impersonates". (* relationship.go:132 *)
Definition RelationshipTypeIndicates : string := "indicates". (* relationship.go:134 *)
Definition RelationshipTypeInvestigates : string := "investigates". (* relationship.go:136 *)
Definition RelationshipTypeLocatedAt : string := "located-at". (* relationship.go:138 *)
Definition RelationshipTypeMitigates : string := "mitigates". (* relationship.go:140 *)
Definition RelationshipTypeOriginatesFrom : string := "originates-from". (* relationship.go:142 *)
Definition RelationshipTypeOwns : string := "owns". (* relationship.go:144 *)
Definition RelationshipTypeRelatedTo : string := "related-to". (* relationship.go:146 *)
Definition RelationshipTypeRemediates : string := "remediates". (* relationship.go:148 *)
Definition RelationshipTypeResolvesTo : string := "resolves-to". (* relationship.go:150 *)
Definition RelationshipTypeStaticAnalysisOf : string := "static-analysis-of". (* relationship.go:152 *)
Definition RelationshipTypeTargets : string := "targets". (* relationship.go:154 *)
Definition RelationshipTypeUses : string := "uses". (* relationship.go:156 *)
Definition RelationshipTypeVariantOf : string := "variant-of". (* relationship.go:158 *)

(** Hash algorithms *)
Definition MD5 : string := "MD5". (* data-types.go:49 *)
Definition SHA1 : string := "SHA-1". (* data-types.go:53 *)
Definition SHA256 : string := "SHA-256". (* data-types.go:57 *)
Definition SHA512 : string := "SHA-512". (* data-types.go:61 *)
Definition SHA3256 : string := "SHA3-256". (* data-types.go:65 *)
Definition SHA3512 : string := "SHA3-512". (* data-types.go:69 *)
Definition SSDEEP : string := "SSDEEP". (* data-types.go:73 *)
Definition TLSH : string := "TLSH". (* data-types.go:77 *)

(** Spec versions *)
Definition SpecVersion20 : string := "2.0". (* object.go:15 *)
Definition SpecVersion21 : string := "2.1". (* object.go:17 *)

(** AllTypes, data-types.go:325-369 *)
Definition AllTypes : list string :=
  [TypeAutonomousSystem;
   TypeArtifact;
   TypeAttackPattern;
   TypeCampaign;
   TypeCourseOfAction;
   TypeDirectory;
   TypeDomainName;
   TypeEmailAddress;
   TypeEmailMIME;
   TypeEmailMessage;
   TypeExtensionDefinition;
   TypeFile;
   TypeGrouping;
   TypeIPv4Addr;
   TypeIPv6Addr;
   TypeIdentity;
   TypeIncident;
   TypeIndicator;
   TypeInfrastructure;
   TypeIntrusionSet;
   TypeLanguageContent;
   TypeLocation;
   TypeMACAddress;
   TypeMalware;
   TypeMalwareAnalysis;
   TypeMarkingDefinition;
   TypeMutex;
   TypeNetworkTraffic;
   TypeNote;
   TypeObservedData;
   TypeOpinion;
   TypeProcess;
   TypeRegistryKey;
   TypeRelationship;
   TypeReport;
   TypeSighting;
   TypeSoftware;
   TypeThreatActor;
   TypeTool;
   TypeURL;
   TypeUserAccount;
   TypeVulnerability;
   TypeX509Certificate].

Definition AllRelTypes : list string :=
  [RelationshipTypeAnalysisOf;
   RelationshipTypeAttributedTo;
   RelationshipTypeAuthoredBy;
   RelationshipTypeBasedOn;
   RelationshipTypeBeaconsTo;
   RelationshipTypeBelongsTo;
   RelationshipTypeCharacterizes;
   RelationshipTypeCommunicatesWith;
   RelationshipTypeCompromises;
   RelationshipTypeConsistsOf;
   RelationshipTypeControls;
   RelationshipTypeDelivers;
   RelationshipTypeDerivedFrom;
   RelationshipTypeDownloads;
   RelationshipTypeDrops;
   RelationshipTypeDuplicateOf;
   RelationshipTypeDynamicAnalysisOf;
   RelationshipTypeExfiltratesTo;
   RelationshipTypeExploits;
   RelationshipTypeHas;
   RelationshipTypeHosts;
   RelationshipTypeImpersonates;
   RelationshipTypeIndicates;
   RelationshipTypeInvestigates;
   RelationshipTypeLocatedAt;
   RelationshipTypeMitigates;
   RelationshipTypeOriginatesFrom;
   RelationshipTypeOwns;
   RelationshipTypeRelatedTo;
   RelationshipTypeRemediates;
   RelationshipTypeResolvesTo;
   RelationshipTypeStaticAnalysisOf;
   RelationshipTypeTargets;
   RelationshipTypeUses;
   RelationshipTypeVariantOf].
