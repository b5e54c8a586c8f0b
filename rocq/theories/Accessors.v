(** Generated by tools/gen_schema.py from /repo/stix.go: the typed accessors of Collection. *)
From Verif Require Import GoStr Consts.

(** X(id): method name, type passed to getObject, asserted Go type *)
Definition singular_accessors : list (string * string * string) :=
  [("AS", TypeAutonomousSystem, "AutonomousSystem"); (* stix.go:184 *)
   ("Artifact", TypeArtifact, "Artifact"); (* stix.go:202 *)
   ("AttackPattern", TypeAttackPattern, "AttackPattern"); (* stix.go:220 *)
   ("Campaign", TypeCampaign, "Campaign"); (* stix.go:238 *)
   ("CourseOfAction", TypeCourseOfAction, "CourseOfAction"); (* stix.go:256 *)
   ("Directory", TypeDirectory, "Directory"); (* stix.go:274 *)
   ("DomainName", TypeDomainName, "DomainName"); (* stix.go:292 *)
   ("EmailAddress", TypeEmailAddress, "EmailAddress"); (* stix.go:310 *)
   ("EmailMessage", TypeEmailMessage, "EmailMessage"); (* stix.go:328 *)
   ("ExtensionDefinition", TypeExtensionDefinition, "ExtensionDefinition"); (* stix.go:346 *)
   ("File", TypeFile, "File"); (* stix.go:364 *)
   ("Group", TypeGrouping, "Grouping"); (* stix.go:382 *)
   ("IPv4Address", TypeIPv4Addr, "IPv4Address"); (* stix.go:400 *)
   ("IPv6Address", TypeIPv6Addr, "IPv6Address"); (* stix.go:418 *)
   ("Identity", TypeIdentity, "Identity"); (* stix.go:436 *)
   ("Indicator", TypeIndicator, "Indicator"); (* stix.go:454 *)
   ("Infrastructure", TypeInfrastructure, "Infrastructure"); (* stix.go:472 *)
   ("IntrusionSet", TypeIntrusionSet, "IntrusionSet"); (* stix.go:490 *)
   ("LanguageContent", TypeLanguageContent, "LanguageContent"); (* stix.go:508 *)
   ("Location", TypeLocation, "Location"); (* stix.go:526 *)
   ("MAC", TypeMACAddress, "MACAddress"); (* stix.go:544 *)
   ("Malware", TypeMalware, "Malware"); (* stix.go:562 *)
   ("MalwareAnalysis", TypeMalwareAnalysis, "MalwareAnalysis"); (* stix.go:580 *)
   ("MarkingDefinition", TypeMarkingDefinition, "MarkingDefinition"); (* stix.go:598 *)
   ("Mutex", TypeMutex, "Mutex"); (* stix.go:616 *)
   ("NetworkTraffic", TypeNetworkTraffic, "NetworkTraffic"); (* stix.go:634 *)
   ("Note", TypeNote, "Note"); (* stix.go:652 *)
   ("ObservedData", TypeObservedData, "ObservedData"); (* stix.go:670 *)
   ("Opinion", TypeOpinion, "Opinion"); (* stix.go:688 *)
   ("Process", TypeProcess, "Process"); (* stix.go:706 *)
   ("RegistryKey", TypeRegistryKey, "RegistryKey"); (* stix.go:724 *)
   ("Relationship", TypeRelationship, "Relationship"); (* stix.go:742 *)
   ("Report", TypeReport, "Report"); (* stix.go:760 *)
   ("Sighting", TypeSighting, "Sighting"); (* stix.go:778 *)
   ("Software", TypeSoftware, "Software"); (* stix.go:796 *)
   ("ThreatActor", TypeThreatActor, "ThreatActor"); (* stix.go:814 *)
   ("Tool", TypeTool, "Tool"); (* stix.go:832 *)
   ("URL", TypeURL, "URL"); (* stix.go:850 *)
   ("UserAccount", TypeUserAccount, "UserAccount"); (* stix.go:868 *)
   ("Vulnerability", TypeVulnerability, "Vulnerability"); (* stix.go:886 *)
   ("X509Certificate", TypeX509Certificate, "X509Certificate"); (* stix.go:904 *)
   ("Incident", TypeIncident, "Incident") (* stix.go:922 *)
  ].

(** Xs(): method name, bucket iterated, asserted Go type *)
Definition plural_accessors : list (string * string * string) :=
  [("ASs", TypeAutonomousSystem, "AutonomousSystem"); (* stix.go:193 *)
   ("Artifacts", TypeArtifact, "Artifact"); (* stix.go:211 *)
   ("AttackPatterns", TypeAttackPattern, "AttackPattern"); (* stix.go:229 *)
   ("Campaigns", TypeCampaign, "Campaign"); (* stix.go:247 *)
   ("CourseOfActions", TypeCourseOfAction, "CourseOfAction"); (* stix.go:265 *)
   ("Directories", TypeDirectory, "Directory"); (* stix.go:283 *)
   ("DomainNames", TypeDomainName, "DomainName"); (* stix.go:301 *)
   ("EmailAddresses", TypeEmailAddress, "EmailAddress"); (* stix.go:319 *)
   ("EmailMessages", TypeEmailMessage, "EmailMessage"); (* stix.go:337 *)
   ("ExtensionDefinitions", TypeExtensionDefinition, "ExtensionDefinition"); (* stix.go:355 *)
   ("Files", TypeFile, "File"); (* stix.go:373 *)
   ("Groups", TypeGrouping, "Grouping"); (* stix.go:391 *)
   ("IPv4Addresses", TypeIPv4Addr, "IPv4Address"); (* stix.go:409 *)
   ("IPv6Addresses", TypeIPv6Addr, "IPv6Address"); (* stix.go:427 *)
   ("Identities", TypeIdentity, "Identity"); (* stix.go:445 *)
   ("Indicators", TypeIndicator, "Indicator"); (* stix.go:463 *)
   ("Infrastructures", TypeInfrastructure, "Infrastructure"); (* stix.go:481 *)
   ("IntrusionSets", TypeIntrusionSet, "IntrusionSet"); (* stix.go:499 *)
   ("LanguageContents", TypeLanguageContent, "LanguageContent"); (* stix.go:517 *)
   ("Locations", TypeLocation, "Location"); (* stix.go:535 *)
   ("MACs", TypeMACAddress, "MACAddress"); (* stix.go:553 *)
   ("AllMalware", TypeMalware, "Malware"); (* stix.go:571 *)
   ("MalwareAnalyses", TypeMalwareAnalysis, "MalwareAnalysis"); (* stix.go:589 *)
   ("MarkingDefinitions", TypeMarkingDefinition, "MarkingDefinition"); (* stix.go:607 *)
   ("Mutexes", TypeMutex, "Mutex"); (* stix.go:625 *)
   ("AllNetworkTraffic", TypeNetworkTraffic, "NetworkTraffic"); (* stix.go:643 *)
   ("Notes", TypeNote, "Note"); (* stix.go:661 *)
   ("AllObservedData", TypeObservedData, "ObservedData"); (* stix.go:679 *)
   ("Opinions", TypeOpinion, "Opinion"); (* stix.go:697 *)
   ("Processes", TypeProcess, "Process"); (* stix.go:715 *)
   ("RegistryKeys", TypeRegistryKey, "RegistryKey"); (* stix.go:733 *)
   ("Relationships", TypeRelationship, "Relationship"); (* stix.go:751 *)
   ("Reports", TypeReport, "Report"); (* stix.go:769 *)
   ("Sightings", TypeSighting, "Sighting"); (* stix.go:787 *)
   ("AllSoftware", TypeSoftware, "Software"); (* stix.go:805 *)
   ("ThreatActors", TypeThreatActor, "ThreatActor"); (* stix.go:823 *)
   ("Tools", TypeTool, "Tool"); (* stix.go:841 *)
   ("URLs", TypeURL, "URL"); (* stix.go:859 *)
   ("UserAccounts", TypeUserAccount, "UserAccount"); (* stix.go:877 *)
   ("Vulnerabilities", TypeVulnerability, "Vulnerability"); (* stix.go:895 *)
   ("X509Certificates", TypeX509Certificate, "X509Certificate"); (* stix.go:913 *)
   ("Incidents", TypeIncident, "Incident") (* stix.go:931 *)
  ].

(** The type switch of processObjects, stix.go:1012-1095, Go types by name. *)
Definition builtin_names : list (string * string) :=
  [(TypeAutonomousSystem, "AutonomousSystem");
   (TypeArtifact, "Artifact");
   (TypeAttackPattern, "AttackPattern");
   (TypeCampaign, "Campaign");
   (TypeCourseOfAction, "CourseOfAction");
   (TypeDirectory, "Directory");
   (TypeDomainName, "DomainName");
   (TypeEmailAddress, "EmailAddress");
   (TypeEmailMessage, "EmailMessage");
   (TypeExtensionDefinition, "ExtensionDefinition");
   (TypeFile, "File");
   (TypeGrouping, "Grouping");
   (TypeIncident, "Incident");
   (TypeIPv4Addr, "IPv4Address");
   (TypeIPv6Addr, "IPv6Address");
   (TypeIdentity, "Identity");
   (TypeIndicator, "Indicator");
   (TypeInfrastructure, "Infrastructure");
   (TypeIntrusionSet, "IntrusionSet");
   (TypeLanguageContent, "LanguageContent");
   (TypeLocation, "Location");
   (TypeMACAddress, "MACAddress");
   (TypeMalware, "Malware");
   (TypeMalwareAnalysis, "MalwareAnalysis");
   (TypeMarkingDefinition, "MarkingDefinition");
   (TypeMutex, "Mutex");
   (TypeNetworkTraffic, "NetworkTraffic");
   (TypeNote, "Note");
   (TypeObservedData, "ObservedData");
   (TypeOpinion, "Opinion");
   (TypeProcess, "Process");
   (TypeRegistryKey, "RegistryKey");
   (TypeRelationship, "Relationship");
   (TypeReport, "Report");
   (TypeSighting, "Sighting");
   (TypeSoftware, "Software");
   (TypeThreatActor, "ThreatActor");
   (TypeTool, "Tool");
   (TypeURL, "URL");
   (TypeUserAccount, "UserAccount");
   (TypeVulnerability, "Vulnerability");
   (TypeX509Certificate, "X509Certificate")].
