(** Specification: the accessors of a collection and the type names of STIX 2.1
    (sections 4 to 7 of the standard) of the objects they return. *)
From Verif Require Import GoStr.

Definition std_accessors : list (string * string * string) :=
  [("AS", "ASs", "autonomous-system");
   ("Artifact", "Artifacts", "artifact");
   ("AttackPattern", "AttackPatterns", "attack-pattern");
   ("Campaign", "Campaigns", "campaign");
   ("CourseOfAction", "CourseOfActions", "course-of-action");
   ("Directory", "Directories", "directory");
   ("DomainName", "DomainNames", "domain-name");
   ("EmailAddress", "EmailAddresses", "email-addr");
   ("EmailMessage", "EmailMessages", "email-message");
   ("ExtensionDefinition", "ExtensionDefinitions", "extension-definition");
   ("File", "Files", "file");
   ("Group", "Groups", "grouping");
   ("IPv4Address", "IPv4Addresses", "ipv4-addr");
   ("IPv6Address", "IPv6Addresses", "ipv6-addr");
   ("Identity", "Identities", "identity");
   ("Indicator", "Indicators", "indicator");
   ("Infrastructure", "Infrastructures", "infrastructure");
   ("IntrusionSet", "IntrusionSets", "intrusion-set");
   ("LanguageContent", "LanguageContents", "language-content");
   ("Location", "Locations", "location");
   ("MAC", "MACs", "mac-addr");
   ("Malware", "AllMalware", "malware");
   ("MalwareAnalysis", "MalwareAnalyses", "malware-analysis");
   ("MarkingDefinition", "MarkingDefinitions", "marking-definition");
   ("Mutex", "Mutexes", "mutex");
   ("NetworkTraffic", "AllNetworkTraffic", "network-traffic");
   ("Note", "Notes", "note");
   ("ObservedData", "AllObservedData", "observed-data");
   ("Opinion", "Opinions", "opinion");
   ("Process", "Processes", "process");
   ("RegistryKey", "RegistryKeys", "windows-registry-key");
   ("Relationship", "Relationships", "relationship");
   ("Report", "Reports", "report");
   ("Sighting", "Sightings", "sighting");
   ("Software", "AllSoftware", "software");
   ("ThreatActor", "ThreatActors", "threat-actor");
   ("Tool", "Tools", "tool");
   ("URL", "URLs", "url");
   ("UserAccount", "UserAccounts", "user-account");
   ("Vulnerability", "Vulnerabilities", "vulnerability");
   ("X509Certificate", "X509Certificates", "x509-certificate");
   ("Incident", "Incidents", "incident")].
