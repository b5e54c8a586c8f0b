(** Generated by tools/gen_helpers.py from the relationship helpers in /repo. *)
From Verif Require Import GoStr Consts.

(** The check on the identifier before NewRelationship is called: none,
    IsValidIdentifier, or IsValidIdentifier and ForType of one of the types. *)
Inductive hcheck := NoCheck | Valid | ValidFor (types : list string).
(** A method: the type of the receiver, its name, the relationship type passed to
    NewRelationship, and the check. *)
Record helper := Helper { h_recv : string; h_name : string; h_rel : string; h_check : hcheck }.

(** The relationship helpers, each with its lines. *)
Definition helpers : list helper :=
  [Helper "AttackPattern" "AddDelivers" RelationshipTypeDelivers (ValidFor [TypeMalware]); (* attack.go:37-42 *)
   Helper "AttackPattern" "AddTargets" RelationshipTypeTargets (ValidFor [TypeLocation; TypeIdentity; TypeVulnerability]); (* attack.go:46-52 *)
   Helper "AttackPattern" "AddUses" RelationshipTypeTargets (ValidFor [TypeMalware; TypeTool]); (* attack.go:56-61 *)
   Helper "Campaign" "AddTargets" RelationshipTypeTargets (ValidFor [TypeLocation; TypeIdentity; TypeVulnerability]); (* campaign.go:47-53 *)
   Helper "Campaign" "AddUses" RelationshipTypeUses (ValidFor [TypeAttackPattern; TypeInfrastructure; TypeMalware; TypeTool]); (* campaign.go:57-62 *)
   Helper "Campaign" "AddAttributedTo" RelationshipTypeAttributedTo (ValidFor [TypeIntrusionSet; TypeThreatActor]); (* campaign.go:66-71 *)
   Helper "Campaign" "AddCompromises" RelationshipTypeCompromises (ValidFor [TypeInfrastructure]); (* campaign.go:75-80 *)
   Helper "Campaign" "AddOriginatesFrom" RelationshipTypeOriginatesFrom (ValidFor [TypeLocation]); (* campaign.go:84-89 *)
   Helper "CourseOfAction" "AddInvestigates" RelationshipTypeInvestigates (ValidFor [TypeIndicator]); (* course-of-action.go:31-36 *)
   Helper "CourseOfAction" "AddMitigates" RelationshipTypeMitigates (ValidFor [TypeAttackPattern; TypeIndicator; TypeMalware; TypeTool; TypeVulnerability]); (* course-of-action.go:40-45 *)
   Helper "CourseOfAction" "AddRemediates" RelationshipTypeRemediates (ValidFor [TypeMalware; TypeVulnerability]); (* course-of-action.go:49-54 *)
   Helper "DomainName" "AddResolvesTo" RelationshipTypeResolvesTo (ValidFor [TypeDomainName; TypeIPv4Addr; TypeIPv6Addr]); (* dns.go:28-33 *)
   Helper "Identity" "AddLocatedAt" RelationshipTypeLocatedAt (ValidFor [TypeLocation]); (* identity.go:43-48 *)
   Helper "Indicator" "AddIndicates" RelationshipTypeIndicates (ValidFor [TypeAttackPattern; TypeCampaign; TypeInfrastructure; TypeIntrusionSet; TypeMalware; TypeThreatActor; TypeTool]); (* indicator.go:59-64 *)
   Helper "Indicator" "AddBasedOn" RelationshipTypeBasedOn (ValidFor [TypeObservedData]); (* indicator.go:68-73 *)
   Helper "Infrastructure" "AddConsistsOf" RelationshipTypeConsistsOf (Valid); (* infrastructure.go:45-56 *)
   Helper "Infrastructure" "AddControls" RelationshipTypeControls (ValidFor [TypeInfrastructure; TypeMalware]); (* infrastructure.go:60-65 *)
   Helper "Infrastructure" "AddCommunicatesWith" RelationshipTypeCommunicatesWith (ValidFor [TypeInfrastructure; TypeIPv4Addr; TypeIPv6Addr; TypeDomainName; TypeURL]); (* infrastructure.go:69-74 *)
   Helper "Infrastructure" "AddDelivers" RelationshipTypeDelivers (ValidFor [TypeMalware]); (* infrastructure.go:78-83 *)
   Helper "Infrastructure" "AddHas" RelationshipTypeHas (ValidFor [TypeVulnerability]); (* infrastructure.go:87-92 *)
   Helper "Infrastructure" "AddHosts" RelationshipTypeHosts (ValidFor [TypeMalware; TypeTool]); (* infrastructure.go:96-101 *)
   Helper "Infrastructure" "AddLocatedAt" RelationshipTypeLocatedAt (ValidFor [TypeLocation]); (* infrastructure.go:105-110 *)
   Helper "Infrastructure" "AddUses" RelationshipTypeUses (ValidFor [TypeInfrastructure]); (* infrastructure.go:114-119 *)
   Helper "IntrusionSet" "AddAttributedTo" RelationshipTypeAttributedTo (ValidFor [TypeThreatActor]); (* intrusion-set.go:82-87 *)
   Helper "IntrusionSet" "AddCompromises" RelationshipTypeCompromises (ValidFor [TypeInfrastructure]); (* intrusion-set.go:91-96 *)
   Helper "IntrusionSet" "AddHosts" RelationshipTypeHosts (ValidFor [TypeInfrastructure]); (* intrusion-set.go:100-105 *)
   Helper "IntrusionSet" "AddOwns" RelationshipTypeOwns (ValidFor [TypeInfrastructure]); (* intrusion-set.go:109-114 *)
   Helper "IntrusionSet" "AddOriginatesFrom" RelationshipTypeOriginatesFrom (ValidFor [TypeLocation]); (* intrusion-set.go:118-123 *)
   Helper "IntrusionSet" "AddTargets" RelationshipTypeTargets (ValidFor [TypeLocation; TypeIdentity; TypeVulnerability]); (* intrusion-set.go:128-133 *)
   Helper "IntrusionSet" "AddUses" RelationshipTypeUses (ValidFor [TypeAttackPattern; TypeInfrastructure; TypeMalware; TypeTool]); (* intrusion-set.go:137-142 *)
   Helper "IPv4Address" "AddResolvesTo" RelationshipTypeResolvesTo (ValidFor [TypeMACAddress]); (* ip.go:30-35 *)
   Helper "IPv4Address" "AddBelongsTo" RelationshipTypeBelongsTo (ValidFor [TypeAutonomousSystem]); (* ip.go:39-44 *)
   Helper "IPv6Address" "AddResolvesTo" RelationshipTypeResolvesTo (ValidFor [TypeMACAddress]); (* ip.go:84-89 *)
   Helper "IPv6Address" "AddBelongsTo" RelationshipTypeBelongsTo (ValidFor [TypeAutonomousSystem]); (* ip.go:93-98 *)
   Helper "MalwareAnalysis" "AddCharacterizes" RelationshipTypeCharacterizes (ValidFor [TypeMalware]); (* malware-analysis.go:88-93 *)
   Helper "MalwareAnalysis" "AddAnalysisOf" RelationshipTypeAnalysisOf (ValidFor [TypeMalware]); (* malware-analysis.go:97-102 *)
   Helper "MalwareAnalysis" "AddStaticAnalysisOf" RelationshipTypeStaticAnalysisOf (ValidFor [TypeMalware]); (* malware-analysis.go:106-111 *)
   Helper "MalwareAnalysis" "AddDynamicAnalysisOf" RelationshipTypeDynamicAnalysisOf (ValidFor [TypeMalware]); (* malware-analysis.go:115-120 *)
   Helper "Malware" "AddAuthoredBy" RelationshipTypeAuthoredBy (ValidFor [TypeThreatActor; TypeIntrusionSet]); (* malware.go:84-89 *)
   Helper "Malware" "AddBeaconsTo" RelationshipTypeBeaconsTo (ValidFor [TypeInfrastructure]); (* malware.go:93-98 *)
   Helper "Malware" "AddExfiltratesTo" RelationshipTypeExfiltratesTo (ValidFor [TypeInfrastructure]); (* malware.go:102-107 *)
   Helper "Malware" "AddCommunicatesWith" RelationshipTypeCommunicatesWith (ValidFor [TypeIPv4Addr; TypeIPv6Addr; TypeDomainName; TypeURL]); (* malware.go:112-117 *)
   Helper "Malware" "AddControls" RelationshipTypeControls (ValidFor [TypeMalware]); (* malware.go:125-130 *)
   Helper "Malware" "AddDownloads" RelationshipTypeDownloads (ValidFor [TypeMalware; TypeTool; TypeFile]); (* malware.go:135-140 *)
   Helper "Malware" "AddDrops" RelationshipTypeDrops (ValidFor [TypeMalware; TypeTool; TypeFile]); (* malware.go:145-150 *)
   Helper "Malware" "AddExploits" RelationshipTypeExploits (ValidFor [TypeVulnerability]); (* malware.go:154-159 *)
   Helper "Malware" "AddOriginatesFrom" RelationshipTypeOriginatesFrom (ValidFor [TypeLocation]); (* malware.go:163-168 *)
   Helper "Malware" "AddTargets" RelationshipTypeTargets (ValidFor [TypeLocation; TypeIdentity; TypeInfrastructure; TypeVulnerability]); (* malware.go:174-179 *)
   Helper "Malware" "AddUses" RelationshipTypeUses (ValidFor [TypeAttackPattern; TypeMalware; TypeInfrastructure; TypeTool]); (* malware.go:183-188 *)
   Helper "Malware" "AddVariantOf" RelationshipTypeVariantOf (ValidFor [TypeMalware]); (* malware.go:202-207 *)
   Helper "STIXDomainObject" "AddDerivedFrom" RelationshipTypeDerivedFrom (NoCheck); (* object.go:271-273 *)
   Helper "STIXDomainObject" "AddDuplicateOf" RelationshipTypeDuplicateOf (NoCheck); (* object.go:277-279 *)
   Helper "STIXDomainObject" "AddRelatedTo" RelationshipTypeRelatedTo (NoCheck); (* object.go:283-285 *)
   Helper "STIXCyberObservableObject" "AddDerivedFrom" RelationshipTypeDerivedFrom (NoCheck); (* object.go:364-366 *)
   Helper "STIXCyberObservableObject" "AddDuplicateOf" RelationshipTypeDuplicateOf (NoCheck); (* object.go:370-372 *)
   Helper "STIXCyberObservableObject" "AddRelatedTo" RelationshipTypeRelatedTo (NoCheck); (* object.go:376-378 *)
   Helper "ThreatActor" "AddAttributedTo" RelationshipTypeAttributedTo (ValidFor [TypeIdentity]); (* threat-actor.go:81-86 *)
   Helper "ThreatActor" "AddCompromises" RelationshipTypeCompromises (ValidFor [TypeInfrastructure]); (* threat-actor.go:90-95 *)
   Helper "ThreatActor" "AddHosts" RelationshipTypeHosts (ValidFor [TypeInfrastructure]); (* threat-actor.go:100-105 *)
   Helper "ThreatActor" "AddOwns" RelationshipTypeOwns (ValidFor [TypeInfrastructure]); (* threat-actor.go:110-115 *)
   Helper "ThreatActor" "AddImpersonates" RelationshipTypeImpersonates (ValidFor [TypeIdentity]); (* threat-actor.go:119-124 *)
   Helper "ThreatActor" "AddLocatedAt" RelationshipTypeLocatedAt (ValidFor [TypeLocation]); (* threat-actor.go:128-133 *)
   Helper "ThreatActor" "AddTargets" RelationshipTypeTargets (ValidFor [TypeIdentity; TypeLocation; TypeVulnerability]); (* threat-actor.go:138-143 *)
   Helper "ThreatActor" "AddUses" RelationshipTypeUses (ValidFor [TypeAttackPattern; TypeInfrastructure; TypeMalware; TypeTool]); (* threat-actor.go:148-153 *)
   Helper "Tool" "AddDelivers" RelationshipTypeDelivers (ValidFor [TypeMalware]); (* tool.go:48-53 *)
   Helper "Tool" "AddDrops" RelationshipTypeDrops (ValidFor [TypeMalware]); (* tool.go:57-62 *)
   Helper "Tool" "AddHas" RelationshipTypeHas (ValidFor [TypeVulnerability]); (* tool.go:66-71 *)
   Helper "Tool" "AddTargets" RelationshipTypeTargets (ValidFor [TypeIdentity; TypeInfrastructure; TypeLocation; TypeVulnerability]); (* tool.go:76-81 *)
   Helper "Tool" "AddUses" RelationshipTypeUses (ValidFor [TypeInfrastructure]) (* tool.go:85-90 *)].
