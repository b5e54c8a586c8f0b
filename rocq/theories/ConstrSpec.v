(** What the constructors are asked to do: for every constructor its STIX type,
    the properties it takes from its arguments, the arguments it requires, and
    for cyber-observables the properties that make the identifier. *)
From Verif Require Import GoStr Json Float Consts GoTypes Schema GoVal Codec CodecSpec OptTable FromJson Options OptionFacts PropOptions Ident Constructors.
From Coq Require Import QArith Qpower.
Local Open Scope string_scope.

(** The STIX type and the Go type of the object. *)
Definition call_name (c : call) : string :=
  match c with
  | CAttackPattern _ => "attack-pattern" | CCampaign _ => "campaign" | CCourseOfAction _ => "course-of-action" | CGrouping _ _ => "grouping"
  | CIdentity _ => "identity" | CIncident _ => "incident" | CIndicator _ _ _ => "indicator" | CInfrastructure _ => "infrastructure"
  | CIntrusionSet _ => "intrusion-set" | CLocation _ _ _ _ => "location" | CMalware _ => "malware" | CMalwareAnalysis _ _ _ => "malware-analysis"
  | CNote _ _ => "note" | CObservedData _ _ _ _ => "observed-data" | COpinion _ _ => "opinion" | CReport _ _ _ => "report"
  | CThreatActor _ => "threat-actor" | CTool _ => "tool" | CVulnerability _ => "vulnerability" | CRelationship _ _ _ => "relationship"
  | CSighting _ => "sighting" | CLanguageContent _ _ => "language-content" | CMarkingDefinition _ _ => "marking-definition"
  | CExtensionDefinition _ _ _ _ => "extension-definition" | CArtifact => "artifact" | CAutonomousSystem _ => "autonomous-system"
  | CDirectory _ => "directory" | CDomainName _ => "domain-name" | CEmailAddress _ => "email-addr" | CEmailMessage _ => "email-message"
  | CFile _ _ => "file" | CIPv4Address _ => "ipv4-addr" | CIPv6Address _ => "ipv6-addr" | CMACAddress _ => "mac-addr" | CMutex _ => "mutex"
  | CNetworkTraffic _ => "network-traffic" | CProcess => "process" | CRegistryKey => "windows-registry-key" | CSoftware _ => "software"
  | CURL _ => "url" | CUserAccount => "user-account" | CX509Certificate => "x509-certificate"
  end.
Definition call_ty (c : call) : gty := match alookup (call_name c) builtin_types with Some t => t | None => GBool end.
Definition call_fields (c : call) : list (fmeta * gty) := match call_ty c with GStruct _ fs => fs | _ => [] end.

(** The properties set from the arguments. *)
Definition given (c : call) : list (string * gval) :=
  match c with
  | CAttackPattern n | CCampaign n | CCourseOfAction n | CIdentity n | CIncident n | CInfrastructure n | CIntrusionSet n
  | CThreatActor n | CTool n | CVulnerability n | CSoftware n | CMutex n => [("Name", VStr n)]
  | CGrouping ctx l => [("Context", VStr ctx); ("Objects", l)]
  | CIndicator p pt f => [("Pattern", VStr p); ("PatternType", VStr pt); ("ValidFrom", f)]
  | CLocation r co la lo => [("Region", VStr r); ("Country", VStr co); ("Latitude", VFloat la); ("Longitude", VFloat lo)]
  | CMalware f => [("IsFamily", VBool f)]
  | CMalwareAnalysis p r l => [("Product", VStr p); ("AnalysisSCOs", l); ("Result", VStr r)]
  | CNote s l => [("Content", VStr s); ("Objects", l)]
  | CObservedData f l n r => [("FirstObserved", f); ("LastObserved", l); ("NumberObserved", VInt n); ("ObjectRefs", r)]
  | COpinion v l => [("Value", VEnum v); ("Objects", l)]
  | CReport n p l => [("Name", VStr n); ("Published", p); ("Objects", l)]
  | CRelationship r s t => [("Source", VStr s); ("Target", VStr t); ("RelationshipType", VStr r)]
  | CSighting s => [("SightingOf", VStr s)]
  | CLanguageContent o x => [("Object", VStr o); ("Contents", x)]
  | CMarkingDefinition t d => [("DefinitionType", VStr t); ("Definition", d)]
  | CExtensionDefinition n s v l => [("Name", VStr n); ("Schema", VStr s); ("Version", VStr v); ("ExtensionTypes", l)]
  | CAutonomousSystem n => [("Number", VInt n)]
  | CDirectory v => [("Path", VStr v)]
  | CDomainName v | CEmailAddress v | CIPv4Address v | CIPv6Address v | CMACAddress v | CURL v => [("Value", VStr v)]
  | CEmailMessage m => [("IsMultipart", VBool m)]
  | CFile n h => [("Name", VStr n); ("Hashes", h)]
  | CNetworkTraffic p => [("Protocols", p)]
  | CArtifact | CProcess | CRegistryKey | CUserAccount | CX509Certificate => []
  end.
(** Every argument has the Go type of the property it is for. *)
Definition args_typed (c : call) : bool :=
  forallb (fun kv => match own_field (call_fields c) (fst kv) with Some t => typed t (snd kv) | None => false end) (given c).

(** The properties every object of its kind has from the start. *)
Inductive kind := SDO | SRO | SCO | Meta.
Definition call_kind (c : call) : kind :=
  match c with
  | CRelationship _ _ _ | CSighting _ => SRO
  | CLanguageContent _ _ | CMarkingDefinition _ _ | CExtensionDefinition _ _ _ _ => Meta
  | CArtifact | CAutonomousSystem _ | CDirectory _ | CDomainName _ | CEmailAddress _ | CEmailMessage _ | CFile _ _ | CIPv4Address _
  | CIPv6Address _ | CMACAddress _ | CMutex _ | CNetworkTraffic _ | CProcess | CRegistryKey | CSoftware _ | CURL _ | CUserAccount
  | CX509Certificate => SCO
  | _ => SDO
  end.
Definition stamps (c : call) (now : Z) : list (string * gval) :=
  match c with
  | CMarkingDefinition _ _ => [("Created", VPtr (VTime now))]
  | _ => match call_kind c with SCO => [] | _ => [("Created", VPtr (VTime now)); ("Modified", VPtr (VTime now))] end
  end.

(** What the properties other than the identifier are set to before any option;
    all others are zero. *)
Definition starts (c : call) (now : Z) : list (string * gval) :=
  ("Type", VStr (call_name c)) :: ("SpecVersion", VStr "2.1") :: stamps c now ++ given c.
Definition start_value (c : call) (now : Z) (m : fmeta) (t : gty) : gval :=
  match alookup (fm_name m) (starts c now) with Some x => x | None => zero t end.
(** The property [f] after options that all succeed: each option for [f]
    replaces the value, OptionExtension sets one key of the extensions. *)
Definition is_target (f : string) (o : stix_option) : bool := match target o with Some g => String.eqb g f | None => false end.
Definition final (f : string) (os : list stix_option) (x : gval) : gval := fold_left (fun x o => if is_target f o then new_value o x else x) os x.
(** An option as the Go type checker accepts it. *)
Definition go_option (o : stix_option) : Prop :=
  user_option o /\ match o with OExt _ x => storable GIface x = true | _ => True end.

(** ** Arguments that must be there *)
Definition no_elements (v : gval) : Prop := v = VNil \/ v = VSlice [].
Definition fvalue (x : flt) : option Q := match x with FFin neg m e => Some (inject_Z (signed neg m) * Qpower 10 e)%Q | _ => None end.
Definition is_0 (x : flt) : Prop := exists q, fvalue x = Some q /\ (q == 0)%Q.
Definition within (x : flt) (r : Z) : Prop := exists q, fvalue x = Some q /\ (inject_Z (- r) <= q)%Q /\ (q <= inject_Z r)%Q.
(** The arguments do not make a valid object. *)
Definition args_bad (c : call) : Prop :=
  match c with
  | CAttackPattern n | CCampaign n | CCourseOfAction n | CIdentity n | CIncident n | CInfrastructure n | CIntrusionSet n
  | CThreatActor n | CTool n | CVulnerability n | CSoftware n | CMutex n
  | CSighting n | CDirectory n | CDomainName n | CEmailAddress n | CIPv4Address n | CIPv6Address n | CMACAddress n | CURL n => n = ""
  | CGrouping ctx l => ctx = "" \/ no_elements l
  | CIndicator p pt f => p = "" \/ pt = "" \/ f = VNil
  | CLocation r co la lo =>
      (r = "" /\ co = "" /\ is_0 la /\ is_0 lo) \/ ~ (within la 90 \/ la = FNaN) \/ ~ (within lo 180 \/ lo = FNaN) \/
      (is_0 la /\ ~ is_0 lo) \/ (~ is_0 la /\ is_0 lo)
  | CMalwareAnalysis p r l => p = "" \/ (r = "" /\ no_elements l)
  | CNote _ l | COpinion _ l => no_elements l
  | CObservedData f l n r => f = VNil \/ l = VNil \/ (n < 1)%Z \/ no_elements r
  | CReport n p l => n = "" \/ p = VNil \/ no_elements l
  | CRelationship r s t => r = "" \/ s = "" \/ t = ""
  | CLanguageContent o x => o = "" \/ x = VNil
  | CMarkingDefinition t d => t = "" \/ d = VNil
  | CExtensionDefinition n s v l => n = "" \/ s = "" \/ v = "" \/ no_elements l
  | CAutonomousSystem n => n = 0%Z
  | CFile n h => n = "" /\ h = VNil
  | CNetworkTraffic p => no_elements p
  | CMalware _ | CEmailMessage _ | CArtifact | CProcess | CRegistryKey | CUserAccount | CX509Certificate => False
  end.
(** A constructor that fails without options, whatever its arguments. *)
Definition needs_options (c : call) : Prop :=
  match c with
  | CArtifact | CNetworkTraffic _ | CProcess | CRegistryKey | CUserAccount | CX509Certificate => True
  | CMalware family => family = true
  | _ => False
  end.

(** ** Identifiers of cyber-observables *)
(** The properties that contribute to the identifier. *)
Definition contributing (c : call) : list string :=
  match c with
  | CArtifact => ["Hashes"; "Payload"]
  | CEmailMessage _ => ["From"; "Subject"; "Body"]
  | CFile _ _ => ["Hashes"; "Name"; "Extensions"; "ParentDirectory"]
  | CNetworkTraffic _ => ["Start"; "End"; "Src"; "Dst"; "SrcPort"; "DstPort"; "Protocols"; "Extensions"]
  | CRegistryKey => ["Key"; "Values"]
  | CSoftware _ => ["Name"; "CPE"; "Vendor"; "Version"]
  | CUserAccount => ["AccountType"; "UserID"; "AccountLogin"]
  | CX509Certificate => ["Hashes"; "SerialNumber"]
  | _ => []
  end.
(** Observables with one identifying property, and the text hashed for it. *)
Definition single_key (c : call) : option string :=
  match c with
  | CAutonomousSystem _ => Some "Number"
  | CDirectory _ => Some "Path"
  | CDomainName _ | CEmailAddress _ | CIPv4Address _ | CIPv6Address _ | CMACAddress _ | CURL _ => Some "Value"
  | CMutex _ => Some "Name"
  | _ => None
  end.
Definition single_text (x : gval) : string :=
  match x with
  | VInt n => "[" ++ Z_to_string n ++ "]"
  | VStr s => "[""" ++ s ++ """]"
  | _ => ""
  end.
(** Constructors that give a random identifier. *)
Definition random_id (c : call) : bool :=
  match call_kind c with SCO => match c with CProcess => true | _ => false end | _ => true end.

(** The object's property of a Go name, own or in the embedded base struct. *)
Definition prop (c : call) (f : string) (v : gval) : gval :=
  match field_by_name (call_fields c) f with Some (p, _) => get_path p v | None => VNil end.
Definition result_id (c : call) (v : gval) : gval := prop c "ID" v.

(** ** Encoding *)
(** The properties an encoded object must have.  A boolean is always written.
    Extension definitions are written with whatever they have. *)
Definition required (c : call) : list string :=
  match c with
  | CExtensionDefinition _ _ _ _ => []
  | CMarkingDefinition _ _ => ["Type"; "ID"; "SpecVersion"; "Created"; "DefinitionType"; "Definition"]
  | CLanguageContent _ _ => ["Type"; "ID"; "SpecVersion"; "Created"; "Modified"; "Object"; "Contents"]
  | _ =>
    (match call_kind c with SCO => ["Type"; "ID"] | _ => ["Type"; "ID"; "SpecVersion"; "Created"; "Modified"] end ++
     match c with
     | CAttackPattern _ | CCampaign _ | CCourseOfAction _ | CIncident _ | CInfrastructure _ | CIntrusionSet _ | CThreatActor _ | CTool _
     | CVulnerability _ | CSoftware _ | CMutex _ => ["Name"]
     | CGrouping _ _ => ["Context"; "Objects"]
     | CIdentity _ => ["Name"; "Class"]
     | CIndicator _ _ _ => ["Pattern"; "PatternType"; "ValidFrom"]
     | CMalwareAnalysis _ _ _ => ["Product"]
     | CNote _ _ => ["Content"; "Objects"]
     | CObservedData _ _ _ _ => ["FirstObserved"; "LastObserved"; "NumberObserved"]
     | COpinion _ _ => ["Value"; "Objects"]
     | CReport _ _ _ => ["Name"; "Published"; "Objects"]
     | CRelationship _ _ _ => ["RelationshipType"; "Source"; "Target"]
     | CSighting _ => ["SightingOf"]
     | CAutonomousSystem _ => ["Number"]
     | CDirectory _ => ["Path"]
     | CDomainName _ | CEmailAddress _ | CIPv4Address _ | CIPv6Address _ | CMACAddress _ | CURL _ => ["Value"]
     | CNetworkTraffic _ => ["Protocols"]
     | _ => []
     end)%list
  end.
Definition unset (x : gval) : Prop := x = VNil \/ x = VStr "" \/ x = VInt 0 \/ x = VEnum 0.
(** No property holds NaN or an infinity. *)
Definition finite (c : call) (v : gval) : Prop :=
  forall p m t, StructFacts.has_path (call_fields c) p m t -> fm_key m <> "" -> fin t (get_path p v) = true.
(** The arguments with which a constructor called without options makes an object
    that can be encoded. *)
Definition encodable_args (c : call) : Prop :=
  match c with
  | CIdentity _ => False
  | CNote s _ => s <> ""
  | COpinion n _ => n <> 0%N
  | CLocation _ _ la lo => la <> FNaN /\ lo <> FNaN
  | CLanguageContent _ x => fin (GMap "" "string" (GMap "" "string" GIface)) x = true
  | CMarkingDefinition _ d => fin GIface d = true
  | _ => True
  end.
