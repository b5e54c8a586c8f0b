(** The New* constructors of STIX objects. *)
From Verif Require Import GoStr JsonStr Json Float Base64 Time Consts GoTypes Schema OptTable GoVal Codec DataTypes NumFmt Canon Ident FromJson Options.

(** What a constructor returns: the object pointer (None: nil) and the error
    (None: nil), or a panic.  An error is represented by its text; fmt.Errorf
    texts are shortened. *)
Inductive cres :=
| Ret (obj : option gval) (err : option string)
| Crashed.

(** ErrPropertyMissing, ErrInvalidProperty, ErrInvalidParameter, error.go:10-16 *)
Definition ErrPropertyMissing : string := "at least one of the description, url, or externalID properties MUST be present".
(** error.go:10-16 *)
Definition ErrInvalidProperty : string := "invalid value for the property".
(** error.go:10-16 *)
Definition ErrInvalidParameter : string := "invalid parameter".

(** len(x) == 0 of a slice, map or Binary *)
Definition len0 (v : gval) : bool := match v with VSlice (_ :: _) | VMap (_ :: _) => false | VBin s => is_empty s | _ => true end.
(** x == nil (file.go:108) *)
Definition is_nil (v : gval) : bool := match v with VNil => true | _ => false end.
(** A string field of the object under construction (e.g. file.go:125). *)
Definition str_field (f : string) (v : gval) : string := str_of (get_field f v).
(** An int64 field of the object under construction (e.g. network.go:179). *)
Definition int_of (v : gval) : Z := match v with VInt z => z | _ => 0%Z end.
(** A float64 field of the object under construction (location.go:105). *)
Definition flt_of (v : gval) : flt := match v with VFloat f => f | _ => FFin false 0 0 end.

(** x < y on float64 *)
Definition signed (neg : bool) (m : N) : Z := if neg then (- Z.of_N m)%Z else Z.of_N m.
(** x < y on float64 (location.go:91); false if either is NaN. *)
Definition flt_lt (x y : flt) : bool :=
  match x, y with
  | FNaN, _ | _, FNaN => false
  | FInf a, FInf b => a && negb b
  | FInf a, FFin _ _ _ => a
  | FFin _ _ _, FInf b => negb b
  | FFin a m e, FFin b m' e' =>
      (signed a m * 10 ^ (e - Z.min e e') <? signed b m' * 10 ^ (e' - Z.min e e'))%Z
  end.
(** An integer constant as float64 (location.go:91). *)
Definition flt_int (z : Z) : flt := let (m, e) := norm10 (Z.abs_N z) 0 in FFin (z <? 0)%Z m e.

(** t.After(u) on two *Timestamp fields, both non nil *)
Definition after (a b : gval) : bool :=
  match a, b with VPtr (VTime x), VPtr (VTime y) => (y <? x)%Z | _, _ => false end.

(** return obj, err after err := applyOptions(obj, opts) *)
Definition err_of (r : res unit) : option string := match r with Err e => Some e | _ => None end.
(** err := applyOptions(obj, opts); return obj, err (e.g. attack.go:71-72) *)
Definition finish (p : gval * res unit) : cres :=
  match snd p with Panic => Crashed | r => Ret (Some (fst p)) (err_of r) end.
(** A check after applyOptions whose failure replaces the result. *)
Definition finish_check (bad : gval -> bool) (e : string) (p : gval * res unit) : cres :=
  match snd p with Panic => Crashed | r => if bad (fst p) then Ret None (Some e) else Ret (Some (fst p)) (err_of r) end.

(** obj.ID of an observable (object.go:326) *)
Definition p_sco_id : fpath := (Some "STIXCyberObservableObject", "ID").
(** obj.ID = NewObservableIdentifier(contribution, typ); return obj, err *)
Definition with_id (typ : string) (contrib : gval -> res string) (p : gval * res unit) : cres :=
  match snd p with
  | Panic => Crashed
  | r =>
      match contrib (fst p) with
      | Ok s => Ret (Some (set_path p_sco_id (VStr (new_observable_identifier s typ)) (fst p))) (err_of r)
      | _ => Crashed
      end
  end.

(** fmt.Sprintf("[%s]", strings.Join(parts, ",")) *)
Definition bracket (parts : list string) : string := ("[" ++ join "," parts ++ "]")%string.
(** if s != "" { append(`"s"`) } *)
Definition opt_quoted (s : string) : list string := if is_empty s then [] else [q s].

Section Constructors.
(** The 16 random bytes uuid.New() reads, the instant time.Now() returns, and
    strconv.ParseFloat for the canonicalizer. *)
Variable rb : string.
Variable now : Z.
Variable pf : string -> flt * bool.

(** &Timestamp{time.Now()} (object.go:22, 160; meta.go:183, 316;
    extension.go:179; sighting.go:113) *)
Definition now_ptr : gval := VPtr (VTime now).
(** newSTIXRelationshipObject, object.go:20-30 *)
Definition new_sro_base (typ : string) : gval :=
  build ty_STIXRelationshipObject [("Type", VStr typ); ("ID", VStr (new_identifier rb typ)); ("SpecVersion", VStr SpecVersion21);
                                   ("Created", now_ptr); ("Modified", now_ptr)].
(** newSTIXDomainObject, object.go:158-168 *)
Definition new_sdo_base (typ : string) : gval :=
  build ty_STIXDomainObject [("Type", VStr typ); ("ID", VStr (new_identifier rb typ)); ("SpecVersion", VStr SpecVersion21);
                             ("Created", now_ptr); ("Modified", now_ptr)].
(** newSTIXCyberObservableObject, object.go:417-422 *)
Definition new_sco_base (typ : string) : gval :=
  build ty_STIXCyberObservableObject [("Type", VStr typ); ("SpecVersion", VStr SpecVersion21)].

(** &T{STIXDomainObject: newSTIXDomainObject(typ), ...} (e.g. attack.go:68-69) *)
Definition sdo (t : gty) (typ : string) (l : list (string * gval)) : gval := build t (("STIXDomainObject", new_sdo_base typ) :: l).
(** &T{STIXRelationshipObject: newSTIXRelationshipObject(typ), ...}
    (relationship.go:72-78) *)
Definition sro (t : gty) (typ : string) (l : list (string * gval)) : gval := build t (("STIXRelationshipObject", new_sro_base typ) :: l).
(** &T{STIXCyberObservableObject: newSTIXCyberObservableObject(typ), ...} (e.g.
    file.go:111-116) *)
Definition sco (t : gty) (typ : string) (l : list (string * gval)) : gval := build t (("STIXCyberObservableObject", new_sco_base typ) :: l).

(** canonicalizeExtensions, object.go:402-415 *)
Definition canonicalize_extensions (v : gval) : res string :=
  let ext := get_path p_extensions v in
  if len0 ext then Ok ""
  else match enc GExt ext with
       | Ok j => match transform pf (print j) with Ok s => Ok s | Err _ => Ok "" | Panic => Panic end
       | Err _ => Ok ""
       | Panic => Panic
       end.
(** if len(obj.Extensions) != 0 { append(canonicalizeExtensions) } *)
Definition ext_part (v : gval) : res (list string) :=
  if len0 (get_path p_extensions v) then Ok [] else do s <- canonicalize_extensions v; Ok [s].
(** if len(obj.Hashes) != 0 { append(getIDContribution) } *)
Definition hash_part (v : gval) : list string :=
  if len0 (get_field "Hashes" v) then [] else [hash_contribution (get_field "Hashes" v)].

(** ** Domain objects *)
(** NewAttackPattern, attack.go:64-73 *)
Definition new_attack_pattern (name : string) (os : list stix_option) : cres :=
  if is_empty name then Ret None (Some ErrPropertyMissing)
  else finish (apply_opts ty_AttackPattern os (sdo ty_AttackPattern TypeAttackPattern [("Name", VStr name)])).
(** FirstSeen != nil && LastSeen != nil && FirstSeen.After(LastSeen.Time) *)
Definition bad_seen (v : gval) : bool :=
  negb (is_nil (get_field "FirstSeen" v)) && negb (is_nil (get_field "LastSeen" v)) && after (get_field "FirstSeen" v) (get_field "LastSeen" v).
(** NewCampaign, campaign.go:92-106 *)
Definition new_campaign (name : string) (os : list stix_option) : cres :=
  if is_empty name then Ret None (Some ErrPropertyMissing)
  else finish_check bad_seen ErrInvalidProperty (apply_opts ty_Campaign os (sdo ty_Campaign TypeCampaign [("Name", VStr name)])).
(** NewCourseOfAction, course-of-action.go:57-66 *)
Definition new_course_of_action (name : string) (os : list stix_option) : cres :=
  if is_empty name then Ret None (Some ErrPropertyMissing)
  else finish (apply_opts ty_CourseOfAction os (sdo ty_CourseOfAction TypeCourseOfAction [("Name", VStr name)])).
(** NewGrouping, grouping.go:42-51 *)
Definition new_grouping (context : string) (objects : gval) (os : list stix_option) : cres :=
  if is_empty context || len0 objects then Ret None (Some ErrPropertyMissing)
  else finish (apply_opts ty_Grouping os (sdo ty_Grouping TypeGrouping [("Context", VStr context); ("Objects", objects)])).
(** NewIdentity, identity.go:51-60 *)
Definition new_identity (name : string) (os : list stix_option) : cres :=
  if is_empty name then Ret None (Some ErrPropertyMissing)
  else finish (apply_opts ty_Identity os (sdo ty_Identity TypeIdentity [("Name", VStr name)])).
(** NewIncident, incident.go:26-36 *)
Definition new_incident (name : string) (os : list stix_option) : cres :=
  if is_empty name then Ret None (Some ErrPropertyMissing)
  else finish (apply_opts ty_Incident os (sdo ty_Incident TypeIncident [("Name", VStr name)])).
(** NewIndicator, indicator.go:76-85 *)
Definition new_indicator (pattern pattern_type : string) (valid_from : gval) (os : list stix_option) : cres :=
  if is_empty pattern || is_empty pattern_type || is_nil valid_from then Ret None (Some ErrPropertyMissing)
  else finish (apply_opts ty_Indicator os
         (sdo ty_Indicator TypeIndicator [("Pattern", VStr pattern); ("PatternType", VStr pattern_type); ("ValidFrom", valid_from)])).
(** NewInfrastructure, infrastructure.go:122-131 *)
Definition new_infrastructure (name : string) (os : list stix_option) : cres :=
  if is_empty name then Ret None (Some ErrPropertyMissing)
  else finish (apply_opts ty_Infrastructure os (sdo ty_Infrastructure TypeInfrastructure [("Name", VStr name)])).
(** NewIntrusionSet, intrusion-set.go:145-154 *)
Definition new_intrusion_set (name : string) (os : list stix_option) : cres :=
  if is_empty name then Ret None (Some ErrPropertyMissing)
  else finish (apply_opts ty_IntrusionSet os (sdo ty_IntrusionSet TypeIntrusionSet [("Name", VStr name)])).
(** NewLocation, location.go:86-109 *)
Definition new_location (region country : string) (lat long : flt) (os : list stix_option) : cres :=
  if is_empty region && is_empty country && flt_is_zero lat && flt_is_zero long then Ret None (Some ErrPropertyMissing)
  else if flt_lt lat (flt_int (-90)) || flt_lt (flt_int 90) lat || flt_lt long (flt_int (-180)) || flt_lt (flt_int 180) long ||
          (flt_is_zero lat && negb (flt_is_zero long)) || (negb (flt_is_zero lat) && flt_is_zero long)
  then Ret None (Some ErrInvalidProperty)
  else finish_check (fun v => negb (flt_is_zero (flt_of (get_field "Precision" v))) && (flt_is_zero lat || flt_is_zero long)) ErrInvalidProperty
         (apply_opts ty_Location os
            (sdo ty_Location TypeLocation [("Region", VStr region); ("Country", VStr country); ("Latitude", VFloat lat); ("Longitude", VFloat long)])).
(** NewMalware, malware.go:210-223 *)
Definition new_malware (family : bool) (os : list stix_option) : cres :=
  finish_check (fun v => family && is_empty (str_field "Name" v)) ErrInvalidProperty
    (apply_opts ty_Malware os (sdo ty_Malware TypeMalware [("IsFamily", VBool family)])).
(** NewMalwareAnalysis, malware-analysis.go:124-138 *)
Definition new_malware_analysis (product result : string) (scos : gval) (os : list stix_option) : cres :=
  if is_empty product || (len0 scos && is_empty result) then Ret None (Some ErrPropertyMissing)
  else finish (apply_opts ty_MalwareAnalysis os
         (sdo ty_MalwareAnalysis TypeMalwareAnalysis [("Product", VStr product); ("AnalysisSCOs", scos); ("Result", VStr result)])).
(** NewNote, note.go:35-48 *)
Definition new_note (content : string) (objects : gval) (os : list stix_option) : cres :=
  if len0 objects then Ret None (Some ErrPropertyMissing)
  else finish (apply_opts ty_Note os (sdo ty_Note TypeNote [("Content", VStr content); ("Objects", objects)])).
(** NewObservedData, observed-data.go:87-102 *)
Definition new_observed_data (first last : gval) (number : Z) (refs : gval) (os : list stix_option) : cres :=
  if len0 refs || is_nil first || is_nil last || (number <? 1)%Z then Ret None (Some ErrPropertyMissing)
  else finish (apply_opts ty_ObservedData os
         (sdo ty_ObservedData TypeObservedData
            [("FirstObserved", first); ("LastObserved", last); ("NumberObserved", VInt number); ("ObjectRefs", refs)])).
(** NewOpinion, opinion.go:51-64 *)
Definition new_opinion (val : N) (objects : gval) (os : list stix_option) : cres :=
  if len0 objects then Ret None (Some ErrPropertyMissing)
  else finish (apply_opts ty_Opinion os (sdo ty_Opinion TypeOpinion [("Value", VEnum val); ("Objects", objects)])).
(** NewReport, report.go:43-57 *)
Definition new_report (name : string) (published objects : gval) (os : list stix_option) : cres :=
  if is_empty name || is_nil published || len0 objects then Ret None (Some ErrPropertyMissing)
  else finish (apply_opts ty_Report os (sdo ty_Report TypeReport [("Name", VStr name); ("Published", published); ("Objects", objects)])).
(** NewThreatActor, threat-actor.go:156-168 *)
Definition new_threat_actor (name : string) (os : list stix_option) : cres :=
  if is_empty name then Ret None (Some ErrPropertyMissing)
  else finish (apply_opts ty_ThreatActor os (sdo ty_ThreatActor TypeThreatActor [("Name", VStr name)])).
(** NewTool, tool.go:93-105 *)
Definition new_tool (name : string) (os : list stix_option) : cres :=
  if is_empty name then Ret None (Some ErrPropertyMissing)
  else finish (apply_opts ty_Tool os (sdo ty_Tool TypeTool [("Name", VStr name)])).
(** NewVulnerability, vulnerability.go:34-46 *)
Definition new_vulnerability (name : string) (os : list stix_option) : cres :=
  if is_empty name then Ret None (Some ErrPropertyMissing)
  else finish (apply_opts ty_Vulnerability os (sdo ty_Vulnerability TypeVulnerability [("Name", VStr name)])).

(** ** Relationship objects *)
(** NewRelationship, relationship.go:68-83 *)
Definition new_relationship (rel source target : string) (os : list stix_option) : cres :=
  if is_empty rel || is_empty source || is_empty target then Ret None (Some ErrPropertyMissing)
  else finish (apply_opts ty_Relationship os
         (sro ty_Relationship TypeRelationship [("Source", VStr source); ("Target", VStr target); ("RelationshipType", VStr rel)])).
(** NewSighting, sighting.go:108-143 *)
Definition new_sighting (s : string) (os : list stix_option) : cres :=
  if is_empty s then Ret None (Some ErrPropertyMissing)
  else match apply_opts ty_Sighting os (sro ty_Sighting TypeSighting [("SightingOf", VStr s)]) with
       | (_, Panic) => Crashed
       | (_, Err e) => Ret None (Some e)
       | (v, Ok _) =>
           let count := int_of (get_field "Count" v) in
           if (count <? 0)%Z || (999999999 <? count)%Z then Ret None (Some ErrInvalidProperty)
           else if bad_seen v then Ret None (Some ErrInvalidProperty)
           else Ret (Some v) None
       end.

(** ** Meta objects *)
(** NewLanguageContent, meta.go:178-196 *)
Definition new_language_content (object : string) (content : gval) (os : list stix_option) : cres :=
  if is_empty object || is_nil content then Ret None (Some ErrPropertyMissing)
  else finish (apply_opts ty_LanguageContent os
         (build ty_LanguageContent
            [("Type", VStr TypeLanguageContent); ("ID", VStr (new_identifier rb TypeLanguageContent)); ("SpecVersion", VStr SpecVersion21);
             ("Created", now_ptr); ("Modified", now_ptr); ("Object", VStr object); ("Contents", content)])).
(** NewMarkingDefinition, meta.go:311-328 *)
Definition new_marking_definition (typ : string) (definition : gval) (os : list stix_option) : cres :=
  if is_empty typ || is_nil definition then Ret None (Some ErrPropertyMissing)
  else finish (apply_opts ty_MarkingDefinition os
         (build ty_MarkingDefinition
            [("Type", VStr TypeMarkingDefinition); ("ID", VStr (new_identifier rb TypeMarkingDefinition)); ("SpecVersion", VStr SpecVersion21);
             ("Created", now_ptr); ("DefinitionType", VStr typ); ("Definition", definition)])).
(** NewExtensionDefinition, extension.go:170-195 *)
Definition new_extension_definition (name schema version : string) (ext_types : gval) (os : list stix_option) : cres :=
  if is_empty name || is_empty schema || is_empty version || len0 ext_types then Ret None (Some ErrInvalidParameter)
  else finish (apply_opts ty_ExtensionDefinition os
         (build ty_ExtensionDefinition
            [("Type", VStr TypeExtensionDefinition); ("ID", VStr (new_identifier rb TypeExtensionDefinition)); ("SpecVersion", VStr SpecVersion21);
             ("Created", now_ptr); ("Modified", now_ptr); ("Name", VStr name); ("Schema", VStr schema); ("Version", VStr version);
             ("ExtensionTypes", ext_types)])).

(** ** Cyber-observable objects *)
(** The contribution of obj.Hashes and obj.Payload, artifact.go:67-73 *)
Definition artifact_parts (v : gval) : list string :=
  hash_part v ++ match get_field "Payload" v with VBin s => if is_empty s then [] else [q (b64_encode s)] | _ => [] end.
(** NewArtifact, artifact.go:47-76 *)
Definition new_artifact (os : list stix_option) : cres :=
  match apply_opts ty_Artifact os (sco ty_Artifact TypeArtifact []) with
  | (_, Panic) => Crashed
  | (_, Err e) => Ret None (Some e)
  | (v, Ok u) =>
      let nil_payload := is_nil (get_field "Payload" v) in
      let no_url := is_empty (str_field "URL" v) in
      if nil_payload && no_url then Ret None (Some ErrPropertyMissing)
      else if negb nil_payload && negb no_url then Ret None (Some ErrInvalidParameter)
      else if negb no_url && is_nil (get_field "Hashes" v) then Ret None (Some ErrPropertyMissing)
      else with_id TypeArtifact (fun v => Ok (bracket (artifact_parts v))) (v, Ok u)
  end.
(** NewAutonomousSystem, as.go:26-39 *)
Definition new_autonomous_system (number : Z) (os : list stix_option) : cres :=
  if (number =? 0)%Z then Ret None (Some ErrInvalidParameter)
  else with_id TypeAutonomousSystem (fun _ => Ok ("[" ++ Z_to_string number ++ "]")%string)
         (apply_opts ty_AutonomousSystem os (sco ty_AutonomousSystem TypeAutonomousSystem [("Number", VInt number)])).
(** The constructors of observables with one identifying string: the identifier
    is made from the argument. *)
Definition new_single (t : gty) (typ field value : string) (os : list stix_option) : cres :=
  if is_empty value then Ret None (Some ErrInvalidParameter)
  else with_id typ (fun _ => Ok ("[" ++ q value ++ "]")%string) (apply_opts t os (sco t typ [(field, VStr value)])).
(** NewDirectory, directory.go:39-52 *)
Definition new_directory : string -> list stix_option -> cres := new_single ty_Directory TypeDirectory "Path".
(** NewDomainName, dns.go:36-49 *)
Definition new_domain_name : string -> list stix_option -> cres := new_single ty_DomainName TypeDomainName "Value".
(** NewEmailAddress, email.go:30-43 *)
Definition new_email_address : string -> list stix_option -> cres := new_single ty_EmailAddress TypeEmailAddress "Value".
(** NewIPv4Address, ip.go:47-60 *)
Definition new_ipv4_address : string -> list stix_option -> cres := new_single ty_IPv4Address TypeIPv4Addr "Value".
(** NewIPv6Address, ip.go:101-114 *)
Definition new_ipv6_address : string -> list stix_option -> cres := new_single ty_IPv6Address TypeIPv6Addr "Value".
(** NewMACAddress, mac.go:20-33 *)
Definition new_mac_address : string -> list stix_option -> cres := new_single ty_MACAddress TypeMACAddress "Value".
(** NewMutex, mutex.go:20-33 *)
Definition new_mutex : string -> list stix_option -> cres := new_single ty_Mutex TypeMutex "Name".
(** NewURL, url.go:22-35 *)
Definition new_url : string -> list stix_option -> cres := new_single ty_URL TypeURL "Value".
(** email.go:119-128 *)
Definition email_parts (v : gval) : list string :=
  opt_quoted (str_field "From" v) ++ opt_quoted (str_field "Subject" v) ++ opt_quoted (str_field "Body" v).
(** NewEmailMessage, email.go:111-131 *)
Definition new_email_message (multipart : bool) (os : list stix_option) : cres :=
  with_id TypeEmailMessage (fun v => Ok (bracket (email_parts v)))
    (apply_opts ty_EmailMessage os (sco ty_EmailMessage TypeEmailMessage [("IsMultipart", VBool multipart)])).
(** file.go:119-131 *)
Definition file_parts (v : gval) : res (list string) :=
  do e <- ext_part v;
  Ok (hash_part v ++ opt_quoted (str_field "Name" v) ++ e ++ opt_quoted (str_field "ParentDirectory" v)).
(** NewFile, file.go:107-134 *)
Definition new_file (name : string) (hashes : gval) (os : list stix_option) : cres :=
  if is_empty name && is_nil hashes then Ret None (Some ErrInvalidParameter)
  else with_id TypeFile (fun v => do l <- file_parts v; Ok (bracket l))
         (apply_opts ty_File os (sco ty_File TypeFile [("Name", VStr name); ("Hashes", hashes)])).
(** if t != nil { append(`"t.String()"`) } *)
Definition time_part (v : gval) : list string := match v with VPtr (VTime t) => [q (ts_string t)] | _ => [] end.
(** if p != 0 { append(fmt.Sprintf("%d", p)) }, network.go:179-184 *)
Definition port_part (z : Z) : list string := if (z =? 0)%Z then [] else [Z_to_string z].
(** fmt.Sprintf(`["%s"]`, strings.Join(obj.Protocols, `","`)) *)
Definition protocols_part (v : gval) : string :=
  ("[" ++ q (join (dquote ++ "," ++ dquote) (map str_of (old_list (get_field "Protocols" v)))) ++ "]")%string.
(** network.go:165-191 *)
Definition network_parts (v : gval) : res (list string) :=
  do e <- ext_part v;
  Ok (time_part (get_field "Start" v) ++ time_part (get_field "End" v) ++
      opt_quoted (str_field "Src" v) ++ opt_quoted (str_field "Dst" v) ++
      port_part (int_of (get_field "SrcPort" v)) ++ port_part (int_of (get_field "DstPort" v)) ++
      [protocols_part v] ++ e).
(** NewNetworkTraffic, network.go:145-194 *)
Definition new_network_traffic (proto : gval) (os : list stix_option) : cres :=
  if len0 proto then Ret None (Some ErrInvalidParameter)
  else match apply_opts ty_NetworkTraffic os (sco ty_NetworkTraffic TypeNetworkTraffic [("Protocols", proto)]) with
       | (_, Panic) => Crashed
       | (_, Err e) => Ret None (Some e)
       | (v, Ok u) =>
           if is_empty (str_field "Src" v) && is_empty (str_field "Dst" v) then Ret None (Some "at least one of src or dst is required")
           else with_id TypeNetworkTraffic (fun v => do l <- network_parts v; Ok (bracket l)) (v, Ok u)
       end.
(** NewProcess, process.go:72-84 *)
Definition new_process (os : list stix_option) : cres :=
  match os with
  | [] => Ret None (Some ErrPropertyMissing)
  | _ => finish (apply_opts ty_Process os
           (build ty_Process [("STIXCyberObservableObject", set_field "ID" (VStr (new_identifier rb TypeProcess)) (new_sco_base TypeProcess))]))
  end.
(** RegistryValue.getIDContrib, regkey.go:79-91; a nil pointer is dereferenced *)
Definition named_part (name s : string) : string := (q name ++ ":" ++ q s)%string.
(** RegistryValue.getIDContrib, regkey.go:79-91 *)
Definition registry_value_part (v : gval) : res string :=
  match v with
  | VPtr w =>
      let data := str_field "Data" w in
      let name := str_field "Name" w in
      Ok ("{" ++ join "," ((if is_empty data then [] else [named_part "data" data]) ++
             (match get_field "DataType" w with VEnum n => if (n =? 0)%N then [] else [named_part "data_type" (enum_string "RegistryDataType" n)] | _ => [] end) ++
             (if is_empty name then [] else [named_part "name" name])) ++ "}")%string
  | _ => Panic
  end.
(** The loop over the registry values, regkey.go:55-58. *)
Fixpoint all_ok {A B} (f : A -> res B) (l : list A) : res (list B) :=
  match l with [] => Ok [] | x :: l' => do y <- f x; do ys <- all_ok f l'; Ok (y :: ys) end.
(** regkey.go:50-60 *)
Definition registry_parts (v : gval) : res (list string) :=
  let values := old_list (get_field "Values" v) in
  do a <- all_ok registry_value_part values;
  Ok (opt_quoted (str_field "Key" v) ++ match a with [] => [] | _ => [join "," a] end).
(** NewRegistryKey, regkey.go:39-63 *)
Definition new_registry_key (os : list stix_option) : cres :=
  match os with
  | [] => Ret None (Some ErrPropertyMissing)
  | _ => with_id TypeRegistryKey (fun v => do l <- registry_parts v; Ok (bracket l))
           (apply_opts ty_RegistryKey os (sco ty_RegistryKey TypeRegistryKey []))
  end.
(** software.go:51-61 *)
Definition software_parts (v : gval) : list string :=
  [q (str_field "Name" v)] ++ opt_quoted (str_field "CPE" v) ++ opt_quoted (str_field "Vendor" v) ++ opt_quoted (str_field "Version" v).
(** NewSoftware, software.go:40-64 *)
Definition new_software (name : string) (os : list stix_option) : cres :=
  if is_empty name then Ret None (Some ErrInvalidParameter)
  else with_id TypeSoftware (fun v => Ok (bracket (software_parts v)))
         (apply_opts ty_Software os (sco ty_Software TypeSoftware [("Name", VStr name)])).
(** user.go:93-102 *)
Definition user_parts (v : gval) : list string :=
  opt_quoted (str_field "AccountType" v) ++ opt_quoted (str_field "UserID" v) ++ opt_quoted (str_field "AccountLogin" v).
(** NewUserAccount, user.go:82-105 *)
Definition new_user_account (os : list stix_option) : cres :=
  match os with
  | [] => Ret None (Some ErrPropertyMissing)
  | _ => with_id TypeUserAccount (fun v => Ok (bracket (user_parts v)))
           (apply_opts ty_UserAccount os (sco ty_UserAccount TypeUserAccount []))
  end.
(** x509.go:73-79 *)
Definition x509_parts (v : gval) : list string := hash_part v ++ opt_quoted (str_field "SerialNumber" v).
(** NewX509Certificate, x509.go:62-82 *)
Definition new_x509_certificate (os : list stix_option) : cres :=
  match os with
  | [] => Ret None (Some ErrPropertyMissing)
  | _ => with_id TypeX509Certificate (fun v => Ok (bracket (x509_parts v)))
           (apply_opts ty_X509Certificate os (sco ty_X509Certificate TypeX509Certificate []))
  end.

(** ** All constructors *)
Inductive call :=
| CAttackPattern (name : string) | CCampaign (name : string) | CCourseOfAction (name : string)
| CGrouping (context : string) (objects : gval) | CIdentity (name : string) | CIncident (name : string)
| CIndicator (pattern pattern_type : string) (valid_from : gval) | CInfrastructure (name : string) | CIntrusionSet (name : string)
| CLocation (region country : string) (lat long : flt) | CMalware (family : bool)
| CMalwareAnalysis (product result : string) (scos : gval) | CNote (content : string) (objects : gval)
| CObservedData (first last : gval) (number : Z) (refs : gval) | COpinion (val : N) (objects : gval)
| CReport (name : string) (published objects : gval) | CThreatActor (name : string) | CTool (name : string) | CVulnerability (name : string)
| CRelationship (rel source target : string) | CSighting (s : string)
| CLanguageContent (object : string) (content : gval) | CMarkingDefinition (typ : string) (definition : gval)
| CExtensionDefinition (name schema version : string) (ext_types : gval)
| CArtifact | CAutonomousSystem (number : Z) | CDirectory (path : string) | CDomainName (value : string) | CEmailAddress (value : string)
| CEmailMessage (multipart : bool) | CFile (name : string) (hashes : gval) | CIPv4Address (value : string) | CIPv6Address (value : string)
| CMACAddress (value : string) | CMutex (value : string) | CNetworkTraffic (proto : gval) | CProcess | CRegistryKey
| CSoftware (name : string) | CURL (value : string) | CUserAccount | CX509Certificate.

(** The exported constructor of each kind of object, cited at its own
    definition. *)
Definition construct (c : call) (os : list stix_option) : cres :=
  match c with
  | CAttackPattern n => new_attack_pattern n os
  | CCampaign n => new_campaign n os
  | CCourseOfAction n => new_course_of_action n os
  | CGrouping c l => new_grouping c l os
  | CIdentity n => new_identity n os
  | CIncident n => new_incident n os
  | CIndicator p t f => new_indicator p t f os
  | CInfrastructure n => new_infrastructure n os
  | CIntrusionSet n => new_intrusion_set n os
  | CLocation r c la lo => new_location r c la lo os
  | CMalware f => new_malware f os
  | CMalwareAnalysis p r l => new_malware_analysis p r l os
  | CNote c l => new_note c l os
  | CObservedData f la n l => new_observed_data f la n l os
  | COpinion v l => new_opinion v l os
  | CReport n p l => new_report n p l os
  | CThreatActor n => new_threat_actor n os
  | CTool n => new_tool n os
  | CVulnerability n => new_vulnerability n os
  | CRelationship r s t => new_relationship r s t os
  | CSighting s => new_sighting s os
  | CLanguageContent o c => new_language_content o c os
  | CMarkingDefinition t d => new_marking_definition t d os
  | CExtensionDefinition n s v l => new_extension_definition n s v l os
  | CArtifact => new_artifact os
  | CAutonomousSystem n => new_autonomous_system n os
  | CDirectory v => new_directory v os
  | CDomainName v => new_domain_name v os
  | CEmailAddress v => new_email_address v os
  | CEmailMessage m => new_email_message m os
  | CFile n h => new_file n h os
  | CIPv4Address v => new_ipv4_address v os
  | CIPv6Address v => new_ipv6_address v os
  | CMACAddress v => new_mac_address v os
  | CMutex v => new_mutex v os
  | CNetworkTraffic p => new_network_traffic p os
  | CProcess => new_process os
  | CRegistryKey => new_registry_key os
  | CSoftware n => new_software n os
  | CURL v => new_url v os
  | CUserAccount => new_user_account os
  | CX509Certificate => new_x509_certificate os
  end.
End Constructors.
