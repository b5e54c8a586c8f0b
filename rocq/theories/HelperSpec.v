(** What the relationship helpers are documented to do. *)
From Verif Require Import GoStr Consts GoTypes Schema GoVal Codec CodecSpec FromJson HelperTable.
From Coq Require Import Ascii.
Local Open Scope string_scope.

(** The STIX name of a relation: AttributedTo is "attributed-to". *)
Definition upper (c : ascii) : bool := andb (N.leb 65 (N_of_ascii c)) (N.leb (N_of_ascii c) 90).
Definition lower (c : ascii) : ascii := if upper c then ascii_of_N (N_of_ascii c + 32) else c.
Fixpoint dashed (s : string) : string :=
  match s with
  | EmptyString => ""
  | String c r => if upper c then String "-" (String (lower c) (dashed r)) else String c (dashed r)
  end.
(** Add-Attributed-To, without the first part. *)
Definition relation_of (method : string) : string :=
  match method with
  | String _ (String _ (String _ (String c r))) => String (lower c) (dashed r)
  | _ => ""
  end.

(** The types of targets, from the documentation of the methods and the
    relationship tables of the STIX 2.1 specification.  Infrastructure may consist
    of any object. *)
Definition documented : list (string * list (string * list string)) :=
  let victims := ["identity"; "location"; "vulnerability"] in
  let means := ["attack-pattern"; "infrastructure"; "malware"; "tool"] in
  [("AttackPattern", [("delivers", ["malware"]); ("targets", victims); ("uses", ["malware"; "tool"])]);
   ("Campaign", [("attributed-to", ["intrusion-set"; "threat-actor"]); ("compromises", ["infrastructure"]); ("originates-from", ["location"]);
                 ("targets", victims); ("uses", means)]);
   ("CourseOfAction", [("investigates", ["indicator"]); ("mitigates", ["attack-pattern"; "indicator"; "malware"; "tool"; "vulnerability"]);
                       ("remediates", ["malware"; "vulnerability"])]);
   ("DomainName", [("resolves-to", ["domain-name"; "ipv4-addr"; "ipv6-addr"])]);
   ("Identity", [("located-at", ["location"])]);
   ("Indicator", [("indicates", ["attack-pattern"; "campaign"; "infrastructure"; "intrusion-set"; "malware"; "threat-actor"; "tool"]);
                  ("based-on", ["observed-data"])]);
   ("Infrastructure", [("communicates-with", ["infrastructure"; "ipv4-addr"; "ipv6-addr"; "domain-name"; "url"]); ("controls", ["infrastructure"; "malware"]);
                       ("delivers", ["malware"]); ("has", ["vulnerability"]); ("hosts", ["tool"; "malware"]); ("located-at", ["location"]);
                       ("uses", ["infrastructure"])]);
   ("IntrusionSet", [("attributed-to", ["threat-actor"]); ("compromises", ["infrastructure"]); ("hosts", ["infrastructure"]); ("owns", ["infrastructure"]);
                     ("originates-from", ["location"]); ("targets", victims); ("uses", means)]);
   ("IPv4Address", [("resolves-to", ["mac-addr"]); ("belongs-to", ["autonomous-system"])]);
   ("IPv6Address", [("resolves-to", ["mac-addr"]); ("belongs-to", ["autonomous-system"])]);
   ("Malware", [("authored-by", ["threat-actor"; "intrusion-set"]); ("beacons-to", ["infrastructure"]); ("exfiltrates-to", ["infrastructure"]);
                ("communicates-with", ["ipv4-addr"; "ipv6-addr"; "domain-name"; "url"]); ("controls", ["malware"]);
                ("downloads", ["malware"; "tool"; "file"]); ("drops", ["malware"; "tool"; "file"]); ("exploits", ["vulnerability"]);
                ("originates-from", ["location"]); ("targets", ["identity"; "infrastructure"; "location"; "vulnerability"]); ("uses", means);
                ("variant-of", ["malware"])]);
   ("MalwareAnalysis", [("characterizes", ["malware"]); ("analysis-of", ["malware"]); ("static-analysis-of", ["malware"]); ("dynamic-analysis-of", ["malware"])]);
   ("ThreatActor", [("attributed-to", ["identity"]); ("compromises", ["infrastructure"]); ("hosts", ["infrastructure"]); ("owns", ["infrastructure"]);
                    ("impersonates", ["identity"]); ("located-at", ["location"]); ("targets", victims); ("uses", means)]);
   ("Tool", [("delivers", ["malware"]); ("drops", ["malware"]); ("has", ["vulnerability"]);
             ("targets", ["identity"; "infrastructure"; "location"; "vulnerability"]); ("uses", ["infrastructure"])])].
Definition targets_of (h : helper) : option (list string) :=
  match alookup (h_recv h) documented with Some l => alookup (relation_of (h_name h)) l | None => None end.
(** The helpers every domain object and every cyber-observable has. *)
Definition common (h : helper) : Prop := h_recv h = "STIXDomainObject" \/ h_recv h = "STIXCyberObservableObject".

(** An object the method can be called on. *)
Definition receiver (h : helper) (recv : gobj) : Prop :=
  exists name n fs, In (name, GStruct n fs) builtin_types /\ fst recv = GStruct n fs /\ storable (fst recv) (snd recv) = true /\
    (n = h_recv h \/ exists m t, In (m, t) fs /\ fm_embed m = true /\ fm_name m = h_recv h).
