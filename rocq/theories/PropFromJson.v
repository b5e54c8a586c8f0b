(** Properties of FromJSON: C09-C18, C21, C57.
    [rnd] is the rounding of decimals to doubles; every theorem holds for all. *)
From Verif Require Import GoStr GoStrFacts JsonStr StrSpec StrSpecFacts JsonSpec JsonSpecFacts Json Float Consts GoTypes Schema Accessors GoVal Codec CodecSpec DataTypes Ident
  Collection CollectionSpec FromJson FromJsonSpec FromJsonFacts IndepFacts CollectFacts BundleFacts FromJsonProps PropCodec PropCollectionAux ObjFacts JsonFacts.

Definition default_cf : config := config_of [].

(** ** C09 *)
(** A result is a collection made of what each JSON value of the document
    contributes, in order; anything that is not a document is an error. *)
Theorem from_json_all_or_nothing : forall rnd cf s,
  (forall c, from_json rnd cf s = Ok c -> exists js outs, document js s /\
     c = collect (cf_nosort cf) outs /\ Forall acceptable outs /\ contribute_all rnd cf [] js outs) /\
  ((forall js, ~ document js s) -> from_json rnd cf s = Err "unknown JSON format").
Proof. exact all_or_nothing. Qed.
Print Assumptions from_json_all_or_nothing.

(** One JSON value that contributes nothing legal fails the whole parse. *)
Theorem from_json_bad_object_fails : forall rnd cf js s j, document js s -> In j js ->
  (forall ts o, ~ contributes rnd cf ts j o) -> forall c, from_json rnd cf s <> Ok c.
Proof. exact bad_object. Qed.
Print Assumptions from_json_bad_object_fails.

(** And a document of values that are fine on their own is parsed. *)
Theorem from_json_good_document_parsed : forall rnd cf js s, document js s -> Forall (good rnd cf) js ->
  exists c, from_json rnd cf s = Ok c.
Proof. exact success. Qed.
Print Assumptions from_json_good_document_parsed.

(** What the collection of a list of contributions holds: the last object of
    each identifier. *)
Theorem collected_objects : forall ns outs id ob, Forall acceptable outs ->
  get (collect ns outs) id = Some ob <->
  obj_id ob = Ok id /\ exists o1 o2, outs = o1 ++ Some ob :: o2 /\ forall ob', In (Some ob') o2 -> obj_id ob' <> Ok id.
Proof. exact collect_get. Qed.
Print Assumptions collected_objects.

(** A text is at most one document. *)
Theorem document_unique : forall js js' s, document js s -> document js' s -> js = js'.
Proof. exact document_fun. Qed.
Print Assumptions document_unique.

Definition mid : string := "malware--30313233-3435-4637-b839-616263646566".
Definition mal (more : list (string * json)) : json :=
  JObj ([("type", JStr "malware"); ("id", JStr mid); ("is_family", JBool true)] ++ more).
Definition tid : string := "tool--30313233-3435-4637-b839-616263646566".
Definition tool (more : list (string * json)) : json :=
  JObj ([("type", JStr "tool"); ("id", JStr tid); ("name", JStr "x")] ++ more).
Definition cid : string := "x-foo--30313233-3435-4637-b839-616263646566".
Definition cust (more : list (string * json)) : json := JObj ([("type", JStr "x-foo"); ("id", JStr cid)] ++ more).
Definition arr (js : list json) : string := print (JArr js).
Lemma arr_document js : forallb json_okb js = true -> document js (arr js).
Proof. intros H. apply doc_array. apply (proj1 (json_exact _ _)). now apply parse_print. Qed.

Example from_json_good_document_ex : exists s, document [mal [("x_a", JNum "1")]; cust []] s /\
  Forall (good rnd_id default_cf) [mal [("x_a", JNum "1")]; cust []] /\
  exists c, from_json rnd_id default_cf s = Ok c /\ get c mid <> None /\ get c cid <> None.
Proof.
  exists (arr [mal [("x_a", JNum "1")]; cust []]). split; [apply arr_document; reflexivity|]. split.
  - assert (G : exists g1, generic rnd_id (mal [("x_a", JNum "1")]) = Ok g1) by (eexists; vm_compute; reflexivity).
    assert (G' : exists g1, generic rnd_id (cust []) = Ok g1) by (eexists; vm_compute; reflexivity).
    constructor; [|constructor; [|constructor]]; right; do 3 eexists; (split; [reflexivity|]); (split; [reflexivity|]).
    + split; [eapply (b_builtin _ _ _ _ ty_Malware _ []); [reflexivity|apply (proj1 (alookup_builtin _ _)); vm_compute; reflexivity|vm_compute; reflexivity|reflexivity]|].
      split; [exists mid, "malware"; repeat split; vm_compute; reflexivity|exact G].
    + split; [eapply b_custom; [reflexivity|intros H; apply mem_str_In in H; vm_compute in H; discriminate|reflexivity|vm_compute; reflexivity]|].
      split; [exists cid, "x-foo"; repeat split; vm_compute; reflexivity|exact G'].
  - eexists. split; [vm_compute; reflexivity|]. split; vm_compute; discriminate.
Qed.
Example from_json_bad_object_ex : forall ts o, ~ contributes rnd_id default_cf ts (JNum "1") o.
Proof. intros ts o H. inversion H; subst. discriminate. Qed.
Example from_json_no_document_ex : from_json rnd_id default_cf "{""objects"":3}" = Err "unknown JSON format".
Proof. vm_compute. reflexivity. Qed.

(** ** C10 *)
(** False in general: a custom property of one object shows up on the next. *)
Theorem objects_independent_refuted : exists j1 j2 c c2,
  from_json rnd_id default_cf (arr [j1; j2]) = Ok c /\ from_json rnd_id default_cf (alone j2) = Ok c2 /\
  get c tid <> get c2 tid /\
  (exists v, get c tid = Some (ty_Tool, v) /\ props_of ty_Tool v = [("x_secret", dyn_str "s")]) /\
  (exists v, get c2 tid = Some (ty_Tool, v) /\ props_of ty_Tool v = []).
Proof.
  exists (mal [("x_secret", JStr "s")]), (tool []). eexists. eexists. split; [vm_compute; reflexivity|]. split; [vm_compute; reflexivity|].
  split; [vm_compute; discriminate|]. split; (eexists; split; [vm_compute; reflexivity|vm_compute; reflexivity]).
Qed.
Print Assumptions objects_independent_refuted.

(** True when all objects but the last have only properties of their own type.
    Missing: documents with custom properties, custom types or custom parsers
    before the last object. *)
Theorem objects_independent_partial : forall rnd cf js j s, document (js ++ [j]) s ->
  cf_drop cf = false -> Forall (clean cf) js -> independent rnd cf (js ++ [j]) (from_json rnd cf s).
Proof. intros rnd cf js j s D Dr C. apply composed_independent; [exact D|]. now apply composed_clean. Qed.
Print Assumptions objects_independent_partial.

(** True with the drop-custom option when every object states a type. *)
Theorem objects_independent_drop_partial : forall rnd cf js s, document js s -> cf_drop cf = true ->
  (forall ms, In (JObj ms) js -> member "type" (JObj ms) <> None) -> independent rnd cf js (from_json rnd cf s).
Proof. intros rnd cf js s D Dr H. apply composed_independent; [exact D|]. now apply composed_drop. Qed.
Print Assumptions objects_independent_drop_partial.

Example objects_independent_ex : exists s, document ([mal []; JNull] ++ [tool [("x_b", JBool true)]]) s /\ Forall (clean default_cf) [mal []; JNull] /\
  exists c, from_json rnd_id default_cf s = Ok c.
Proof.
  exists (arr [mal []; JNull; tool [("x_b", JBool true)]]). split; [apply (arr_document [mal []; JNull; tool [("x_b", JBool true)]]); reflexivity|]. split.
  - constructor; [right|constructor; [now left|constructor]]. do 3 eexists. split; [reflexivity|]. split; [reflexivity|]. split; [reflexivity|].
    split; [apply (proj1 (alookup_builtin _ ty_Malware)); vm_compute; reflexivity|].
    intros k x H. apply mem_str_In. repeat (destruct H as [Q|H]; [injection Q as <- <-; vm_compute; reflexivity|]). destruct H.
  - eexists. vm_compute. reflexivity.
Qed.

(** ** C57 *)
(** Without parsers and without the drop-custom option, an object keeps all its
    own custom properties, and nothing is invented. *)
Theorem custom_properties_kept : forall rnd cf js s c, document js s -> from_json rnd cf s = Ok c ->
  cf_drop cf = false -> (forall typ, parser_of cf typ = None) ->
  exists outs, c = collect (cf_nosort cf) outs /\ Forall acceptable outs /\ length outs = length js /\
  forall a j b, js = a ++ j :: b -> exists o, nth_error outs (length a) = Some o /\ props_bound rnd a j o.
Proof. exact from_json_props. Qed.
Print Assumptions custom_properties_kept.
Example custom_properties_ex : exists c v, from_json rnd_id default_cf (arr [mal [("x_a", JStr "1"); ("x_b", JBool true)]]) = Ok c /\
  get c mid = Some (ty_Malware, v) /\ akeys (props_of ty_Malware v) = ["x_a"; "x_b"].
Proof. eexists. eexists. split; [vm_compute; reflexivity|]. split; [vm_compute; reflexivity|]. vm_compute. reflexivity. Qed.

(** ** C11 *)
Theorem own_fields_as_alone : forall rnd cf js s c, document js s -> from_json rnd cf s = Ok c ->
  (forall typ, parser_of cf typ = None) ->
  exists outs, c = collect (cf_nosort cf) outs /\ Forall acceptable outs /\
  Forall2 (fun j o => forall name n fs v, o = Some (GStruct n fs, v) -> In (name, GStruct n fs) builtin_types ->
     exists v0, unmarshal rnd (print j) (GStruct n fs) (zero (GStruct n fs)) = Ok v0 /\
       forall k p t, In (k, p, t) (flat_fields fs) -> get_path p v = get_path p v0) js outs.
Proof. exact own_fields. Qed.
Print Assumptions own_fields_as_alone.
Example own_fields_ex : exists c v, from_json rnd_id default_cf (arr [mal [("x_secret", JStr "s")]; tool []]) = Ok c /\
  get c tid = Some (ty_Tool, v) /\ get_path (None, "Name") v = VStr "x" /\ props_of ty_Tool v <> [].
Proof. eexists. eexists. split; [vm_compute; reflexivity|]. split; [vm_compute; reflexivity|]. split; vm_compute; [reflexivity|discriminate]. Qed.

(** ** C12 *)
Theorem drop_custom_drops_custom : forall rnd cf js s c, document js s -> from_json rnd cf s = Ok c -> cf_drop cf = true ->
  exists outs, c = collect (cf_nosort cf) outs /\ Forall acceptable outs /\
  Forall2 (fun j o =>
     (forall typ t, json_type j = Some typ -> parser_of cf typ = None -> In (typ, t) builtin_types ->
        exists v, o = Some (t, v) /\ unmarshal rnd (print j) t (zero t) = Ok v) /\
     (forall typ, json_type j = Some typ -> parser_of cf typ = None -> ~ In typ (akeys builtin_types) -> o = None) /\
     ((forall typ, parser_of cf typ = None) -> forall t v, o = Some (t, v) -> In t (map snd builtin_types) /\ props_of t v = [])) js outs.
Proof. exact drop_custom. Qed.
Print Assumptions drop_custom_drops_custom.
Theorem drop_option_set : forall opts, cf_drop (config_of opts) = true <-> In DropCustom opts.
Proof. exact drop_nosort. Qed.
Print Assumptions drop_option_set.
(** C03: the order is given up exactly with the NoSort option. *)
Theorem nosort_option_set : forall opts, cf_nosort (config_of opts) = true <-> In NoSort opts.
Proof. exact nosort_set. Qed.
Print Assumptions nosort_option_set.
Example drop_custom_ex : exists c v, from_json rnd_id (config_of [DropCustom]) (arr [mal [("x_secret", JStr "s")]; cust []; tool [("x_b", JBool true)]]) = Ok c /\
  get c cid = None /\ get c tid = Some (ty_Tool, v) /\ props_of ty_Tool v = [].
Proof. eexists. eexists. split; [vm_compute; reflexivity|]. split; [vm_compute; reflexivity|]. split; vm_compute; reflexivity. Qed.

(** ** C13 *)
(** False: after a custom object an object without type is taken to be of the
    type of that object, and fails. *)
Theorem typeless_skipped_refuted : exists js j,
  member "type" j = None /\ (exists c, from_json rnd_id default_cf (arr js) = Ok c) /\
  exists e, from_json rnd_id default_cf (arr (js ++ [j])) = Err e.
Proof.
  exists [cust []], (JObj [("a", JNum "1")]). split; [reflexivity|]. split; eexists; vm_compute; reflexivity.
Qed.
Print Assumptions typeless_skipped_refuted.
(** True at the end of a document whose objects all have built in types, without
    the drop-custom option.  Missing: later objects (which may receive its
    members as custom properties), custom types, drop-custom. *)
Theorem typeless_skipped_partial : forall rnd cf a j s1 s2 ms, document a s1 -> document (a ++ [j]) s2 ->
  j = JObj ms -> member "type" j = None -> (exists g, generic rnd j = Ok g) -> cf_drop cf = false ->
  (forall j' typ, In j' a -> json_type j' = Some typ -> parser_of cf typ = None /\ In typ (akeys builtin_types)) ->
  from_json rnd cf s2 = from_json rnd cf s1.
Proof. exact typeless_skipped. Qed.
Print Assumptions typeless_skipped_partial.
Example typeless_skipped_ex : exists c, from_json rnd_id default_cf (arr ([mal []] ++ [JObj [("a", JNum "1")]])) = Ok c /\
  from_json rnd_id default_cf (arr [mal []]) = Ok c /\ get c mid <> None.
Proof. eexists. split; [vm_compute; reflexivity|]. split; [vm_compute; reflexivity|]. vm_compute. discriminate. Qed.

(** ** C14 *)
Theorem parsers_used_for_their_type : forall rnd cf js s c, document js s -> from_json rnd cf s = Ok c ->
  exists outs, c = collect (cf_nosort cf) outs /\ Forall acceptable outs /\
  Forall2 (fun j o => forall typ, json_type j = Some typ ->
     match parser_of cf typ with
     | Some h => exists t v0 v l, h j = Ok (Some (t, v0)) /\ unmarshal rnd (print j) t v0 = Ok v /\ o = Some (t, add_props t l v) /\ (cf_drop cf = true -> l = [])
     | None =>
         (forall t, In (typ, t) builtin_types -> exists v l, unmarshal rnd (print j) t (zero t) = Ok v /\ o = Some (t, add_props t l v)) /\
         (~ In typ (akeys builtin_types) -> o = None \/ exists v, unmarshal rnd (print j) ty_CustomObject (VMap []) = Ok v /\ o = Some (ty_CustomObject, v))
     end) js outs.
Proof. exact parser_used. Qed.
Print Assumptions parsers_used_for_their_type.
Theorem parser_error_fails : forall rnd cf js s j typ h, document js s -> In j js -> json_type j = Some typ ->
  parser_of cf typ = Some h -> (forall t v, h j <> Ok (Some (t, v))) -> forall c, from_json rnd cf s <> Ok c.
Proof. exact parser_error. Qed.
Print Assumptions parser_error_fails.
(** The last registration for a type counts, other options do not matter. *)
Theorem last_parser_wins : forall opts typ h typ',
  parser_of (config_of (opts ++ [UseParser typ (Some h)])) typ' = if String.eqb typ typ' then Some h else parser_of (config_of opts) typ'.
Proof. exact parser_last. Qed.
Print Assumptions last_parser_wins.
Theorem other_options_keep_parser : forall opts o typ, (forall h, o <> UseParser typ h) ->
  parser_of (config_of (opts ++ [o])) typ = parser_of (config_of opts) typ.
Proof. exact parser_other. Qed.
Print Assumptions other_options_keep_parser.
Definition ex_parser : handler := fun j => match member "name" j with Some (JStr s) => Ok (Some (ty_Tool, zero ty_Tool)) | _ => Err "no name" end.
Example parser_ex :
  (exists c v, from_json rnd_id (config_of [UseParser "tool" (Some ex_parser)]) (arr [mal []; tool []]) = Ok c /\ get c tid = Some (ty_Tool, v)) /\
  from_json rnd_id (config_of [UseParser "tool" (Some ex_parser)]) (arr [mal []; JObj [("type", JStr "tool"); ("id", JStr tid)]]) = Err "no name".
Proof. split; [|vm_compute; reflexivity]. eexists. eexists. split; vm_compute; reflexivity. Qed.

(** ** C15 *)
Theorem from_json_no_panic_refuted :
  from_json rnd_id default_cf "[{""type"":1}]" = Panic /\
  from_json rnd_id default_cf "[{""type"":""x-foo"",""id"":null}]" = Panic /\
  from_json rnd_id default_cf "{""objects"":[{""type"":""malware"",""created"":1}]}" = Panic /\
  from_json rnd_id default_cf "[{""type"":""artifact"",""encryption_algorithm"":7}]" = Panic.
Proof. repeat split; vm_compute; reflexivity. Qed.
Print Assumptions from_json_no_panic_refuted.
(** These are all the ways to panic without custom parsers: a type that is not a
    string, an identifier of a custom object that is not a string, or a number
    of one byte in the place of a timestamp or of one of two enumerations.
    Missing for the claim: those three. *)
Theorem from_json_no_panic_partial : forall rnd cf s, (forall typ, parser_of cf typ = None) -> from_json rnd cf s = Panic ->
  exists js j ms, document js s /\ In j js /\ j = JObj ms /\
    ((exists x, member "type" j = Some x /\ forall raw, x <> JStr raw) \/
     (exists x, member "id" j = Some x /\ (forall raw, x <> JStr raw) /\ forall typ, json_type j = Some typ -> ~ In typ (akeys builtin_types)) \/
     (exists typ t, In (typ, t) builtin_types /\ panics t j /\ (json_type j = Some typ \/ member "type" j = None))).
Proof. exact panic_causes. Qed.
Print Assumptions from_json_no_panic_partial.

(** ** C16 *)
Theorem document_forms_agree : forall rnd cf js s1 s2, document js s1 -> document js s2 -> from_json rnd cf s1 = from_json rnd cf s2.
Proof. intros rnd cf js s1 s2 D1 D2. now rewrite (from_json_document _ _ _ _ D1), (from_json_document _ _ _ _ D2). Qed.
Print Assumptions document_forms_agree.
Theorem bundle_is_array : forall rnd cf ty id js, utf8b ty = true -> utf8b id = true -> forallb json_okb js = true ->
  from_json rnd cf (bundle_bytes (Bundle ty id (map print js))) = from_json rnd cf (print (JArr js)).
Proof. intros rnd cf ty id js U1 U2 O. apply (document_forms_agree rnd cf js); [now apply bundle_document|now apply arr_document]. Qed.
Print Assumptions bundle_is_array.
Example bundle_is_array_ex : exists c, from_json rnd_id default_cf (bundle_bytes (Bundle "bundle" "bundle--1" (map print [mal []; tool []]))) = Ok c /\
  from_json rnd_id default_cf " [ {""id"":""malware--30313233-3435-4637-b839-616263646566"", ""type"":""malware"",""is_family"":true}, {""type"":""tool"",""name"":""x"",""id"":""tool--30313233-3435-4637-b839-616263646566""}]" = Ok c /\ get c mid <> None.
Proof. eexists. split; [vm_compute; reflexivity|]. split; [vm_compute; reflexivity|]. vm_compute. discriminate. Qed.

(** ** C17 *)
(** Objects without extended properties (or with drop-custom) survive. Missing:
    collections with custom objects, with extended properties (see
    [bundle_survives_refuted]). *)
Theorem bundle_survives_partial : forall rnd cf (r : string) (h : list (string * string * gobj)) c oks b,
  String.length r = 16%nat ->
  run (new_coll false) h = (c, oks) -> to_bundle marshal_obj r c (Ok b) ->
  (forall id ty ob, In (id, ty, ob) h -> obj_id ob = Ok id /\ obj_type ob = Ok ty) ->
  (forall id ob, get c id = Some ob -> own_object rnd cf ob /\
     (forall k, In k (akeys (props_of (fst ob) (snd ob))) -> free_name (fst ob) k = true /\ k <> "") /\
     (cf_drop cf = false -> props_of (fst ob) (snd ob) = [])) ->
  exists c', from_json rnd cf (bundle_bytes b) = Ok c' /\
    (forall id, get c' id = option_map (read_back rnd cf) (get c id)) /\
    (cf_nosort cf = false -> forall os, all_objects c (map Some os) -> forall l, all_objects c' l <-> l = map Some (map (read_back rnd cf) os)).
Proof. exact bundle_round_trip. Qed.
Print Assumptions bundle_survives_partial.
(** An object already in normal form comes back as it was. *)
Theorem read_back_normal : forall rnd cf name t v, In (name, t) builtin_types -> wf rnd t v = true -> canon_top t v = true -> props_of t v = [] ->
  read_back rnd cf (t, v) = (t, v).
Proof.
  intros rnd cf name t v H W C P. unfold read_back. cbn [fst snd]. rewrite P, (norm_top_canon rnd _ _ _ H W C). now destruct (cf_drop cf).
Qed.
Print Assumptions read_back_normal.
Example bundle_survives_ex : let ob := (ty_Malware, ex_malware) in
  obj_id ob = Ok mid /\ own_object rnd_id default_cf ob /\ props_of ty_Malware ex_malware = [] /\
  exists c b, run (new_coll false) [(mid, "malware", ob)] = (c, [true]) /\ to_bundle marshal_obj "0123456789abcdef" c (Ok b) /\
    exists c', from_json rnd_id default_cf (bundle_bytes b) = Ok c' /\ get c' mid = Some ob.
Proof.
  cbv zeta. split; [vm_compute; reflexivity|]. split; [exists "malware", mid; split; [apply (proj1 (alookup_builtin _ ty_Malware)); vm_compute; reflexivity|repeat split; vm_compute; reflexivity]|].
  split; [vm_compute; reflexivity|]. eexists. eexists. split; [vm_compute; reflexivity|]. split.
  - eexists. split; [vm_compute; reflexivity|]. vm_compute. reflexivity.
  - eexists. split; vm_compute; reflexivity.
Qed.
(** With extended properties it is false: they spread to later objects. *)
Definition ex_tool : gval :=
  set_paths [((Some "STIXDomainObject", "Type"), VStr "tool"); ((Some "STIXDomainObject", "ID"), VStr tid);
             ((Some "STIXDomainObject", "SpecVersion"), VStr "2.1");
             ((Some "STIXDomainObject", "Created"), VPtr (VTime 1600000000000000000));
             ((Some "STIXDomainObject", "Modified"), VPtr (VTime 1600000000001000000)); ((None, "Name"), VStr "x")] (zero ty_Tool).
Theorem bundle_survives_refuted : exists c b c', 
  run (new_coll false) [(mid, "malware", (ty_Malware, ex_malware2)); (tid, "tool", (ty_Tool, ex_tool))] = (c, [true; true]) /\
  to_bundle marshal_obj "0123456789abcdef" c (Ok b) /\ from_json rnd_id default_cf (bundle_bytes b) = Ok c' /\
  get c tid = Some (ty_Tool, ex_tool) /\ canon_top ty_Tool ex_tool = true /\ get c' tid <> Some (ty_Tool, ex_tool).
Proof.
  eexists. eexists. eexists. split; [vm_compute; reflexivity|]. split; [eexists; split; [vm_compute; reflexivity|]; vm_compute; reflexivity|].
  split; [vm_compute; reflexivity|]. split; [vm_compute; reflexivity|]. split; [vm_compute; reflexivity|]. vm_compute. discriminate.
Qed.
Print Assumptions bundle_survives_refuted.

(** ** C18 *)
(** False: member names are compared without case when an object is decoded but
    not when its type is looked up, so the type can change. *)
Theorem filed_under_type_refuted : exists s c,
  from_json rnd_id default_cf s = Ok c /\
  typed_get (fun o : gobj => String.eqb (ty_name (fst o)) "Tool") c TypeTool tid = Panic.
Proof.
  exists "[{""type"":""malware"",""Type"":""tool"",""id"":""tool--30313233-3435-4637-b839-616263646566""}]". eexists.
  split; [vm_compute; reflexivity|]. vm_compute. reflexivity.
Qed.
Print Assumptions filed_under_type_refuted.
(** True when no member name differs from "type" in case only. *)
Theorem filed_under_type_partial : forall rnd cf js s c, document js s -> from_json rnd cf s = Ok c -> (forall typ, parser_of cf typ = None) ->
  (forall ms k x, In (JObj ms) js -> In (k, x) ms -> fold_key k = "type" -> k = "type") ->
  exists outs, c = collect (cf_nosort cf) outs /\ Forall acceptable outs /\
   forall t v typ, In (Some (t, v)) outs -> obj_type (t, v) = Ok typ ->
     In (typ, t) builtin_types \/ (~ In typ (akeys builtin_types) /\ t = ty_CustomObject).
Proof. exact filed. Qed.
Print Assumptions filed_under_type_partial.
Theorem typed_accessors_on_parsed_partial : forall rnd cf js s c, document js s -> from_json rnd cf s = Ok c -> (forall typ, parser_of cf typ = None) ->
  (forall ms k x, In (JObj ms) js -> In (k, x) ms -> fold_key k = "type" -> k = "type") ->
  (forall name typ goT id, In (name, typ, goT) singular_accessors -> typed_get (fun o : gobj => String.eqb (ty_name (fst o)) goT) c typ id <> Panic) /\
  (forall name typ goT r, In (name, typ, goT) plural_accessors -> typed_all (fun o : gobj => String.eqb (ty_name (fst o)) goT) c typ r -> r <> Panic).
Proof. exact no_accessor_panic. Qed.
Print Assumptions typed_accessors_on_parsed_partial.

(** ** C21 *)
(** The encoding holds each extended property, with the encoding of its value. *)
Theorem extended_properties_encoded : forall rnd name t v j, In (name, t) builtin_types -> wf rnd t v = true ->
  (forall k, In k (akeys (props_of t v)) -> free_name t k = true) -> marshal t v = Ok j ->
  exists ms, j = JObj ms /\ NoDup (akeys ms) /\
    (forall k, In k (akeys ms) -> In k (own_keys t) \/ In k (akeys (props_of t v))) /\
    forall k x, In (k, x) (props_of t v) -> exists jx, alookup k ms = Some jx /\ enc GIface x = Ok jx.
Proof.
  intros rnd name t v j H W F E. destruct (marshal_members rnd _ _ _ _ H W F E) as (ms & -> & N & _ & K & P & _). exists ms. auto.
Qed.
Print Assumptions extended_properties_encoded.
(** Parsing it alone gives the object back with the generic view of each. *)
Theorem extended_properties_round_trip : forall rnd cf ob s, own_object rnd cf ob ->
  (forall k, In k (akeys (props_of (fst ob) (snd ob))) -> free_name (fst ob) k = true /\ k <> "") ->
  marshal_bytes (fst ob) (snd ob) = Ok s ->
  from_json rnd cf ("[" ++ s ++ "]")%string = Ok (collect (cf_nosort cf) [Some (read_back rnd cf ob)]) /\ acceptable (Some (read_back rnd cf ob)) /\
  obj_id (read_back rnd cf ob) = obj_id ob /\ obj_type (read_back rnd cf ob) = obj_type ob.
Proof. exact single_round_trip. Qed.
Print Assumptions extended_properties_round_trip.
Example extended_properties_ex :
  own_object rnd_id default_cf (ty_Malware, ex_malware2) /\ props_of ty_Malware ex_malware2 <> [] /\
  (forall k, In k (akeys (props_of ty_Malware ex_malware2)) -> free_name ty_Malware k = true /\ k <> "") /\
  read_back rnd_id default_cf (ty_Malware, ex_malware2) = (ty_Malware, ex_malware2).
Proof.
  split; [exists "malware", mid; split; [apply (proj1 (alookup_builtin _ ty_Malware)); vm_compute; reflexivity|repeat split; vm_compute; reflexivity]|].
  split; [vm_compute; discriminate|]. split; [intros k [<-|[]]; split; [vm_compute; reflexivity|discriminate]|]. vm_compute. reflexivity.
Qed.
(** A property named "" is lost, silently. *)
Definition ex_malware_empty : gval := set_path (Some "STIXDomainObject", "toplevelProperties") (VPtr (VMap [("", dyn_str "v")])) ex_malware.
Example empty_name_lost : exists s c v, marshal_bytes ty_Malware ex_malware_empty = Ok s /\ from_json rnd_id default_cf ("[" ++ s ++ "]")%string = Ok c /\
  get c mid = Some (ty_Malware, v) /\ props_of ty_Malware v = [].
Proof. eexists. eexists. eexists. split; [vm_compute; reflexivity|]. split; [vm_compute; reflexivity|]. split; vm_compute; reflexivity. Qed.
