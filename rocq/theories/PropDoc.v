(** FromJSON read exactly (C69), and the bundles of collections read back
    (C17).  [rnd] is the rounding of decimals to doubles. *)
From Verif Require Import GoStr GoStrFacts JsonStr StrSpec StrSpecFacts JsonSpec JsonSpecFacts Json Float Consts GoTypes Schema GoVal Codec CodecSpec DataTypes Ident
  Collection CollectionSpec FromJson FromJsonSpec FromJsonFacts IndepFacts PropCodec ObjFacts JsonFacts DocSpec DocFacts DocBundle PropFromJson.

(** ** C69 *)
(** FromJSON returns a collection exactly when the text is a document all of
    whose values can be read one after the other, and then it holds what they
    are read as. *)
Theorem from_json_exact : forall rnd cf s c, from_json rnd cf s = Ok c <->
  exists js outs M, document js s /\ walk rnd cf nothing js outs M /\ Forall acceptable outs /\ c = collect (cf_nosort cf) outs.
Proof. exact from_json_walk. Qed.
Print Assumptions from_json_exact.

(** It panics exactly when one of the values makes it panic after those before
    it were read; everything else is an error. *)
Theorem from_json_panics_exact : forall rnd cf s, from_json rnd cf s = Panic <->
  exists a j b outs M, document (a ++ j :: b) s /\ walk rnd cf nothing a outs M /\ Forall acceptable outs /\ crash rnd cf M j.
Proof. exact from_json_crash. Qed.
Print Assumptions from_json_panics_exact.

(** A document is read in one way only. *)
Theorem document_read_once : forall rnd cf s js outs outs' M M', document js s ->
  walk rnd cf nothing js outs M -> walk rnd cf nothing js outs' M' -> Forall acceptable outs -> Forall acceptable outs' -> outs = outs'.
Proof. exact walk_once. Qed.
Print Assumptions document_read_once.

(** The walk shows why objects depend on each other: the custom property of the
    first object is still there when the second is read. *)
Example from_json_exact_ex : exists o1 o2 M, document [mal [("x_secret", JStr "s")]; tool []] (arr [mal [("x_secret", JStr "s")]; tool []]) /\
  walk rnd_id default_cf nothing [mal [("x_secret", JStr "s")]; tool []] [Some (ty_Malware, o1); Some (ty_Tool, o2)] M /\
  Forall acceptable [Some (ty_Malware, o1); Some (ty_Tool, o2)] /\
  props_of ty_Tool o2 = [("x_secret", dyn_str "s")].
Proof.
  assert (D : document [mal [("x_secret", JStr "s")]; tool []] (arr [mal [("x_secret", JStr "s")]; tool []])) by (apply arr_document; reflexivity).
  assert (E : exists c v1 v2, from_json rnd_id default_cf (arr [mal [("x_secret", JStr "s")]; tool []]) = Ok c /\
    read_all rnd_id default_cf [mal [("x_secret", JStr "s")]; tool []] VNil = Ok [Some (ty_Malware, v1); Some (ty_Tool, v2)] /\ props_of ty_Tool v2 = [("x_secret", dyn_str "s")]).
  { do 3 eexists. split; [vm_compute; reflexivity|]. split; [vm_compute; reflexivity|]. vm_compute. reflexivity. }
  destruct E as (c & v1 & v2 & _ & R & P). destruct (proj1 (read_all_walk rnd_id default_cf _ (document_ok _ _ D) VNil nothing _ holds0) R) as (M & W & A).
  exists v1, v2, M. auto.
Qed.
Example from_json_panics_ex : crash rnd_id default_cf nothing (JObj [("type", JNum "1")]).
Proof. apply (read_crash rnd_id default_cf _ VNil nothing); [reflexivity|exact holds0|]. vm_compute. reflexivity. Qed.

(** ** C17 *)
(** The bundle of any collection of built in objects, with or without extended
    properties, and custom objects is read without error.  Every object comes
    back under its identifier and type, in the same order; what each looks like
    is said by [returns].  Missing for the claim: extended properties spread to
    later objects ([bundle_survives_refuted]). *)
Theorem bundle_read_back_partial : forall rnd cf (r : string) (h : list (string * string * gobj)) c oks b,
  String.length r = 16%nat ->
  run (new_coll false) h = (c, oks) -> to_bundle marshal_obj r c (Ok b) ->
  (forall id ty ob, In (id, ty, ob) h -> obj_id ob = Ok id) ->
  (forall id ob, get c id = Some ob ->
     (own_object rnd cf ob /\ forall k, In k (akeys (props_of (fst ob) (snd ob))) -> free_name (fst ob) k = true /\ k <> "") \/
     own_custom rnd cf ob) ->
  exists os outs, all_objects c (map Some os) /\ return_all rnd cf nothing os outs /\
    Forall2 (fun ob o => forall ob', o = Some ob' -> obj_id ob' = obj_id ob /\ obj_type ob' = obj_type ob) os outs /\ Forall acceptable outs /\
    from_json rnd cf (bundle_bytes b) = Ok (collect (cf_nosort cf) outs) /\
    forall l, all_objects (collect false outs) l <-> l = filter (fun o => match o with Some _ => true | None => false end) outs.
Proof. exact bundle_returns. Qed.
Print Assumptions bundle_read_back_partial.

(** The hypotheses are met by a malware object with an extended property, a
    custom object and a tool. *)
Definition ex_custom : gval := VMap [("id", dyn_str cid); ("type", dyn_str "x-foo"); ("x_c", VDyn GBool (VBool true))].
Example bundle_read_back_ex :
  (own_object rnd_id default_cf (ty_Malware, ex_malware2) /\ props_of ty_Malware ex_malware2 <> [] /\
   forall k, In k (akeys (props_of ty_Malware ex_malware2)) -> free_name ty_Malware k = true /\ k <> "") /\
  own_custom rnd_id default_cf (ty_CustomObject, ex_custom) /\
  exists c b c' v, run (new_coll false) [(mid, "malware", (ty_Malware, ex_malware2)); (cid, "x-foo", (ty_CustomObject, ex_custom)); (tid, "tool", (ty_Tool, ex_tool))] = (c, [true; true; true]) /\
    to_bundle marshal_obj "0123456789abcdef" c (Ok b) /\ from_json rnd_id default_cf (bundle_bytes b) = Ok c' /\
    get c' cid = Some (ty_CustomObject, ex_custom) /\ get c' tid = Some (ty_Tool, v) /\ alookup "x_c" (props_of ty_Tool v) = Some (VDyn GBool (VBool true)).
Proof.
  split; [split; [|split]|split].
  - exists "malware", mid. split; [apply (proj1 (alookup_builtin _ ty_Malware)); vm_compute; reflexivity|repeat split; vm_compute; reflexivity].
  - vm_compute. discriminate.
  - intros k [<-|[]]. split; [vm_compute; reflexivity|discriminate].
  - eexists. exists "x-foo", cid. split; [reflexivity|]. split; [discriminate|]. split; [intros H; apply mem_str_In in H; vm_compute in H; discriminate|]. repeat split; vm_compute; reflexivity.
  - do 4 eexists. split; [vm_compute; reflexivity|]. split; [eexists; split; [vm_compute; reflexivity|]; vm_compute; reflexivity|].
    split; [vm_compute; reflexivity|]. split; [vm_compute; reflexivity|]. split; [vm_compute; reflexivity|]. vm_compute. reflexivity.
Qed.
