(** Bundles with a null after each object: C95. *)
From Verif Require Import GoStr GoStrFacts JsonStr StrSpec StrSpecFacts JsonSpec JsonSpecFacts Json Float Consts GoTypes Schema GoVal Codec CodecSpec DataTypes Ident
  Collection CollectionSpec FromJson FromJsonSpec FromJsonFacts IndepFacts PropCodec ObjFacts JsonFacts ParseFacts MadeFacts DocSpec DocSettle SettleFacts PropFromJson PropDoc NullFacts.

(** Bundle.Objects with the JSON text null after each object. *)
Definition with_nulls (b : bundle) : bundle := Bundle (b_type b) (b_id b) (flat_map (fun d => [d; "null"%string]) (b_objects b)).

(** ** C95 *)
(** Any collection of built in objects, with or without extended properties, and
    custom objects survives ToBundle and FromJSON if a null is put after each
    object of the bundle: Get and AllObjects give every object as it comes back
    alone. *)
Theorem bundle_with_nulls_survives : forall rnd cf (r : string) (h : list (string * string * gobj)) c oks b,
  String.length r = 16%nat ->
  run (new_coll false) h = (c, oks) -> to_bundle marshal_obj r c (Ok b) ->
  (forall id ty ob, In (id, ty, ob) h -> obj_id ob = Ok id /\ obj_type ob = Ok ty) ->
  (forall id ob, get c id = Some ob ->
     (own_object rnd cf ob /\ forall k, In k (akeys (props_of (fst ob) (snd ob))) -> free_name (fst ob) k = true /\ k <> "") \/
     (own_custom rnd cf ob /\ cf_drop cf = false)) ->
  exists c', from_json rnd cf (bundle_bytes (with_nulls b)) = Ok c' /\
    (forall id, get c' id = option_map (read_back rnd cf) (get c id)) /\
    (cf_nosort cf = false -> forall os, all_objects c (map Some os) -> forall l, all_objects c' l <-> l = map Some (map (read_back rnd cf) os)).
Proof. exact nulls_round_trip. Qed.
Print Assumptions bundle_with_nulls_survives.

(** Objects already in normal form come back as they were: built in objects that
    a round trip gives back, to which extended properties in normal form were
    added, and custom objects of values in normal form. *)
Theorem bundle_with_nulls_normal : forall rnd cf, cf_drop cf = false ->
  (forall name t v l, In (name, t) builtin_types -> wf rnd t v = true -> canon_top t v = true -> (l = [] \/ props_path t <> None) ->
     (forall k x, In (k, x) l -> norm rnd GIface x = x) -> read_back rnd cf (t, add_props t l v) = (t, add_props t l v)) /\
  (forall v, norm rnd ty_CustomObject v = v -> read_back rnd cf (ty_CustomObject, v) = (ty_CustomObject, v)).
Proof.
  intros rnd cf Dr. split.
  - intros name t v l H W C L P. unfold read_back. cbn [fst snd]. rewrite Dr, (norm_top_add rnd name t l v H W). assert (N := norm_top_canon rnd name t v H W C).
    assert (Pn : props_of t v = []) by (rewrite <- N; now apply (norm_props rnd name)).
    assert (Q : props_of t (add_props t l v) = l).
    { destruct (builtin_cases _ _ H) as (n & fs & -> & _). rewrite (add_props_props name n fs l v H (wf_shape rnd _ _ _ (builtin_flat _ _ _ H) W) Pn).
      destruct L as [->|L]; [now destruct (props_path (GStruct n fs))|]. now destruct (props_path (GStruct n fs)). }
    rewrite Q, N. assert (M : map (fun kv => (fst kv, norm rnd GIface (snd kv))) l = l); [|now rewrite M].
    clear -P. induction l as [|[k x] l IH]; [reflexivity|]. cbn [map fst snd]. rewrite (P k x (or_introl eq_refl)), IH; [reflexivity|].
    intros k' x' H. apply (P k' x'). now right.
  - intros v N. rewrite read_back_custom. now rewrite N.
Qed.
Print Assumptions bundle_with_nulls_normal.

(** The collection of [bundle_read_back_ex], whose tool gets the properties of the
    objects before it without the nulls, comes back unchanged with them. *)
Example bundle_with_nulls_ex :
  exists c b c', run (new_coll false) [(mid, "malware", (ty_Malware, ex_malware2)); (cid, "x-foo", (ty_CustomObject, ex_custom)); (tid, "tool", (ty_Tool, ex_tool))] = (c, [true; true; true]) /\
    to_bundle marshal_obj "0123456789abcdef" c (Ok b) /\ from_json rnd_id default_cf (bundle_bytes (with_nulls b)) = Ok c' /\
    get c' mid = Some (ty_Malware, ex_malware2) /\ props_of ty_Malware ex_malware2 <> [] /\ get c' cid = Some (ty_CustomObject, ex_custom) /\ get c' tid = Some (ty_Tool, ex_tool).
Proof.
  do 3 eexists. split; [vm_compute; reflexivity|]. split; [eexists; split; [vm_compute; reflexivity|]; vm_compute; reflexivity|].
  split; [vm_compute; reflexivity|]. split; [vm_compute; reflexivity|]. split; [vm_compute; discriminate|]. split; vm_compute; reflexivity.
Qed.
Example bundle_with_nulls_normal_ex : let l := [("x_rank", dyn_str "high")] in
  add_props ty_Malware l ex_malware = ex_malware2 /\ wf rnd_id ty_Malware ex_malware = true /\ canon_top ty_Malware ex_malware = true /\
  props_path ty_Malware <> None /\ norm rnd_id GIface (dyn_str "high") = dyn_str "high" /\ norm rnd_id ty_CustomObject ex_custom = ex_custom.
Proof. cbn zeta. repeat split; try (vm_compute; reflexivity). vm_compute. discriminate. Qed.
