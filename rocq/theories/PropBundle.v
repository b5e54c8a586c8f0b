(** The JSON of a Bundle: C07. *)
From Verif Require Import GoStr GoStrFacts JsonStr Json Consts GoTypes Schema GoVal GoValFacts Codec CodecSpec Collection FromJson.
Local Open Scope string_scope.

(** json.Marshal of the struct, by its tags, gives [bundle_bytes]: the members
    type, id and objects in this order, the objects with their own text, and no
    member objects if there are none. *)
Lemma enc_raws js : enc_list (enc GRaw) (map VRaw js) = Ok js.
Proof. induction js as [|j js IH]; [reflexivity|]. cbn [map enc_list]. cbn [enc bind]. rewrite IH. reflexivity. Qed.
Theorem bundle_struct_text : forall typ id js,
  marshal_bytes ty_Bundle (VStruct [("Type", VStr typ); ("ID", VStr id); ("Objects", VSlice (map VRaw js))]) = Ok (bundle_bytes (Bundle typ id (map print js))).
Proof.
  intros typ id js. unfold marshal_bytes, marshal. replace (mem_str (ty_name ty_Bundle) helper_types) with false by (vm_compute; reflexivity).
  assert (E : enc ty_Bundle (VStruct [("Type", VStr typ); ("ID", VStr id); ("Objects", VSlice (map VRaw js))]) =
    Ok (JObj (("type", JStr (quote typ)) :: ("id", JStr (quote id)) :: match js with [] => [] | _ => [("objects", JArr js)] end))).
  { unfold ty_Bundle. cbn [enc]. unfold enc_fields. cbn [is_empty fm_key fm_omit andb is_empty_val]. cbn [enc bind]. rewrite enc_raws. cbn [bind]. destruct js; reflexivity. }
  rewrite E. cbn [bind]. f_equal. cbn [print map fst snd].
  change (quote "type") with "type". change (quote "id") with "id". unfold bundle_bytes. cbn [b_type b_id b_objects].
  destruct js as [|j js].
  - cbn [map join]. now rewrite !sapp_assoc.
  - cbn [map]. change (quote "objects") with "objects". cbn [fst snd print map]. generalize (join "," (print j :: map print js)). intros x. cbn [join map fst snd print]. rewrite !sapp_assoc. reflexivity.
Qed.
Print Assumptions bundle_struct_text.
Example bundle_struct_text_ex : bundle_bytes (Bundle "bundle" "bundle--1" (map print [JObj []; JNull])) = "{""type"":""bundle"",""id"":""bundle--1"",""objects"":[{},null]}".
Proof. reflexivity. Qed.
