(** When an object of a document is read as it is read alone: C101. *)
From Verif Require Import GoStr GoStrFacts JsonStr StrSpec StrSpecFacts JsonSpec JsonSpecFacts Json Float Consts GoTypes Schema GoVal Codec CodecSpec Ident
  Collection CollectionSpec FromJson FromJsonSpec FromJsonFacts IndepFacts PropCodec PropFromJson CarrySpec CarryFacts CarryAlone PropCarry.

(** ** C101 *)
(** Without parsers and drop-custom option: an object of a built in type with
    extended properties is read as it is read alone exactly if nothing in excess
    of its members is carried to it. *)
Theorem alone_exactly : forall rnd cf js s c, document js s -> from_json rnd cf s = Ok c ->
  cf_drop cf = false -> (forall typ, parser_of cf typ = None) ->
  exists outs, c = collect (cf_nosort cf) outs /\ Forall acceptable outs /\ length outs = length js /\
  forall a j b, js = a ++ j :: b -> exists o, nth_error outs (length a) = Some o /\
    forall name t v, o = Some (t, v) -> In (name, t) builtin_types -> In (ty_name t) helper_types ->
      (from_json rnd cf (alone j) = Ok (collect (cf_nosort cf) [o]) <-> nothing_more a j).
Proof. intros rnd cf js s c D E Dr NP. now apply (alone_exactly_facts rnd cf Dr NP js s c). Qed.
Print Assumptions alone_exactly.

(** An object with a custom property of its own takes nothing from one with the
    same custom property. *)
Example nothing_more_ex : nothing_more [mal [("x_secret", JStr "s")]] (tool [("x_secret", JStr "t")]) /\ ~ nothing_more [mal [("x_secret", JStr "s")]] (tool []).
Proof.
  split.
  - intros k x Ne M No C. apply (carried_snoc k []) in C as (_ & N & [C|[_ C]]); [|now apply carried_nil in C].
    unfold mal in C. cbn [member app last_member] in C. assert (Q : k = "x_secret" \/ k <> "x_secret") by (destruct (String.eqb_spec k "x_secret"); auto). destruct Q as [->|Q]; [discriminate|].
    apply N. exists "malware", ty_Malware. split; [reflexivity|]. split; [apply alookup_builtin; vm_compute; reflexivity|]. apply mem_str_In.
    apply String.eqb_neq in Q. rewrite Q in C.
    destruct (String.eqb_spec k "is_family") as [->|]; [vm_compute; reflexivity|]. destruct (String.eqb_spec k "id") as [->|]; [vm_compute; reflexivity|].
    destruct (String.eqb_spec k "type") as [->|]; [vm_compute; reflexivity|]. discriminate.
  - intros N. destruct carried_ex as (C & _). apply (N "x_secret" (JStr "s")); [discriminate|reflexivity| |].
    + intros Ow. change [mal [("x_secret", JStr "s")]; tool []] with ([mal [("x_secret", JStr "s")]] ++ [tool []]) in C. now apply carried_snoc in C as (_ & No & _).
    + change [mal [("x_secret", JStr "s")]; tool []] with ([mal [("x_secret", JStr "s")]] ++ [tool []]) in C. apply carried_snoc in C as (_ & _ & [C|[_ C]]); [discriminate|exact C].
Qed.
Example alone_exactly_ex : exists c c' ob, document [mal [("x_secret", JStr "s")]; tool [("x_secret", JStr "t")]] (arr [mal [("x_secret", JStr "s")]; tool [("x_secret", JStr "t")]]) /\
  from_json rnd_id default_cf (arr [mal [("x_secret", JStr "s")]; tool [("x_secret", JStr "t")]]) = Ok c /\ get c tid = Some ob /\
  from_json rnd_id default_cf (alone (tool [("x_secret", JStr "t")])) = Ok c' /\ get c' tid = Some ob /\ fst ob = ty_Tool.
Proof.
  eexists. eexists. eexists. split; [apply arr_document; reflexivity|]. split; [vm_compute; reflexivity|]. split; [vm_compute; reflexivity|]. split; [vm_compute; reflexivity|]. split; vm_compute; reflexivity.
Qed.
