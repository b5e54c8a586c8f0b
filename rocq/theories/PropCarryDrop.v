(** Objects without type under the drop-custom option: C99. *)
From Verif Require Import GoStr GoStrFacts JsonStr StrSpec StrSpecFacts JsonSpec JsonSpecFacts Json Float Consts GoTypes Schema GoVal Codec CodecSpec Ident
  Collection CollectionSpec FromJson FromJsonSpec FromJsonFacts IndepFacts PropCodec PropFromJson CarrySpec CarryDrop.

(** ** C99 *)
(** With the drop-custom option and without parsers: an object without a type
    contributes nothing to a document that is read, and no built in type reaches
    it.  A member whose name differs from "type" in case only counts as a type
    here, because json.Unmarshal takes it for one. *)
Theorem untyped_dropped : forall rnd cf js s c, document js s -> from_json rnd cf s = Ok c ->
  cf_drop cf = true -> (forall typ, parser_of cf typ = None) ->
  exists outs, c = collect (cf_nosort cf) outs /\ Forall acceptable outs /\ length outs = length js /\
  forall a ms b, js = a ++ JObj ms :: b -> (forall k x, In (k, x) ms -> fold_key k <> "type") -> nth_error outs (length a) = Some None /\
    forall x, reaching "type" a x -> ~ names_builtin x.
Proof. intros rnd cf js s c D E Dr NP. now apply (untyped_dropped_facts rnd cf Dr NP js s c). Qed.
Print Assumptions untyped_dropped.

(** At the end of a document it changes nothing exactly if no built in type
    reaches it; otherwise the document is refused. *)
Theorem untyped_dropped_at_end : forall rnd cf a ms s1 s2 c, document a s1 -> document (a ++ [JObj ms]) s2 -> (forall k x, In (k, x) ms -> fold_key k <> "type") ->
  (exists g, generic rnd (JObj ms) = Ok g) -> cf_drop cf = true -> (forall typ, parser_of cf typ = None) -> from_json rnd cf s1 = Ok c ->
  (from_json rnd cf s2 = Ok c <-> forall x, reaching "type" a x -> ~ names_builtin x) /\
  (forall c', from_json rnd cf s2 = Ok c' -> c' = c).
Proof.
  intros rnd cf a ms s1 s2 c D1 D2 F G Dr NP E.
  assert (X : forall c', from_json rnd cf s2 = Ok c' -> forall x, reaching "type" a x -> ~ names_builtin x).
  { intros c' E2. destruct (untyped_dropped_facts rnd cf Dr NP _ s2 c' D2 E2) as (outs & _ & _ & _ & H). now destruct (H a ms [] eq_refl F). }
  assert (Y : (forall x, reaching "type" a x -> ~ names_builtin x) -> from_json rnd cf s2 = Ok c) by now apply (untyped_dropped_appended rnd cf Dr NP a ms s1 s2 c).
  split; [split; [apply X|exact Y]|]. intros c' E2. specialize (Y (X _ E2)). congruence.
Qed.
Print Assumptions untyped_dropped_at_end.

Definition untyped1 : json := JObj [("id", JStr tid); ("a", JNum "1")].
Definition drop_cf : config := config_of [DropCustom].
(** After a tool the object fails the document; after a custom object or a null it
    is skipped. *)
Example untyped_dropped_ex : exists c c' e, document ([tool []] ++ [untyped1]) (arr ([tool []] ++ [untyped1])) /\ (forall k x, In (k, x) [("id", JStr tid); ("a", JNum "1")] -> fold_key k <> "type") /\
  (exists g, generic rnd_id untyped1 = Ok g) /\ cf_drop drop_cf = true /\ from_json rnd_id drop_cf (arr [tool []]) = Ok c /\ from_json rnd_id drop_cf (arr ([tool []] ++ [untyped1])) = Err e /\
  from_json rnd_id drop_cf (arr [tool []; cust []; untyped1]) = Ok c' /\ from_json rnd_id drop_cf (arr [tool []; JNull; untyped1]) = Ok c' /\ get c' tid = get c tid /\ get c tid <> None.
Proof.
  eexists. eexists. eexists. split; [apply arr_document; reflexivity|]. split.
  - intros k x H. destruct H as [Q|[Q|[]]]; injection Q as <- <-; vm_compute; discriminate.
  - split; [eexists; vm_compute; reflexivity|]. split; [reflexivity|]. split; [vm_compute; reflexivity|]. split; [vm_compute; reflexivity|]. split; [vm_compute; reflexivity|].
    split; [vm_compute; reflexivity|]. split; [vm_compute; reflexivity|]. vm_compute. discriminate.
Qed.
(** The case of the name matters: this one is read as a tool. *)
Example untyped_dropped_case : exists c v, from_json rnd_id drop_cf (arr [mal []; tool []; JObj [("TYPE", JStr "tool"); ("id", JStr tid); ("name", JStr "n")]]) = Ok c /\
  get c tid = Some (ty_Tool, v) /\ from_json rnd_id drop_cf (arr [mal []; tool []]) <> Ok c.
Proof. eexists. eexists. split; [vm_compute; reflexivity|]. split; [vm_compute; reflexivity|]. vm_compute. discriminate. Qed.
