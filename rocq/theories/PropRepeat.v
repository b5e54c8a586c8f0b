(** Documents that repeat themselves: C100. *)
From Verif Require Import GoStr GoStrFacts JsonStr StrSpec StrSpecFacts JsonSpec JsonSpecFacts Json Float Consts GoTypes Schema GoVal Codec CodecSpec Ident
  Collection CollectionSpec FromJson FromJsonSpec FromJsonFacts IndepFacts PropCodec PropFromJson JoinSpec JoinFacts RepeatFacts.

(** ** C100 *)
(** With a null in between, a document repeated gives the same collection: Get
    and, unless the order is given up, AllObjects return the same. *)
Theorem repeated_after_null : forall rnd cf js s s2 c, document js s -> document (js ++ JNull :: js) s2 -> from_json rnd cf s = Ok c ->
  exists c', from_json rnd cf s2 = Ok c' /\ (forall id, get c' id = get c id) /\
    (cf_nosort cf = false -> forall os os', all_objects c (map Some os) -> all_objects c' (map Some os') -> os' = os).
Proof.
  intros rnd cf js s s2 c D D2 E. assert (H := null_after_other rnd cf js js s s s2 D D D2). unfold one_after_other in H. rewrite E in H. destruct H as (c' & E2 & J).
  exists c'. split; [exact E2|]. exact (joined_twice _ _ _ _ _ _ _ _ D D2 E E2 J).
Qed.
Print Assumptions repeated_after_null.

(** Without it this is false: the second time, the first object receives extended
    properties of the last. *)
Theorem repeated_refuted : exists js c c', document js (arr js) /\ document (js ++ js) (arr (js ++ js)) /\
  from_json rnd_id default_cf (arr js) = Ok c /\ from_json rnd_id default_cf (arr (js ++ js)) = Ok c' /\ get c' tid <> get c tid.
Proof.
  exists [tool []; mal [("x_secret", JStr "s")]]. eexists. eexists. split; [apply arr_document; reflexivity|]. split; [apply arr_document; reflexivity|].
  split; [vm_compute; reflexivity|]. split; [vm_compute; reflexivity|]. vm_compute. discriminate.
Qed.
Print Assumptions repeated_refuted.

(** True if the objects have no properties but those of their type, or if custom
    content is dropped and every object states a type.  Missing: documents with
    custom content or parsers. *)
Theorem repeated_partial : forall rnd cf js s s2 c, document js s -> document (js ++ js) s2 -> from_json rnd cf s = Ok c ->
  (cf_drop cf = false /\ Forall (clean cf) js) \/ (cf_drop cf = true /\ forall ms, In (JObj ms) js -> member "type" (JObj ms) <> None) ->
  exists c', from_json rnd cf s2 = Ok c' /\ (forall id, get c' id = get c id) /\
    (cf_nosort cf = false -> forall os os', all_objects c (map Some os) -> all_objects c' (map Some os') -> os' = os).
Proof.
  intros rnd cf js s s2 c D D2 E A. assert (H := app_after_other rnd cf js js s s s2 D D D2 A). unfold one_after_other in H. rewrite E in H. destruct H as (c' & E2 & J).
  exists c'. split; [exact E2|]. exact (joined_twice _ _ _ _ _ _ _ _ D D2 E E2 J).
Qed.
Print Assumptions repeated_partial.

Example repeated_ex : exists c c', document ([tool []; mal [("x_secret", JStr "s")]] ++ JNull :: [tool []; mal [("x_secret", JStr "s")]]) (arr ([tool []; mal [("x_secret", JStr "s")]] ++ JNull :: [tool []; mal [("x_secret", JStr "s")]])) /\
  from_json rnd_id default_cf (arr [tool []; mal [("x_secret", JStr "s")]]) = Ok c /\
  from_json rnd_id default_cf (arr ([tool []; mal [("x_secret", JStr "s")]] ++ JNull :: [tool []; mal [("x_secret", JStr "s")]])) = Ok c' /\ get c' tid = get c tid /\ get c tid <> None /\ get c mid <> None.
Proof.
  eexists. eexists. split; [apply arr_document; reflexivity|]. split; [vm_compute; reflexivity|]. split; [vm_compute; reflexivity|]. split; [vm_compute; reflexivity|]. split; vm_compute; discriminate.
Qed.
Example repeated_clean_ex : exists c c', document ([tool []] ++ [tool []]) (arr ([tool []] ++ [tool []])) /\ Forall (clean default_cf) [tool []] /\
  from_json rnd_id default_cf (arr [tool []]) = Ok c /\ from_json rnd_id default_cf (arr ([tool []] ++ [tool []])) = Ok c' /\ get c' tid = get c tid /\ get c tid <> None.
Proof.
  eexists. eexists. split; [apply arr_document; reflexivity|]. split.
  - constructor; [right|constructor]. do 3 eexists. split; [reflexivity|]. split; [reflexivity|]. split; [reflexivity|].
    split; [apply (proj1 (alookup_builtin _ ty_Tool)); vm_compute; reflexivity|].
    intros k x H. apply mem_str_In. repeat (destruct H as [Q|H]; [injection Q as <- <-; vm_compute; reflexivity|]). destruct H.
  - split; [vm_compute; reflexivity|]. split; [vm_compute; reflexivity|]. split; [vm_compute; reflexivity|]. vm_compute. discriminate.
Qed.
