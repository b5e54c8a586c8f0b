(** Documents read one after the other: C91, C92. *)
From Verif Require Import GoStr GoStrFacts JsonStr StrSpec StrSpecFacts JsonSpec JsonSpecFacts Json Float Consts GoTypes Schema GoVal Codec CodecSpec Ident
  Collection CollectionSpec FromJson FromJsonSpec FromJsonFacts IndepFacts PropCodec PropFromJson JoinSpec JoinFacts.

(** ** C91 *)
(** A null among the objects makes a fresh start: what follows it is read as a
    document of its own, whatever the options and parsers. *)
Theorem null_fresh_start : forall rnd cf a b s1 s2 s, document a s1 -> document b s2 -> document (a ++ JNull :: b) s ->
  one_after_other (from_json rnd cf s1) (from_json rnd cf s2) (from_json rnd cf s).
Proof. exact null_after_other. Qed.
Print Assumptions null_fresh_start.

(** With a null after each object, every object is read as it is read alone. *)
Theorem separated_independent : forall rnd cf js s, document (separated js) s ->
  independent rnd cf (separated js) (from_json rnd cf s).
Proof. intros rnd cf js s D. apply composed_independent; [exact D|]. apply composed_separated. Qed.
Print Assumptions separated_independent.

Definition secret : json := mal [("x_secret", JStr "s")].
(** The property that leaks into the next object (objects_independent_refuted)
    does not pass a null. *)
Example null_fresh_start_ex : exists c v, document ([secret] ++ JNull :: [tool []]) (arr (secret :: JNull :: [tool []])) /\
  from_json rnd_id default_cf (arr (secret :: JNull :: [tool []])) = Ok c /\ get c mid <> None /\
  get c tid = Some (ty_Tool, v) /\ props_of ty_Tool v = [].
Proof.
  eexists. eexists. split; [apply (arr_document (secret :: JNull :: [tool []])); reflexivity|]. split; [vm_compute; reflexivity|].
  split; [vm_compute; discriminate|]. split; vm_compute; reflexivity.
Qed.
Example separated_ex : exists c, document (separated [secret; tool []]) (arr (separated [secret; tool []])) /\
  from_json rnd_id default_cf (arr (separated [secret; tool []])) = Ok c /\ get c mid <> None /\ get c tid <> None.
Proof.
  eexists. split; [apply arr_document; reflexivity|]. split; [vm_compute; reflexivity|]. split; vm_compute; discriminate.
Qed.
(** An error in the second part is the error of the whole. *)
Example null_error_ex : exists e, from_json rnd_id default_cf (arr [tool []]) <> Err e /\
  from_json rnd_id default_cf (arr [JBool true]) = Err e /\ from_json rnd_id default_cf (arr [tool []; JNull; JBool true]) = Err e.
Proof. eexists. split; [vm_compute; discriminate|]. split; vm_compute; reflexivity. Qed.

(** ** C92 *)
(** Without the null this is false: reading two documents in one is not reading
    one after the other. *)
Theorem concatenation_refuted : exists a b, document a (arr a) /\ document b (arr b) /\ document (a ++ b) (arr (a ++ b)) /\
  ~ one_after_other (from_json rnd_id default_cf (arr a)) (from_json rnd_id default_cf (arr b)) (from_json rnd_id default_cf (arr (a ++ b))).
Proof.
  exists [secret], [tool []]. split; [apply arr_document; reflexivity|]. split; [apply arr_document; reflexivity|]. split; [apply arr_document; reflexivity|].
  intros H. destruct (from_json rnd_id default_cf (arr [secret])) as [c1| |] eqn:E1; [|vm_compute in E1; discriminate|vm_compute in E1; discriminate].
  destruct (from_json rnd_id default_cf (arr [tool []])) as [c2| |] eqn:E2; [|vm_compute in E2; discriminate|vm_compute in E2; discriminate].
  destruct H as (c & E & G & _). specialize (G tid). vm_compute in E2. injection E2 as <-. vm_compute in E. injection E as <-. vm_compute in G. discriminate.
Qed.
Print Assumptions concatenation_refuted.

(** True if the objects of the first have no properties but those of their type,
    or if custom content is dropped and every object of the second states a
    type.  Missing: first documents with custom content or parsers. *)
Theorem concatenation_partial : forall rnd cf a b s1 s2 s, document a s1 -> document b s2 -> document (a ++ b) s ->
  (cf_drop cf = false /\ Forall (clean cf) a) \/
  (cf_drop cf = true /\ forall ms, In (JObj ms) b -> member "type" (JObj ms) <> None) ->
  one_after_other (from_json rnd cf s1) (from_json rnd cf s2) (from_json rnd cf s).
Proof. exact app_after_other. Qed.
Print Assumptions concatenation_partial.
Example concatenation_ex : exists c c1 c2, document ([tool []] ++ [secret]) (arr ([tool []] ++ [secret])) /\ Forall (clean default_cf) [tool []] /\
  from_json rnd_id default_cf (arr [tool []]) = Ok c1 /\ from_json rnd_id default_cf (arr [secret]) = Ok c2 /\
  from_json rnd_id default_cf (arr ([tool []] ++ [secret])) = Ok c /\ get c1 mid = None /\ get c mid = get c2 mid /\ get c tid = get c1 tid /\ get c tid <> None.
Proof.
  eexists. eexists. eexists. split; [apply arr_document; reflexivity|]. split.
  - constructor; [right|constructor]. do 3 eexists. split; [reflexivity|]. split; [reflexivity|]. split; [reflexivity|].
    split; [apply (proj1 (alookup_builtin _ ty_Tool)); vm_compute; reflexivity|].
    intros k x H. apply mem_str_In. repeat (destruct H as [Q|H]; [injection Q as <- <-; vm_compute; reflexivity|]). destruct H.
  - split; [vm_compute; reflexivity|]. split; [vm_compute; reflexivity|]. split; [vm_compute; reflexivity|]. split; [vm_compute; reflexivity|].
    split; [vm_compute; reflexivity|]. split; [vm_compute; reflexivity|]. vm_compute. discriminate.
Qed.
