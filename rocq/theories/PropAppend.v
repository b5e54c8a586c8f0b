(** Longer documents, and documents read with and without DropCustomOption: C93, C94. *)
From Verif Require Import GoStr GoStrFacts JsonStr StrSpec StrSpecFacts JsonSpec JsonSpecFacts Json Float Consts GoTypes Schema GoVal Codec CodecSpec Ident
  Collection CollectionSpec FromJson FromJsonSpec FromJsonFacts IndepFacts PropCodec PropFromJson JoinSpec AppendSpec AppendFacts.

(** ** C93 *)
(** What is appended to a document can only add to what is read, or make it fail:
    if the shorter document is read as [c1] and the longer one as [c], then [c]
    is [c1] with what the appended values contribute added.  If the shorter one
    fails, so does the longer one, in the same way. *)
Theorem appended_only_adds : forall rnd cf a b s1 s, document a s1 -> document (a ++ b) s ->
  match from_json rnd cf s1 with
  | Ok c1 => forall c, from_json rnd cf s = Ok c ->
      exists outs, Forall2 (contributes rnd cf (types_of (a ++ b))) b outs /\ Forall acceptable outs /\ joined c1 (collect (cf_nosort cf) outs) c
  | r => from_json rnd cf s = r
  end.
Proof. exact longer. Qed.
Print Assumptions appended_only_adds.

(** So nothing is lost, and what no appended value has the identifier of stays as
    it is. *)
Theorem appended_keeps : forall rnd cf a b s1 s c c1, document a s1 -> document (a ++ b) s ->
  from_json rnd cf s = Ok c -> from_json rnd cf s1 = Ok c1 -> forall id ob, get c1 id = Some ob ->
  get c id = Some ob \/ exists j ob', In j b /\ contributes rnd cf (types_of (a ++ b)) j (Some ob') /\ obj_id ob' = Ok id /\ get c id = Some ob'.
Proof.
  intros rnd cf a b s1 s c c1 D1 D E E1 id ob G. assert (X := longer rnd cf a b s1 s D1 D). rewrite E1 in X. destruct (X c E) as (outs & F & A & J & _).
  rewrite J. destruct (get (collect (cf_nosort cf) outs) id) as [ob'|] eqn:G'; [|now left]. right.
  apply (collected_objects (cf_nosort cf) outs id ob' A) in G' as (I & o1 & o2 & Q & _).
  assert (In (Some ob') outs) as In1 by (rewrite Q; apply in_or_app; right; now left).
  revert F. generalize (types_of (a ++ b)). intros ts F. clear -F In1 I. induction F as [|j o b1 outs1 C F IH]; [destruct In1|]. destruct In1 as [->|In1].
  - exists j, ob'. split; [now left|]. auto.
  - destruct (IH In1) as (j' & ob'' & Hj & R). exists j', ob''. split; [now right|exact R].
Qed.
Print Assumptions appended_keeps.
Example appended_ex : exists c1 c, document [mal []] (arr [mal []]) /\ document ([mal []] ++ [tool []; mal [("x_a", JBool true)]]) (arr ([mal []] ++ [tool []; mal [("x_a", JBool true)]])) /\
  from_json rnd_id default_cf (arr [mal []]) = Ok c1 /\ from_json rnd_id default_cf (arr ([mal []] ++ [tool []; mal [("x_a", JBool true)]])) = Ok c /\
  get c1 mid <> None /\ get c mid <> None /\ get c mid <> get c1 mid /\ get c1 tid = None /\ get c tid <> None.
Proof.
  eexists. eexists. split; [apply arr_document; reflexivity|]. split; [apply arr_document; reflexivity|]. split; [vm_compute; reflexivity|]. split; [vm_compute; reflexivity|].
  split; [vm_compute; discriminate|]. split; [vm_compute; discriminate|]. split; [vm_compute; discriminate|]. split; [vm_compute; reflexivity|]. vm_compute. discriminate.
Qed.

(** ** C94 *)
(** False in general: an object without a type that is skipped without the option
    makes FromJSON fail with it. *)
Theorem drop_custom_leaves_out_refuted : exists js s c e, document js s /\ from_json rnd_id (keeping default_cf) s = Ok c /\ get c mid <> None /\
  from_json rnd_id (dropping default_cf) s = Err e.
Proof.
  exists [mal []; JObj [("a", JNum "1")]], (arr [mal []; JObj [("a", JNum "1")]]). eexists. eexists. split; [apply arr_document; reflexivity|].
  split; [vm_compute; reflexivity|]. split; [vm_compute; discriminate|]. vm_compute. reflexivity.
Qed.
Print Assumptions drop_custom_leaves_out_refuted.

(** True if every object states its type: the option only leaves out custom
    objects and extended properties, and it never makes FromJSON fail. *)
Theorem drop_custom_leaves_out_partial : forall rnd cf js s c, document js s ->
  (forall ms, In (JObj ms) js -> member "type" (JObj ms) <> None) -> from_json rnd (keeping cf) s = Ok c ->
  exists outs outs', from_json rnd (dropping cf) s = Ok (collect (cf_nosort cf) outs') /\ c = collect (cf_nosort cf) outs /\
    Forall acceptable outs /\ Forall acceptable outs' /\ length outs' = length outs /\
    Forall2 (fun j oo => left_out cf j (fst oo) (snd oo)) js (combine outs outs').
Proof.
  intros rnd cf js s c D T E. rewrite (from_json_read _ _ _ _ D) in E. destruct (read_all rnd (keeping cf) js VNil) as [outs| |] eqn:R; try discriminate. injection E as <-.
  destruct (read_all_left_out rnd cf js (document_ok _ _ D) T VNil VNil outs eq_refl eq_refl R) as (outs' & R' & L & F). exists outs, outs'.
  split; [rewrite (from_json_read _ _ _ _ D), R'; reflexivity|]. split; [reflexivity|]. split; [exact (read_all_acceptable _ _ _ _ _ R)|]. split; [exact (read_all_acceptable _ _ _ _ _ R')|]. now split.
Qed.
Print Assumptions drop_custom_leaves_out_partial.
(** The converse is false: the option also leaves out what would be an error. *)
Example drop_custom_forgives : exists c e, from_json rnd_id (dropping default_cf) (arr [mal []; JObj [("type", JStr "x-foo")]]) = Ok c /\ get c mid <> None /\
  from_json rnd_id (keeping default_cf) (arr [mal []; JObj [("type", JStr "x-foo")]]) = Err e.
Proof. eexists. eexists. split; [vm_compute; reflexivity|]. split; [vm_compute; discriminate|]. vm_compute. reflexivity. Qed.
Example drop_custom_leaves_out_ex : exists c c' v v', from_json rnd_id (keeping default_cf) (arr [cust []; tool [("x_b", JBool true)]]) = Ok c /\
  from_json rnd_id (dropping default_cf) (arr [cust []; tool [("x_b", JBool true)]]) = Ok c' /\
  (forall ms, In (JObj ms) [cust []; tool [("x_b", JBool true)]] -> member "type" (JObj ms) <> None) /\
  get c cid <> None /\ get c' cid = None /\ get c tid = Some (ty_Tool, v) /\ get c' tid = Some (ty_Tool, v') /\ props_of ty_Tool v = [("x_b", VDyn GBool (VBool true))] /\ props_of ty_Tool v' = [].
Proof.
  eexists. eexists. eexists. eexists. split; [vm_compute; reflexivity|]. split; [vm_compute; reflexivity|].
  split; [intros ms [Q|[Q|[]]]; injection Q as <-; vm_compute; discriminate|]. split; [vm_compute; discriminate|].
  split; [vm_compute; reflexivity|]. split; [vm_compute; reflexivity|]. split; [vm_compute; reflexivity|]. split; vm_compute; reflexivity.
Qed.
