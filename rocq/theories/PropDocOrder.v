(** The order of what was read: C103. *)
From Verif Require Import GoStr GoStrFacts JsonStr StrSpec StrSpecFacts JsonSpec JsonSpecFacts Json Float Consts GoTypes Schema GoVal Codec CodecSpec Ident
  Collection CollectionSpec CollectionFacts FromJson FromJsonSpec FromJsonFacts ReadFacts IndepFacts CollectFacts FromJsonProps PropCodec PropMerge PropFromJson JoinSpec JoinFacts RepeatFacts PropCollectionAux DocOrderSpec.

Lemma firsts_ids outs : Forall acceptable outs -> first_ids (log (calls_of outs) (map (fun _ => true) (calls_of outs))) = firsts (map id_of (somes outs)).
Proof.
  intros A. rewrite log_true. induction A as [|o outs Ho A IH]; [reflexivity|]. unfold calls_of. cbn [flat_map]. fold (calls_of outs). destruct o as [ob|]; [|exact IH].
  destruct Ho as (id & ty & Ei & Et & _). rewrite Ei, Et. cbn [app map first_ids c_ok c_id fst snd somes firsts]. assert (Q : id_of ob = id) by (unfold id_of; now rewrite Ei). rewrite Q, <- IH. reflexivity.
Qed.
Lemma firsts_nodup l : NoDup l -> firsts l = l.
Proof.
  induction 1 as [|x l N _ IH]; [reflexivity|]. cbn [firsts]. rewrite IH. f_equal. clear IH. induction l as [|y l IH]; [reflexivity|]. cbn [filter].
  destruct (String.eqb_spec x y) as [->|]; [exfalso; apply N; now left|]. cbn [negb]. f_equal. apply IH. intros H. apply N. now right.
Qed.

(** ** C103 *)
(** AllObjects lists the identifiers of the objects read in the order in which
    they first stand in the document.  If they are all different it returns the
    objects in the order of the document. *)
Theorem document_order : forall rnd cf js s c, document js s -> from_json rnd cf s = Ok c -> cf_nosort cf = false ->
  exists outs, c = collect false outs /\ Forall acceptable outs /\ contribute_all rnd cf [] js outs /\
  (exists os, all_objects c (map Some os)) /\
  forall os, all_objects c (map Some os) ->
    map id_of os = firsts (map id_of (somes outs)) /\ (forall o, In o os -> get c (id_of o) = Some o) /\
    (NoDup (map id_of (somes outs)) -> os = somes outs).
Proof.
  intros rnd cf js s c D E Ns. assert (E' := E). rewrite (from_json_read _ _ _ _ D) in E'. destruct (read_all rnd cf js VNil) as [outs| |] eqn:R; try discriminate. injection E' as <-.
  assert (A := read_all_acceptable _ _ _ _ _ R). exists outs. rewrite Ns. split; [reflexivity|]. split; [exact A|]. split.
  { apply (read_all_contributes rnd cf js [] VNil outs); [reflexivity|intros tv Q; discriminate|exact (document_ok _ _ D)|exact R]. }
  unfold collect. destruct (run (new_coll false) (calls_of outs)) as [c oks] eqn:Rn. cbn [fst]. split.
  - destruct (all_objects_sorted_total _ _ _ _ Rn) as [(l & Hl) SO]. destruct (SO _ Hl) as (os & -> & _). now exists os.
  - intros os L. destruct (held_objects id_of type_of _ _ _ _ _ Rn (calls_unchanged _) L) as (_ & _ & H & F). specialize (F eq_refl).
    assert (Ok1 : oks = map (fun _ => true) (calls_of outs)) by (rewrite <- (calls_log outs A false), Rn; reflexivity). rewrite Ok1, firsts_ids in F by exact A.
    assert (Hg : forall o, In o os -> get c (id_of o) = Some o) by (intros o; apply H). split; [exact F|]. split; [exact Hg|]. intros Nd.
    apply (same_by_ids (get c)); [|exact Hg|now rewrite F, firsts_nodup]. intros o Ho.
    assert (Ho' : In (Some o) outs) by (clear -Ho; induction outs as [|[ob|] outs IH]; [destruct Ho| |right; auto]; destruct Ho as [->|Ho]; [now left|right; auto]).
    assert (Ao : acceptable (Some o)) by (rewrite Forall_forall in A; now apply A). destruct Ao as (id & ty & Ei & _).
    replace c with (collect false outs) by (unfold collect; now rewrite Rn). unfold id_of. rewrite Ei. apply collect_get; [exact A|]. split; [exact Ei|].
    apply in_split in Ho' as (o1 & o2 & ->). exists o1, o2. split; [reflexivity|]. intros ob' Hin Q.
    assert (S2 : forall l1 l2, somes (l1 ++ l2) = somes l1 ++ somes l2) by (clear; induction l1 as [|[ob|] l1 IH]; intros l2; cbn [app somes]; [reflexivity|now rewrite IH|apply IH]).
    rewrite S2, map_app in Nd. cbn [somes map] in Nd. apply NoDup_remove_2 in Nd. apply Nd. apply in_or_app. right.
    assert (I2 : In ob' (somes o2)) by (clear -Hin; induction o2 as [|[ob|] o2 IH]; [destruct Hin| |]; destruct Hin as [Q|Hin]; [injection Q as ->; now left|right; auto|discriminate|auto]).
    apply in_map_iff. exists ob'. split; [|exact I2]. unfold id_of. now rewrite Q, Ei.
Qed.
Print Assumptions document_order.

(** [firsts] means what it says. *)
Theorem firsts_meaning : forall l, NoDup (firsts l) /\ (forall x, In x (firsts l) <-> In x l) /\ (forall a b, l = a ++ b -> exists r, firsts l = firsts a ++ r).
Proof.
  induction l as [|x l (N & I & P)]; [split; [constructor|]; split; [tauto|]; intros [|? ?] [|? ?] Q; try discriminate; now exists []|]. cbn [firsts]. split; [|split].
  - constructor; [|now apply NoDup_filter]. rewrite filter_In, String.eqb_refl. intros [_ Q]. discriminate.
  - intros y. cbn [In]. rewrite filter_In, I, negb_true_iff, String.eqb_neq. destruct (String.eqb_spec x y) as [->|]; tauto.
  - intros [|y a] b Q; [eexists; reflexivity|]. cbn [app] in Q. injection Q as <- ->. destruct (P a b eq_refl) as (r & ->). cbn [firsts app]. rewrite filter_app. eexists. reflexivity.
Qed.
Print Assumptions firsts_meaning.

(** An object that comes again keeps its place and is the later one. *)
Example document_order_ex : exists c v1 v2 v, document [mal []; tool []; mal [("name", JStr "n")]] (arr [mal []; tool []; mal [("name", JStr "n")]]) /\
  from_json rnd_id default_cf (arr [mal []; tool []; mal [("name", JStr "n")]]) = Ok c /\ all_objects c (map Some [(ty_Malware, v1); (ty_Tool, v2)]) /\ get c mid = Some (ty_Malware, v1) /\
  get_path (field_path ty_Malware "ID") v1 = VStr mid /\ from_json rnd_id default_cf (arr [mal []; tool []]) = Ok v /\ get v mid <> Some (ty_Malware, v1).
Proof.
  eexists. eexists. eexists. eexists. split; [apply arr_document; reflexivity|]. split; [vm_compute; reflexivity|]. split; [vm_compute; reflexivity|]. split; [vm_compute; reflexivity|].
  split; [vm_compute; reflexivity|]. split; [vm_compute; reflexivity|]. vm_compute. discriminate.
Qed.
