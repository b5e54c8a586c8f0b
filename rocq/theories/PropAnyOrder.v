(** The order in which Go visits its maps (see AnyOrder.v) and what a caller can
    see of it. *)
From Coq Require Import Permutation.
From Verif Require Import GoStr JsonStr Json Float Consts GoTypes Schema GoVal Codec CodecSpec DataTypes Collection FromJson PropFromJson Double AnyOrder AnyOrderFacts.

(** FromJSON may end in several ways on the same bytes, but if one execution
    returns a collection then every execution returns that same collection; and
    the function of the model is one of these executions.  What is missing for
    "the same outcome": an error and a panic may take each other's place, see
    below. *)
Theorem from_json_any_order_partial : forall rnd cf s,
  from_json_outs rnd cf s (from_json rnd cf s) /\
  (forall c r, from_json_outs rnd cf s (Ok c) -> from_json_outs rnd cf s r -> r = Ok c) /\
  (forall r, from_json_outs rnd cf s r -> r = from_json rnd cf s \/
     ((forall c, r <> Ok c) /\ forall c, from_json rnd cf s <> Ok c)).
Proof.
  intros rnd cf s. destruct (from_json_agree rnd cf s) as [A1 A2].
  assert (B : forall X (x : res X), bad x -> forall c, x <> Ok c) by (intros X x Hb c ->; exact Hb).
  split; [exact A1|]. split.
  - intros c r Hc Hr. destruct (A2 _ Hc) as [E|[[] _]]. destruct (A2 _ Hr) as [->|[_ Bd]]; [now symmetry|]. exfalso. rewrite <- E in Bd. exact Bd.
  - intros r Hr. destruct (A2 _ Hr) as [->|[Br Bd]]; [now left|right]. split; now apply B.
Qed.
Print Assumptions from_json_any_order_partial.

(** The same for one value read into a variable of any type, extensions,
    enumerations and all. *)
Theorem unmarshal_any_order_partial : forall rnd j t old,
  dec_outs rnd j t old (dec rnd j t old) /\
  (forall v r, dec_outs rnd j t old (DOk v false) -> dec_outs rnd j t old r -> r = DOk v false).
Proof.
  intros rnd j t old. destruct (dec_outs_agree rnd j t old) as [A1 A2]. split; [exact A1|]. intros v r Hv Hr.
  destruct (A2 _ Hv) as [E|[[Q|Q] _]]; [|discriminate Q..]. destruct (A2 _ Hr) as [->|[_ [Q|Q]]]; [now symmetry|rewrite Q in E; discriminate E..].
Qed.
Print Assumptions unmarshal_any_order_partial.

(** Whether FromJSON returns an error or panics on the same bytes can depend on
    the order. *)
Definition flaky_exts : list (string * json) :=
  [("ntfs-ext", JBool true); ("windows-pebinary-ext", JObj [("time_date_stamp", JNum "1")])].
Definition flaky_object : json :=
  JObj [("type", JStr "file"); ("id", JStr "file--a932fcc6-e032-476c-826f-cb970a5a1ade"); ("extensions", JObj flaky_exts)].
Definition flaky : string := print (JArr [flaky_object]).

Lemma struct_panic (f : json -> gty -> gval -> outs gval) fl k x ms cur p t : find_field k fl = Some (p, t) -> f x t (get_path p cur) DPanic -> struct_outs f fl ((k, x) :: ms) cur DPanic.
Proof. intros F D. cbn [struct_outs]. rewrite F. exists DPanic. now split. Qed.
Lemma struct_step (f : json -> gty -> gval -> outs gval) fl k x ms cur p t v : find_field k fl = Some (p, t) -> f x t (get_path p cur) (DOk v false) ->
  struct_outs f fl ms (set_path p v cur) DPanic -> struct_outs f fl ((k, x) :: ms) cur DPanic.
Proof. intros F D N. cbn [struct_outs]. rewrite F. exists (DOk v false). split; [exact D|]. exists DPanic. now split. Qed.

Theorem from_json_order_refuted :
  exists e, from_json_outs go_rnd default_cf flaky (Err e) /\ from_json_outs go_rnd default_cf flaky Panic.
Proof.
  exists "json". split.
  - destruct (from_json_any_order_partial go_rnd default_cf flaky) as [A _]. replace (from_json go_rnd default_cf flaky) with (@Err (coll gobj) "json") in A by (vm_compute; reflexivity). exact A.
  - unfold from_json_outs. replace (unmarshal go_rnd flaky ty_Bundle (zero ty_Bundle)) with (@Err gval "json") by (vm_compute; reflexivity).
    replace (unmarshal go_rnd flaky (GSlice GRaw) VNil) with (@Ok gval (VSlice [VRaw flaky_object])) by (vm_compute; reflexivity).
    cbn [raws flat_map app process_objects_outs]. exists Panic. split; [|reflexivity]. unfold process_object_outs.
    match goal with |- match ?x with _ => _ end => let y := eval vm_compute in x in replace x with y by (vm_compute; reflexivity) end.
    unfold finish_outs. exists DPanic. split; [|reflexivity].
    eapply struct_step; [vm_compute; reflexivity|hnf; vm_compute; reflexivity|]. 
    eapply struct_step; [vm_compute; reflexivity|hnf; vm_compute; reflexivity|].
    eapply struct_panic; [vm_compute; reflexivity|].
    exists DPanic. split; [|reflexivity]. eexists. split; [apply perm_swap|]. exists DPanic. split; [|reflexivity].
    eapply struct_panic; [vm_compute; reflexivity|]. 
    exists DPanic. split; [hnf; vm_compute; reflexivity|reflexivity].
Qed.
Print Assumptions from_json_order_refuted.

(** Encoding: the extended properties of an object of any type may be visited in
    any order. *)
Theorem marshal_any_order : forall visit t v, (forall l, Permutation (visit l) l) -> storable t v = true ->
  marshal_in visit t v = marshal t v.
Proof. intros visit t v P S. apply marshal_visit; [exact P|]. eapply storable_maps. exact S. Qed.
Print Assumptions marshal_any_order.

(** Two extensions and two extended properties: read in every order alike, and
    written alike when the properties are visited backwards. *)
Definition steady : string :=
  "[{""type"":""file"",""id"":""file--a932fcc6-e032-476c-826f-cb970a5a1ade"",""name"":""f"",""x_b"":true,""x_a"":""s"",""extensions"":{""pdf-ext"":{""version"":""1.7""},""acme"":{""k"":null}}}]".
Definition steady_object : gobj :=
  match from_json go_rnd default_cf steady with
  | Ok c => match get c "file--a932fcc6-e032-476c-826f-cb970a5a1ade" with Some o => o | None => (GBool, VNil) end
  | _ => (GBool, VNil)
  end.
Example any_order_example :
  (exists c, from_json go_rnd default_cf steady = Ok c /\ get c "file--a932fcc6-e032-476c-826f-cb970a5a1ade" = Some steady_object) /\
  storable (fst steady_object) (snd steady_object) = true /\
  get_path (Some "STIXCyberObservableObject", "toplevelProperties") (snd steady_object) = VPtr (VMap [("x_a", dyn_str "s"); ("x_b", VDyn GBool (VBool true))]) /\
  (forall l : list (string * gval), Permutation (rev l) l) /\
  exists j, marshal_in (@rev _) (fst steady_object) (snd steady_object) = Ok j.
Proof.
  split; [eexists; split; vm_compute; reflexivity|]. split; [vm_compute; reflexivity|]. split; [vm_compute; reflexivity|].
  split; [intros l; symmetry; apply Permutation_rev|]. eexists. vm_compute. reflexivity.
Qed.
