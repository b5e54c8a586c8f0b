(** Documents with the same objects in another order: C96. *)
From Coq Require Import Permutation.
From Verif Require Import GoStr GoStrFacts JsonStr StrSpec StrSpecFacts JsonSpec JsonSpecFacts Json Float Consts GoTypes Schema GoVal Codec CodecSpec Ident
  Collection CollectionSpec FromJson FromJsonSpec FromJsonFacts IndepFacts PropCodec PropFromJson JoinSpec ObjOrderSpec ObjOrderFacts.

(** ** C96 *)
(** False in general: an extended property spreads to the objects after it, so it
    matters which these are. *)
Theorem object_order_refuted : exists js js' c c', document js (arr js) /\ document js' (arr js') /\ Permutation js js' /\
  from_json rnd_id default_cf (arr js) = Ok c /\ from_json rnd_id default_cf (arr js') = Ok c' /\ distinct rnd_id default_cf js /\ get c tid <> get c' tid.
Proof.
  exists [mal [("x_secret", JStr "s")]; tool []], [tool []; mal [("x_secret", JStr "s")]]. eexists. eexists.
  split; [apply arr_document; reflexivity|]. split; [apply arr_document; reflexivity|]. split; [apply perm_swap|].
  split; [vm_compute; reflexivity|]. split; [vm_compute; reflexivity|]. split; [|vm_compute; discriminate].
  intros a j1 b j2 c c1 c2 id Q E1 E2 G.
  assert (L := f_equal (@length json) Q). rewrite app_length in L. cbn [length] in L. rewrite app_length in L. cbn [length] in L.
  destruct a as [|x a]; [|exfalso; cbn [length] in L; lia]. destruct b as [|y b]; [|exfalso; cbn [length] in L; lia]. destruct c as [|z c]; [|exfalso; cbn [length] in L; lia].
  cbn [app] in Q. injection Q as <- <-.
  assert (X : forall j i, (match from_json rnd_id default_cf (alone j) with Ok c => match get c i with Some o => match obj_id o, obj_type o with Ok i', Ok t => String.eqb i' i && has_valid_identifier i t | _, _ => false end | None => false end | _ => false end) = true ->
    json_okb j = true -> exists o, from_json rnd_id default_cf (alone j) = Ok (collect false [Some o]) /\ acceptable (Some o) /\ obj_id o = Ok i).
  { intros j i H O. rewrite from_json_alone in * by exact O. destruct (out1 (read rnd_id default_cf j VNil)) as [[o|]| |] eqn:R; cbn [bind] in *; try discriminate.
    2: { exfalso. destruct (get (collect (cf_nosort default_cf) [None]) i) as [o|] eqn:G0; [|discriminate]. apply collected_objects in G0 as (_ & x & y & Q & _); [|constructor; [exact I|constructor]]. destruct x as [|? [|]]; discriminate. }
    change (cf_nosort default_cf) with false in *. destruct (get (collect false [Some o]) i) as [o'|] eqn:G0; [|discriminate].
    assert (A : acceptable (Some o)). { destruct (read rnd_id default_cf j VNil) as [[o0 p]| |] eqn:R0; cbn in R; try discriminate. injection R as ->. exact (read_acceptable _ _ _ _ _ _ R0). }
    apply collected_objects in G0 as (J & x & y & Q & _); [|now constructor]. exists o. split; [reflexivity|]. split; [exact A|].
    assert (o' = o) as <- by (destruct x as [|? [|]]; [now injection Q|discriminate|discriminate]). exact J. }
  destruct (X (mal [("x_secret", JStr "s")]) mid) as (o1 & F1 & A1 & I1); [vm_compute; reflexivity|reflexivity|].
  destruct (X (tool []) tid) as (o2 & F2 & A2 & I2); [vm_compute; reflexivity|reflexivity|].
  rewrite E1 in F1. rewrite E2 in F2. injection F1 as ->. injection F2 as ->.
  destruct (get (collect false [Some o1]) id) as [p1|] eqn:G1; [|congruence]. destruct (get (collect false [Some o2]) id) as [p2|] eqn:G2; [|reflexivity].
  apply collected_objects in G1 as (J1 & x1 & y1 & Q1 & _); [|now constructor]. apply collected_objects in G2 as (J2 & x2 & y2 & Q2 & _); [|now constructor].
  assert (p1 = o1) as -> by (destruct x1 as [|? [|]]; [now injection Q1|discriminate|discriminate]).
  assert (p2 = o2) as -> by (destruct x2 as [|? [|]]; [now injection Q2|discriminate|discriminate]).
  rewrite I1 in J1. rewrite I2 in J2. rewrite <- J2 in J1. exfalso. clear -J1. vm_compute in J1. discriminate.
Qed.
Print Assumptions object_order_refuted.

(** True if no object leaves anything to a later one: then the order of the
    objects only matters for the order of AllObjects. *)
Theorem object_order_partial : forall rnd cf js js' s s' c, document js s -> document js' s' -> apart cf js -> apart cf js' -> Permutation js js' ->
  from_json rnd cf s = Ok c ->
  exists c', from_json rnd cf s' = Ok c' /\ (distinct rnd cf js ->
    (forall id, get c' id = get c id) /\
    forall os os', all_objects c (map Some os) -> all_objects c' (map Some os') -> Permutation os os').
Proof. exact order_of_objects. Qed.
Print Assumptions object_order_partial.

(** So with a null after each object the order never matters for anything else. *)
Theorem object_order_with_nulls : forall rnd cf l l' s s' c, document (separated l) s -> document (separated l') s' -> Permutation l l' ->
  from_json rnd cf s = Ok c ->
  exists c', from_json rnd cf s' = Ok c' /\ (distinct rnd cf (separated l) ->
    (forall id, get c' id = get c id) /\
    forall os os', all_objects c (map Some os) -> all_objects c' (map Some os') -> Permutation os os').
Proof.
  intros rnd cf l l' s s' c D D' P. apply (order_of_objects rnd cf (separated l) (separated l')); try assumption; [right; right; now exists l|right; right; now exists l'|].
  unfold separated. now apply Permutation_flat_map.
Qed.
Print Assumptions object_order_with_nulls.

Example object_order_ex : exists c c', document [mal []; tool []] (arr [mal []; tool []]) /\ document [tool []; mal []] (arr [tool []; mal []]) /\
  apart default_cf [mal []; tool []] /\ apart default_cf [tool []; mal []] /\ Permutation [mal []; tool []] [tool []; mal []] /\
  from_json rnd_id default_cf (arr [mal []; tool []]) = Ok c /\ from_json rnd_id default_cf (arr [tool []; mal []]) = Ok c' /\
  get c mid = get c' mid /\ get c tid = get c' tid /\ get c mid <> None /\ get c tid <> None.
Proof.
  assert (M : clean default_cf (mal [])).
  { right. do 3 eexists. split; [reflexivity|]. split; [reflexivity|]. split; [reflexivity|]. split; [apply (proj1 (alookup_builtin _ ty_Malware)); vm_compute; reflexivity|].
    intros k x H. apply mem_str_In. repeat (destruct H as [Q|H]; [injection Q as <- <-; vm_compute; reflexivity|]). destruct H. }
  assert (T : clean default_cf (tool [])).
  { right. do 3 eexists. split; [reflexivity|]. split; [reflexivity|]. split; [reflexivity|]. split; [apply (proj1 (alookup_builtin _ ty_Tool)); vm_compute; reflexivity|].
    intros k x H. apply mem_str_In. repeat (destruct H as [Q|H]; [injection Q as <- <-; vm_compute; reflexivity|]). destruct H. }
  eexists. eexists. split; [apply arr_document; reflexivity|]. split; [apply arr_document; reflexivity|].
  split; [left; split; [reflexivity|constructor; [assumption|constructor; [assumption|constructor]]]|]. split; [left; split; [reflexivity|constructor; [assumption|constructor; [assumption|constructor]]]|]. split; [apply perm_swap|].
  split; [vm_compute; reflexivity|]. split; [vm_compute; reflexivity|]. split; [vm_compute; reflexivity|]. split; [vm_compute; reflexivity|]. split; vm_compute; discriminate.
Qed.
