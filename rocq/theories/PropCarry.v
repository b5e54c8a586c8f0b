(** What the objects of a document receive from the objects before them: C97, C98. *)
From Verif Require Import GoStr GoStrFacts JsonStr StrSpec StrSpecFacts JsonSpec JsonSpecFacts Json Float Consts GoTypes Schema GoVal Codec CodecSpec Ident
  Collection CollectionSpec FromJson FromJsonSpec FromJsonFacts IndepFacts PropCodec PropFromJson CarrySpec CarryFacts.

(** ** C97 *)
(** Without parsers and drop-custom option: the extended properties of an object
    of a built in type are exactly the members carried to it. *)
Theorem extended_properties_exact : forall rnd cf js s c, document js s -> from_json rnd cf s = Ok c ->
  cf_drop cf = false -> (forall typ, parser_of cf typ = None) ->
  exists outs, c = collect (cf_nosort cf) outs /\ Forall acceptable outs /\ length outs = length js /\
  forall a j b, js = a ++ j :: b -> exists o, nth_error outs (length a) = Some o /\
    forall name t v, o = Some (t, v) -> In (name, t) builtin_types -> In (ty_name t) helper_types ->
      forall k y, k <> "" -> alookup k (props_of t v) = Some y <-> exists x, carried k (a ++ [j]) x /\ generic rnd x = Ok y.
Proof.
  intros rnd cf js s c D E Dr NP. destruct (from_json_carried rnd cf Dr NP js s c D E) as (outs & -> & A & L & H). exists outs. split; [reflexivity|]. split; [exact A|]. split; [exact L|].
  intros a j b Q. destruct (H a j b Q) as (o & N & P & _). exists o. split; [exact N|exact P].
Qed.
Print Assumptions extended_properties_exact.

(** What an object has in excess of the members of its own JSON object is
    exactly what was carried past the objects before it. *)
Theorem excess_exact : forall rnd cf js s c, document js s -> from_json rnd cf s = Ok c ->
  cf_drop cf = false -> (forall typ, parser_of cf typ = None) ->
  exists outs, c = collect (cf_nosort cf) outs /\ Forall acceptable outs /\ length outs = length js /\
  forall a j b, js = a ++ j :: b -> exists o, nth_error outs (length a) = Some o /\
    forall name t v, o = Some (t, v) -> In (name, t) builtin_types -> In (ty_name t) helper_types ->
      forall k y, k <> "" -> member k j = None ->
        alookup k (props_of t v) = Some y <-> ~ owns k j /\ exists x, carried k a x /\ generic rnd x = Ok y.
Proof.
  intros rnd cf js s c D E Dr NP. destruct (from_json_carried rnd cf Dr NP js s c D E) as (outs & Ec & A & L & H).
  exists outs. split; [exact Ec|]. split; [exact A|]. split; [exact L|]. subst c.
  intros a j b Q. destruct (H a j b Q) as (o & N & P & _ & Ob). exists o. split; [exact N|]. intros name t v Qo Hb Hh k y Ne M. rewrite (P name t v Qo Hb Hh k y Ne). split.
  - intros (x & C & G). apply carried_snoc in C as (_ & No & [C|[_ C]]); [congruence|]. eauto.
  - intros (No & x & C & G). exists x. split; [|exact G]. apply carried_snoc. split; [|auto].
    apply Ob. rewrite Qo. discriminate.
Qed.
Print Assumptions excess_exact.

(** A custom property reaches the third object through the second, not past a
    null and not past a type that has the property. *)
Example extended_properties_ex : exists c v, document [mal [("x_secret", JStr "s")]; mal [("x_b", JBool true)]; tool []] (arr [mal [("x_secret", JStr "s")]; mal [("x_b", JBool true)]; tool []]) /\
  from_json rnd_id default_cf (arr [mal [("x_secret", JStr "s")]; mal [("x_b", JBool true)]; tool []]) = Ok c /\
  get c tid = Some (ty_Tool, v) /\ props_of ty_Tool v = [("x_b", VDyn GBool (VBool true)); ("x_secret", dyn_str "s")] /\ In ("tool", ty_Tool) builtin_types /\ In (ty_name ty_Tool) helper_types.
Proof.
  eexists. eexists. split; [apply arr_document; reflexivity|]. split; [vm_compute; reflexivity|]. split; [vm_compute; reflexivity|]. split; [vm_compute; reflexivity|].
  split; [apply alookup_builtin; vm_compute; reflexivity|]. apply mem_str_In. vm_compute. reflexivity.
Qed.
Example carried_ex : carried "x_secret" [mal [("x_secret", JStr "s")]; tool []] (JStr "s") /\ (forall x, ~ carried "x_secret" [mal [("x_secret", JStr "s")]; JNull; tool []] x) /\
  (forall x, ~ carried "id" [mal [("x_secret", JStr "s")]] x) /\ carried "type" [cust []] (JStr "x-foo").
Proof.
  assert (T : forall k, In k (own_keys ty_Tool) <-> owns k (tool [])) by (intros k; symmetry; apply (owns_builtin k _ "tool"); [reflexivity|apply alookup_builtin; vm_compute; reflexivity]).
  assert (M : forall k m, json_type (mal m) = Some "malware" -> In k (own_keys ty_Malware) <-> owns k (mal m)) by (intros k m J; symmetry; apply (owns_builtin k _ "malware"); [exact J|apply alookup_builtin; vm_compute; reflexivity]).
  assert (N : forall k l, mem_str k l = false -> ~ In k l) by (intros k l Q H; apply mem_str_In in H; congruence).
  split; [|split; [|split]].
  - exists [], (mal [("x_secret", JStr "s")]), [tool []]. split; [reflexivity|]. split; [reflexivity|]. split; [rewrite <- M by reflexivity; apply N; vm_compute; reflexivity|].
    constructor; [|constructor]. split; [unfold tool; eauto|]. split; [reflexivity|]. rewrite <- T. apply N. vm_compute. reflexivity.
  - intros x C. change [mal [("x_secret", JStr "s")]; JNull; tool []] with (([mal [("x_secret", JStr "s")]] ++ [JNull]) ++ [tool []]) in C.
    apply carried_snoc in C as (_ & _ & [C|[_ C]]); [discriminate|]. apply carried_snoc in C as ((ms & Q) & _). discriminate.
  - intros x C. apply (carried_snoc "id" []) in C as (_ & No & _). apply No. apply M; [reflexivity|]. apply mem_str_In. vm_compute. reflexivity.
  - exists [], (cust []), []. split; [reflexivity|]. split; [reflexivity|]. split; [|constructor]. apply (no_builtin_owns _ _ "x-foo"); [reflexivity|vm_compute; reflexivity].
Qed.

(** ** C98 *)
(** Without parsers and drop-custom option: an object without a type is skipped
    if no type is carried to it, and otherwise the document is refused. *)
Theorem untyped_skipped_or_refused : forall rnd cf js s c, document js s -> from_json rnd cf s = Ok c ->
  cf_drop cf = false -> (forall typ, parser_of cf typ = None) ->
  exists outs, c = collect (cf_nosort cf) outs /\ Forall acceptable outs /\ length outs = length js /\
  forall a ms b, js = a ++ JObj ms :: b -> member "type" (JObj ms) = None -> nth_error outs (length a) = Some None /\ forall x, ~ carried "type" a x.
Proof.
  intros rnd cf js s c D E Dr NP. destruct (from_json_carried rnd cf Dr NP js s c D E) as (outs & -> & A & L & H). exists outs. split; [reflexivity|]. split; [exact A|]. split; [exact L|].
  intros a ms b Q M. destruct (H a _ b Q) as (o & N & _ & P & _). destruct (P ms eq_refl M) as [-> C]. auto.
Qed.
Print Assumptions untyped_skipped_or_refused.

(** At the end of a document it changes nothing exactly if no type is carried to
    it; otherwise the document is refused. *)
Theorem untyped_at_end : forall rnd cf a ms s1 s2 c, document a s1 -> document (a ++ [JObj ms]) s2 -> member "type" (JObj ms) = None ->
  (exists g, generic rnd (JObj ms) = Ok g) -> cf_drop cf = false -> (forall typ, parser_of cf typ = None) -> from_json rnd cf s1 = Ok c ->
  (from_json rnd cf s2 = Ok c <-> forall x, ~ carried "type" a x) /\
  (forall c', from_json rnd cf s2 = Ok c' -> c' = c).
Proof.
  intros rnd cf a ms s1 s2 c D1 D2 M G Dr NP E.
  assert (X : forall c', from_json rnd cf s2 = Ok c' -> forall x, ~ carried "type" a x).
  { intros c' E2. destruct (untyped_skipped_or_refused rnd cf _ s2 c' D2 E2 Dr NP) as (outs & _ & _ & _ & H). now destruct (H a ms [] eq_refl M). }
  assert (Y : (forall x, ~ carried "type" a x) -> from_json rnd cf s2 = Ok c) by now apply (untyped_appended rnd cf Dr NP a ms s1 s2 c).
  split; [split; [apply X|exact Y]|]. intros c' E2. specialize (Y (X _ E2)). congruence.
Qed.
Print Assumptions untyped_at_end.

(** Types are carried by custom objects only. *)
Theorem only_custom_types_carried : forall js x, carried "type" js x -> exists j, In j js /\ member "type" j = Some x /\
  forall typ, json_type j = Some typ -> ~ In typ (akeys builtin_types).
Proof.
  intros js x (a & j & b & -> & M & No & _). exists j. split; [apply in_or_app; right; now left|]. split; [exact M|]. intros typ J H.
  destruct (alookup typ builtin_types) as [t|] eqn:Ht; [|now apply alookup_None in Ht]. apply No. exists typ, t. split; [exact J|]. apply alookup_builtin in Ht. split; [exact Ht|].
  now destruct (builtin_read _ _ Ht) as (n & fs & -> & _ & _ & _ & _ & Ot & _).
Qed.
Print Assumptions only_custom_types_carried.

(** After a custom object an object without type fails the document; an object of
    a built in type in between ends this. *)
Definition untyped : json := JObj [("id", JStr cid); ("a", JNum "1")].
Example untyped_ex : exists c e, document ([cust []] ++ [untyped]) (arr ([cust []] ++ [untyped])) /\ member "type" untyped = None /\ (exists g, generic rnd_id untyped = Ok g) /\
  from_json rnd_id default_cf (arr ([cust []] ++ [untyped])) = Err e /\
  from_json rnd_id default_cf (arr [cust []; tool []; untyped]) = Ok c /\ from_json rnd_id default_cf (arr [cust []; tool []]) = Ok c /\ get c tid <> None.
Proof.
  eexists. eexists. split; [apply arr_document; reflexivity|]. split; [reflexivity|]. split; [eexists; vm_compute; reflexivity|]. split; [vm_compute; reflexivity|].
  split; [vm_compute; reflexivity|]. split; [vm_compute; reflexivity|]. vm_compute. discriminate.
Qed.
