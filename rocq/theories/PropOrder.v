(** Order of members and white space: C71.  [reordered] of OrderSpec: the same
    JSON value with the members of its objects in another order. *)
From Coq Require Import Permutation.
From Verif Require Import GoStr GoStrFacts JsonStr StrSpec StrSpecFacts JsonSpec JsonSpecFacts Json JsonFacts Float Consts GoTypes Schema GoVal Codec CodecSpec StructFacts
  Ident Collection FromJson FromJsonSpec FromJsonFacts ReadSpec PropCodec PropFromJson PropRead OrderSpec OrderFacts.
Local Open Scope string_scope.

(** ** C71 *)
(** Two texts of the same JSON value, which differ in white space or in the
    spelling of member names, are read alike.  A custom parser gets the text of
    its object as it stands and could tell them apart: none is registered
    here. *)
Theorem white_space_irrelevant : forall rnd cf j s s', (forall typ, parser_of cf typ = None) ->
  json_text j s -> json_text j s' -> from_json rnd cf s = from_json rnd cf s'.
Proof. intros rnd cf j s s' _ T T'. apply json_exact in T, T'. unfold from_json, unmarshal. now rewrite T, T'. Qed.
Print Assumptions white_space_irrelevant.

(** If no object has two members of the same name up to case, their order does
    not matter: the same collection is read, if any. *)
Theorem member_order_irrelevant : forall rnd cf j j' s s', (forall typ, parser_of cf typ = None) ->
  json_text j s -> json_text j' s' -> plain_names j -> reordered j j' ->
  forall c, from_json rnd cf s = Ok c <-> from_json rnd cf s' = Ok c.
Proof.
  intros rnd cf j j' s s' NP T T' P R c. split; intros E.
  - exact (from_json_reordered rnd cf NP j j' s s' c T T' P R E).
  - exact (from_json_reordered rnd cf NP j' j s' s c T' T (reordered_plain _ _ R P) (reordered_sym _ _ R) E).
Qed.
Print Assumptions member_order_irrelevant.

(** The same for single objects. *)
Theorem object_member_order_irrelevant : forall rnd name t j j' s s', In (name, t) builtin_types ->
  json_text j s -> json_text j' s' -> plain_names j -> reordered j j' ->
  forall v, unmarshal rnd s t (zero t) = Ok v <-> unmarshal rnd s' t (zero t) = Ok v.
Proof.
  assert (X : forall rnd name t j j' s s', In (name, t) builtin_types -> json_text j s -> json_text j' s' -> plain_names j -> reordered j j' ->
    forall v, unmarshal rnd s t (zero t) = Ok v -> unmarshal rnd s' t (zero t) = Ok v).
  { intros rnd name t j j' s s' H T T' P R v U. apply (object_read_exact rnd name t j s v H T P) in U.
    apply (object_read_exact rnd name t j' s' v H T' (reordered_plain _ _ R P)). apply (means_reordered rnd t j); auto. now apply (builtin_raw_free name). }
  intros rnd name t j j' s s' H T T' P R v. split; intros U.
  - exact (X rnd name t j j' s s' H T T' P R v U).
  - exact (X rnd name t j' j s' s H T' T (reordered_plain _ _ R P) (reordered_sym _ _ R) v U).
Qed.
Print Assumptions object_member_order_irrelevant.

Fixpoint plainb (j : json) : bool :=
  match j with
  | JArr l => forallb plainb l
  | JObj ms => nodupb (map (fun kx => fold_key (fst kx)) ms) && forallb (fun kx => plainb (snd kx)) ms
  | _ => true
  end.
Lemma plainb_plain j : plainb j = true -> plain_names j.
Proof.
  induction j using json_ind'; cbn [plainb]; intros E; try constructor.
  - rewrite forallb_forall in E. rewrite Forall_forall in H. eauto.
  - apply andb_true_iff in E as [E _]. now apply nodupb_NoDup.
  - apply andb_true_iff in E as [_ E]. rewrite forallb_forall in E. rewrite Forall_forall in H. intros k x I. exact (H _ I (E _ I)).
Qed.

(** Whether a bad object makes FromJSON fail or panic does depend on the order. *)
Definition bad_order1 := JArr [JObj [("type", JStr "malware"); ("modified", JStr "x"); ("created", JNum "1")]].
Definition bad_order2 := JArr [JObj [("type", JStr "malware"); ("created", JNum "1"); ("modified", JStr "x")]].
Lemma bad_reordered : reordered bad_order1 bad_order2.
Proof.
  apply (ro_arr [(_, _)]). intros x y [Q|[]]. injection Q as <- <-.
  apply (ro_obj [("type", JStr "malware", JStr "malware"); ("modified", JStr "x", JStr "x"); ("created", JNum "1", JNum "1")]); cbn [map fst snd]; [reflexivity|constructor; constructor|].
  intros k x y I. destruct I as [Q|[Q|[Q|[]]]]; injection Q as <- <- <-; constructor.
Qed.
Theorem member_order_outcome_refuted : ~ forall rnd cf j j' s s', (forall typ, parser_of cf typ = None) ->
  json_text j s -> json_text j' s' -> plain_names j -> reordered j j' -> (from_json rnd cf s = Panic <-> from_json rnd cf s' = Panic).
Proof.
  intros H. specialize (H rnd_id default_cf bad_order2 bad_order1 (print bad_order2) (print bad_order1)).
  assert (T : forall j, json_okb j = true -> json_text j (print j)) by (intros j O; apply json_exact; now apply parse_print).
  assert (N : exists e, from_json rnd_id default_cf (print bad_order1) = Err e) by (eexists; vm_compute; reflexivity).
  destruct N as (e & N). rewrite N in H. cut (Err (A := coll gobj) e = Panic); [discriminate|]. apply H; [intros typ; reflexivity|now apply T|now apply T| |apply reordered_sym; exact bad_reordered|vm_compute; reflexivity].
  apply plainb_plain. vm_compute. reflexivity.
Qed.
Print Assumptions member_order_outcome_refuted.

(** With two members of the same name the last wins, so the order matters. *)
Example duplicate_names_order : exists c c', from_json rnd_id default_cf (print (JArr [mal [("name", JStr "a"); ("name", JStr "b")]])) = Ok c /\
  from_json rnd_id default_cf (print (JArr [mal [("name", JStr "b"); ("name", JStr "a")]])) = Ok c' /\ get c mid <> get c' mid.
Proof. do 2 eexists. split; [vm_compute; reflexivity|]. split; [vm_compute; reflexivity|]. vm_compute. discriminate. Qed.

(** A bundle whose objects come first, with a custom property and a nested
    object, in both orders and with white space. *)
Definition om1 := mal [("x_a", JObj [("p", JNum "1"); ("q", JNull)])].
Definition om2 := JObj [("x_a", JObj [("q", JNull); ("p", JNum "1")]); ("is_family", JBool true); ("type", JStr "malware"); ("id", JStr mid)].
Definition ord1 := JObj [("type", JStr "bundle"); ("objects", JArr [om1])].
Definition ord2 := JObj [("objects", JArr [om2]); ("type", JStr "bundle")].
Example member_order_ex : json_text ord1 (print ord1) /\ json_text ord2 (" " ++ print ord2 ++ String "010" "") /\ plain_names ord1 /\ reordered ord1 ord2 /\
  exists c, from_json rnd_id default_cf (print ord1) = Ok c /\ get c mid <> None /\ from_json rnd_id default_cf (" " ++ print ord2 ++ String "010" "") = Ok c.
Proof.
  split; [apply json_exact; vm_compute; reflexivity|]. split; [apply json_exact; vm_compute; reflexivity|]. split; [|split].
  - apply plainb_plain. vm_compute. reflexivity.
  - apply (ro_obj [("type", JStr "bundle", JStr "bundle"); ("objects", JArr [om1], JArr [om2])]); cbn [map fst snd]; [reflexivity|constructor|].
    intros k x y [Q|[Q|[]]]; injection Q as <- <- <-; [constructor|]. apply (ro_arr [(om1, om2)]). intros x y [Q|[]]. injection Q as <- <-.
    apply (ro_obj [("x_a", JObj [("p", JNum "1"); ("q", JNull)], JObj [("q", JNull); ("p", JNum "1")]); ("is_family", JBool true, JBool true); ("type", JStr "malware", JStr "malware"); ("id", JStr mid, JStr mid)]);
      cbn [map fst snd]; [| reflexivity|].
    + apply (Permutation_trans (l' := [("x_a", JObj [("p", JNum "1"); ("q", JNull)]); ("type", JStr "malware"); ("id", JStr mid); ("is_family", JBool true)])).
      * symmetry. apply (Permutation_cons_append [("type", JStr "malware"); ("id", JStr mid); ("is_family", JBool true)]).
      * constructor. symmetry. apply (Permutation_cons_append [("type", JStr "malware"); ("id", JStr mid)]).
    + intros k x y [Q|[Q|[Q|[Q|[]]]]]; injection Q as <- <- <-; try constructor.
      apply (ro_obj [("p", JNum "1", JNum "1"); ("q", JNull, JNull)]); cbn [map fst snd]; [reflexivity|constructor|]. intros k x y [Q|[Q|[]]]; injection Q as <- <- <-; constructor.
  - eexists. split; [vm_compute; reflexivity|]. split; [vm_compute; discriminate|]. vm_compute. reflexivity.
Qed.
