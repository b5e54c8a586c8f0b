(** Facts for C101. *)
From Verif Require Import GoStr GoStrFacts JsonStr StrSpec StrSpecFacts JsonSpec JsonSpecFacts Json JsonFacts Float Consts GoTypes Schema GoVal GoValFacts Codec CodecSpec CodecFacts
  StructFacts ObjFacts DataTypes DataTypesFacts Ident Collection CollectionSpec FromJson FromJsonSpec FromJsonFacts ReadFacts IndepFacts ParseFacts FromJsonProps CollectFacts AppendFacts CarrySpec CarryFacts.

Lemma helper_no_name name n fs : In (name, GStruct n fs) builtin_types -> In (ty_name (GStruct n fs)) helper_types -> In "" (tag_keys fs).
Proof.
  assert (X : forallb (fun kv : string * gty => negb (mem_str (ty_name (snd kv)) helper_types) || match snd kv with GStruct _ fs => mem_str "" (tag_keys fs) | _ => false end) builtin_types = true) by (vm_compute; reflexivity).
  intros H Hh. rewrite forallb_forall in X. specialize (X _ H). cbn [snd] in X. apply mem_str_In in Hh. rewrite Hh in X. cbn [negb orb] in X. now apply mem_str_In.
Qed.

Section A.
Variable rnd : bool -> N -> Z -> option flt.
Variable cf : config.
Hypothesis Dr : cf_drop cf = false.
Hypothesis NP : forall typ, parser_of cf typ = None.

Lemma read_as_alone a j q o p' t v name : json_okb j = true -> msorted (old_map q) = true -> holds rnd a q -> read rnd cf j q = Ok (o, p') ->
  o = Some (t, v) -> In (name, t) builtin_types -> In (ty_name t) helper_types -> nothing_more a j -> out1 (read rnd cf j VNil) = Ok o.
Proof.
  intros O S H R Eo Hb Hh N. destruct (read_inv _ _ _ _ _ _ S R) as [(_ & -> & _)|(ms & m & -> & M & X)]; [discriminate|].
  destruct X as [(_ & -> & _)|(typ & T & [(_ & -> & _)|(t0 & v0 & v1 & St & D & Eo' & _)])]; [discriminate|discriminate|]. rewrite Eo' in Eo. injection Eo as -> Ev.
  rewrite (start_np cf Dr NP) in St. destruct (alookup typ builtin_types) as [t'|] eqn:B.
  2: { injection St as <- _. exfalso. destruct (builtin_read _ _ Hb) as (n & fs & Q & _). discriminate. }
  injection St as -> <-. assert (Ht := proj1 (alookup_builtin _ _) B).
  assert (J : json_type (JObj ms) = Some typ).
  { destruct (typed_member _ _ _ _ _ M T) as [J|[_ J]]; [exact J|]. destruct H as (_ & Hty & _). apply Hty in J. congruence. }
  destruct (builtin_read _ _ Hb) as (n & fs & -> & TK & _). assert (He := helper_no_name _ _ _ Hb Hh).
  assert (PK : exists m', unmarshal_res (dec rnd (JObj ms) peak_ty VNil) = Ok (VMap m') /\ merged rnd VNil ms m').
  { destruct (peak_status rnd (JObj ms) q) as [(e & Hq)|(pk & _ & Hq)].
    - unfold FromJsonFacts.read in R. rewrite Hq in R. discriminate.
    - destruct (Hq VNil) as (pk' & E). destruct (peak_inv rnd _ VNil _ eq_refl E) as [[Q _]|(ms' & m' & Q & -> & M')]; [discriminate|]. injection Q as <-. eauto. }
  destruct PK as (m' & PK & M').
  assert (F : filter_out (GStruct n fs) m' = filter_out (GStruct n fs) m).
  { destruct M as (Sm & L & _). destruct M' as (Sm' & L' & _). apply msorted_ext; [now apply filter_out_msorted|now apply filter_out_msorted|]. intros k. rewrite !alookup_filter_out.
    destruct (mem_str k (tag_keys fs)) eqn:Mk; [reflexivity|]. rewrite L, L'. destruct (last_member k ms) as [x|] eqn:LM; [reflexivity|]. cbn [old_map alookup].
    destruct (alookup k (old_map q)) as [y|] eqn:A; [|reflexivity]. exfalso.
    assert (Ne : k <> "") by (intros ->; apply mem_str_In in He; congruence). destruct H as (H & _). apply H in A as (x & C & _); [|exact Ne]. apply (N k x Ne LM); [|exact C].
    intros Ow. apply (owns_builtin k _ _ _ J Ht) in Ow. assert (Z : In k (tag_keys fs)) by (apply TK; now left). apply mem_str_In in Z. congruence. }
  assert (T' : alookup "type" m' = Some (dyn_str typ)).
  { destruct M' as (_ & L' & _). rewrite L'. unfold json_type in J. cbn [member] in J. destruct (last_member "type" ms) as [x|]; [|discriminate]. destruct x; try discriminate. unfold dval. cbn [dec_any]. now rewrite J. }
  assert (Ac := read_acceptable _ _ _ _ _ _ R). rewrite Eo' in Ac. destruct Ac as (id & ty & I1 & T1 & V).
  unfold FromJsonFacts.read at 1. rewrite PK. cbn [bind map_get old_map]. rewrite T'. cbn [as_string dyn_str bind]. rewrite (start_np cf Dr NP), B. cbn [bind].
  unfold read_finish. rewrite D. cbn [unmarshal_res bind]. rewrite Dr, F. unfold props_of_read in I1, T1, Eo'. rewrite Dr in I1, T1, Eo'. rewrite I1, T1. cbn [bind]. rewrite V. cbn [out1 bind fst]. now rewrite Eo'.
Qed.

Lemma collect_single ns o o1 : acceptable o -> acceptable o1 -> o <> None -> collect ns [o] = collect ns [o1] -> o1 = o.
Proof.
  intros A A1 Ne Q. destruct o as [ob|]; [|congruence]. assert (Ac := A). destruct Ac as (id & ty & I1 & _).
  assert (G : get (collect ns [Some ob]) id = Some ob).
  { apply collect_get; [now constructor|]. split; [exact I1|]. exists [], []. split; [reflexivity|]. intros ob' []. }
  rewrite Q in G. apply collect_get in G as (_ & o1' & o2' & E & _); [|now constructor]. destruct o1' as [|? [|]]; [now injection E|discriminate|discriminate].
Qed.
Lemma alone_exactly_facts js s c : document js s -> from_json rnd cf s = Ok c ->
  exists outs, c = collect (cf_nosort cf) outs /\ Forall acceptable outs /\ length outs = length js /\
  forall a j b, js = a ++ j :: b -> exists o, nth_error outs (length a) = Some o /\
    forall name t v, o = Some (t, v) -> In (name, t) builtin_types -> In (ty_name t) helper_types ->
      (from_json rnd cf (alone j) = Ok (collect (cf_nosort cf) [o]) <-> nothing_more a j).
Proof.
  intros D E. assert (Oj := document_ok _ _ D). rewrite (from_json_read _ _ _ _ D) in E. destruct (read_all rnd cf js VNil) as [outs| |] eqn:R; try discriminate. injection E as <-.
  exists outs. split; [reflexivity|]. assert (AC := read_all_acceptable _ _ _ _ _ R). split; [exact AC|]. split; [exact (read_all_length _ _ _ _ _ R)|]. intros a j b ->.
  rewrite forallb_app in Oj. apply andb_true_iff in Oj as [Oa Oj]. cbn [forallb] in Oj. apply andb_true_iff in Oj as [Oj _].
  assert (Ra := read_all_app rnd cf a (j :: b) VNil). destruct (read_all rnd cf a VNil) as [oa| |] eqn:Ea; [|congruence|congruence]. clear Ra.
  destruct (read_all_end rnd cf Dr NP a [] VNil oa Oa eq_refl (holds_nil rnd) Ea) as (q & Sq & Hq & X). cbn [app] in Hq. rewrite X in R. cbn [FromJsonFacts.read_all] in R.
  destruct (read rnd cf j q) as [[o p']| |] eqn:Rj; try discriminate. cbn [bind fst snd] in R. destruct (read_all rnd cf b p') as [ob| |]; try discriminate. cbn [bind] in R. injection R as <-.
  exists o. split.
  - rewrite <- (read_all_length _ _ _ _ _ Ea). rewrite nth_error_app2 by lia. now rewrite Nat.sub_diag.
  - intros name t v Eo Hb Hh. assert (Ao := read_acceptable _ _ _ _ _ _ Rj). destruct (read_carried rnd cf Dr NP _ _ _ _ _ Oj Sq Hq Rj) as (P & _ & _). split.
    + intros Al k x Ne M No C. destruct Hq as (_ & _ & Hg). destruct (Hg _ _ C) as (y & G).
      assert (L : alookup k (props_of t v) = Some y).
      { apply (P name t v Eo Hb Hh k y Ne). exists x. split; [|exact G]. apply carried_snoc. split; [|auto].
        destruct (read_inv _ _ _ _ _ _ Sq Rj) as [(_ & Q & _)|(ms & _ & -> & _)]; [congruence|eauto]. }
      rewrite from_json_alone in Al by exact Oj. destruct (read rnd cf j VNil) as [[o1 p1]| |] eqn:R1; try discriminate. cbn [out1 bind fst] in Al. injection Al as Al.
      assert (A1 := read_acceptable _ _ _ _ _ _ R1). symmetry in Al. apply collect_single in Al; [|exact Ao|exact A1|congruence]. subst o1.
      destruct (read_carried rnd cf Dr NP [] j VNil o p1 Oj eq_refl (holds_nil rnd) R1) as (P1 & _ & _). apply (P1 name t v Eo Hb Hh k y Ne) in L as (x' & C' & _).
      apply (carried_snoc k []) in C' as (_ & _ & [C'|[_ C']]); [congruence|now apply carried_nil in C'].
    + intros N. rewrite from_json_alone by exact Oj. rewrite (read_as_alone a j q o p' t v name Oj Sq Hq Rj Eo Hb Hh N). reflexivity.
Qed.
End A.
