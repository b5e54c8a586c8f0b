(** Facts for C99. *)
From Verif Require Import GoStr GoStrFacts JsonStr StrSpec StrSpecFacts JsonSpec JsonSpecFacts Json JsonFacts Float Consts GoTypes Schema GoVal GoValFacts Codec CodecSpec CodecFacts
  StructFacts ObjFacts DataTypes DataTypesFacts Ident Collection CollectionSpec FromJson FromJsonSpec FromJsonFacts ReadFacts IndepFacts ParseFacts FromJsonProps CarrySpec.

Lemma reaching_nil k x : ~ reaching k [] x.
Proof. intros (a & j & b & Q & _). destruct a; discriminate. Qed.
Lemma reaching_snoc k js j x : reaching k (js ++ [j]) x <->
  (exists ms, j = JObj ms) /\ (member k j = Some x \/ member k j = None /\ reaching k js x).
Proof.
  split.
  - intros (a & j' & b & Q & M & F). destruct b as [|z b _] using rev_ind.
    + apply app_inj_tail in Q as [-> ->]. split; [destruct j'; try discriminate; eauto|]. auto.
    + rewrite app_comm_cons, app_assoc in Q. apply app_inj_tail in Q as [-> ->]. apply Forall_app in F as [F Fz]. inversion Fz as [|? ? (O & M') _]; subst.
      split; [exact O|]. right. split; [exact M'|]. exists a, j', b. auto.
  - intros (O & [M|[M (a & j' & b & -> & M' & F)]]).
    + exists js, j, []. auto.
    + exists a, j', (b ++ [j]). rewrite <- app_assoc. split; [reflexivity|]. split; [exact M'|]. apply Forall_app. auto.
Qed.

Section D.
Variable rnd : bool -> N -> Z -> option flt.
Variable cf : config.
Hypothesis Dr : cf_drop cf = true.
Hypothesis NP : forall typ, parser_of cf typ = None.

Definition keeps (pre : list json) (p : gval) : Prop :=
  (forall k y, alookup k (old_map p) = Some y <-> exists x, reaching k pre x /\ generic rnd x = Ok y) /\
  (forall k x, reaching k pre x -> json_okb x = true /\ exists y, generic rnd x = Ok y) /\
  (forall y, alookup "type" (old_map p) = Some y -> exists typ, y = dyn_str typ).
Definition untyped_out (pre : list json) (j : json) (o : option gobj) : Prop :=
  forall ms, j = JObj ms -> (forall k x, In (k, x) ms -> fold_key k <> "type") -> o = None /\ forall x, reaching "type" pre x -> ~ names_builtin x.

Lemma start_drop typ j : start cf typ j = Ok (match alookup typ builtin_types with Some t => Some (t, zero t) | None => None end).
Proof.
  unfold start. specialize (NP typ). unfold parser_of in NP. destruct (alookup typ (cf_handlers cf)) as [[h|]|]; try discriminate; destruct (alookup typ builtin_types); try reflexivity; now rewrite Dr.
Qed.
Lemma merged_reaching pre p ms m : json_okb (JObj ms) = true -> keeps pre p -> merged rnd p ms m -> forall k y,
  alookup k m = Some y <-> exists x, reaching k (pre ++ [JObj ms]) x /\ generic rnd x = Ok y.
Proof.
  intros O (H & _) (Sm & L & OK) k y. rewrite L. destruct (last_member k ms) as [x|] eqn:M.
  - assert (G : generic rnd x = Ok (dval rnd x)) by (apply generic_dec; [exact (okb_member k (JObj ms) x O M)|apply (OK k); now apply last_member_In]). split.
    + intros Q. injection Q as <-. exists x. split; [|exact G]. apply reaching_snoc. split; [eauto|]. now left.
    + intros (x' & R & G'). apply reaching_snoc in R as (_ & [Q|[Q _]]); cbn [member] in Q; congruence.
  - rewrite H. split; intros (x & C & G); exists x; (split; [|exact G]).
    + apply reaching_snoc. split; [eauto|]. right. auto.
    + apply reaching_snoc in C as (_ & [Q|[_ C]]); [cbn [member] in Q; congruence|exact C].
Qed.
Lemma generic_names x y : json_okb x = true -> generic rnd x = Ok y -> names_builtin x -> exists typ t, y = dyn_str typ /\ alookup typ builtin_types = Some t.
Proof.
  intros O G (raw & typ & -> & U & B). apply generic_dec in G; [|exact O]. cbn [dec_any] in G. rewrite U in G. injection G as <-.
  destruct (alookup typ builtin_types) as [t|] eqn:E; [|now apply alookup_None in E]. exists typ, t. split; [reflexivity|exact E].
Qed.

Lemma read_reaching pre j p o p' : json_okb j = true -> msorted (old_map p) = true -> keeps pre p -> read rnd cf j p = Ok (o, p') ->
  untyped_out pre j o /\ keeps (pre ++ [j]) p'.
Proof.
  intros O S H R. destruct (read_inv _ _ _ _ _ _ S R) as [(-> & -> & ->)|(ms & m & -> & M & X)].
  - assert (N : forall k x, ~ reaching k (pre ++ [JNull]) x) by (intros k x C; apply reaching_snoc in C as ((ms & Q) & _); discriminate).
    split; [intros ms Q; discriminate|]. split.
    + intros k y. split; [discriminate|]. intros (x & C & _). now apply N in C.
    + split; [intros k x C; now apply N in C|discriminate].
  - assert (C := merged_reaching _ _ _ _ O H M).
    assert (G : forall k x, reaching k (pre ++ [JObj ms]) x -> json_okb x = true /\ exists y, generic rnd x = Ok y).
    { intros k x Cx. apply reaching_snoc in Cx as (_ & [Cx|[_ Cx]]); [|destruct H as (_ & Hg & _); now apply (Hg k)].
      assert (Ox := okb_member k (JObj ms) x O Cx). split; [exact Ox|]. exists (dval rnd x). apply generic_dec; [exact Ox|]. destruct M as (_ & _ & OK). apply (OK k). now apply last_member_In. }
    assert (K : keeps (pre ++ [JObj ms]) (VMap m)) by (split; [exact C|]; split; [exact G|]; cbn [old_map]; intros y Q; destruct X as [(T & _)|(typ & T & _)]; [congruence|exists typ; congruence]).
    assert (Kp : p' = VMap m).
    { destruct X as [(_ & _ & ->)|(typ & _ & [(_ & _ & ->)|(t & v0 & v1 & _ & _ & _ & ->)])]; try reflexivity. unfold peak_after. now rewrite Dr. }
    split; [|rewrite Kp; exact K]. intros ms' Q F. injection Q as <-.
    assert (Mt : member "type" (JObj ms) = None).
    { cbn [member]. destruct (last_member "type" ms) as [x|] eqn:E; [|reflexivity]. apply last_member_In in E. exfalso. apply (F _ _ E). reflexivity. }
    assert (Lt : forall x, reaching "type" pre x -> names_builtin x -> exists typ t, alookup "type" m = Some (dyn_str typ) /\ alookup typ builtin_types = Some t).
    { intros x Rx Nx. destruct H as (_ & Hg & _). destruct (Hg _ _ Rx) as (Ox & y & Gx). destruct (generic_names _ _ Ox Gx Nx) as (typ & t & -> & B). exists typ, t. split; [|exact B].
      apply C. exists x. split; [|exact Gx]. apply reaching_snoc. split; [eauto|]. right. auto. }
    destruct X as [(T & -> & _)|(typ & T & X)].
    + split; [reflexivity|]. intros x Rx Nx. destruct (Lt x Rx Nx) as (typ & t & T' & _). congruence.
    + rewrite start_drop in X. destruct (alookup typ builtin_types) as [t'|] eqn:B.
      * exfalso. destruct X as [(Q & _)|(t & v0 & v1 & Q & D & -> & _)]; [discriminate|]. injection Q as <- <-. assert (Hb := proj1 (alookup_builtin _ _) B).
        destruct (read_acceptable _ _ _ _ _ _ R) as (id & ty & _ & Ty & V).
        destruct (builtin_field rnd _ _ _ _ _ (props_of_read cf t' m) Hb D) as [(s1 & T1 & G1) _]. rewrite Ty in T1. injection T1 as <-.
        rewrite (dec_no_type rnd _ _ _ _ _ Hb) with (2 := D) in G1; [|exact F]. injection G1 as <-.
        unfold has_valid_identifier in V. destruct (split_dd id) as [|p0 [|u [|? ?]]]; try discriminate. destruct (String.eqb p0 ""); discriminate.
      * destruct X as [(_ & -> & _)|(t & v0 & v1 & Q & _)]; [|discriminate]. split; [reflexivity|]. intros x Rx Nx. destruct (Lt x Rx Nx) as (typ' & t & T' & B'). rewrite T in T'. injection T' as <-. congruence.
Qed.

Lemma read_all_reaching js : forall pre p outs, forallb json_okb js = true -> msorted (old_map p) = true -> keeps pre p -> read_all rnd cf js p = Ok outs ->
  forall a j b, js = a ++ j :: b -> exists o, nth_error outs (length a) = Some o /\ untyped_out (pre ++ a) j o.
Proof.
  induction js as [|j0 js IH]; intros pre p outs O S H R a j b E; [destruct a; discriminate|].
  cbn [forallb] in O. apply andb_true_iff in O as [Oj O]. cbn [read_all] in R. destruct (read rnd cf j0 p) as [[o p']| |] eqn:R0; try discriminate. cbn [bind fst snd] in R.
  destruct (read_all rnd cf js p') as [os| |] eqn:R1; try discriminate. cbn [bind] in R. injection R as <-.
  destruct (read_reaching _ _ _ _ _ Oj S H R0) as (U & H').
  destruct a as [|a0 a]; cbn [app] in E; injection E as <- E.
  - exists o. split; [reflexivity|]. rewrite app_nil_r. exact U.
  - destruct (IH (pre ++ [j0]) p' os O (read_sorted _ _ _ _ _ _ S R0) H' R1 a j b E) as (o' & N & B'). exists o'. split; [exact N|]. now rewrite <- app_assoc in B'.
Qed.
Lemma read_all_last js : forall pre p outs, forallb json_okb js = true -> msorted (old_map p) = true -> keeps pre p -> read_all rnd cf js p = Ok outs ->
  exists q, msorted (old_map q) = true /\ keeps (pre ++ js) q /\ forall b, read_all rnd cf (js ++ b) p = do ob <- read_all rnd cf b q; Ok (outs ++ ob)%list.
Proof.
  induction js as [|j js IH]; intros pre p outs O S H R.
  - injection R as <-. exists p. rewrite app_nil_r. split; [exact S|]. split; [exact H|]. intros b. cbn [app]. destruct (read_all rnd cf b p); reflexivity.
  - cbn [forallb] in O. apply andb_true_iff in O as [Oj O]. cbn [read_all] in R. destruct (read rnd cf j p) as [[o p']| |] eqn:R0; try discriminate. cbn [bind fst snd] in R.
    destruct (read_all rnd cf js p') as [os| |] eqn:R1; try discriminate. cbn [bind] in R. injection R as <-.
    destruct (read_reaching _ _ _ _ _ Oj S H R0) as (_ & H'). destruct (IH (pre ++ [j]) p' os O (read_sorted _ _ _ _ _ _ S R0) H' R1) as (q & Sq & Hq & E).
    exists q. split; [exact Sq|]. split; [now rewrite <- app_assoc in Hq|]. intros b. cbn [app read_all]. rewrite R0. cbn [bind fst snd]. rewrite E.
    destruct (read_all rnd cf b q); reflexivity.
Qed.
Lemma keeps_nil : keeps [] VNil.
Proof.
  split.
  - intros k y. split; [discriminate|]. intros (x & C & _). now apply reaching_nil in C.
  - split; [intros k x C; now apply reaching_nil in C|discriminate].
Qed.
Lemma untyped_dropped_facts js s c : document js s -> from_json rnd cf s = Ok c ->
  exists outs, c = collect (cf_nosort cf) outs /\ Forall acceptable outs /\ length outs = length js /\
  forall a ms b, js = a ++ JObj ms :: b -> (forall k x, In (k, x) ms -> fold_key k <> "type") -> nth_error outs (length a) = Some None /\
    forall x, reaching "type" a x -> ~ names_builtin x.
Proof.
  intros D E. rewrite (from_json_read _ _ _ _ D) in E. destruct (read_all rnd cf js VNil) as [outs| |] eqn:R; try discriminate. injection E as <-.
  exists outs. split; [reflexivity|]. split; [eapply read_all_acceptable; eauto|]. split.
  - clear -R. revert R. generalize VNil. revert outs. induction js as [|j js IH]; intros outs p R; [now injection R as <-|]. cbn [read_all] in R.
    destruct (read rnd cf j p) as [r| |]; try discriminate. cbn [bind] in R. destruct (read_all rnd cf js (snd r)) as [os| |] eqn:R'; try discriminate. injection R as <-. cbn [length]. f_equal. eauto.
  - intros a ms b Q F. destruct (read_all_reaching js [] VNil outs (document_ok _ _ D) eq_refl keeps_nil R a (JObj ms) b Q) as (o & N & U). destruct (U ms eq_refl F) as [-> X]. auto.
Qed.
Lemma untyped_dropped_appended a ms s1 s2 c : document a s1 -> document (a ++ [JObj ms]) s2 -> (forall k x, In (k, x) ms -> fold_key k <> "type") -> (exists g, generic rnd (JObj ms) = Ok g) ->
  from_json rnd cf s1 = Ok c -> (forall x, reaching "type" a x -> ~ names_builtin x) -> from_json rnd cf s2 = Ok c.
Proof.
  intros D1 D2 F (g & G) E N. rewrite (from_json_read _ _ _ _ D1) in E. rewrite (from_json_read _ _ _ _ D2). destruct (read_all rnd cf a VNil) as [outs| |] eqn:R; try discriminate. injection E as <-.
  destruct (read_all_last a [] VNil outs (document_ok _ _ D1) eq_refl keeps_nil R) as (q & Sq & Hq & X). rewrite X.
  assert (O := document_ok _ _ D2). rewrite forallb_app in O. apply andb_true_iff in O as [_ O]. cbn [forallb] in O. apply andb_true_iff in O as [O _].
  apply generic_dec in G; [|exact O]. destruct (dec_any_obj _ _ _ G (old_map q)) as (m & Dm).
  assert (PK : unmarshal_res (dec rnd (JObj ms) peak_ty q) = Ok (VMap m)) by (rewrite dec_peak_obj, Dm; reflexivity).
  destruct (peak_obj rnd ms q m Sq PK) as (_ & L & _). cbn [read_all]. unfold FromJsonFacts.read at 1. rewrite PK. cbn [bind map_get old_map].
  assert (Mt : last_member "type" ms = None) by (destruct (last_member "type" ms) as [x|] eqn:E; [|reflexivity]; apply last_member_In in E; exfalso; now apply (F _ _ E)).
  assert (Fin : match (Ok (outs ++ [None])%list : res (list (option gobj))) with Ok os => Ok (collect (cf_nosort cf) os) | Err e => Err e | Panic => Panic end = Ok (collect (cf_nosort cf) outs)).
  { f_equal. unfold collect, calls_of. rewrite flat_map_app. cbn [flat_map]. now rewrite !app_nil_r. }
  destruct (alookup "type" m) as [y|] eqn:T; [|exact Fin]. rewrite L, Mt in T. destruct Hq as (Hq & Hg & Ht). destruct (Ht y T) as (typ & ->). apply Hq in T as (x & Rx & Gx). cbn [app] in Rx.
  destruct (Hg _ _ Rx) as (Ox & _). apply generic_dec in Gx; [|exact Ox]. cbn [as_string dyn_str bind]. rewrite start_drop.
  assert (B : alookup typ builtin_types = None).
  { assert (A : as_string (dval rnd x) = Ok typ) by (unfold dval; rewrite Gx; reflexivity). apply as_string_dval in A as (raw & -> & U); [|unfold dval; now rewrite Gx].
    destruct (alookup typ builtin_types) as [t|] eqn:E; [|reflexivity]. exfalso. apply (N _ Rx). exists raw, typ. split; [reflexivity|]. split; [exact U|].
    apply alookup_Some_In in E. exact (in_map fst _ _ E). }
  rewrite B. cbn [bind]. exact Fin.
Qed.
End D.
