(** Facts for C97 and C98. *)
From Verif Require Import GoStr GoStrFacts JsonStr StrSpec StrSpecFacts JsonSpec JsonSpecFacts Json JsonFacts Float Consts GoTypes Schema GoVal GoValFacts Codec CodecSpec CodecFacts
  StructFacts ObjFacts DataTypes DataTypesFacts Ident Collection CollectionSpec FromJson FromJsonSpec FromJsonFacts ReadFacts IndepFacts ParseFacts FromJsonProps CarrySpec.

Lemma carried_nil k x : ~ carried k [] x.
Proof. intros (a & j & b & Q & _). destruct a; discriminate. Qed.
Lemma carried_snoc k js j x : carried k (js ++ [j]) x <->
  (exists ms, j = JObj ms) /\ ~ owns k j /\ (member k j = Some x \/ member k j = None /\ carried k js x).
Proof.
  split.
  - intros (a & j' & b & Q & M & N & F). destruct b as [|z b _] using rev_ind.
    + apply app_inj_tail in Q as [-> ->]. split; [destruct j'; try discriminate; eauto|]. auto.
    + rewrite app_comm_cons, app_assoc in Q. apply app_inj_tail in Q as [-> ->]. apply Forall_app in F as [F Fz]. inversion Fz as [|? ? (O & M' & N') _]; subst.
      split; [exact O|]. split; [exact N'|]. right. split; [exact M'|]. exists a, j', b. auto.
  - intros (O & N & [M|[M (a & j' & b & -> & M' & N' & F)]]).
    + exists js, j, []. auto.
    + exists a, j', (b ++ [j]). rewrite <- app_assoc. split; [reflexivity|]. split; [exact M'|]. split; [exact N'|]. apply Forall_app. auto.
Qed.
Lemma carried_fun k js x y : carried k js x -> carried k js y -> x = y.
Proof.
  induction js as [|j js IH] using rev_ind; intros A B; [now apply carried_nil in A|]. apply carried_snoc in A as (_ & _ & A). apply carried_snoc in B as (_ & _ & B).
  destruct A as [A|[A A']], B as [B|[B B']]; try congruence. auto.
Qed.

Section C.
Variable rnd : bool -> N -> Z -> option flt.
Variable cf : config.
Hypothesis Dr : cf_drop cf = false.
Hypothesis NP : forall typ, parser_of cf typ = None.

(** The map is what is carried, and a type in it is a custom one. *)
Definition holds (pre : list json) (p : gval) : Prop :=
  (forall k y, k <> "" -> alookup k (old_map p) = Some y <-> exists x, carried k pre x /\ generic rnd x = Ok y) /\
  (forall typ, alookup "type" (old_map p) = Some (dyn_str typ) -> alookup typ builtin_types = None) /\
  (forall k x, carried k pre x -> exists y, generic rnd x = Ok y).
(** What the object at hand gets. *)
Definition exact_props (pre : list json) (j : json) (o : option gobj) : Prop :=
  forall name t v, o = Some (t, v) -> In (name, t) builtin_types -> In (ty_name t) helper_types ->
    forall k y, k <> "" -> alookup k (props_of t v) = Some y <-> exists x, carried k (pre ++ [j]) x /\ generic rnd x = Ok y.
Definition untyped_exact (pre : list json) (j : json) (o : option gobj) : Prop :=
  forall ms, j = JObj ms -> member "type" j = None ->
    o = None /\ forall x, ~ carried "type" pre x.

Lemma start_np typ j : start cf typ j = Ok (Some (match alookup typ builtin_types with Some t => (t, zero t) | None => (ty_CustomObject, VMap []) end)).
Proof.
  unfold start. specialize (NP typ). unfold parser_of in NP. destruct (alookup typ (cf_handlers cf)) as [[h|]|]; try discriminate; destruct (alookup typ builtin_types); try reflexivity; now rewrite Dr.
Qed.
Lemma merged_carried pre p ms m : json_okb (JObj ms) = true -> holds pre p -> merged rnd p ms m -> forall k y, k <> "" ->
  alookup k m = Some y <-> exists x, (member k (JObj ms) = Some x \/ member k (JObj ms) = None /\ carried k pre x) /\ generic rnd x = Ok y.
Proof.
  intros O (H & _) (Sm & L & OK) k y Ne. rewrite L. cbn [member]. destruct (last_member k ms) as [x|] eqn:M.
  - assert (G : generic rnd x = Ok (dval rnd x)) by (apply generic_dec; [exact (okb_member k (JObj ms) x O M)|apply (OK k); now apply last_member_In]). split.
    + intros Q. injection Q as <-. exists x. auto.
    + intros (x' & [Q|[Q _]] & G'); [injection Q as <-; congruence|discriminate].
  - rewrite H by exact Ne. split; intros (x & C & G); exists x; (split; [|exact G]); [auto|]. destruct C as [Q|[_ C]]; [discriminate|exact C].
Qed.

Lemma untyped_not_owns k ms : member "type" (JObj ms) = None -> ~ owns k (JObj ms).
Proof. intros M (typ & t & J & _). unfold json_type in J. rewrite M in J. discriminate. Qed.

Lemma carried_generic pre p ms m : json_okb (JObj ms) = true -> holds pre p -> merged rnd p ms m -> forall k x, carried k (pre ++ [JObj ms]) x -> exists y, generic rnd x = Ok y.
Proof.
  intros O (_ & _ & G) (_ & _ & OK) k x C. apply carried_snoc in C as (_ & _ & [C|[_ C]]); [|now apply (G k)].
  exists (dval rnd x). apply generic_dec; [exact (okb_member k (JObj ms) x O C)|]. apply (OK k). now apply last_member_In.
Qed.
Lemma owns_builtin k j typ t : json_type j = Some typ -> In (typ, t) builtin_types -> owns k j <-> In k (own_keys t).
Proof.
  intros J B. split; [|intros H; exists typ, t; auto]. intros (typ' & t' & J' & B' & H). rewrite J in J'. injection J' as <-.
  apply alookup_builtin in B, B'. rewrite B in B'. now injection B' as <-.
Qed.
Lemma no_builtin_owns k j typ : json_type j = Some typ -> alookup typ builtin_types = None -> ~ owns k j.
Proof. intros J B (typ' & t' & J' & B' & _). rewrite J in J'. injection J' as <-. apply alookup_builtin in B'. congruence. Qed.

(** A CustomObject without type is not accepted. *)
Lemma custom_needs_type ms v l : member "type" (JObj ms) = None -> dec rnd (JObj ms) ty_CustomObject (VMap []) = DOk v false ->
  ~ acceptable (Some (ty_CustomObject, add_props ty_CustomObject l v)).
Proof.
  intros M D (id & ty & _ & T & V). replace (add_props ty_CustomObject l v) with v in T by (now destruct l).
  assert (E2 : unmarshal_res (dec rnd (JObj ms) peak_ty (VMap [])) = Ok v) by (unfold ty_CustomObject in D; rewrite dec_map_obj in D; unfold peak_ty; rewrite dec_map_obj; rewrite D; reflexivity).
  destruct (peak_inv rnd (JObj ms) (VMap []) v eq_refl E2) as [[Q _]|(ms' & m1 & Q & -> & M1)]; [discriminate|]. injection Q as <-. destruct M1 as (_ & L1 & _).
  unfold obj_type, obj_field in T. cbn [fst snd ty_CustomObject] in T. unfold co_field in T. cbn [map_get] in T. rewrite L1 in T. cbn [old_map alookup] in T.
  cbn [member] in M. rewrite M in T. injection T as <-. unfold has_valid_identifier in V. destruct (split_dd id) as [|p0 [|u [|? ?]]]; try discriminate.
  destruct (String.eqb p0 ""); discriminate.
Qed.

Lemma read_carried pre j p o p' : json_okb j = true -> msorted (old_map p) = true -> holds pre p -> read rnd cf j p = Ok (o, p') ->
  exact_props pre j o /\ untyped_exact pre j o /\ holds (pre ++ [j]) p'.
Proof.
  intros O S H R. destruct (read_inv _ _ _ _ _ _ S R) as [(-> & -> & ->)|(ms & m & -> & M & X)].
  - assert (N : forall k x, ~ carried k (pre ++ [JNull]) x) by (intros k x C; apply carried_snoc in C as ((ms & Q) & _); discriminate).
    split; [intros ? ? ? Q; discriminate|]. split; [intros ms Q; discriminate|]. split; [|split].
    + intros k y _. split; [discriminate|]. intros (x & C & _). now apply N in C.
    + intros typ Q. discriminate.
    + intros k x C. now apply N in C.
  - assert (C := merged_carried _ _ _ _ O H M). assert (G := carried_generic _ _ _ _ O H M).
    assert (Un : forall k y, ~ owns k (JObj ms) -> k <> "" -> alookup k m = Some y <-> exists x, carried k (pre ++ [JObj ms]) x /\ generic rnd x = Ok y).
    { intros k y No Ne. rewrite (C k y Ne). split; intros (x & Cx & Gx); exists x; (split; [|exact Gx]).
      - apply carried_snoc. split; [eauto|]. split; [exact No|exact Cx].
      - now apply carried_snoc in Cx as (_ & _ & Cx). }
    destruct X as [(T & -> & ->)|(typ & T & X)].
    + assert (Mt : member "type" (JObj ms) = None).
      { destruct M as (_ & L & _). rewrite L in T. cbn [member]. destruct (last_member "type" ms); [discriminate|reflexivity]. }
      split; [intros ? ? ? Q; discriminate|]. split.
      * intros ms' _ _. split; [reflexivity|]. intros x Cx.
        destruct H as (_ & _ & Hg). destruct (Hg _ _ Cx) as (y & Gx).
        assert (A : alookup "type" m = Some y) by (apply C; [discriminate|]; exists x; auto). congruence.
      * split; [|split; [intros typ Q; cbn [old_map] in Q; congruence|exact G]]. intros k y Ne. cbn [old_map]. apply Un; [now apply untyped_not_owns|exact Ne].
    + rewrite start_np in X. destruct X as [(Q & _)|(t & v0 & v1 & Q & D & -> & ->)]; [discriminate|].
      destruct (alookup typ builtin_types) as [t'|] eqn:B; injection Q as <- <-.
      * assert (Hb := proj1 (alookup_builtin _ _) B). assert (J : json_type (JObj ms) = Some typ).
        { destruct (typed_member _ _ _ _ _ M T) as [J|[_ J]]; [exact J|]. destruct H as (_ & Ht & _). apply Ht in J. congruence. }
        destruct (builtin_read _ _ Hb) as (n & fs & -> & TK & _ & _ & _ & Ot & _ & FO & _).
        assert (Flt : forall k y, k <> "" -> alookup k (filter_out (GStruct n fs) m) = Some y <-> exists x, carried k (pre ++ [JObj ms]) x /\ generic rnd x = Ok y).
        { intros k y Ne. rewrite alookup_filter_out. destruct (mem_str k (tag_keys fs)) eqn:Mt.
          - split; [discriminate|]. intros (x & Cx & _). apply carried_snoc in Cx as (_ & No & _). exfalso. apply No. apply (owns_builtin k _ _ _ J Hb).
            apply mem_str_In, TK in Mt. destruct Mt as [Mt|[Mt _]]; [exact Mt|contradiction].
          - apply Un; [|exact Ne]. intros Ow. apply (owns_builtin k _ _ _ J Hb) in Ow. assert (In k (tag_keys fs)) as Z by (apply TK; now left). apply mem_str_In in Z. congruence. }
        split; [|split; [|split; [|split]]].
        -- intros name t' v Q Hb' Hh k y Ne. injection Q as <- <-. unfold props_of_read. rewrite Dr. assert (Sh := dec_shape rnd _ _ _ _ _ FO D).
           rewrite (add_props_props name n fs _ v1 Hb' Sh (dec_props rnd _ _ _ _ _ Hb' D)). destruct (helper_props _ _ Hb' Hh) as (pp & ->). now apply Flt.
        -- intros ms' _ Mt. exfalso. unfold json_type in J. rewrite Mt in J. discriminate.
        -- intros k y Ne. cbn [old_map]. unfold peak_after. rewrite Dr. now apply Flt.
        -- intros typ' Q. cbn [old_map] in Q. unfold peak_after in Q. rewrite Dr, alookup_filter_out in Q.
           assert (Z : In "type" (tag_keys fs)) by (apply TK; now left). apply mem_str_In in Z. rewrite Z in Q. discriminate.
        -- exact G.
      * assert (No : forall k, ~ owns k (JObj ms)).
        { intros k. destruct (typed_member _ _ _ _ _ M T) as [J|[J _]]; [now apply (no_builtin_owns k _ typ)|now apply untyped_not_owns]. }
        assert (Pk : peak_after cf ty_CustomObject m = m) by (unfold peak_after; rewrite Dr; reflexivity).
        split; [|split; [|split; [|split]]].
        -- intros name t' v Q Hb'. injection Q as <- <-. exfalso. destruct (builtin_read _ _ Hb') as (n & fs & Q & _). discriminate.
        -- intros ms' _ Mt. exfalso. apply (custom_needs_type ms v1 (props_of_read cf ty_CustomObject m)); [exact Mt|exact D|]. exact (read_acceptable _ _ _ _ _ _ R).
        -- intros k y Ne. cbn [old_map]. rewrite Pk. now apply Un.
        -- intros typ' Q. cbn [old_map] in Q. rewrite Pk in Q. rewrite T in Q. now injection Q as <-.
        -- exact G.
Qed.

Lemma read_all_carried js : forall pre p outs, forallb json_okb js = true -> msorted (old_map p) = true -> holds pre p -> read_all rnd cf js p = Ok outs ->
  forall a j b, js = a ++ j :: b -> exists o, nth_error outs (length a) = Some o /\ exact_props (pre ++ a) j o /\ untyped_exact (pre ++ a) j o /\ (o <> None -> exists ms, j = JObj ms).
Proof.
  induction js as [|j0 js IH]; intros pre p outs O S H R a j b E; [destruct a; discriminate|].
  cbn [forallb] in O. apply andb_true_iff in O as [Oj O]. cbn [read_all] in R. destruct (read rnd cf j0 p) as [[o p']| |] eqn:R0; try discriminate. cbn [bind fst snd] in R.
  destruct (read_all rnd cf js p') as [os| |] eqn:R1; try discriminate. cbn [bind] in R. injection R as <-.
  destruct (read_carried _ _ _ _ _ Oj S H R0) as (B & U & H').
  destruct a as [|a0 a]; cbn [app] in E; injection E as <- E.
  - exists o. split; [reflexivity|]. rewrite app_nil_r. split; [exact B|]. split; [exact U|]. intros Ho. destruct (read_inv _ _ _ _ _ _ S R0) as [(_ & -> & _)|(ms & _ & -> & _)]; [congruence|eauto].
  - destruct (IH (pre ++ [j0]) p' os O (read_sorted _ _ _ _ _ _ S R0) H' R1 a j b E) as (o' & N & B'). exists o'. split; [exact N|]. now rewrite <- app_assoc in B'.
Qed.
(** The map after the values [js]. *)
Lemma read_all_end js : forall pre p outs, forallb json_okb js = true -> msorted (old_map p) = true -> holds pre p -> read_all rnd cf js p = Ok outs ->
  exists q, msorted (old_map q) = true /\ holds (pre ++ js) q /\ forall b, read_all rnd cf (js ++ b) p = do ob <- read_all rnd cf b q; Ok (outs ++ ob)%list.
Proof.
  induction js as [|j js IH]; intros pre p outs O S H R.
  - injection R as <-. exists p. rewrite app_nil_r. split; [exact S|]. split; [exact H|]. intros b. cbn [app]. destruct (read_all rnd cf b p); reflexivity.
  - cbn [forallb] in O. apply andb_true_iff in O as [Oj O]. cbn [read_all] in R. destruct (read rnd cf j p) as [[o p']| |] eqn:R0; try discriminate. cbn [bind fst snd] in R.
    destruct (read_all rnd cf js p') as [os| |] eqn:R1; try discriminate. cbn [bind] in R. injection R as <-.
    destruct (read_carried _ _ _ _ _ Oj S H R0) as (_ & _ & H'). destruct (IH (pre ++ [j]) p' os O (read_sorted _ _ _ _ _ _ S R0) H' R1) as (q & Sq & Hq & E).
    exists q. split; [exact Sq|]. split; [now rewrite <- app_assoc in Hq|]. intros b. cbn [app read_all]. rewrite R0. cbn [bind fst snd]. rewrite E.
    destruct (read_all rnd cf b q); reflexivity.
Qed.
Lemma holds_nil : holds [] VNil.
Proof.
  split; [|split].
  - intros k y _. split; [discriminate|]. intros (x & C & _). now apply carried_nil in C.
  - intros typ Q. discriminate.
  - intros k x C. now apply carried_nil in C.
Qed.
(** An object without type after a document. *)
Lemma untyped_appended a ms s1 s2 c : document a s1 -> document (a ++ [JObj ms]) s2 -> member "type" (JObj ms) = None -> (exists g, generic rnd (JObj ms) = Ok g) ->
  from_json rnd cf s1 = Ok c -> (forall x, ~ carried "type" a x) -> from_json rnd cf s2 = Ok c.
Proof.
  intros D1 D2 M (g & G) E N. rewrite (from_json_read _ _ _ _ D1) in E. rewrite (from_json_read _ _ _ _ D2). destruct (read_all rnd cf a VNil) as [outs| |] eqn:R; try discriminate. injection E as <-.
  destruct (read_all_end a [] VNil outs (document_ok _ _ D1) eq_refl holds_nil R) as (q & Sq & Hq & X). rewrite X.
  assert (O := document_ok _ _ D2). rewrite forallb_app in O. apply andb_true_iff in O as [_ O]. cbn [forallb] in O. apply andb_true_iff in O as [O _].
  apply generic_dec in G; [|exact O]. destruct (dec_any_obj _ _ _ G (old_map q)) as (m & Dm).
  assert (PK : unmarshal_res (dec rnd (JObj ms) peak_ty q) = Ok (VMap m)) by (rewrite dec_peak_obj, Dm; reflexivity).
  destruct (peak_obj rnd ms q m Sq PK) as (_ & L & _). cbn [read_all]. unfold FromJsonFacts.read at 1. rewrite PK. cbn [bind map_get old_map].
  assert (T : alookup "type" m = None).
  { rewrite L. cbn [member] in M. rewrite M. destruct (alookup "type" (old_map q)) as [y|] eqn:A; [|reflexivity]. destruct Hq as (Hq & _). apply Hq in A; [|discriminate].
    destruct A as (x & C & _). now apply N in C. }
  rewrite T. cbn [bind fst snd]. f_equal. unfold collect, calls_of. rewrite flat_map_app. cbn [flat_map]. now rewrite !app_nil_r.
Qed.
Lemma from_json_carried js s c : document js s -> from_json rnd cf s = Ok c ->
  exists outs, c = collect (cf_nosort cf) outs /\ Forall acceptable outs /\ length outs = length js /\
  forall a j b, js = a ++ j :: b -> exists o, nth_error outs (length a) = Some o /\ exact_props a j o /\ untyped_exact a j o /\ (o <> None -> exists ms, j = JObj ms).
Proof.
  intros D E. rewrite (from_json_read _ _ _ _ D) in E. destruct (read_all rnd cf js VNil) as [outs| |] eqn:R; try discriminate. injection E as <-.
  exists outs. split; [reflexivity|]. split; [eapply read_all_acceptable; eauto|]. split.
  - clear -R. revert R. generalize VNil. revert outs. induction js as [|j js IH]; intros outs p R; [now injection R as <-|]. cbn [read_all] in R.
    destruct (read rnd cf j p) as [r| |]; try discriminate. cbn [bind] in R. destruct (read_all rnd cf js (snd r)) as [os| |] eqn:R'; try discriminate. injection R as <-. cbn [length]. f_equal. eauto.
  - apply (read_all_carried js [] VNil outs); auto; [now apply (document_ok js s)|exact holds_nil].
Qed.
End C.
