(** Reading back the bundle of any collection of built in and custom objects. *)
From Verif Require Import GoStr GoStrFacts JsonStr JsonStrFacts StrSpec StrSpecFacts JsonSpec JsonSpecFacts Json JsonFacts Float Consts GoTypes Schema GoVal GoValFacts Codec CodecSpec CodecFacts
  StructFacts CodecRound ObjFacts TypedFacts DataTypes DataTypesFacts Ident IdentFacts Collection CollectionSpec CollectionFacts FromJson FromJsonSpec FromJsonFacts
  ReadFacts IndepFacts CollectFacts PropCollectionAux BundleFacts FromJsonProps DocSpec DocFacts.

Section B.
Variable rnd : bool -> N -> Z -> option flt.
Variable cf : config.

(** An object a collection can hold. *)
Definition held (ob : gobj) : Prop :=
  (own_object rnd cf ob /\ (forall k, In k (akeys (props_of (fst ob) (snd ob))) -> free_name (fst ob) k = true /\ k <> "")) \/ own_custom rnd cf ob.

Lemma read_builtin ob j p M : own_object rnd cf ob ->
  (forall k, In k (akeys (props_of (fst ob) (snd ob))) -> free_name (fst ob) k = true /\ k <> "") ->
  marshal (fst ob) (snd ob) = Ok j -> holds p M ->
  exists o p' M', read rnd cf j p = Ok (Some o, p') /\ holds p' M' /\ returns rnd cf M ob (Some o) M' /\ obj_id o = obj_id ob /\ obj_type o = obj_type ob.
Proof.
  intros Ow PF E [Sp Lp]. destruct (read_marshal_any rnd cf ob j p Ow PF E Sp) as (m & p' & R & P' & Sm & FO & ID).
  assert (Hb : In (fst ob) (map snd builtin_types)) by (destruct Ow as (name & id & H & _); exact (in_map snd _ _ H)).
  assert (Sp' := read_sorted _ _ _ _ _ _ Sp R). destruct ob as [t v]. cbn [fst snd] in *. destruct (cf_drop cf) eqn:Dr.
  - eexists. exists p', (fun k => alookup k (old_map p')). split; [exact R|]. split; [now split|]. split; [now apply ret_plain|apply ID].
  - rewrite (P' eq_refl) in *. eexists. exists (VMap (filter_out t m)), (fun k => alookup k (filter_out t m)). split; [exact R|].
    assert (X : lists (filter_out t m) (fun k => alookup k (filter_out t m))) by (split; [exact Sp'|reflexivity]).
    split; [exact X|]. split; [|apply ID]. apply ret_builtin; auto. intros k. rewrite FO. split; intros K.
    + now apply filter_out_spec.
    + rewrite (proj2 (filter_out_spec t _ k) K). destruct (alookup k (props_of t v)) as [x|]; [cbn [alookup]; now rewrite String.eqb_refl|apply Lp].
Qed.

Lemma enc_mems_In (f : gval -> res json) l : forall js, enc_mems f l = Ok js -> forall k, alookup k js = match alookup k l with Some x => match f x with Ok j => Some j | _ => None end | None => None end.
Proof.
  induction l as [|[k0 x0] l IH]; intros js E k; cbn [enc_mems] in E; [injection E as <-; reflexivity|].
  apply bind_ok in E as (j & E1 & E). fold (enc_mems f) in E. apply bind_ok in E as (js' & E2 & E). injection E as <-. cbn [alookup].
  destruct (String.eqb k k0); [now rewrite E1|auto].
Qed.
Lemma norm_dyn_str s : norm rnd GIface (dyn_str s) = dyn_str s.
Proof. reflexivity. Qed.
Lemma co_field_ok k m s : co_field k (VMap m) = Ok s -> s <> "" -> alookup k m = Some (dyn_str s).
Proof.
  unfold co_field. cbn [map_get]. destruct (alookup k m) as [x|]; [|intros Q; injection Q as <-; congruence]. intros A _. f_equal. now apply as_string_ok.
Qed.

Lemma read_custom ob j p M : own_custom rnd cf ob -> marshal (fst ob) (snd ob) = Ok j -> holds p M -> json_okb j = true /\
  exists o p' M', read rnd cf j p = Ok (o, p') /\ holds p' M' /\ returns rnd cf M ob o M' /\
    forall ob', o = Some ob' -> obj_id ob' = obj_id ob /\ obj_type ob' = obj_type ob.
Proof.
  intros (m & name & id & -> & Nname & NB & NP & OT & OI & V & W) E [Sp Lp]. cbn [fst snd] in E.
  assert (E0 := E). unfold marshal in E. replace (mem_str (ty_name ty_CustomObject) helper_types) with false in E by (vm_compute; reflexivity).
  assert (O : json_okb j = true) by exact (enc_json_ok rnd _ _ _ W E). split; [exact O|].
  assert (RT := value_roundtrip rnd ty_CustomObject (VMap m) j eq_refl W E). cbn [enc ty_CustomObject] in E. apply bind_ok in E as (js & Em & E). injection E as <-.
  cbn [wf ty_CustomObject] in W. apply andb_true_iff in W as [Sm Wm]. rewrite forallb_forall in Wm.
  assert (Lj := enc_mems_In _ _ _ Em).
  assert (Kj : akeys js = akeys m) by (eapply enc_mems_keys; eauto).
  assert (ND : NoDup (akeys js)) by (rewrite Kj; now apply msorted_nodup).
  assert (Dx : forall k x, In (k, x) m -> exists jx, enc GIface x = Ok jx /\ dec_any rnd jx = DOk (norm rnd GIface x) false).
  { intros k x Hin. assert (Wx := Wm _ Hin). cbn [fst snd] in Wx. apply andb_true_iff in Wx as [_ Wx].
    assert (La : alookup k m = Some x) by (apply alookup_In; [now apply msorted_nodup|exact Hin]).
    specialize (Lj k). rewrite La in Lj. destruct (enc GIface x) as [jx| |] eqn:Ex.
    - exists jx. split; [reflexivity|]. rewrite <- dec_iface with (old := VNil). now apply (value_roundtrip rnd GIface).
    - exfalso. apply alookup_akeys in Lj. apply Lj. rewrite Kj. exact (in_map fst _ _ Hin).
    - exfalso. apply alookup_akeys in Lj. apply Lj. rewrite Kj. exact (in_map fst _ _ Hin). }
  set (M1 := fun k => match alookup k m with Some x => Some (norm rnd GIface x) | None => M k end).
  assert (Ov : overridden rnd M js M1).
  { split.
    - intros k x Hin. assert (Hk := in_map fst _ _ Hin). change (map fst js) with (akeys js) in Hk. rewrite Kj in Hk. cbn [fst] in Hk.
      apply in_map_iff in Hk as ([k' y] & Q & Hy). cbn [fst] in Q. subst k'. destruct (Dx _ _ Hy) as (jx & Ex & D).
      assert (La : alookup k m = Some y) by (apply alookup_In; [now apply msorted_nodup|exact Hy]).
      assert (Lb : alookup k js = Some x) by (apply alookup_In; [exact ND|exact Hin]). rewrite Lj, La, Ex in Lb. injection Lb as ->.
      exists (norm rnd GIface y). apply generic_dec; [eapply okb_In; eauto|exact D].
    - intros k. rewrite last_member_alookup by exact ND. unfold M1. destruct (alookup k js) as [jx|] eqn:Lk.
      + assert (Hin := alookup_Some_In _ _ _ Lk). rewrite Lj in Lk. destruct (alookup k m) as [x|] eqn:La; [|discriminate]. apply alookup_Some_In in La.
        destruct (Dx _ _ La) as (jx' & Ex & D). rewrite Ex in Lk. injection Lk as ->. exists (norm rnd GIface x). split; [|reflexivity].
        apply generic_dec; [eapply okb_In; eauto|exact D].
      + destruct (alookup k m) as [x|] eqn:La; [|reflexivity]. exfalso. apply alookup_akeys in Lk. apply Lk. rewrite Kj. apply alookup_Some_In in La. exact (in_map fst _ _ La). }
  assert (Nid : id <> "") by exact (valid_nonempty _ _ V).
  assert (LT := co_field_ok _ _ _ OT Nname). assert (LI := co_field_ok _ _ _ OI Nid).
  assert (TV : M1 "type" = Some (dyn_str name)) by (unfold M1; now rewrite LT).
  assert (NI : obj_id (ty_CustomObject, norm rnd ty_CustomObject (VMap m)) = Ok id /\ obj_type (ty_CustomObject, norm rnd ty_CustomObject (VMap m)) = Ok name).
  { unfold obj_id, obj_type, obj_field. cbn [fst snd ty_CustomObject norm]. unfold co_field. cbn [map_get]. rewrite !alookup_map_snd, LT, LI. split; reflexivity. }
  destruct (cf_drop cf) eqn:Dr.
  - destruct (step_read rnd cf (JObj js) p M None M1 O (conj Sp Lp)) as (p' & R & H'); [eapply step_dropped; eauto|exact I|].
    exists None, p', M1. split; [exact R|]. split; [exact H'|]. split; [now apply ret_dropped|]. intros ob' Q. discriminate.
  - destruct (overridden_merged rnd p M js M1 O (conj Sp Lp) Ov) as (m1 & _ & S1 & L1). cbn [old_map] in S1, L1.
    assert (X : forall v, add_props ty_CustomObject m1 v = v) by (intros v; unfold add_props; now destruct m1).
    assert (St : step rnd cf M (JObj js) (Some (ty_CustomObject, norm rnd ty_CustomObject (VMap m))) M1).
    { rewrite <- (X (norm rnd ty_CustomObject (VMap m))). eapply step_object with (v0 := VMap []); eauto.
      - now apply rc_custom.
      - apply unmarshal_dec; [exact O|]. rewrite <- RT. reflexivity.
      - intros k. split; [|reflexivity]. intros K. inversion K.
      - now split. }
    destruct (step_read rnd cf _ p M _ M1 O (conj Sp Lp) St) as (p' & R & H'); [exists id, name; destruct NI; auto|].
    exists (Some (ty_CustomObject, norm rnd ty_CustomObject (VMap m))), p', M1. split; [exact R|]. split; [exact H'|]. split; [now apply ret_custom|].
    intros ob' Q. assert (ob' = (ty_CustomObject, norm rnd ty_CustomObject (VMap m))) as -> by congruence. destruct NI as [-> ->]. now rewrite OT, OI.
Qed.

Lemma read_held ob j p M : held ob -> marshal (fst ob) (snd ob) = Ok j -> holds p M -> json_okb j = true /\
  exists o p' M', read rnd cf j p = Ok (o, p') /\ holds p' M' /\ returns rnd cf M ob o M' /\
    forall ob', o = Some ob' -> obj_id ob' = obj_id ob /\ obj_type ob' = obj_type ob.
Proof.
  intros [[Ow PF]|Oc] E Hp; [|now apply read_custom]. split.
  - destruct Ow as (name & id & Hb & _ & _ & _ & _ & W). eapply marshal_json_ok; eauto.
  - destruct (read_builtin _ _ _ _ Ow PF E Hp) as (o & p' & M' & R & H' & Rt & I & T). exists (Some o), p', M'. split; [exact R|]. split; [exact H'|]. split; [exact Rt|].
    intros ob' Q. now injection Q as <-.
Qed.

(** The object keeps its identifier and type. *)
Definition same_names (ob : gobj) (o : option gobj) : Prop := forall ob', o = Some ob' -> obj_id ob' = obj_id ob /\ obj_type ob' = obj_type ob.
Lemma read_all_held os : (forall ob, In ob os -> held ob) -> forall js p M, Forall2 (fun ob j => marshal (fst ob) (snd ob) = Ok j) os js -> holds p M ->
  forallb json_okb js = true /\ exists outs, read_all rnd cf js p = Ok outs /\ return_all rnd cf M os outs /\ Forall2 same_names os outs.
Proof.
  induction os as [|ob os IH]; intros H js p M F Hp; inversion F as [|? j ? js' E F']; subst.
  - split; [reflexivity|]. exists []. split; [reflexivity|]. split; constructor.
  - destruct (read_held ob j p M (H ob (or_introl eq_refl)) E Hp) as (O & o & p' & M' & R & H' & Rt & Sn).
    destruct (IH (fun x Hx => H x (or_intror Hx)) js' p' M' F' H') as (O2 & outs & R2 & Rt2 & Sn2). split; [cbn [forallb]; now rewrite O, O2|].
    exists (o :: outs). cbn [read_all]. rewrite R. cbn [bind fst snd]. rewrite R2. split; [reflexivity|]. split; [econstructor; eauto|]. now constructor.
Qed.

(** The objects that are not dropped. *)
Definition some_of (outs : list (option gobj)) : list gobj := flat_map (fun o => match o with Some ob => [ob] | None => [] end) outs.
Lemma calls_some outs : calls_of outs = calls_of (map Some (some_of outs)).
Proof. unfold calls_of, some_of. induction outs as [|[ob|] outs IH]; [reflexivity| |exact IH]. cbn [flat_map app map]. now rewrite IH. Qed.
Lemma filter_some outs : filter (fun o : option gobj => match o with Some _ => true | None => false end) outs = map Some (some_of outs).
Proof. unfold some_of. induction outs as [|[ob|] outs IH]; [reflexivity| |exact IH]. cbn [filter flat_map app map]. now rewrite IH. Qed.
Lemma collect_listed ids os outs : NoDup ids -> Forall2 (fun id ob => obj_id ob = Ok id) ids os -> Forall2 same_names os outs -> Forall acceptable outs ->
  forall l, all_objects (collect false outs) l <-> l = filter (fun o => match o with Some _ => true | None => false end) outs.
Proof.
  intros N F Sn A l. unfold collect. rewrite calls_some, filter_some. fold (collect false (map Some (some_of outs))).
  assert (X : exists ids', NoDup ids' /\ incl ids' ids /\ Forall2 (fun id ob => obj_id ob = Ok id) ids' (some_of outs)).
  { clear A. revert outs Sn. induction F as [|id ob ids os E F IH]; intros outs Sn; inversion Sn as [|? o ? outs' S1 S2]; subst; [exists []; split; [constructor|split; [easy|constructor]]|].
    inversion N as [|? ? N1 N2]; subst. destruct (IH N2 _ S2) as (ids' & N' & I' & F'). destruct o as [ob'|].
    - exists (id :: ids'). split; [constructor; [intros X; apply N1; now apply I'|exact N']|]. split; [apply incl_cons; [now left|]; now apply incl_tl|].
      cbn [some_of flat_map app]. constructor; [|exact F']. destruct (S1 ob' eq_refl) as [-> _]. exact E.
    - exists ids'. split; [exact N'|]. split; [now apply incl_tl|exact F']. }
  destruct X as (ids' & N' & _ & F'). apply (collect_all ids' (some_of outs) l N' F').
  apply Forall_forall. intros o Ho. apply in_map_iff in Ho as (ob & <- & Ho). rewrite Forall_forall in A. apply A.
  unfold some_of in Ho. apply in_flat_map in Ho as ([ob'|] & H1 & H2); [|destruct H2]. destruct H2 as [<-|[]]. exact H1.
Qed.

Lemma bundle_returns (r : string) (h : list (string * string * gobj)) c oks b :
  String.length r = 16%nat ->
  run (new_coll false) h = (c, oks) -> to_bundle marshal_obj r c (Ok b) ->
  (forall id ty ob, In (id, ty, ob) h -> obj_id ob = Ok id) ->
  (forall id ob, get c id = Some ob -> held ob) ->
  exists os outs, all_objects c (map Some os) /\ return_all rnd cf nothing os outs /\ Forall2 same_names os outs /\ Forall acceptable outs /\
    from_json rnd cf (bundle_bytes b) = Ok (collect (cf_nosort cf) outs) /\
    forall l, all_objects (collect false outs) l <-> l = filter (fun o => match o with Some _ => true | None => false end) outs.
Proof.
  intros Lr R TB Co Ow. destruct (to_bundle_full _ marshal_obj r h c oks (Ok b) Lr R TB) as (VB & os & F & _ & TB2).
  destruct (proj1 (TB2 b) eq_refl) as (ds & Fd & ->). set (lg := log h oks) in *.
  assert (G : forall id ob, get c id = Some ob <-> last_accepted lg id ob) by (intros id; now apply (get_spec false h c oks id R)).
  assert (FO : forall ob, In ob os -> exists id, get c id = Some ob).
  { clear -F G. revert F. generalize (first_ids lg). intros ids0 F. induction F as [|id ob ids os L F IH]; intros o []; [subst; exists id; now apply G|auto]. }
  assert (J : exists js, Forall2 (fun ob j => marshal (fst ob) (snd ob) = Ok j) os js /\ ds = map print js).
  { clear -Fd. induction Fd as [|ob d os ds E Fd (js & H1 & H2)]; [exists []; split; constructor|]. unfold marshal_obj, marshal_bytes in E.
    destruct (marshal (fst ob) (snd ob)) as [j| |] eqn:M; try discriminate. injection E as <-. exists (j :: js). split; [now constructor|]. cbn [map]. now rewrite H2. }
  destruct J as (js & FJ & ->).
  destruct (read_all_held os) with (js := js) (p := VNil) (M := nothing) as (O & outs & RA & RT & SN); auto; [|exact holds0|].
  { intros ob Ho. destruct (FO _ Ho) as (id & Hg). now apply (Ow id). }
  assert (D : document js (bundle_bytes (Bundle "bundle" (new_identifier r "bundle") (map print js)))).
  { apply bundle_document; [reflexivity| |exact O]. destruct (new_identifier_v4 r "bundle" Lr) as (_ & _ & u & Eu & _ & C & _). rewrite Eu. apply utf8b_spec.
    apply utf8_app; [apply utf8b_spec; reflexivity|]. apply utf8_app; [apply utf8b_spec; reflexivity|]. now apply canonical_utf8. }
  rewrite (from_json_read _ _ _ _ D), RA. exists os, outs.
  assert (AC : Forall acceptable outs) by (eapply read_all_acceptable; eauto).
  split; [|split; [exact RT|split; [exact SN|split; [exact AC|split; [reflexivity|]]]]].
  - destruct (all_objects_sorted_total _ _ _ _ R) as [(l & Hl) SO]. destruct (SO _ Hl) as (os2 & -> & F2).
    assert (os2 = os) as ->; [|exact Hl].
    fold lg in F2. clear -F F2 G. revert F os2 F2. generalize (first_ids lg). intros ids0 F. induction F as [|i o ids os L F IH]; intros os2 F2; inversion F2 as [|? o2 ? os3 L2 F3]; subst; [reflexivity|]. f_equal; [|auto]. apply G in L, L2. congruence.
  - apply (collect_listed (first_ids lg) os outs); auto; [apply NoDup_first_ids|].
    assert (Gi : forall id ob, last_accepted lg id ob -> obj_id ob = Ok id).
    { intros id ob (l1 & t & l2 & E & _).
      assert (X : In (Call id t ob true) lg) by (rewrite E; apply in_or_app; right; now left). unfold lg, log in X. apply in_map_iff in X as ([[[i ty] o] k] & Q & X). cbn [fst snd] in Q. injection Q as -> -> -> ->.
      apply in_combine_l in X. exact (Co _ _ _ X). }
    clear -F Gi. revert F. generalize (first_ids lg). intros ids F. induction F as [|id ob ids' os' L F IH]; constructor; [now apply Gi|exact IH].
Qed.
End B.
