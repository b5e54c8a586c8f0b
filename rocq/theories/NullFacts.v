(** Bundles with a null after each object: C95. *)
From Verif Require Import GoStr GoStrFacts JsonStr JsonStrFacts StrSpec StrSpecFacts JsonSpec JsonSpecFacts Json JsonFacts Float Consts GoTypes Schema GoVal GoValFacts Codec CodecSpec CodecFacts
  StructFacts CodecRound ObjFacts TypedFacts DataTypes DataTypesFacts Ident IdentFacts Collection CollectionSpec CollectionFacts FromJson FromJsonSpec FromJsonFacts
  ReadFacts IndepFacts CollectFacts PropCollectionAux BundleFacts FromJsonProps DocSpec DocFacts DocBundle JoinSpec JoinFacts.

Section N.
Variable rnd : bool -> N -> Z -> option flt.
Variable cf : config.

(** An object that is not dropped. *)
Definition kept (ob : gobj) : Prop :=
  (own_object rnd cf ob /\ forall k, In k (akeys (props_of (fst ob) (snd ob))) -> free_name (fst ob) k = true /\ k <> "") \/
  (own_custom rnd cf ob /\ cf_drop cf = false).
Lemma read_back_custom v : read_back rnd cf (ty_CustomObject, v) = (ty_CustomObject, norm rnd ty_CustomObject v).
Proof. unfold read_back. cbn [fst snd]. destruct (cf_drop cf); reflexivity. Qed.
Lemma read_kept ob j : kept ob -> marshal (fst ob) (snd ob) = Ok j -> json_okb j = true /\
  exists p', read rnd cf j VNil = Ok (Some (read_back rnd cf ob), p') /\ acceptable (Some (read_back rnd cf ob)) /\ obj_id (read_back rnd cf ob) = obj_id ob.
Proof.
  intros [[Ow PF]|[Oc Dr]] E.
  - split; [destruct Ow as (name & id & Hb & _ & _ & _ & _ & W); eapply marshal_json_ok; eauto|].
    destruct (read_marshal rnd cf ob j VNil Ow PF E (or_intror eq_refl) eq_refl) as (p' & R & _ & I & _). exists p'. split; [exact R|]. split; [exact (read_acceptable _ _ _ _ _ _ R)|exact I].
  - destruct (read_custom rnd cf ob j VNil nothing Oc E (holds0)) as (O & o & p' & M' & R & _ & Rt & Sn). split; [exact O|]. exists p'.
    assert (Q : o = Some (read_back rnd cf ob)).
    { destruct Oc as (m & name & id & -> & _). rewrite read_back_custom. inversion Rt as [t v l M0 Hb| m0 M0 | t v M0 Hb D | m0 M0 D]; subst; [|reflexivity|congruence|congruence].
      exfalso. clear -Hb. assert (X : forallb (fun t => match t with GStruct _ _ => true | _ => false end) (map snd builtin_types) = true) by (vm_compute; reflexivity).
      rewrite forallb_forall in X. now apply X in Hb. }
    subst o. split; [exact R|]. split; [exact (read_acceptable _ _ _ _ _ _ R)|]. now destruct (Sn _ eq_refl).
Qed.

Lemma read_all_kept os : (forall ob, In ob os -> kept ob) -> forall js, Forall2 (fun ob j => marshal (fst ob) (snd ob) = Ok j) os js ->
  forallb json_okb (separated js) = true /\
  read_all rnd cf (separated js) VNil = Ok (flat_map (fun ob => [Some (read_back rnd cf ob); None]) os).
Proof.
  intros K js F. induction F as [|ob j os js E F IH]; [split; reflexivity|]. destruct (IH (fun o H => K o (or_intror H))) as [O1 R1].
  destruct (read_kept ob j (K ob (or_introl eq_refl)) E) as (O & p' & R & _). unfold separated in *. cbn [flat_map app forallb]. rewrite O, O1. split; [reflexivity|].
  cbn [FromJsonFacts.read_all]. rewrite R. cbn [bind fst snd]. rewrite read_null. cbn [bind fst snd]. rewrite R1. reflexivity.
Qed.
Lemma calls_nulls (os : list gobj) (f : gobj -> gobj) : calls_of (flat_map (fun ob => [Some (f ob); None]) os) = calls_of (map (fun ob => Some (f ob)) os).
Proof. unfold calls_of. induction os as [|ob os IH]; [reflexivity|]. cbn [flat_map app map]. now rewrite IH. Qed.
Lemma print_separated js : map print (separated js) = flat_map (fun d => [d; "null"%string]) (map print js).
Proof. unfold separated. induction js as [|j js IH]; [reflexivity|]. cbn [flat_map app map]. now rewrite IH. Qed.

Lemma nulls_round_trip (r : string) (h : list (string * string * gobj)) c oks b :
  String.length r = 16%nat ->
  run (new_coll false) h = (c, oks) -> to_bundle marshal_obj r c (Ok b) ->
  (forall id ty ob, In (id, ty, ob) h -> obj_id ob = Ok id /\ obj_type ob = Ok ty) ->
  (forall id ob, get c id = Some ob -> kept ob) ->
  exists c', from_json rnd cf (bundle_bytes (Bundle (b_type b) (b_id b) (flat_map (fun d => [d; "null"%string]) (b_objects b)))) = Ok c' /\
    (forall id, get c' id = option_map (read_back rnd cf) (get c id)) /\
    (cf_nosort cf = false -> forall os, all_objects c (map Some os) -> forall l, all_objects c' l <-> l = map Some (map (read_back rnd cf) os)).
Proof.
  intros Lr R TB Co Ow. destruct (to_bundle_full _ marshal_obj r h c oks (Ok b) Lr R TB) as (VB & os & F & _ & TB2).
  destruct (proj1 (TB2 b) eq_refl) as (ds & Fd & ->). set (lg := log h oks) in *.
  assert (G : forall id ob, get c id = Some ob <-> last_accepted lg id ob) by (intros id; now apply (get_spec false h c oks id R)).
  assert (Gi : forall id ob, get c id = Some ob -> obj_id ob = Ok id /\ In id (first_ids lg)).
  { intros id ob Hg. apply G in Hg as (l1 & t & l2 & E & _). split.
    - assert (X : In (Call id t ob true) lg) by (rewrite E; apply in_or_app; right; now left). unfold lg, log in X. apply in_map_iff in X as ([[[i ty] o] k] & Q & X). cbn [fst snd] in Q. injection Q as -> -> -> ->.
      apply in_combine_l in X. now destruct (Co _ _ _ X).
    - apply In_first_ids. exists (Call id t ob true). rewrite E. split; [apply in_or_app; right; now left|]. now split. }
  assert (FI : Forall2 (fun id ob => obj_id ob = Ok id) (first_ids lg) os).
  { assert (Gi1 : forall id ob, last_accepted lg id ob -> obj_id ob = Ok id) by (intros id ob L; apply (proj2 (G _ _)) in L; now apply Gi).
    clear -F Gi1. revert F. generalize (first_ids lg). intros ids F. induction F as [|id ob ids' os' L F IH]; constructor; [now apply Gi1|exact IH]. }
  assert (FO : forall ob, In ob os -> exists id, get c id = Some ob).
  { clear -F G. revert F. generalize (first_ids lg). intros ids0 F. induction F as [|id ob ids os L F IH]; intros o []; [subst; exists id; now apply G|auto]. }
  assert (J : exists js, Forall2 (fun ob j => marshal (fst ob) (snd ob) = Ok j) os js /\ ds = map print js).
  { clear -Fd. induction Fd as [|ob d os ds E Fd (js & H1 & H2)]; [exists []; split; constructor|]. unfold marshal_obj, marshal_bytes in E.
    destruct (marshal (fst ob) (snd ob)) as [j| |] eqn:M; try discriminate. injection E as <-. exists (j :: js). split; [now constructor|]. cbn [map]. now rewrite H2. }
  destruct J as (js & FJ & ->).
  destruct (read_all_kept os (fun ob Ho => match FO ob Ho with ex_intro _ id Hg => Ow id ob Hg end) js FJ) as [O RA].
  cbn [b_type b_id b_objects]. rewrite <- print_separated.
  assert (D : document (separated js) (bundle_bytes (Bundle "bundle" (new_identifier r "bundle") (map print (separated js))))).
  { apply bundle_document; [reflexivity| |exact O]. destruct (new_identifier_v4 r "bundle" Lr) as (_ & _ & u & Eu & _ & C & _). rewrite Eu. apply utf8b_spec.
    apply utf8_app; [apply utf8b_spec; reflexivity|]. apply utf8_app; [apply utf8b_spec; reflexivity|]. now apply canonical_utf8. }
  rewrite (from_json_read _ _ _ _ D), RA. cbn [bind]. unfold collect. rewrite calls_nulls. fold (collect (cf_nosort cf) (map (fun ob => Some (read_back rnd cf ob)) os)). eexists. split; [reflexivity|].
  assert (RB : forall ob, In ob os -> acceptable (Some (read_back rnd cf ob)) /\ obj_id (read_back rnd cf ob) = obj_id ob).
  { intros ob Ho. destruct (FO _ Ho) as (id & Hg).
    assert (X : exists j, In j js /\ marshal (fst ob) (snd ob) = Ok j).
    { clear -FJ Ho. induction FJ as [|o j os js E FJ IH]; [destruct Ho|]. destruct Ho as [->|Ho]; [exists j; split; [now left|exact E]|]. destruct (IH Ho) as (j' & H1 & H2). exists j'. split; [now right|exact H2]. }
    destruct X as (j & _ & M). destruct (read_kept ob j (Ow _ _ Hg) M) as (_ & p' & _ & A & I). auto. }
  assert (AC : Forall acceptable (map (fun ob => Some (read_back rnd cf ob)) os)).
  { apply Forall_forall. intros o Ho. apply in_map_iff in Ho as (ob & <- & Ho). now apply RB. }
  assert (ND : NoDup (first_ids lg)) by apply NoDup_first_ids.
  split.
  - intros id. destruct (get c id) as [ob|] eqn:Hg; cbn [option_map].
    + apply collect_get; [exact AC|]. destruct (Gi _ _ Hg) as [I Hi].
      assert (X : exists o1 o2, os = o1 ++ ob :: o2 /\ forall o', In o' o2 -> obj_id o' <> Ok id).
      { assert (Hin : In ob os).
        { clear -F G Hg Hi. induction F as [|i o ids os L F IH]; [destruct Hi|]. destruct Hi as [->|Hi]; [left; apply G in L; congruence|right; auto]. }
        clear -FI ND Hin I. revert Hin. induction FI as [|i o ids os E FI IH]; intros Hin; [destruct Hin|]. inversion ND as [|? ? N1 N2]; subst.
        destruct Hin as [->|Hin].
        - exists [], os. split; [reflexivity|]. intros o' Ho' Q. apply N1. replace i with id by congruence. clear -FI Ho' Q. induction FI as [|a b ids os E F IH]; [destruct Ho'|]. destruct Ho' as [->|Ho']; [left; congruence|right; auto].
        - destruct (IH N2 Hin) as (o1 & o2 & -> & N). exists (o :: o1), o2. now split. }
      destruct X as (o1 & o2 & -> & N). split; [rewrite (proj2 (RB ob (in_elt _ _ _))); exact I|].
      exists (map (fun ob => Some (read_back rnd cf ob)) o1), (map (fun ob => Some (read_back rnd cf ob)) o2). split; [now rewrite map_app|].
      intros ob' Ho'. apply in_map_iff in Ho' as (o & Q & Ho). injection Q as <-. rewrite (proj2 (RB o (in_or_app _ _ _ (or_intror (in_cons _ _ _ Ho))))). now apply N.
    + destruct (get (collect _ _) id) as [ob|] eqn:Hc; [|reflexivity]. exfalso. apply collect_get in Hc as (I & o1 & o2 & E & _); [|exact AC].
      assert (Ho : In (Some ob) (map (fun ob => Some (read_back rnd cf ob)) os)) by (rewrite E; apply in_elt). apply in_map_iff in Ho as (o & Q & Ho). injection Q as <-.
      rewrite (proj2 (RB o Ho)) in I. destruct (FO _ Ho) as (id' & Hg'). destruct (Gi _ _ Hg') as [I' _]. congruence.
  - intros Ns os' AO l. rewrite Ns. destruct (all_objects_sorted_total _ _ _ _ R) as [_ SO]. destruct (SO _ AO) as (os2 & Q & F2).
    assert (os' = os2) as -> by (clear -Q; revert os2 Q; induction os' as [|a l IH]; intros [|b l2] Q; try discriminate; [reflexivity|]; injection Q as <- Q; f_equal; auto).
    assert (os2 = os) as ->.
    { fold lg in F2. clear -F F2 G. revert F os2 F2. generalize (first_ids lg). intros ids0 F. induction F as [|i o ids os L F IH]; intros os2 F2; inversion F2 as [|? o2 ? os3 L2 F3]; subst; [reflexivity|]. f_equal; [|auto]. apply G in L, L2. congruence. }
    rewrite <- (map_map (read_back rnd cf) Some). apply collect_all with (ids := first_ids lg); [exact ND| |].
    + clear -FI RB. induction FI as [|i o ids os E FI IH]; constructor; [rewrite (proj2 (RB o (or_introl eq_refl))); exact E|]. apply IH. intros ob Ho. apply RB. now right.
    + now rewrite map_map.
Qed.
End N.
