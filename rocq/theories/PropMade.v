(** Constructed objects and their way through collection, bundle and FromJSON: C76. *)
From Verif Require Import GoStr GoStrFacts Ident IdentFacts JsonStr Json Float Time Consts GoTypes Schema GoVal GoValFacts Codec CodecSpec StructFacts ObjFacts OptTable FromJson FromJsonSpec FromJsonProps Getters Options OptionFacts PropOptions
  Collection CollectionSpec CollectionFacts PropCollectionAux PropCollection Constructors ConstrSpec ConstrFacts ConstrArgs PropConstr PropConstrEnc Double PropFromJson PropSettle SettleFacts MadeSpec MadeFacts.
Local Open Scope string_scope.

Lemma id_at c v : get_path (field_path (call_ty c) "ID") v = prop c "ID" v.
Proof. destruct c; reflexivity. Qed.
Lemma type_at c v : get_path (field_path (call_ty c) "Type") v = prop c "Type" v.
Proof. destruct c; reflexivity. Qed.
Lemma made_id m : made_ok m -> obj_id (m_obj m) = Ok (m_id m) /\ obj_type (m_obj m) = Ok (call_name (m_call m)) /\ has_valid_identifier (m_id m) (call_name (m_call m)) = true.
Proof.
  intros (L & AT & GO & OK). destruct (constructed_can_be_added _ _ _ _ _ _ L AT (go_user _ GO) OK) as (id & Ei & Et & Ad).
  assert (I : obj_id (m_obj m) = Ok id).
  { unfold m_obj, obj_id, obj_field. cbn [fst snd]. rewrite id_at, Ei. destruct (call_struct (m_call m)) as [n ->]. reflexivity. }
  assert (T : obj_type (m_obj m) = Ok (call_name (m_call m))).
  { unfold m_obj, obj_type, obj_field. cbn [fst snd]. rewrite type_at, Et. destruct (call_struct (m_call m)) as [n ->]. reflexivity. }
  unfold m_id. rewrite I. split; [reflexivity|]. split; [exact T|]. specialize (Ad unit (new_coll false) tt). unfold add in Ad. now destruct (has_valid_identifier id (call_name (m_call m))).
Qed.

(** ** Getters *)
Theorem constructed_getters : forall m, made_ok m ->
  let created := final "Created" (m_opts m) (VPtr (VTime (m_now m))) in
  let modified := final "Modified" (m_opts m) (VPtr (VTime (m_now m))) in
  obj_type (m_obj m) = Ok (call_name (m_call m)) /\
  (exists id, obj_id (m_obj m) = Ok id /\ has_valid_identifier id (call_name (m_call m)) = true) /\
  (call_kind (m_call m) = SCO -> obj_created (m_obj m) = Ok None /\ obj_modified (m_obj m) = Ok None) /\
  (call_kind (m_call m) <> SCO -> forall t, created = VPtr (VTime t) -> obj_created (m_obj m) = Ok (Some t)) /\
  (call_kind (m_call m) <> SCO -> (forall typ d, m_call m <> CMarkingDefinition typ d) -> forall t, modified = VPtr (VTime t) -> obj_modified (m_obj m) = Ok (Some t)) /\
  obj_extended (m_obj m) = VNil.
Proof.
  intros m M created modified. destruct (made_id m M) as (I & T & V). split; [exact T|]. split; [eauto|]. destruct M as (L & AT & GO & OK).
  assert (P : forall f, In f ["Created"; "Modified"] -> alookup f (starts (m_call m) (m_now m)) = Some (VPtr (VTime (m_now m))) ->
    get_path (field_path (call_ty (m_call m)) f) (m_val m) = final f (m_opts m) (VPtr (VTime (m_now m)))).
  { intros f Hf S. assert (X : exists mm t, has_path (call_fields (m_call m)) (field_path (call_ty (m_call m)) f) mm t /\ fm_name mm = f).
    { assert (F : field_by_name (call_fields (m_call m)) f <> None /\ (forall p t, field_by_name (call_fields (m_call m)) f = Some (p, t) -> p = field_path (call_ty (m_call m)) f)).
      { clear - Hf S. destruct (m_call m); destruct Hf as [<-|[<-|[]]]; try discriminate S; (split; [discriminate|intros p t E; injection E as <- _; reflexivity]). }
      destruct F as [F1 F2]. destruct (field_by_name (call_fields (m_call m)) f) as [[p t]|] eqn:F; [|contradiction]. rewrite <- (F2 p t eq_refl).
      apply field_by_name_path in F as (mm & HP & Em); [eauto|apply call_opt|]. intros [W|[W|[W|[]]]]; subst f; destruct Hf as [Q|[Q|[]]]; discriminate Q. }
    destruct X as (mm & t & HP & Em). rewrite (constructor_properties _ _ _ _ _ _ AT (go_user _ GO) OK _ _ _ HP).
    - unfold start_value. now rewrite Em, S.
    - rewrite Em. destruct Hf as [<-|[<-|[]]]; discriminate. }
  split; [|split; [|split]].
  - intros K. clear - K. unfold m_obj. destruct (m_call m); try discriminate K; split; reflexivity.
  - intros K t E. assert (S : alookup "Created" (starts (m_call m) (m_now m)) = Some (VPtr (VTime (m_now m)))) by (clear - K; destruct (m_call m); try (now contradiction K); reflexivity).
    specialize (P "Created" ltac:(cbn; tauto) S). change (final "Created" (m_opts m) (VPtr (VTime (m_now m)))) with created in P. rewrite E in P. clear - K P. unfold m_obj, obj_created, obj_time. cbn [fst snd]. rewrite P. destruct (m_call m); try (now contradiction K); reflexivity.
  - intros K N t E. assert (S : alookup "Modified" (starts (m_call m) (m_now m)) = Some (VPtr (VTime (m_now m)))) by (clear - K N; destruct (m_call m); try (now contradiction K); try reflexivity; now contradiction (N typ definition)).
    specialize (P "Modified" ltac:(cbn; tauto) S). change (final "Modified" (m_opts m) (VPtr (VTime (m_now m)))) with modified in P. rewrite E in P. clear - K N P. unfold m_obj, obj_modified, obj_time. cbn [fst snd]. rewrite P. destruct (m_call m); try (now contradiction K); try reflexivity; now contradiction (N typ definition).
  - unfold obj_extended, m_obj. cbn [fst snd]. destruct (call_struct (m_call m)) as [n Q]. rewrite Q at 1.
    destruct (props_path (call_ty (m_call m))) as [p|] eqn:Ep; [|reflexivity]. now rewrite (props_nil _ _ _ _ _ _ _ AT GO OK Ep).
Qed.
Print Assumptions constructed_getters.

(** ** From the constructor to the reader *)
(** Constructed objects are added to a collection, the collection is written as
    a bundle, and the text is read.  Nothing fails, and every identifier yields
    the last object constructed under it: with each property in normal form
    ([norm_top], see C20), unchanged if it was ([canon_top]). *)
Lemma made_owned rnd cf m : settled rnd -> made_ok m -> readable rnd m -> parser_of cf (call_name (m_call m)) = None ->
  own_object rnd cf (m_obj m) /\ props_of (fst (m_obj m)) (snd (m_obj m)) = [].
Proof.
  intros ST M R P. destruct (made_id m M) as (I & T & V). assert (W := made_wf rnd ST m M R). split.
  - exists (call_name (m_call m)), (m_id m). split; [apply call_builtin|]. auto.
  - destruct M as (L & AT & GO & OK). eapply no_props; eauto.
Qed.
Lemma run_made (l : list made) : Forall made_ok l -> forall c0 : coll gobj, exists c, run c0 (map m_add l) = (c, map (fun _ => true) l).
Proof.
  intros F. induction F as [|m l M F IH]; intros c0; [eexists; reflexivity|]. cbn [map run]. unfold m_add at 1. destruct (made_id m M) as (_ & _ & V).
  unfold add. rewrite V. cbn [negb]. destruct (IH (Coll (ainsert (call_name (m_call m)) (ainsert (m_id m) (m_obj m) (match alookup (call_name (m_call m)) (objects c0) with Some b => b | None => [] end)) (objects c0))
    (if negb (no_sort c0) && negb (match alookup (m_id m) (match alookup (call_name (m_call m)) (objects c0) with Some b => b | None => [] end) with Some _ => true | None => false end) then (order c0 ++ [m_id m])%list else order c0) (no_sort c0))) as (c & E).
  exists c. now rewrite E.
Qed.
Lemma log_made (l : list made) : log (map m_add l) (map (fun _ => true) l) = map (fun m => Call (m_id m) (call_name (m_call m)) (m_obj m) true) l.
Proof. unfold log. induction l as [|m l IH]; [reflexivity|]. cbn [map combine]. f_equal. exact IH. Qed.

Lemma forall2_right {A B} (P : A -> B -> Prop) l l' y : Forall2 P l l' -> In y l' -> exists x, In x l /\ P x y.
Proof. intros F. induction F as [|a b l l' H F IH]; intros []; [subst; exists a; split; [now left|exact H]|]. destruct (IH H0) as (x & Hx & Px). exists x. split; [now right|exact Px]. Qed.
Lemma forall2_map {A B} (g : string -> option B) (f : A -> string) (h : A -> B) l : forall os, (forall m, In m l -> g (f m) = Some (h m)) ->
  Forall2 (fun i o => g i = Some o) (map f l) os -> os = map h l.
Proof.
  induction l as [|m l IH]; intros os H F; inversion F; subst; [reflexivity|]. cbn [map]. f_equal; [|apply IH; [intros m' Hm; apply H; now right|assumption]].
  rewrite (H m (or_introl eq_refl)) in *. congruence.
Qed.
Theorem constructed_objects_survive : forall rnd cf (r : string) (l : list made), rounding rnd -> String.length r = 16%nat ->
  (forall m, In m l -> made_ok m /\ readable rnd m /\ writable m /\ parser_of cf (call_name (m_call m)) = None) ->
  exists c b c',
    run (new_coll false) (map m_add l) = (c, map (fun _ => true) l) /\ to_bundle marshal_obj r c (Ok b) /\ from_json rnd cf (bundle_bytes b) = Ok c' /\
    (forall id, ~ In id (map m_id l) -> get c' id = None) /\
    (forall l1 m l2, l = (l1 ++ m :: l2)%list -> ~ In (m_id m) (map m_id l2) ->
       get c' (m_id m) = Some (call_ty (m_call m), norm_top rnd (call_ty (m_call m)) (m_val m)) /\
       (canon_top (call_ty (m_call m)) (m_val m) = true -> get c' (m_id m) = Some (m_obj m))) /\
    (cf_nosort cf = false -> NoDup (map m_id l) -> forall os, all_objects c' os <-> os = map (fun m => Some (call_ty (m_call m), norm_top rnd (call_ty (m_call m)) (m_val m))) l).
Proof.
  intros rnd cf r l Rn Lr H. destruct Rn as (R1 & R2 & R3). assert (ST : settled rnd) by (split; assumption).
  assert (MO : Forall made_ok l) by (apply Forall_forall; intros m Hm; now apply H).
  destruct (run_made l MO (new_coll false)) as (c & R). assert (G := get_spec false (map m_add l) c (map (fun _ => true) l)). 
  assert (LM := log_made l).
  assert (GM : forall id ob, get c id = Some ob <-> exists l1 m l2, l = (l1 ++ m :: l2)%list /\ m_id m = id /\ m_obj m = ob /\ ~ In id (map m_id l2)).
  { intros id ob. rewrite (proj1 (G id R) ob), LM. unfold last_accepted. split.
    - intros (k1 & t & k2 & E & N). apply map_eq_app in E as (l1 & l2' & -> & <- & E). destruct l2' as [|m l2]; [discriminate|]. cbn [map] in E. injection E as E1 E2 E3 <-.
      exists l1, m, l2. repeat split; try assumption. intros Q. apply in_map_iff in Q as (m' & Q & Hm'). apply (N (Call (m_id m') (call_name (m_call m')) (m_obj m') true)); [|reflexivity|exact Q].
      exact (in_map (fun m => Call (m_id m) (call_name (m_call m)) (m_obj m) true) _ _ Hm').
    - intros (l1 & m & l2 & -> & <- & <- & N). exists (map (fun m => Call (m_id m) (call_name (m_call m)) (m_obj m) true) l1), (call_name (m_call m)), (map (fun m => Call (m_id m) (call_name (m_call m)) (m_obj m) true) l2).
      split; [now rewrite map_app|]. intros x Hx _ Q. apply N. apply in_map_iff in Hx as (m' & <- & Hm'). cbn [c_id] in Q. rewrite <- Q. now apply in_map. }
  assert (HE : forall id ob, get c id = Some ob -> exists m, In m l /\ m_obj m = ob /\ m_id m = id).
  { intros id ob Hg. apply GM in Hg as (l1 & m & l2 & -> & Ei & Eo & _). exists m. split; [apply in_or_app; right; now left|]. auto. }
  (* the bundle *)
  assert (EN : forall m, In m l -> exists s, marshal_obj (m_obj m) = Ok s).
  { intros m Hm. destruct (H _ Hm) as ((L & AT & GO & OK) & _ & W & _). destruct (constructed_encodable_partial _ _ _ _ _ _ AT GO OK) as [_ [_ E]]. destruct (E W) as [j Ej].
    unfold marshal_obj, m_obj, marshal_bytes. cbn [fst snd]. rewrite Ej. eexists. reflexivity. }
  destruct (proj1 (all_objects_in_insertion_order _ _ _ _ R)) as [os0 AO].
  assert (TB : exists b, to_bundle marshal_obj r c (Ok b)).
  { destruct (proj2 (all_objects_in_insertion_order _ _ _ _ R) _ AO) as (os & -> & F2).
    assert (X : to_bundle marshal_obj r c (new_bundle marshal_obj r (map Some os))) by (exists (map Some os); auto).
    destruct (to_bundle_full _ _ _ _ _ _ _ Lr R X) as (_ & os1 & F1 & OK & _).
    destruct (new_bundle marshal_obj r (map Some os)) as [b|e|]; [eauto| |]; exfalso; (assert (Q : is_ok (@Err bundle "") = true \/ True) by auto);
    (match type of OK with ?a = true <-> _ => assert (Y : a = true) end;
     [apply OK; intros o Ho; destruct (forall2_right _ _ _ o F1 Ho) as (i & _ & LA); apply (proj1 (G i R)) in LA; destruct (HE _ _ LA) as (m & Hm & <- & _); destruct (EN _ Hm) as [s ->]; reflexivity|discriminate Y]). }
  destruct TB as [b TB].
  assert (Co : forall id ty ob, In (id, ty, ob) (map m_add l) -> obj_id ob = Ok id /\ obj_type ob = Ok ty).
  { intros id ty ob Q. apply in_map_iff in Q as (m & Q & Hm). injection Q as <- <- <-. destruct (made_id m (proj1 (H _ Hm))) as (A & B & _). auto. }
  assert (Ow : forall id ob, get c id = Some ob -> own_object rnd cf ob /\ props_of (fst ob) (snd ob) = []).
  { intros id ob Hg. destruct (HE _ _ Hg) as (m & Hm & <- & _). destruct (H _ Hm) as (A & B & _ & D). now apply made_owned. }
  destruct (bundle_survives_partial rnd cf r _ c _ b Lr R TB Co) as (c' & FJ & Gc & Ao).
  { intros id ob Hg. destruct (Ow _ _ Hg) as [O P]. rewrite P. split; [exact O|]. split; [intros k []|reflexivity]. }
  exists c, b, c'. split; [exact R|]. split; [exact TB|]. split; [exact FJ|].
  assert (RB : forall m, In m l -> read_back rnd cf (m_obj m) = (call_ty (m_call m), norm_top rnd (call_ty (m_call m)) (m_val m))).
  { intros m Hm. destruct (H _ Hm) as (A & B & _ & D). destruct (made_owned rnd cf m ST A B D) as [_ P]. unfold read_back. rewrite P. unfold m_obj. cbn [fst snd]. now destruct (cf_drop cf). }
  split; [|split].
  - intros id N. rewrite Gc. destruct (get c id) as [ob|] eqn:Q; [|reflexivity]. exfalso. destruct (HE _ _ Q) as (m & Hm & _ & <-). apply N. now apply in_map.
  - intros l1 m l2 E N. assert (Q : get c (m_id m) = Some (m_obj m)) by (apply GM; exists l1, m, l2; auto). assert (Hm : In m l) by (rewrite E; apply in_or_app; right; now left).
    rewrite Gc, Q. cbn [option_map]. rewrite (RB m Hm). split; [reflexivity|]. intros Cn. destruct (H _ Hm) as (A & B & _). unfold m_obj. f_equal. f_equal.
    eapply norm_top_canon; [apply call_builtin|now apply made_wf|exact Cn].
  - intros Ns ND. destruct (proj2 (all_objects_in_insertion_order _ _ _ _ R) _ AO) as (os & -> & F2). rewrite LM in F2.
    assert (FI : first_ids (map (fun m => Call (m_id m) (call_name (m_call m)) (m_obj m) true) l) = map m_id l).
    { clear - ND. induction l as [|m l IH]; [reflexivity|]. cbn [map first_ids c_ok c_id]. inversion ND as [|? ? N1 N2]; subst. rewrite (IH N2). f_equal.
      clear - N1. induction (map m_id l) as [|i is IH]; [reflexivity|]. cbn [filter]. replace (String.eqb (m_id m) i) with false; [cbn [negb]; f_equal; apply IH; intros Q; apply N1; now right|].
      symmetry. apply String.eqb_neq. intros Q. apply N1. now left. }
    rewrite FI in F2. assert (Eos : os = map m_obj l).
    { apply (forall2_map (get c) m_id m_obj).
      - intros m Hm. apply GM. destruct (in_split _ _ Hm) as (l1 & l2 & E). exists l1, m, l2. repeat split; try assumption. rewrite E, map_app in ND. cbn [map] in ND.
        apply NoDup_remove_2 in ND. intros Q. apply ND. apply in_or_app. now right.
      - clear AO FI. revert F2. generalize (map m_id l). intros ids F2. induction F2 as [|i o is os LA F2 IH]; constructor; [|exact IH]. apply (proj1 (G i R)). now rewrite LM. }
    subst os. intros os. rewrite (Ao Ns _ AO). rewrite !map_map. assert (X : map (fun m => Some (read_back rnd cf (m_obj m))) l = map (fun m => Some (call_ty (m_call m), norm_top rnd (call_ty (m_call m)) (m_val m))) l).
    { apply map_ext_in. intros m Hm. now rewrite (RB m Hm). }
    now rewrite X.
Qed.
Print Assumptions constructed_objects_survive.

(** A tool with a description and an extension, and a URL. *)
Definition example_made (c : call) (os : list stix_option) : made :=
  Made "0123456789abcdef" 1600000000000000000 (fun _ => (FNaN, false)) c os
    (match construct "0123456789abcdef" 1600000000000000000 (fun _ => (FNaN, false)) c os with Ret (Some v) None => v | _ => VNil end).
Definition example_ext : gval := VDyn (GPtr (ext_ty "x")) (VPtr (VMap [("a", VDyn GBool (VBool true))])).
Definition example_calls : list made :=
  [example_made (CTool "x") [OField (row "OptionDescription") (VStr "d"); OExt "x" example_ext]; example_made (CURL "http://b") [OField (row "OptionDefanged") (VBool true)]].
Example survive_example : forall m, In m example_calls -> made_ok m /\ readable go_rnd m /\ writable m /\ parser_of default_cf (call_name (m_call m)) = None.
Proof.
  assert (K : forall c os j, made_ok (example_made c os) -> marshal (call_ty c) (m_val (example_made c os)) = Ok j -> writable (example_made c os)).
  { intros c os j (L & AT & GO & OK) M. apply (proj2 (constructed_encodable_partial _ _ _ _ _ _ AT GO OK)). eauto. }
  intros m [<-|[<-|[]]].
  - assert (A : made_ok (example_made (CTool "x") [OField (row "OptionDescription") (VStr "d"); OExt "x" example_ext])).
    { split; [reflexivity|]. split; [reflexivity|]. split; [|reflexivity]. constructor; [|constructor; [|constructor]].
      - split; [|exact I]. split; [apply (find_some (fun r => String.eqb (or_name r) "OptionDescription")); vm_compute; reflexivity|reflexivity].
      - split; [exact I|reflexivity]. }
    split; [exact A|]. split; [|split; [eapply K; [exact A|vm_compute; reflexivity]|reflexivity]]. split; [vm_compute; reflexivity|]. split.
    + intros f x t [Q|[]] F. injection Q as <- <-. vm_compute in F. injection F as <-. reflexivity.
    + constructor; [reflexivity|]. constructor; [|constructor]. split; [reflexivity|]. eexists. split; [reflexivity|]. split; [vm_compute; reflexivity|discriminate].
  - assert (A : made_ok (example_made (CURL "http://b") [OField (row "OptionDefanged") (VBool true)])).
    { split; [reflexivity|]. split; [reflexivity|]. split; [|vm_compute; reflexivity]. constructor; [|constructor]. split; [|exact I]. split; [apply (find_some (fun r => String.eqb (or_name r) "OptionDefanged")); vm_compute; reflexivity|reflexivity]. }
    split; [exact A|]. split; [|split; [eapply K; [exact A|vm_compute; reflexivity]|reflexivity]]. split; [vm_compute; reflexivity|]. split.
    + intros f x t [Q|[]] F. injection Q as <- <-. vm_compute in F. injection F as <-. vm_compute. reflexivity.
    + constructor; [reflexivity|constructor].
Qed.
