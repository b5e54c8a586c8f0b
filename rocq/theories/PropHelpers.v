(** Properties of the relationship helpers: C45, C46, C47. *)
From Verif Require Import GoStr GoStrFacts Json Float Consts GoTypes Schema OptTable GoVal GoValFacts Codec CodecSpec CodecFacts
  StructFacts ObjFacts TypedFacts StoreFacts DataTypes FromJson IndepFacts Options OptionFacts PropOptions Ident IdentFacts
  Constructors ConstrSpec ConstrFacts ConstrArgs PropConstr HelperTable Helpers HelperSpec.

Definition rel0 : call := CRelationship "" "" "".
Lemma opts_succeed t os v : Forall (fun o => forall w, snd (apply_opt t o w) = Ok tt) os -> exists v', apply_opts t os v = (v', Ok tt).
Proof.
  intros F. revert v. induction F as [|o os Ho F IH]; intros v; [eexists; reflexivity|]. rewrite apply_opts_cons. specialize (Ho v).
  destruct (apply_opt t o v) as [v1 r]. cbn [snd] in Ho. subst r. apply IH.
Qed.
Lemma relationship_ok rb now pf r s t os : (exists v, construct rb now pf (CRelationship r s t) os = Ret (Some v) None) <->
  r <> "" /\ s <> "" /\ t <> "" /\ Forall (succeeds_on rel0) os.
Proof.
  split.
  - intros [v OK]. assert (F := failing_option_reported _ _ _ _ _ _ OK). rewrite construct_uniform in OK. unfold uniform in OK. cbn [arg_error] in OK.
    destruct r; [discriminate|]. destruct s; [discriminate|]. destruct t; [discriminate|]. repeat split; try discriminate. exact F.
  - intros (R & S & T & F). rewrite construct_uniform. unfold uniform. cbn [arg_error wants_option andb].
    destruct r; [now contradiction R|]. destruct s; [now contradiction S|]. destruct t; [now contradiction T|]. cbn [is_empty orb].
    destruct (opts_succeed (call_ty rel0) os (init rb now (CRelationship (String a r) (String a0 s) (String a1 t))) F) as [v' E].
    change (call_ty (CRelationship (String a r) (String a0 s) (String a1 t))) with (call_ty rel0). rewrite E. eexists. reflexivity.
Qed.
Lemma relationship_props rb now pf r s t os v : Forall user_option os -> construct rb now pf (CRelationship r s t) os = Ret (Some v) None ->
  prop rel0 "RelationshipType" v = VStr r /\ prop rel0 "Source" v = VStr s /\ prop rel0 "Target" v = VStr t.
Proof.
  intros UO OK. set (c := CRelationship r s t) in *.
  assert (AT : args_typed c = true) by (vm_compute; reflexivity).
  assert (X : forall f x, In (f, x) [("RelationshipType", VStr r); ("Source", VStr s); ("Target", VStr t)] -> prop rel0 f v = x).
  { intros f x Hf. assert (NE : ~ In f ext_bases /\ f <> "ID" /\ f <> "Extensions" /\ negb (mem_str f (map or_field option_table)) = true).
    { destruct Hf as [Q|[Q|[Q|[]]]]; injection Q as <- <-; (split; [intros [W|[W|[W|[]]]]; discriminate W|split; [discriminate|split; [discriminate|vm_compute; reflexivity]]]). }
    destruct NE as (N1 & N2 & N3 & N4).
    assert (F : exists tt', field_by_name (call_fields rel0) f = Some ((None, f), tt')) by (destruct Hf as [Q|[Q|[Q|[]]]]; injection Q as <- <-; eexists; vm_compute; reflexivity).
    destruct F as [tt' F]. apply field_by_name_path in F as (m & HP & Em); [|apply call_opt|exact N1].
    rewrite <- Em, (prop_path _ _ _ _ _ HP). rewrite (result_path _ _ _ _ _ _ AT UO OK _ _ _ HP) by congruence. rewrite Em.
    rewrite starts_props by exact N2. rewrite final_id.
    - destruct Hf as [Q|[Q|[Q|[]]]]; injection Q as <- <-; reflexivity.
    - eapply Forall_impl; [|exact UO]. intros o U. destruct (is_target f o) eqn:T; [|reflexivity]. apply is_target_eq in T. exfalso.
      destruct o as [|rr y|k y]; cbn [target] in T; [discriminate| |congruence]. destruct U as [U _]. injection T as T. subst f.
      apply negb_true_iff in N4. assert (Q := in_map or_field _ _ U). apply mem_str_In in Q. congruence. }
  repeat split; apply X; cbn [In]; tauto.
Qed.

(** ** C45 *)
(** AttackPattern.AddUses makes a "targets" relationship. *)
Theorem helper_relation_refuted : forall rb now pf, exists h recv id v, In h helpers /\ receiver h recv /\
  call_helper rb now pf h recv id [] = Ret (Some v) None /\
  relation_of (h_name h) = "uses" /\ prop rel0 "RelationshipType" v = VStr "targets".
Proof.
  intros rb now pf. exists (Helper "AttackPattern" "AddUses" RelationshipTypeTargets (ValidFor [TypeMalware; TypeTool])).
  exists (ty_AttackPattern, set_path (Some "STIXDomainObject", "ID") (VStr "attack-pattern--8e2e2d2b-17d4-4cbf-938f-98ee46b3cd3f") (zero ty_AttackPattern)).
  exists "tool--8e2e2d2b-17d4-4cbf-938f-98ee46b3cd3f". eexists.
  split; [do 2 right; left; reflexivity|]. split.
  { exists TypeAttackPattern. do 2 eexists. split; [apply alookup_Some_In; vm_compute; reflexivity|]. split; [reflexivity|]. split; [vm_compute; reflexivity|]. left. reflexivity. }
  split; [lazy -[new_identifier]; reflexivity|]. split; [reflexivity|]. vm_compute. reflexivity.
Qed.
Print Assumptions helper_relation_refuted.

Lemma helper_names : forallb (fun h => (String.eqb (h_recv h) "AttackPattern" && String.eqb (h_name h) "AddUses") || String.eqb (relation_of (h_name h)) (h_rel h)) helpers = true.
Proof. vm_compute. reflexivity. Qed.
Lemma helper_inv rb now pf h recv id os v : call_helper rb now pf h recv id os = Ret (Some v) None ->
  exists src, obj_id recv = Ok src /\ target_ok (h_check h) id = true /\ construct rb now pf (CRelationship (h_rel h) src id) os = Ret (Some v) None.
Proof. unfold call_helper. destruct (target_ok (h_check h) id); [|discriminate]. destruct (obj_id recv) as [src| |]; try discriminate. eauto. Qed.
(** Missing for the full statement: AttackPattern.AddUses. *)
Theorem helper_relation_partial : forall rb now pf h recv id os v, In h helpers -> ~ (h_recv h = "AttackPattern" /\ h_name h = "AddUses") ->
  Forall user_option os -> call_helper rb now pf h recv id os = Ret (Some v) None ->
  prop rel0 "RelationshipType" v = VStr (relation_of (h_name h)).
Proof.
  intros rb now pf h recv id os v Hh N UO OK. assert (Y := helper_names). rewrite forallb_forall in Y. specialize (Y _ Hh).
  apply orb_true_iff in Y as [Y|Y]; [apply andb_true_iff in Y as [Y1 Y2]; apply String.eqb_eq in Y1, Y2; tauto|]. apply String.eqb_eq in Y. rewrite Y.
  apply helper_inv in OK as (src & _ & _ & OK). exact (proj1 (relationship_props _ _ _ _ _ _ _ _ UO OK)).
Qed.
Print Assumptions helper_relation_partial.
(** Source and target, for every helper. *)
Theorem helper_ends : forall rb now pf h recv id os v, Forall user_option os -> call_helper rb now pf h recv id os = Ret (Some v) None ->
  exists src, obj_id recv = Ok src /\ prop rel0 "Source" v = VStr src /\ prop rel0 "Target" v = VStr id.
Proof.
  intros rb now pf h recv id os v UO OK. apply helper_inv in OK as (src & E & _ & OK). exists src. split; [exact E|].
  exact (proj2 (relationship_props _ _ _ _ _ _ _ _ UO OK)).
Qed.
Print Assumptions helper_ends.

(** ** C46 *)
(** A malware analysis is accepted where a malware is asked for. *)
Theorem helper_targets_refuted : forall rb now pf, exists h recv ty id v ts, In h helpers /\ receiver h recv /\ targets_of h = Some ts /\
  has_valid_identifier id ty = true /\ ~ In ty ts /\ call_helper rb now pf h recv id [] = Ret (Some v) None.
Proof.
  intros rb now pf. exists (Helper "Malware" "AddVariantOf" RelationshipTypeVariantOf (ValidFor [TypeMalware])).
  exists (ty_Malware, set_path (Some "STIXDomainObject", "ID") (VStr "malware--8e2e2d2b-17d4-4cbf-938f-98ee46b3cd3f") (zero ty_Malware)).
  exists "malware-analysis", "malware-analysis--8e2e2d2b-17d4-4cbf-938f-98ee46b3cd3f". eexists. eexists.
  split; [apply (find_some (fun h => String.eqb (h_name h) "AddVariantOf")); vm_compute; reflexivity|]. split.
  { exists TypeMalware. do 2 eexists. split; [apply alookup_Some_In; vm_compute; reflexivity|]. split; [reflexivity|]. split; [vm_compute; reflexivity|]. left. reflexivity. }
  split; [vm_compute; reflexivity|]. split; [vm_compute; reflexivity|]. split; [intros [Q|[]]; discriminate Q|]. lazy -[new_identifier]. reflexivity.
Qed.
Print Assumptions helper_targets_refuted.

Definition incl_b (l l' : list string) : bool := forallb (fun x => mem_str x l') l.
Lemma helper_types : forallb (fun h => match h_check h with
    | NoCheck => String.eqb (h_recv h) "STIXDomainObject" || String.eqb (h_recv h) "STIXCyberObservableObject"
    | Valid => String.eqb (h_recv h) "Infrastructure" && String.eqb (h_name h) "AddConsistsOf"
    | ValidFor ts => match targets_of h with Some l => incl_b ts l && incl_b l ts && incl_b ts AllTypes | None => false end
    end && negb (is_empty (h_rel h))) helpers = true.
Proof. vm_compute. reflexivity. Qed.
Lemma incl_b_In l l' : incl_b l l' = true -> forall x, In x l -> In x l'.
Proof. intros H x Hx. unfold incl_b in H. rewrite forallb_forall in H. now apply mem_str_In, H. Qed.
Lemma helper_ok rb now pf h recv src id os : In h helpers -> obj_id recv = Ok src ->
  ((exists v, call_helper rb now pf h recv id os = Ret (Some v) None) <-> src <> "" /\ id <> "" /\ target_ok (h_check h) id = true /\ Forall (succeeds_on rel0) os).
Proof.
  intros Hh E. assert (R := relationship_ok rb now pf (h_rel h) src id os). assert (Y := helper_types). rewrite forallb_forall in Y. specialize (Y _ Hh).
  apply andb_true_iff in Y as [_ Y]. assert (NR : h_rel h <> "") by (intros Q; rewrite Q in Y; discriminate).
  unfold call_helper. rewrite E. destruct (target_ok (h_check h) id); [|split; [intros [v Q]; discriminate|intros (_ & _ & Q & _); discriminate]]. tauto.
Qed.
(** Success: the identifier is valid, and its type starts with the name of a
    documented type of target.  Missing for the full statement: "starts with"
    cannot be replaced by "is". *)
Theorem helper_targets_partial : forall rb now pf h recv src ts id os, In h helpers -> targets_of h = Some ts -> obj_id recv = Ok src -> src <> "" ->
  ((exists v, call_helper rb now pf h recv id os = Ret (Some v) None) <->
   (exists t r, In t ts /\ has_valid_identifier id (t ++ r)%string = true) /\ Forall (succeeds_on rel0) os).
Proof.
  intros rb now pf h recv src ts id os Hh T E NS. rewrite (helper_ok _ _ _ _ _ _ _ _ Hh E).
  assert (Y := helper_types). rewrite forallb_forall in Y. specialize (Y _ Hh). apply andb_true_iff in Y as [Y _]. rewrite T in Y.
  assert (K : exists l, h_check h = ValidFor l /\ (forall t, In t l <-> In t ts) /\ forall t, In t l -> type_name_ok t = true).
  { destruct (h_check h) as [| |l].
    - apply orb_true_iff in Y as [Y|Y]; apply String.eqb_eq in Y; unfold targets_of in T; rewrite Y in T; vm_compute in T; discriminate.
    - apply andb_true_iff in Y as [Y1 Y2]; apply String.eqb_eq in Y1, Y2; unfold targets_of in T; rewrite Y1, Y2 in T; vm_compute in T; discriminate.
    - apply andb_true_iff in Y as [Y Y3]. apply andb_true_iff in Y as [Y1 Y2]. exists l. split; [reflexivity|]. split.
      + intros t. split; [now apply incl_b_In|now apply incl_b_In].
      + intros t Ht. now apply builtin_type_ok, (incl_b_In _ _ Y3). }
  destruct K as (l & -> & L & L'). cbn [target_ok].
  assert (Z : (if is_valid_identifier id then for_types id l else false) = true <-> exists t r, In t ts /\ has_valid_identifier id (t ++ r)%string = true).
  { destruct (is_valid_identifier id) eqn:V.
    - apply is_valid_identifier_spec in V as (ty & u & -> & V1 & V2 & V3 & V4). rewrite (for_types_exact_partial_w ty l u L'). split.
      + intros (t & r & Ht & ->). exists t, r. split; [now apply L|]. apply has_valid_identifier_spec. split; [|eauto].
        unfold type_name_ok. rewrite V1, V2. specialize (L' _ Ht). destruct t; [discriminate L'|reflexivity].
      + intros (t & r & Ht & V). exists t, r. split; [now apply L|].
        assert (Es : split_dd (ty ++ "--" ++ u)%string = [ty; u]) by (apply split_dd_two; auto). unfold has_valid_identifier in V. rewrite Es in V.
        destruct (String.eqb ty (t ++ r)) eqn:Q; [now apply String.eqb_eq in Q|discriminate].
    - split; [discriminate|]. intros (t & r & Ht & Q). apply has_valid_is_valid in Q. congruence. }
  rewrite Z. assert (NI : (exists t r, In t ts /\ has_valid_identifier id (t ++ r)%string = true) -> id <> "").
  { intros (t & r & _ & Q) ->. discriminate Q. }
  tauto.
Qed.
Print Assumptions helper_targets_partial.
(** For targets of the STIX types, the only extra type accepted is
    malware-analysis. *)
Theorem helper_targets_builtin_partial : forall rb now pf h recv src ts ty id os, In h helpers -> targets_of h = Some ts -> obj_id recv = Ok src -> src <> "" ->
  In ty AllTypes -> has_valid_identifier id ty = true ->
  ((exists v, call_helper rb now pf h recv id os = Ret (Some v) None) <->
   (In ty ts \/ (ty = "malware-analysis" /\ In "malware" ts)) /\ Forall (succeeds_on rel0) os).
Proof.
  intros rb now pf h recv src ts ty id os Hh T E NS Hty V. rewrite (helper_targets_partial rb now pf _ _ _ _ id os Hh T E NS).
  assert (Y := helper_types). rewrite forallb_forall in Y. specialize (Y _ Hh). apply andb_true_iff in Y as [Y _]. rewrite T in Y.
  assert (K : forall t, In t ts -> In t AllTypes).
  { destruct (h_check h) as [| |l].
    - apply orb_true_iff in Y as [Y|Y]; apply String.eqb_eq in Y; unfold targets_of in T; rewrite Y in T; vm_compute in T; discriminate.
    - apply andb_true_iff in Y as [Y1 Y2]; apply String.eqb_eq in Y1, Y2; unfold targets_of in T; rewrite Y1, Y2 in T; vm_compute in T; discriminate.
    - apply andb_true_iff in Y as [Y Y3]. apply andb_true_iff in Y as [Y1 Y2]. intros t Ht. eapply incl_b_In; [exact Y3|]. eapply incl_b_In; eauto. }
  assert (Z : (exists t r, In t ts /\ has_valid_identifier id (t ++ r)%string = true) <-> In ty ts \/ (ty = "malware-analysis" /\ In "malware" ts)).
  { split.
    - intros (t & r & Ht & V'). assert (Q := valid_id_unique_type _ _ _ V V'). assert (P : for_type (ty ++ "--" ++ "")%string t = true).
      { apply for_type_spec. exists (r ++ "--")%string. rewrite Q, sapp_assoc. reflexivity. }
      apply for_type_builtin in P; [|exact Hty|now apply K]. destruct P as [->|[P1 P2]]; [now left|right; subst; auto].
    - intros [H|[-> H]]; [exists ty, ""; rewrite sapp_nil_r; auto|exists "malware", "-analysis"; auto]. }
  tauto.
Qed.
Print Assumptions helper_targets_builtin_partial.
(** A target that is not accepted is reported, and no relationship is made. *)
Theorem helper_rejects : forall rb now pf h recv src ts id os, In h helpers -> targets_of h = Some ts -> obj_id recv = Ok src -> src <> "" ->
  (forall t r, In t ts -> has_valid_identifier id (t ++ r)%string = false) -> call_helper rb now pf h recv id os = Ret None (Some "invalid parameter"%string).
Proof.
  intros rb now pf h recv src ts id os Hh T E NS H. destruct (target_ok (h_check h) id) eqn:K; [|unfold call_helper; now rewrite K].
  exfalso. assert (N : id <> "").
  { intros ->. destruct (h_check h) eqn:C; [|discriminate K|discriminate K]. assert (Y := helper_types). rewrite forallb_forall in Y. specialize (Y _ Hh). rewrite C in Y.
    apply andb_true_iff in Y as [Y _]. apply orb_true_iff in Y as [Y|Y]; apply String.eqb_eq in Y; unfold targets_of in T; rewrite Y in T; vm_compute in T; discriminate. }
  assert (X := proj2 (helper_ok rb now pf _ _ _ id [] Hh E) (conj NS (conj N (conj K (Forall_nil _))))).
  apply (proj1 (helper_targets_partial rb now pf _ _ _ _ id [] Hh T E NS)) in X as [(t & r & Ht & X) _]. rewrite (H t r Ht) in X. discriminate.
Qed.
Print Assumptions helper_rejects.
(** Infrastructure.AddConsistsOf takes every valid identifier. *)
Theorem consists_of_targets : forall rb now pf h recv src id os, In h helpers -> h_name h = "AddConsistsOf" -> obj_id recv = Ok src -> src <> "" ->
  ((exists v, call_helper rb now pf h recv id os = Ret (Some v) None) <-> is_valid_identifier id = true /\ Forall (succeeds_on rel0) os).
Proof.
  intros rb now pf h recv src id os Hh N E NS. rewrite (helper_ok _ _ _ _ _ _ _ _ Hh E).
  assert (C : h_check h = Valid).
  { assert (Y : forallb (fun h => negb (String.eqb (h_name h) "AddConsistsOf") || match h_check h with Valid => true | _ => false end) helpers = true) by (vm_compute; reflexivity).
    rewrite forallb_forall in Y. specialize (Y _ Hh). rewrite N in Y. cbn [String.eqb negb orb] in Y. destruct (h_check h); try discriminate Y. reflexivity. }
  rewrite C. cbn [target_ok]. assert (is_valid_identifier id = true -> id <> "") by (intros Q ->; discriminate Q). tauto.
Qed.
Print Assumptions consists_of_targets.
(** Every helper is in one of the three classes. *)
Theorem helpers_covered : forall h, In h helpers -> (exists ts, targets_of h = Some ts) \/ h_name h = "AddConsistsOf" \/ common h.
Proof.
  intros h Hh. assert (Y := helper_types). rewrite forallb_forall in Y. specialize (Y _ Hh). apply andb_true_iff in Y as [Y _]. destruct (h_check h).
  - right. right. apply orb_true_iff in Y as [Y|Y]; apply String.eqb_eq in Y; [now left|now right].
  - right. left. apply andb_true_iff in Y as [_ Y]. now apply String.eqb_eq in Y.
  - left. destruct (targets_of h); [eauto|discriminate].
Qed.
Print Assumptions helpers_covered.
(** Every object a helper can be called on has an identifier to use, and no
    helper panics. *)
Theorem receiver_id : forall h recv, receiver h recv -> exists src, obj_id recv = Ok src.
Proof.
  intros h recv (name & n & fs & Hb & E & S & _). destruct recv as [t v]. cbn [fst snd] in *. subst t. unfold obj_id, obj_field. cbn [fst snd].
  destruct (builtin_read _ _ Hb) as (n' & fs' & Q & _ & _ & _ & (n2 & T2) & _ & _ & F & _). injection Q as <- <-.
  apply flat_fields_In in T2 as (m2 & HP & _). assert (X := st_path _ _ _ _ _ _ F S HP).
  destruct (get_path (field_path (GStruct n fs) "ID") v); try discriminate X. eauto.
Qed.
Print Assumptions receiver_id.
Theorem helpers_no_panic : forall rb now pf h recv id os, receiver h recv -> Forall go_option os -> call_helper rb now pf h recv id os <> Crashed.
Proof.
  intros rb now pf h recv id os R GO. destruct (receiver_id _ _ R) as [src E]. unfold call_helper. destruct (target_ok (h_check h) id); [|discriminate].
  rewrite E. intros Q. apply constructor_panics_iff in Q as (l1 & l2 & _ & _ & P); [|vm_compute; reflexivity|exact GO].
  destruct P as [(s & l & r & x & l3 & P & _)|(P & _)]; discriminate P.
Qed.
Print Assumptions helpers_no_panic.

(** ** C47 *)
Theorem common_relationships : forall rb now pf h recv src id os, In h helpers -> common h -> obj_id recv = Ok src ->
  ((exists v, call_helper rb now pf h recv id os = Ret (Some v) None) <-> src <> "" /\ id <> "" /\ Forall (succeeds_on rel0) os).
Proof.
  intros rb now pf h recv src id os Hh K E. rewrite (helper_ok _ _ _ _ _ _ _ _ Hh E).
  assert (C : h_check h = NoCheck).
  { assert (Y : forallb (fun h => negb (String.eqb (h_recv h) "STIXDomainObject" || String.eqb (h_recv h) "STIXCyberObservableObject") || match h_check h with NoCheck => true | _ => false end) helpers = true) by (vm_compute; reflexivity).
    rewrite forallb_forall in Y. specialize (Y _ Hh). destruct K as [K|K]; rewrite K in Y; cbn [String.eqb Ascii.eqb Bool.eqb negb orb] in Y; destruct (h_check h); try discriminate Y; reflexivity. }
  rewrite C. cbn [target_ok]. tauto.
Qed.
Print Assumptions common_relationships.

Example helpers_example : forall rb now pf,
  let recv := (ty_Tool, set_path (Some "STIXDomainObject", "ID") (VStr "tool--8e2e2d2b-17d4-4cbf-938f-98ee46b3cd3f") (zero ty_Tool)) in
  exists h h', In h helpers /\ In h' helpers /\ targets_of h = Some ["vulnerability"] /\ receiver h recv /\ common h' /\ receiver h' recv /\
  obj_id recv = Ok "tool--8e2e2d2b-17d4-4cbf-938f-98ee46b3cd3f" /\
  (exists v, call_helper rb now pf h recv "vulnerability--8e2e2d2b-17d4-4cbf-938f-98ee46b3cd3f" [OField (row "OptionDescription") (VStr "d")] = Ret (Some v) None) /\
  call_helper rb now pf h recv "tool--8e2e2d2b-17d4-4cbf-938f-98ee46b3cd3f" [] = Ret None (Some ErrInvalidParameter) /\
  (exists v, call_helper rb now pf h' recv "x" [] = Ret (Some v) None).
Proof.
  intros rb now pf recv. exists (Helper "Tool" "AddHas" RelationshipTypeHas (ValidFor [TypeVulnerability])), (Helper "STIXDomainObject" "AddRelatedTo" RelationshipTypeRelatedTo NoCheck).
  split; [apply (find_some (fun h => String.eqb (h_recv h) "Tool" && String.eqb (h_name h) "AddHas")); vm_compute; reflexivity|].
  split; [apply (find_some (fun h => String.eqb (h_recv h) "STIXDomainObject" && String.eqb (h_name h) "AddRelatedTo")); vm_compute; reflexivity|].
  split; [vm_compute; reflexivity|]. assert (Hb : In (TypeTool, ty_Tool) builtin_types) by (apply alookup_Some_In; vm_compute; reflexivity).
  split; [exists TypeTool; do 2 eexists; split; [exact Hb|]; split; [reflexivity|]; split; [vm_compute; reflexivity|]; left; reflexivity|].
  split; [left; reflexivity|].
  split; [exists TypeTool; do 2 eexists; split; [exact Hb|]; split; [reflexivity|]; split; [vm_compute; reflexivity|]; right; do 2 eexists; split; [left; reflexivity|]; split; reflexivity|].
  split; [vm_compute; reflexivity|]. split; [eexists; lazy -[new_identifier]; reflexivity|]. split; [vm_compute; reflexivity|].
  eexists; lazy -[new_identifier]; reflexivity.
Qed.
