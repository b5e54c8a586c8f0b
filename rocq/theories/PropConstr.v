(** Properties of the constructors: C28, C30, C33, C40-C42, C59. *)
From Verif Require Import GoStr GoStrFacts Json Float FloatFacts Consts GoTypes Schema OptTable GoVal GoValFacts Codec CodecSpec CodecFacts
  StructFacts CodecRound ObjFacts TypedFacts StoreFacts DataTypes FromJson IndepFacts Options OptionFacts PropOptions Ident IdentFacts
  Collection Canon CanonTotal Constructors ConstrSpec ConstrFacts ConstrArgs.
From Coq Require Import QArith Permutation.

(** ** C41 *)
Lemma starts_props rb now c f : f <> "ID" -> alookup f (all_props rb now c) = alookup f (starts c now).
Proof.
  intros N. unfold all_props, base_props, starts. assert (E : String.eqb f "ID" = false) by now apply String.eqb_neq.
  destruct (random_id c); cbn [app alookup]; rewrite ?E; destruct (String.eqb f "Type"); reflexivity.
Qed.
(** Every property of a constructed object, whatever the options. *)
Theorem constructor_properties : forall rb now pf c os v, args_typed c = true -> Forall user_option os ->
  construct rb now pf c os = Ret (Some v) None ->
  forall p m t, has_path (call_fields c) p m t -> fm_name m <> "ID" ->
  get_path p v = final (fm_name m) os (start_value c now m t).
Proof.
  intros rb now pf c os v AT UO OK p m t HP N. rewrite (result_path _ _ _ _ _ _ AT UO OK _ _ _ HP N). unfold start_value. now rewrite starts_props.
Qed.
Print Assumptions constructor_properties.

Lemma init_post rb now c : arg_error c = None -> wants_option c = false ->
  (needs_options c -> exists e, post_error c (init rb now c) = Some e) /\ (~ needs_options c -> post_error c (init rb now c) = None).
Proof.
  intros A W. destruct c; cbn [needs_options]; try discriminate W; try (split; [contradiction|reflexivity]).
  - split; [intros ->|intros H; destruct family; [now contradiction H|]]; cbn [post_error]; [|reflexivity].
    eexists. reflexivity.
  - split; [|tauto]. eexists. reflexivity.
  - split; [|tauto]. eexists. reflexivity.
Qed.
Lemma wants_needs c : wants_option c = true -> needs_options c.
Proof. destruct c; try discriminate; intros _; exact I. Qed.
(** Without options: fails exactly when a required argument is missing or out of
    range, or the type cannot do without options. *)
Theorem constructor_without_options : forall rb now pf c, args_typed c = true ->
  ((exists e, construct rb now pf c [] = Ret None (Some e)) <-> args_bad c \/ needs_options c) /\
  ((exists v, construct rb now pf c [] = Ret (Some v) None) <-> ~ (args_bad c \/ needs_options c)).
Proof.
  intros rb now pf c AT. assert (B := arg_error_iff c AT). rewrite construct_uniform. unfold uniform. destruct (arg_error c) as [e|] eqn:A.
  - assert (args_bad c) by (apply B; eauto). split; (split; [|eauto]); [tauto|intros [v Q]; discriminate|tauto].
  - assert (NB : ~ args_bad c) by (intros Q; apply B in Q as [e Q]; discriminate).
    destruct (wants_option c) eqn:W; cbn [andb null].
    + apply wants_needs in W. split; (split; [|eauto]); [tauto|intros [v Q]; discriminate|tauto].
    + destruct (init_post rb now c A W) as [P1 P2]. cbn [apply_opts]. unfold closing.
      replace (if strict c then err_of (Ok tt) else None) with (@None string) by (now destruct (strict c)).
      destruct (post_error c (init rb now c)) as [e|] eqn:P.
      * assert (needs_options c) by (destruct c; cbn [needs_options] in *; try exact I; try (specialize (P2 (fun x => x)); discriminate);
          destruct family; [reflexivity|]; specialize (P2 ltac:(discriminate)); discriminate).
        split; (split; [|eauto]); [tauto|intros [v Q]; discriminate|tauto].
      * assert (NN : ~ needs_options c) by (intros Q; apply P1 in Q as [e Q]; discriminate).
        assert (X : exists v, match contribution pf c with None => Ret (Some (init rb now c)) (err_of (Ok tt)) | Some f => match f (init rb now c) with
           | Ok s => Ret (Some (set_path p_sco_id (VStr (new_observable_identifier s (call_name c))) (init rb now c))) (err_of (Ok tt)) | _ => Crashed end end = Ret (Some v) None).
        { destruct (contribution pf c) as [g|] eqn:G; [|cbn [err_of]; eauto].
          destruct (contribution_total pf c g (init rb now c) G) as [s ->]; [intros x ->; discriminate W|]. cbn [err_of]. eauto. }
        destruct X as [v ->]. split; (split; [|try tauto]); [intros [e Q]; discriminate|tauto|eauto].
Qed.
Print Assumptions constructor_without_options.
Example required_example : forall rb now pf,
  (exists v, construct rb now pf (CIndicator "[a:b = 1]" "stix" (VPtr (VTime 5))) [] = Ret (Some v) None) /\
  (exists e, construct rb now pf (CIndicator "[a:b = 1]" "stix" VNil) [] = Ret None (Some e)) /\
  (exists e, construct rb now pf (CLocation "" "se" (FFin false 91 0) (FFin false 18 0)) [] = Ret None (Some e)) /\
  (exists v, construct rb now pf (CLocation "" "se" (FFin false 5933 (-2)) (FFin false 18 0)) [] = Ret (Some v) None) /\
  args_typed (CIndicator "[a:b = 1]" "stix" (VPtr (VTime 5))) = true.
Proof. intros rb now pf. split; [eexists; reflexivity|]. split; [eexists; reflexivity|]. split; [eexists; reflexivity|]. split; [eexists; reflexivity|]. vm_compute. reflexivity. Qed.

(** Created and modified are the same instant, and the type and specification
    version are set. *)
Theorem constructor_stamps : forall rb now pf c v, args_typed c = true -> construct rb now pf c [] = Ret (Some v) None ->
  prop c "Type" v = VStr (call_name c) /\ prop c "SpecVersion" v = VStr "2.1" /\
  (call_kind c <> SCO -> prop c "Created" v = VPtr (VTime now)) /\
  (call_kind c = SDO \/ call_kind c = SRO -> prop c "Modified" v = prop c "Created" v) /\
  (forall f x, In (f, x) (given c) -> prop c f v = x).
Proof.
  intros rb now pf c v AT OK.
  assert (G : forall f x, f <> "ID" -> In (f, x) (starts c now) -> NoDup (akeys (starts c now)) -> prop c f v = x).
  { intros f x N Hin ND.
    assert (Y : forallb (fun k => match field_by_name (call_fields c) k with Some _ => negb (mem_str k ext_bases) | None => false end) (akeys (starts c now)) = true)
      by (clear; destruct c; vm_compute; reflexivity).
    rewrite forallb_forall in Y. specialize (Y f (in_map fst _ _ Hin)). destruct (field_by_name (call_fields c) f) as [[p t]|] eqn:F; [|discriminate].
    apply negb_true_iff in Y. assert (NE : ~ In f ext_bases) by (intros Q; apply mem_str_In in Q; congruence).
    apply field_by_name_path in F as (m & HP & <-); [|apply call_opt|exact NE].
    rewrite (prop_path _ _ _ _ _ HP), (constructor_properties _ _ _ _ _ _ AT (Forall_nil _) OK _ _ _ HP N). cbn [final fold_left]. unfold start_value.
    now rewrite (alookup_In _ _ _ ND Hin). }
  assert (ND : NoDup (akeys (starts c now))) by (apply nodupb_NoDup; clear; destruct c; vm_compute; reflexivity).
  split; [apply G; [discriminate|now left|exact ND]|]. split; [apply G; [discriminate|right; now left|exact ND]|].
  split; [|split].
  - intros K. apply G; [discriminate| |exact ND]. right. right. apply in_or_app. left. destruct c; cbn in K |- *; try (now contradiction K); tauto.
  - intros K. transitivity (VPtr (VTime now)); [|symmetry]; (apply G; [discriminate| |exact ND]); right; right; apply in_or_app; left;
      destruct c; cbn in K |- *; try (destruct K; discriminate); tauto.
  - intros f x Hin. apply G; [|right; right; apply in_or_app; now right|exact ND].
    intros ->. apply (in_map fst) in Hin. cbn [fst] in Hin. clear - Hin. destruct c; cbn in Hin; intuition discriminate.
Qed.
Print Assumptions constructor_stamps.

(** ** C33 *)
Theorem constructed_can_be_added : forall rb now pf c os v, String.length rb = 16%nat -> args_typed c = true -> Forall user_option os ->
  construct rb now pf c os = Ret (Some v) None ->
  exists id, prop c "ID" v = VStr id /\ prop c "Type" v = VStr (call_name c) /\
    forall O (col : coll O) o, snd (add col id (call_name c) o) = true.
Proof.
  intros rb now pf c os v L AT UO OK. assert (X := result_id_value _ _ _ _ _ _ AT UO OK).
  assert (Y : exists id, prop c "ID" v = VStr id /\ has_valid_identifier id (call_name c) = true).
  { assert (TN : type_name_ok (call_name c) = true) by (destruct c; reflexivity).
    destruct (contribution pf c) as [g|]; [destruct X as (s & _ & ->)|rewrite X]; eexists; (split; [reflexivity|]).
    - now apply new_observable_identifier_valid.
    - now apply new_identifier_valid. }
  destruct Y as (id & E & V). exists id. split; [exact E|]. split; [exact (result_type _ _ _ _ _ _ AT UO OK)|].
  intros O col o. unfold add. rewrite V. reflexivity.
Qed.
Print Assumptions constructed_can_be_added.
Example added_example : exists v, construct "0123456789abcdef" 0 (fun _ => (FNaN, false)) (CTool "x") [OField (row "OptionDescription") (VStr "d")] = Ret (Some v) None /\
  args_typed (CTool "x") = true /\ user_option (OField (row "OptionDescription") (VStr "d")).
Proof.
  eexists. split; [reflexivity|]. split; [vm_compute; reflexivity|]. split; [|reflexivity].
  apply (find_some (fun r => String.eqb (or_name r) "OptionDescription")); vm_compute; reflexivity.
Qed.

(** ** C40 *)
Definition succeeds_on (c : call) (o : stix_option) : Prop := forall w, snd (apply_opt (call_ty c) o w) = Ok tt.
Theorem failing_option_reported : forall rb now pf c os ob, construct rb now pf c os = Ret ob None -> Forall (succeeds_on c) os.
Proof.
  intros rb now pf c os ob H. rewrite construct_uniform in H. unfold uniform in H. destruct (arg_error c); [discriminate|].
  destruct (wants_option c && null os); [discriminate|]. destruct (apply_opts (call_ty c) os (init rb now c)) as [v r] eqn:E.
  assert (r = Ok tt) as ->; [|exact (apply_opts_fail _ _ _ _ E)].
  unfold closing in H. destruct r as [[]|e|]; [reflexivity| |discriminate]. cbn [err_of] in H. exfalso.
  destruct (strict c); [discriminate|]. destruct (post_error c v); [discriminate|]. destruct (contribution pf c) as [g|]; [destruct (g v); discriminate|discriminate].
Qed.
Print Assumptions failing_option_reported.

Lemma opts_cut t l1 o l2 v : (forall w, snd (apply_opt t o w) <> Ok tt) -> apply_opts t (l1 ++ o :: l2) v = apply_opts t (l1 ++ [o]) v.
Proof.
  intros F. rewrite !apply_opts_app. destruct (apply_opts t l1 v) as [v1 [[]| |]]; try reflexivity. rewrite !apply_opts_cons. specialize (F v1).
  destruct (apply_opt t o v1) as [v2 [[]| |]]; cbn [snd] in F; try reflexivity. contradiction.
Qed.
Theorem later_options_not_applied : forall rb now pf c l1 o l2, (forall w, snd (apply_opt (call_ty c) o w) <> Ok tt) ->
  construct rb now pf c (l1 ++ o :: l2) = construct rb now pf c (l1 ++ [o]).
Proof.
  intros rb now pf c l1 o l2 F. rewrite !construct_uniform. unfold uniform. rewrite (opts_cut _ _ _ _ _ F). now destruct l1.
Qed.
Print Assumptions later_options_not_applied.
(** An object that comes with an error is the one made by the options before the
    one that failed with this error. *)
Theorem object_with_error : forall rb now pf c os v e, construct rb now pf c os = Ret (Some v) (Some e) ->
  exists l1 o l2, os = l1 ++ o :: l2 /\ Forall (succeeds_on c) l1 /\ (forall w, snd (apply_opt (call_ty c) o w) = Err e) /\
    (l1 <> [] -> construct rb now pf c l1 = Ret (Some v) None).
Proof.
  intros rb now pf c os v e H. apply construct_inv in H as (A & W & v0 & r & E & NP & Er & St & P & C).
  assert (r = Err e) as -> by (destruct r as [[]|e'|]; cbn in Er; congruence).
  destruct (first_failure_reported _ _ _ _ _ E ltac:(discriminate)) as (l1 & o & l2 & -> & E1 & E2).
  exists l1, o, l2. split; [reflexivity|]. split; [exact (apply_opts_fail _ _ _ _ E1)|]. split.
  - intros w. rewrite (apply_opt_stable _ _ w v0), E2. reflexivity.
  - intros N. rewrite construct_uniform. unfold uniform. rewrite A. destruct l1 as [|o1 l1]; [contradiction|]. cbn [null]. rewrite andb_false_r, E1.
    unfold closing. replace (if strict c then err_of (Ok tt) else None) with (@None string) by (now destruct (strict c)). rewrite P.
    destruct (contribution pf c) as [g|]; [|now rewrite C]. destruct C as (s & G & ->). now rewrite G.
Qed.
Print Assumptions object_with_error.
Example failing_example : exists v e, construct "" 0 (fun _ => (FNaN, false)) (CTool "x") [OField (row "OptionDescription") (VStr "d"); OField (row "OptionCPE") (VStr "c")] = Ret (Some v) (Some e) /\
  get_field "Description" v = VStr "d".
Proof. eexists. eexists. split; [vm_compute; reflexivity|]. vm_compute. reflexivity. Qed.

(** A nil option counts as an option. *)
Theorem nil_option_ignored_refuted : forall rb now pf, exists c e v,
  construct rb now pf c [] = Ret None (Some e) /\ construct rb now pf c [ONil] = Ret (Some v) None.
Proof. intros. exists CProcess. eexists. eexists. split; reflexivity. Qed.
Print Assumptions nil_option_ignored_refuted.
(** Missing for the full statement: a nil option as the only option of the four
    types that ask for an option. *)
Theorem nil_option_ignored_partial : forall rb now pf c l1 l2, l1 ++ l2 <> [] \/ ~ In c [CProcess; CRegistryKey; CUserAccount; CX509Certificate] ->
  construct rb now pf c (l1 ++ ONil :: l2) = construct rb now pf c (l1 ++ l2).
Proof.
  intros rb now pf c l1 l2 H. rewrite !construct_uniform. unfold uniform. destruct (arg_error c); [reflexivity|].
  assert (N : null (l1 ++ ONil :: l2) = false) by (now destruct l1). rewrite N, andb_false_r.
  assert (E : apply_opts (call_ty c) (l1 ++ ONil :: l2) (init rb now c) = apply_opts (call_ty c) (l1 ++ l2) (init rb now c)).
  { rewrite !apply_opts_app. destruct (apply_opts (call_ty c) l1 (init rb now c)) as [v1 [[]| |]]; reflexivity. }
  rewrite E. destruct H as [H|H].
  - destruct (l1 ++ l2); [contradiction|]. now rewrite andb_false_r.
  - replace (wants_option c) with false; [reflexivity|]. destruct c; try reflexivity; exfalso; apply H; cbn [In]; tauto.
Qed.
Print Assumptions nil_option_ignored_partial.

(** ** C42 *)
Lemma seen_order v : bad_seen v = false -> forall a b, get_field "FirstSeen" v = VPtr (VTime a) -> get_field "LastSeen" v = VPtr (VTime b) -> (a <= b)%Z.
Proof. unfold bad_seen. intros H a b E1 E2. rewrite E1, E2 in H. cbn [is_nil negb andb after] in H. now apply Z.ltb_ge in H. Qed.
Lemma int_prop c os v e f rb now pf n : args_typed c = true -> Forall go_option os -> construct rb now pf c os = Ret (Some v) e ->
  (exists p m, has_path (call_fields c) p m (GInt n) /\ fm_name m = f) -> exists z, prop c f v = VInt z.
Proof.
  intros AT GO OK (p & m & HP & <-). assert (S := result_prop_storable _ _ _ _ _ _ _ _ _ _ AT GO OK HP). rewrite (prop_path _ _ _ _ _ HP).
  destruct (get_path p v); try discriminate S. eauto.
Qed.
Theorem sighting_ranges : forall rb now pf s os v, Forall go_option os -> construct rb now pf (CSighting s) os = Ret (Some v) None ->
  (exists n, prop (CSighting s) "Count" v = VInt n /\ (0 <= n <= 999999999)%Z) /\
  (forall a b, prop (CSighting s) "FirstSeen" v = VPtr (VTime a) -> prop (CSighting s) "LastSeen" v = VPtr (VTime b) -> (a <= b)%Z).
Proof.
  intros rb now pf s os v GO OK. assert (AT : args_typed (CSighting s) = true) by reflexivity.
  assert (P := result_post _ _ _ _ _ _ AT (go_user _ GO) OK). cbn [post_error] in P. destruct (_ || bad_seen v) eqn:B; [discriminate|].
  apply orb_false_iff in B as [B1 B2]. apply orb_false_iff in B1 as [B0 B1]. apply Z.ltb_ge in B0, B1. split.
  - assert (F : field_by_name (call_fields (CSighting s)) "Count" = Some ((None, "Count"), GInt "int64")) by (vm_compute; reflexivity).
    apply field_by_name_path in F as (m & HP & E); [|apply call_opt|intros [W|[W|[W|[]]]]; discriminate W].
    destruct (int_prop (CSighting s) os v None "Count" rb now pf "int64" AT GO OK) as [z Z]; [eauto|]. exists z. split; [exact Z|].
    change (get_field "Count" v = VInt z) in Z. rewrite Z in B0, B1. cbn [int_of] in B0, B1. lia.
  - exact (seen_order v B2).
Qed.
Print Assumptions sighting_ranges.
Theorem campaign_ranges : forall rb now pf s os v, Forall user_option os -> construct rb now pf (CCampaign s) os = Ret (Some v) None ->
  forall a b, prop (CCampaign s) "FirstSeen" v = VPtr (VTime a) -> prop (CCampaign s) "LastSeen" v = VPtr (VTime b) -> (a <= b)%Z.
Proof.
  intros rb now pf s os v UO OK. assert (AT : args_typed (CCampaign s) = true) by reflexivity.
  assert (P := result_post _ _ _ _ _ _ AT UO OK). cbn [post_error] in P. destruct (bad_seen v) eqn:B; [discriminate|]. exact (seen_order v B).
Qed.
Print Assumptions campaign_ranges.
Theorem artifact_contents : forall rb now pf os v, Forall go_option os -> construct rb now pf CArtifact os = Ret (Some v) None ->
  (prop CArtifact "Payload" v = VNil <-> prop CArtifact "URL" v <> VStr "") /\
  (prop CArtifact "URL" v <> VStr "" -> prop CArtifact "Hashes" v <> VNil).
Proof.
  intros rb now pf os v GO OK. assert (AT : args_typed CArtifact = true) by reflexivity.
  assert (P := result_post _ _ _ _ _ _ AT (go_user _ GO) OK). cbn [post_error] in P. cbv zeta in P.
  assert (U : exists u, get_field "URL" v = VStr u).
  { assert (F : field_by_name (call_fields CArtifact) "URL" = Some ((None, "URL"), GString "string")) by (vm_compute; reflexivity).
    apply field_by_name_path in F as (m & HP & E); [|apply call_opt|intros [W|[W|[W|[]]]]; discriminate W].
    assert (S := result_prop_storable _ _ _ _ _ _ _ _ _ _ AT GO OK HP). cbn [get_path] in S. destruct (get_field "URL" v); try discriminate S. eauto. }
  destruct U as [u U]. change (prop CArtifact "Payload" v) with (get_field "Payload" v). change (prop CArtifact "URL" v) with (get_field "URL" v).
  change (prop CArtifact "Hashes" v) with (get_field "Hashes" v). unfold str_field in P. rewrite U in *. cbn [str_of] in P.
  assert (UE : is_empty u = true <-> VStr u = VStr "") by (rewrite is_empty_true; split; congruence).
  assert (PN := is_nil_spec (get_field "Payload" v)). assert (HN := is_nil_spec (get_field "Hashes" v)).
  destruct (is_nil (get_field "Payload" v)), (is_empty u), (is_nil (get_field "Hashes" v)); cbn [andb negb] in P; try discriminate P; intuition congruence.
Qed.
Print Assumptions artifact_contents.
Theorem family_has_name : forall rb now pf os v, Forall go_option os -> construct rb now pf (CMalware true) os = Ret (Some v) None ->
  exists n, prop (CMalware true) "Name" v = VStr n /\ n <> "".
Proof.
  intros rb now pf os v GO OK. assert (AT : args_typed (CMalware true) = true) by reflexivity.
  assert (P := result_post _ _ _ _ _ _ AT (go_user _ GO) OK). cbn [post_error andb] in P. change (prop (CMalware true) "Name" v) with (get_field "Name" v).
  unfold str_field in P. destruct (get_field "Name" v); cbn [str_of] in P; try discriminate P. eexists. split; [reflexivity|]. intros ->. discriminate P.
Qed.
Print Assumptions family_has_name.

(** Locations: NaN passes the comparisons. *)
Theorem location_ranges_refuted : forall rb now pf, exists c v, construct rb now pf c [] = Ret (Some v) None /\ (exists r co lo, c = CLocation r co FNaN lo).
Proof. intros. exists (CLocation "" "" FNaN (FFin false 1 0)). eexists. split; [reflexivity|]. eauto. Qed.
Print Assumptions location_ranges_refuted.
(** Missing for the full statement: NaN, and options that set the coordinates
    after the checks (none exists). *)
Theorem location_ranges_partial : forall rb now pf r co la lo os v, Forall go_option os -> construct rb now pf (CLocation r co la lo) os = Ret (Some v) None ->
  let c := CLocation r co la lo in
  prop c "Latitude" v = VFloat la /\ prop c "Longitude" v = VFloat lo /\
  (within la 90 \/ la = FNaN) /\ (within lo 180 \/ lo = FNaN) /\ (is_0 la <-> is_0 lo) /\
  (forall x, prop c "Precision" v = VFloat x -> ~ is_0 x -> ~ is_0 la /\ ~ is_0 lo).
Proof.
  intros rb now pf r co la lo os v GO OK c. assert (AT : args_typed c = true) by reflexivity.
  assert (A : arg_error c = None) by exact (result_args _ _ _ _ _ _ _ OK). assert (P := result_post _ _ _ _ _ _ AT (go_user _ GO) OK).
  unfold c in P. cbn [post_error] in P.
  assert (L : forall f x t, field_by_name (call_fields c) f = Some ((None, f), t) -> forallb (fun r => negb (String.eqb (or_field r) f)) option_table = true ->
      f <> "ID" -> f <> "Extensions" -> ~ In f ext_bases -> alookup f (starts c now) = Some x -> prop c f v = x).
  { intros f x t F R N1 N2 N3 S. apply field_by_name_path in F as (m & HP & E); [|apply call_opt|exact N3]. subst f.
    rewrite (prop_path _ _ _ _ _ HP), (constructor_properties _ _ _ _ _ _ AT (go_user _ GO) OK _ _ _ HP N1), final_id.
    - unfold start_value. now rewrite S.
    - eapply Forall_impl; [|exact GO]. intros o [U _]. destruct (is_target (fm_name m) o) eqn:Q; [|reflexivity]. apply is_target_eq in Q.
      destruct o as [|rr y|k y]; cbn [target] in Q; [discriminate| |congruence]. destruct U as [U _]. rewrite forallb_forall in R. specialize (R _ U).
      injection Q as Q. rewrite Q, String.eqb_refl in R. discriminate R. }
  split; [|split].
  - eapply (L "Latitude"); try (vm_compute; reflexivity); try discriminate. intros [W|[W|[W|[]]]]; discriminate W.
  - eapply (L "Longitude"); try (vm_compute; reflexivity); try discriminate. intros [W|[W|[W|[]]]]; discriminate W.
  - assert (NB : ~ args_bad c) by (intros Q; apply (arg_error_iff c AT) in Q as [e Q]; congruence). cbn [args_bad c] in NB.
    assert (D0 : is_0 la \/ ~ is_0 la) by (rewrite is_0_spec; destruct (flt_is_zero la); [now left|right; discriminate]).
    assert (D1 : is_0 lo \/ ~ is_0 lo) by (rewrite is_0_spec; destruct (flt_is_zero lo); [now left|right; discriminate]).
    assert (D2 : (within la 90 \/ la = FNaN) \/ ~ (within la 90 \/ la = FNaN)) by (rewrite within_90; destruct (flt_lt la _), (flt_lt _ la); first [left; split; reflexivity|right; intros [Q1 Q2]; discriminate]).
    assert (D3 : (within lo 180 \/ lo = FNaN) \/ ~ (within lo 180 \/ lo = FNaN)) by (rewrite within_180; destruct (flt_lt lo _), (flt_lt _ lo); first [left; split; reflexivity|right; intros [Q1 Q2]; discriminate]).
    split; [tauto|]. split; [tauto|]. split; [tauto|]. intros x X NZ. change (prop c "Precision" v) with (get_field "Precision" v) in X. rewrite X in P. cbn [flt_of] in P.
    rewrite is_0_spec in NZ |- *. rewrite is_0_spec. destruct (flt_is_zero x); [now contradiction NZ|]. cbn [negb andb] in P.
    destruct (flt_is_zero la); [discriminate P|]. destruct (flt_is_zero lo); [discriminate P|]. split; discriminate.
Qed.
Print Assumptions location_ranges_partial.

(** ** C28 *)
Definition no_option_for (f : string) (os : list stix_option) : Prop := Forall (fun o => is_target f o = false) os.
(** The identifier of a Mutex comes from the argument even if OptionName changes
    the name. *)
Theorem single_value_identifiers_refuted : forall rb now pf, exists v v',
  construct rb now pf (CMutex "a") [] = Ret (Some v) None /\
  construct rb now pf (CMutex "a") [OField (row "OptionName") (VStr "b")] = Ret (Some v') None /\
  prop (CMutex "a") "Name" v = VStr "a" /\ prop (CMutex "a") "Name" v' = VStr "b" /\
  prop (CMutex "a") "ID" v = prop (CMutex "a") "ID" v'.
Proof. intros. eexists. eexists. split; [vm_compute; reflexivity|]. split; [vm_compute; reflexivity|]. split; [vm_compute; reflexivity|]. split; vm_compute; reflexivity. Qed.
Print Assumptions single_value_identifiers_refuted.

Lemma single_start c f : single_key c = Some f -> exists x t g, field_by_name (call_fields c) f = Some ((None, f), t) /\
  (forall rb now, alookup f (all_props rb now c) = Some x) /\ (forall pf, contribution pf c = Some g) /\ (forall v, g v = Ok (single_text x)) /\
  ((exists n, x = VInt n /\ call_name c = "autonomous-system") \/ exists s, x = VStr s /\ call_name c <> "autonomous-system").
Proof.
  intros K. destruct c; try discriminate K; injection K as <-; eexists; eexists; eexists;
  (split; [vm_compute; reflexivity|]; split; [reflexivity|]; split; [reflexivity|]; split; [intros v; cbn; unfold q; rewrite ?sapp_assoc; reflexivity|]);
    first [left; eexists; split; reflexivity|right; eexists; split; [reflexivity|discriminate]].
Qed.
Lemma single_result rb now pf c f os v : single_key c = Some f -> args_typed c = true -> Forall user_option os ->
  call_name c <> "mutex" \/ no_option_for f os -> construct rb now pf c os = Ret (Some v) None ->
  prop c "ID" v = VStr (new_observable_identifier (single_text (prop c f v)) (call_name c)) /\
  ((exists n, prop c f v = VInt n /\ call_name c = "autonomous-system") \/ exists s, prop c f v = VStr s /\ call_name c <> "autonomous-system").
Proof.
  intros K AT UO M OK. assert (K' := K). apply single_start in K as (x & t & g & F & A & C & G & X). assert (R := result_id_value _ _ _ _ _ _ AT UO OK). rewrite (C pf) in R.
  destruct R as (s & R1 & R2). rewrite G in R1. injection R1 as <-.
  assert (N : ~ In f ext_bases /\ f <> "ID" /\ f <> "Extensions").
  { destruct c; try discriminate K'; injection K' as <-; (split; [intros [W|[W|[W|[]]]]; discriminate W|split; discriminate]). }
  destruct N as (N1 & N2 & N3). apply field_by_name_path in F as (m & HP & Em); [|apply call_opt|exact N1].
  assert (E : prop c f v = x).
  { rewrite <- Em, (prop_path _ _ _ _ _ HP), (result_path _ _ _ _ _ _ AT UO OK _ _ _ HP) by congruence. rewrite Em, A. apply final_id.
    destruct M as [M|M]; [|exact M]. eapply Forall_impl; [|exact UO]. intros o U. destruct (is_target f o) eqn:Q; [|reflexivity]. apply is_target_eq in Q.
    destruct o as [|rr y|k y]; cbn [target] in Q; [discriminate| |congruence]. destruct U as [U _].
    assert (Z : forallb (fun r => negb (mem_str (or_field r) ["Value"; "Path"; "Number"])) option_table = true) by (vm_compute; reflexivity).
    rewrite forallb_forall in Z. specialize (Z _ U). injection Q as Q. rewrite <- Q in Z.
    destruct c; try discriminate K'; injection K' as K'; try rewrite <- K' in Z; try (vm_compute in Z; discriminate Z). all: exfalso; apply M; reflexivity. }
  rewrite E. split; [exact R2|]. exact X.
Qed.
(** Missing for the full statement: a Mutex renamed by OptionName.  [c] and [c']
    are two calls of the same constructor. *)
Theorem single_value_identifiers_partial : forall rb now pf rb' now' pf' c c' f os os' v v',
  call_name c = call_name c' -> single_key c = Some f ->
  args_typed c = true -> args_typed c' = true -> Forall user_option os -> Forall user_option os' ->
  call_name c <> "mutex" \/ (no_option_for f os /\ no_option_for f os') ->
  construct rb now pf c os = Ret (Some v) None -> construct rb' now' pf' c' os' = Ret (Some v') None ->
  (prop c f v = prop c' f v' -> prop c "ID" v = prop c' "ID" v') /\
  (prop c "ID" v = prop c' "ID" v' -> prop c f v = prop c' f v' \/ uuid5_collision (single_text (prop c f v)) (single_text (prop c' f v'))).
Proof.
  intros rb now pf rb' now' pf' c c' f os os' v v' N K AT AT' UO UO' M OK OK'.
  assert (K' : single_key c' = Some f) by (destruct c; try discriminate K; destruct c'; try discriminate N; exact K).
  assert (M' : call_name c' <> "mutex" \/ no_option_for f os') by (rewrite <- N; tauto).
  destruct (single_result _ _ _ _ _ _ _ K AT UO ltac:(tauto) OK) as [-> X]. destruct (single_result _ _ _ _ _ _ _ K' AT' UO' M' OK') as [-> X'].
  rewrite <- N in X' |- *. split; [congruence|]. intros Q. injection Q as Q. apply observable_id_inj in Q as [Q|Q]; [left|now right].
  destruct X as [(n & E & Y)|(s & E & Y)], X' as [(n' & E' & Y')|(s' & E' & Y')]; try contradiction; rewrite E, E' in *; cbn [single_text] in Q.
  - apply sapp_inj_l, sapp_inj_r in Q. f_equal. now apply Z_to_string_inj.
  - apply sapp_inj_l, sapp_inj_r in Q. congruence.
Qed.
Print Assumptions single_value_identifiers_partial.
Example single_example : forall rb now pf, exists v v', construct rb now pf (CURL "http://a") [] = Ret (Some v) None /\
  construct rb now pf (CURL "http://b") [OField (row "OptionDefanged") (VBool true)] = Ret (Some v') None /\ prop (CURL "") "ID" v <> prop (CURL "") "ID" v'.
Proof. intros. eexists. eexists. split; [vm_compute; reflexivity|]. split; [vm_compute; reflexivity|]. vm_compute. discriminate. Qed.

(** ** C30 *)
(** The identifier of an observable is a function of its contributing
    properties. *)
Theorem identifier_from_contributing : forall rb now rb' now' pf c os os' v v',
  random_id c = false -> args_typed c = true -> Forall user_option os -> Forall user_option os' ->
  construct rb now pf c os = Ret (Some v) None -> construct rb' now' pf c os' = Ret (Some v') None ->
  (forall f, In f (contributing c) -> prop c f v = prop c f v') -> prop c "ID" v = prop c "ID" v'.
Proof.
  intros rb now rb' now' pf c os os' v v' R AT UO UO' OK OK' H.
  assert (X := result_id_value _ _ _ _ _ _ AT UO OK). assert (X' := result_id_value _ _ _ _ _ _ AT UO' OK').
  destruct (contribution pf c) as [g|] eqn:G; [|apply contribution_random in G; congruence].
  destruct X as (s & E & ->). destruct X' as (s' & E' & ->). rewrite (contribution_props rb _ _ _ _ _ G H) in E. congruence.
Qed.
Print Assumptions identifier_from_contributing.
(** Options for other properties can be left out, added or moved. *)
Theorem identifier_ignores_other_options : forall rb now rb' now' pf c os os' v v',
  random_id c = false -> args_typed c = true -> Forall user_option os -> Forall user_option os' ->
  construct rb now pf c os = Ret (Some v) None -> construct rb' now' pf c os' = Ret (Some v') None ->
  (forall f, In f (contributing c) -> filter (is_target f) os = filter (is_target f) os') -> prop c "ID" v = prop c "ID" v'.
Proof.
  intros rb now rb' now' pf c os os' v v' R AT UO UO' OK OK' H. apply (identifier_from_contributing rb now rb' now' pf c os os' v v' R AT UO UO' OK OK').
  intros f Hf. destruct (contributing_ok rb pf _ _ Hf) as [N1 N2]. destruct (prop_cases c f N1) as [X|(p & m & t & HP & E & X)]; rewrite !X; [reflexivity|].
  rewrite (result_path _ _ _ _ _ _ AT UO OK _ _ _ HP), (result_path _ _ _ _ _ _ AT UO' OK' _ _ _ HP) by congruence.
  rewrite final_filter, (final_filter _ os'), E, (H f Hf). replace (all_props rb' now' c) with (all_props rb now c); [reflexivity|].
  unfold all_props, base_props. rewrite R. destruct c; try discriminate R; reflexivity.
Qed.
Print Assumptions identifier_ignores_other_options.
Lemma construct_permuted rb now pf c os os' v : args_typed c = true -> Forall user_option os -> Permutation os os' -> ForallOrdPairs differ os ->
  construct rb now pf c os = Ret (Some v) None -> construct rb now pf c os' = Ret (Some v) None.
Proof.
  intros AT UO P D OK. rewrite construct_uniform in *. unfold uniform in *. destruct (arg_error c); [discriminate|].
  assert (N : null os' = null os) by (destruct os, os'; try reflexivity; [apply Permutation_nil in P|apply Permutation_sym, Permutation_nil in P]; discriminate).
  rewrite N. destruct (wants_option c && null os); [discriminate|].
  destruct (apply_opts (call_ty c) os (init rb now c)) as [v0 r] eqn:E.
  assert (r = Ok tt) as ->.
  { unfold closing in OK. destruct r as [[]|e|]; [reflexivity| |discriminate]. cbn [err_of] in OK. exfalso. destruct (strict c); [discriminate|].
    destruct (post_error c v0); [discriminate|]. destruct (contribution pf c) as [g|]; [destruct (g v0); discriminate|discriminate]. }
  now rewrite (options_commute _ _ _ _ _ _ (call_builtin c) UO (init_typed rb now c AT) P D E).
Qed.
(** Options that set different properties can be given in any order. *)
Theorem constructor_option_order : forall rb now pf c os os' v, args_typed c = true -> Forall user_option os ->
  Permutation os os' -> ForallOrdPairs differ os ->
  (construct rb now pf c os = Ret (Some v) None <-> construct rb now pf c os' = Ret (Some v) None).
Proof.
  intros rb now pf c os os' v AT UO P D. split; [now apply construct_permuted|].
  assert (UO' : Forall user_option os') by (apply Forall_forall; intros o Ho; rewrite Forall_forall in UO; apply UO; eapply Permutation_in; [apply Permutation_sym; exact P|exact Ho]).
  apply construct_permuted; [exact AT|exact UO'|now apply Permutation_sym|].
  clear - P D. induction P as [|x l l' P IH|x y l|l1 l2 l3 P1 IH1 P2 IH2].
  - exact D.
  - inversion D as [|? ? D1 D2]; subst. constructor; [|now apply IH]. apply Forall_forall. intros z Hz. rewrite Forall_forall in D1. apply D1.
    eapply Permutation_in; [apply Permutation_sym; exact P|exact Hz].
  - inversion D as [|? ? D1 D2]; subst. inversion D2 as [|? ? D3 D4]; subst. inversion D1 as [|? ? D5 D6]; subst.
    constructor; [constructor; [now apply differ_sym|exact D3]|]. constructor; assumption.
  - auto.
Qed.
Print Assumptions constructor_option_order.
Example order_example : forall rb now pf, exists v,
  construct rb now pf (CFile "a" VNil) [OField (row "OptionSize") (VInt 3); OField (row "OptionParentDirectory") (VStr "p")] = Ret (Some v) None /\
  contributing (CFile "a" VNil) = ["Hashes"; "Name"; "Extensions"; "ParentDirectory"].
Proof. intros. eexists. split; vm_compute; reflexivity. Qed.

(** ** C59: panics *)
Lemma opts_split t os v : forall v' r, apply_opts t os v = (v', r) -> exists l1 l2, os = l1 ++ l2 /\ apply_opts t l1 v = (v', Ok tt) /\
  match l2 with [] => r = Ok tt | o :: _ => apply_opt t o v' = (v', r) /\ r <> Ok tt end.
Proof.
  intros v' r E. destruct r as [[]|e|].
  - exists os, []. rewrite app_nil_r. auto.
  - destruct (first_failure_reported _ _ _ _ _ E ltac:(discriminate)) as (l1 & o & l2 & -> & A & B). exists l1, (o :: l2). repeat split; auto. discriminate.
  - destruct (first_failure_reported _ _ _ _ _ E ltac:(discriminate)) as (l1 & o & l2 & -> & A & B). exists l1, (o :: l2). repeat split; auto. discriminate.
Qed.
Lemma in_nil_dec l : In VNil l \/ ~ In VNil l.
Proof.
  induction l as [|x l [IH|IH]]; [right; intros []|left; now right|].
  destruct x; first [left; left; reflexivity|right; intros [Q|Q]; [discriminate Q|exact (IH Q)]].
Qed.
(** A constructor panics exactly in two cases: OptionContent given to NewNote, and
    a nil value among the values of a registry key. *)
Definition panicking (c : call) (l1 l2 : list stix_option) : Prop :=
  (exists s l r x l3, c = CNote s l /\ ~ args_bad c /\ l2 = OField r x :: l3 /\ or_name r = "OptionContent") \/
  (c = CRegistryKey /\ l1 ++ l2 <> [] /\ (l2 = [] \/ exists o l3, l2 = o :: l3 /\ ~ succeeds_on c o) /\
   In VNil (old_list (final "Values" l1 VNil))).
Theorem constructor_panics_iff : forall rb now pf c os, args_typed c = true -> Forall go_option os ->
  (construct rb now pf c os = Crashed <-> exists l1 l2, os = l1 ++ l2 /\ Forall (succeeds_on c) l1 /\ panicking c l1 l2).
Proof.
  intros rb now pf c os AT GO. assert (UO := go_user _ GO). assert (B := arg_error_iff c AT).
  rewrite construct_uniform. unfold uniform. destruct (apply_opts (call_ty c) os (init rb now c)) as [v r] eqn:E.
  assert (ST : forall l1 v1, (forall o, In o l1 -> In o os) -> apply_opts (call_ty c) l1 (init rb now c) = (v1, Ok tt) -> c = CRegistryKey ->
     get_field "Values" v1 = final "Values" l1 VNil /\ forall x, In x (old_list (get_field "Values" v1)) -> x = VNil \/ exists w, x = VPtr w).
  { intros l1 v1 Hl E1 ->. assert (G1 : Forall go_option l1) by (apply Forall_forall; intros o Ho; rewrite Forall_forall in GO; auto).
    assert (F : exists t, field_by_name (call_fields CRegistryKey) "Values" = Some ((None, "Values"), GSlice (GPtr t))) by (eexists; vm_compute; reflexivity).
    destruct F as [t F]. apply field_by_name_path in F as (m & HP & Em); [|apply call_opt|intros [W|[W|[W|[]]]]; discriminate W].
    destruct (call_struct CRegistryKey) as [n Q]. rewrite Q in E1. assert (T := init_typed rb now _ AT). rewrite Q in T.
    assert (S := opts_storable _ _ _ (call_opt _) G1 _ _ _ (typed_storable _ _ T) E1).
    split.
    - assert (X := opts_path _ _ _ _ _ _ (call_opt _) (user_tables _ (go_user _ G1)) HP _ _ (init_inv rb now _ AT) E1). rewrite Em in X. exact X.
    - assert (X := st_path _ _ _ _ _ _ (call_flat _) S HP). cbn [get_path] in X. intros x Hx. destruct (get_field "Values" v1); try destruct Hx.
      cbn [old_list storable] in *. rewrite forallb_forall in X. specialize (X _ Hx). destruct x; try discriminate X; eauto. }
  destruct (opts_split _ _ _ _ _ E) as (l1 & l2 & -> & E1 & E2).
  assert (S1 : Forall (succeeds_on c) l1) by exact (apply_opts_fail _ _ _ _ E1).
  assert (PANIC : r = Panic <-> exists rr x l3, l2 = OField rr x :: l3 /\ or_name rr = "OptionContent" /\ call_name c = TypeNote).
  { destruct l2 as [|o l3]; [subst r; split; [discriminate|intros (? & ? & ? & Q & _); discriminate]|]. destruct E2 as [E2 _].
    apply Forall_app in UO as [_ UO]. inversion UO as [|? ? Uo _]; subst. assert (P := options_no_panic_partial o _ _ v Uo (call_builtin c)). rewrite E2 in P. cbn [snd] in P.
    rewrite P. split; [intros (rr & x & -> & N1 & N2); eauto 6|intros (rr & x & l3' & Q & N1 & N2); injection Q as -> ->; eauto]. }
  assert (UNIQ : forall l1' l2', l1 ++ l2 = l1' ++ l2' -> Forall (succeeds_on c) l1' ->
     (match l2' with [] => True | o :: _ => ~ succeeds_on c o end) -> l1' = l1 /\ l2' = l2).
  { assert (NL2 : match l2 with [] => True | o :: _ => ~ succeeds_on c o end).
    { destruct l2 as [|o l3]; [exact I|]. destruct E2 as [E2 NE]. intros Q. specialize (Q v). rewrite E2 in Q. exact (NE Q). }
    clear - S1 NL2. revert S1. induction l1 as [|a l1 IH]; intros S1 [|b l1'] l2' Q F N; cbn [app] in Q.
    - auto.
    - subst l2. inversion F; subst. contradiction.
    - subst l2'. inversion S1; subst. contradiction.
    - injection Q as <- Q. inversion F; subst. inversion S1; subst. destruct (IH H4 l1' l2' Q H2 N) as [-> ->]. auto. }
  assert (NOTE : call_name c = TypeNote <-> exists s l, c = CNote s l) by (destruct c; (split; [intros Q; try discriminate Q; eauto|intros (? & ? & Q); try discriminate Q; reflexivity])).
  split.
  - destruct (arg_error c) as [e|] eqn:A; [discriminate|]. assert (NB : ~ args_bad c) by (intros Q; apply B in Q as [e Q]; discriminate).
    destruct (wants_option c && null (l1 ++ l2)) eqn:W; [discriminate|]. intros H. exists l1, l2. split; [reflexivity|]. split; [exact S1|].
    unfold closing in H. destruct r as [[]|e|] eqn:R.
    + right. replace (if strict c then err_of (Ok tt) else None) with (@None string) in H by (now destruct (strict c)).
      destruct (post_error c v); [discriminate|]. destruct (contribution pf c) as [g|] eqn:G; [|discriminate].
      assert (C : c = CRegistryKey /\ In VNil (old_list (get_field "Values" v))).
      { destruct c; try (destruct (contribution_total pf _ g v G) as [? Q]; [intros x Qx; discriminate Qx|rewrite Q in H; discriminate H]).
        split; [reflexivity|]. destruct (in_nil_dec (old_list (get_field "Values" v))) as [D|D]; [exact D|]. exfalso.
        destruct (contribution_total pf _ g v G) as [? Q]; [|rewrite Q in H; discriminate H]. intros x _ Hx.
        destruct (ST l1 v ltac:(intros; apply in_or_app; now left) E1 eq_refl) as [_ Y]. destruct (Y x Hx) as [->|Y']; [contradiction|exact Y']. }
      destruct C as [-> C]. split; [reflexivity|]. split; [destruct (l1 ++ l2); [discriminate W|discriminate]|].
      split; [left; destruct l2 as [|o l3]; [reflexivity|destruct E2 as [_ E2]; now contradiction E2]|].
      now rewrite <- (proj1 (ST l1 v ltac:(intros; apply in_or_app; now left) E1 eq_refl)).
    + right. destruct (strict c); [discriminate|]. destruct (post_error c v); [discriminate|]. destruct (contribution pf c) as [g|] eqn:G; [|discriminate].
      assert (C : c = CRegistryKey /\ In VNil (old_list (get_field "Values" v))).
      { destruct c; try (destruct (contribution_total pf _ g v G) as [? Q]; [intros x Qx; discriminate Qx|rewrite Q in H; discriminate H]).
        split; [reflexivity|]. destruct (in_nil_dec (old_list (get_field "Values" v))) as [D|D]; [exact D|]. exfalso.
        destruct (contribution_total pf _ g v G) as [? Q]; [|rewrite Q in H; discriminate H]. intros x _ Hx.
        destruct (ST l1 v ltac:(intros; apply in_or_app; now left) E1 eq_refl) as [_ Y]. destruct (Y x Hx) as [->|Y']; [contradiction|exact Y']. }
      destruct C as [-> C]. split; [reflexivity|]. split; [destruct (l1 ++ l2); [discriminate W|discriminate]|].
      split; [right; destruct l2 as [|o l3]; [discriminate E2|]; exists o, l3; split; [reflexivity|]; destruct E2 as [E2 _]; intros Q; specialize (Q v); rewrite E2 in Q; discriminate Q|].
      now rewrite <- (proj1 (ST l1 v ltac:(intros; apply in_or_app; now left) E1 eq_refl)).
    + left. destruct (proj1 PANIC eq_refl) as (rr & x & l3 & -> & N1 & N2). apply NOTE in N2 as (s & l & ->). exists s, l, rr, x, l3. auto.
  - intros (l1' & l2' & Q & F & P).
    assert (NL : match l2' with [] => True | o :: _ => ~ succeeds_on c o end).
    { destruct P as [(s & l & rr & x & l3 & -> & _ & -> & N)|(-> & _ & [->|(o & l3 & -> & NS)] & _)]; [|exact I|exact NS].
      intros S. specialize (S v). assert (U : user_option (OField rr x)).
      { rewrite Q in UO. apply Forall_app in UO as [_ UO]. now inversion UO. }
      assert (X := proj2 (options_no_panic_partial (OField rr x) _ _ v U (call_builtin (CNote s l))) ltac:(eauto)). congruence. }
    destruct (UNIQ _ _ Q F NL) as [-> ->]. clear Q F.
    destruct P as [(s & l & rr & x & l3 & -> & NB & -> & N)|(-> & NE & NS & HN)].
    + assert (r = Panic) as -> by (apply PANIC; exists rr, x, l3; auto).
      destruct (arg_error (CNote s l)) as [e|] eqn:A; [exfalso; apply NB, B; eauto|]. reflexivity.
    + cbn [arg_error wants_option andb]. assert (NU : null (l1 ++ l2) = false) by (now destruct (l1 ++ l2)). rewrite NU.
      assert (G : exists g, contribution pf CRegistryKey = Some g) by (eexists; reflexivity). destruct G as [g G].
      destruct (ST l1 v ltac:(intros; apply in_or_app; now left) E1 eq_refl) as [Y1 Y2].
      assert (X := contribution_panics pf g v G Y2 ltac:(unfold nil_value; now rewrite Y1)). unfold closing. cbn [strict post_error]. rewrite G, X. now destruct r.
Qed.
Print Assumptions constructor_panics_iff.
Example panics_example : forall rb now pf,
  construct rb now pf CRegistryKey [OField (row "OptionValues") (VSlice [VNil])] = Crashed /\
  construct rb now pf (CNote "a" (VSlice [VStr "x"])) [OField (row "OptionContent") (VStr "b")] = Crashed.
Proof. intros. split; vm_compute; reflexivity. Qed.
