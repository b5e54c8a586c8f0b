(** Facts on the constructors. *)
From Verif Require Import GoStr GoStrFacts Json Float Consts GoTypes Schema OptTable GoVal GoValFacts Codec CodecSpec CodecFacts
  StructFacts CodecRound ObjFacts TypedFacts StoreFacts DataTypes FromJson IndepFacts Options OptionFacts PropOptions Ident IdentFacts
  Constructors ConstrSpec.

(** * Struct literals *)
Lemma alookup_map_names fs : forall m t, NoDup (names fs) -> In (m, t) fs ->
  alookup (fm_name m) (map (fun ft : fmeta * gty => (fm_name (fst ft), zero (snd ft))) fs) = Some (zero t).
Proof.
  induction fs as [|[m0 t0] fs IH]; intros m t N H; [destruct H|]. inversion N as [|? ? N1 N2]; subst. cbn [map alookup fst snd].
  destruct H as [Q|H]; [injection Q as -> ->; now rewrite String.eqb_refl|].
  destruct (String.eqb_spec (fm_name m) (fm_name m0)) as [E|E]; [|now apply IH]. exfalso. apply N1. cbn [fst]. rewrite <- E. eapply In_names; eauto.
Qed.
Lemma build_fold n fs l : NoDup (names fs) -> NoDup (akeys l) -> (forall k, In k (akeys l) -> In k (names fs)) ->
  exists vs, build (GStruct n fs) l = VStruct vs /\ akeys vs = names fs /\
    forall m t, In (m, t) fs -> alookup (fm_name m) vs = Some (match alookup (fm_name m) l with Some x => x | None => zero t end).
Proof.
  intros N. unfold build.
  assert (G : forall l vs, akeys vs = names fs -> NoDup (akeys l) -> (forall k, In k (akeys l) -> In k (names fs)) ->
    exists vs', fold_left (fun v kv => set_field (fst kv) (snd kv) v) l (VStruct vs) = VStruct vs' /\ akeys vs' = names fs /\
    forall k, In k (names fs) -> alookup k vs' = match alookup k l with Some x => Some x | None => alookup k vs end).
  { clear l. induction l as [|[k x] l IH]; intros vs K NL HL; cbn [fold_left].
    - exists vs. auto.
    - cbn [fst snd set_field]. inversion NL as [|? ? NL1 NL2]; subst.
      destruct (IH (areplace k x vs)) as (vs' & E & K' & A); [now rewrite areplace_keys|exact NL2|intros k' Hk; apply HL; now right|].
      exists vs'. split; [exact E|]. split; [exact K'|]. intros k' Hk. rewrite (A k' Hk). cbn [alookup].
      destruct (String.eqb_spec k' k) as [->|Ne].
      + destruct (alookup k l) eqn:El; [exfalso; apply NL1; apply alookup_Some_In in El; exact (in_map fst _ _ El)|].
        apply areplace_same. rewrite K. exact Hk.
      + destruct (alookup k' l); [reflexivity|]. now apply areplace_other. }
  intros NL HL. cbn [zero].
  destruct (G l (map (fun ft : fmeta * gty => (fm_name (fst ft), zero (snd ft))) fs)) as (vs & E & K & A); [|exact NL|exact HL|].
  { unfold akeys, names. rewrite map_map. reflexivity. }
  exists vs. split; [exact E|]. split; [exact K|]. intros m t Hin. rewrite A by (eapply In_names; eauto).
  destruct (alookup (fm_name m) l); [reflexivity|]. now apply alookup_map_names.
Qed.
Lemma build_get n fs l m t : NoDup (names fs) -> NoDup (akeys l) -> (forall k, In k (akeys l) -> In k (names fs)) -> In (m, t) fs ->
  get_field (fm_name m) (build (GStruct n fs) l) = match alookup (fm_name m) l with Some x => x | None => zero t end.
Proof.
  intros N NL HL Hin. destruct (build_fold n fs l N NL HL) as (vs & -> & _ & A). cbn [get_field]. now rewrite (A _ _ Hin).
Qed.
Lemma build_typed n fs l : NoDup (names fs) -> (forall k x, In (k, x) l -> exists m t, In (m, t) fs /\ fm_name m = k /\ typed t x = true) ->
  typed (GStruct n fs) (build (GStruct n fs) l) = true.
Proof.
  intros N H. unfold build. generalize (typed_zero (GStruct n fs)). generalize (zero (GStruct n fs)). revert H.
  induction l as [|[k x] l IH]; intros H v T; cbn [fold_left fst snd]; [exact T|].
  apply IH; [intros; apply H; now right|]. destruct (H k x (or_introl eq_refl)) as (m & t & Hin & <- & Tx). eapply typed_set_field; eauto.
Qed.

(** * The constructors in one form *)
Section C.
Variable rb : string.
Variable now : Z.
Variable pf : string -> flt * bool.
Notation construct := (construct rb now pf).

(** The composite literal. *)
Definition base_props (c : call) : list (string * gval) :=
  ("Type", VStr (call_name c)) :: (if random_id c then [("ID", VStr (new_identifier rb (call_name c)))] else []) ++
  ("SpecVersion", VStr "2.1") :: stamps c now.
Definition base_name (c : call) : option string :=
  match call_kind c with SDO => Some "STIXDomainObject" | SRO => Some "STIXRelationshipObject" | SCO => Some "STIXCyberObservableObject" | Meta => None end.
Definition base_ty (c : call) : gty :=
  match call_kind c with SDO => ty_STIXDomainObject | SRO => ty_STIXRelationshipObject | SCO => ty_STIXCyberObservableObject | Meta => GBool end.
Definition init (c : call) : gval :=
  match base_name c with
  | Some b => build (call_ty c) ((b, build (base_ty c) (base_props c)) :: given c)
  | None => build (call_ty c) (base_props c ++ given c)
  end.

Definition arg_error (c : call) : option string :=
  let miss (b : bool) := if b then Some ErrPropertyMissing else None in
  let bad (b : bool) := if b then Some ErrInvalidParameter else None in
  match c with
  | CAttackPattern n | CCampaign n | CCourseOfAction n | CIdentity n | CIncident n | CInfrastructure n | CIntrusionSet n
  | CThreatActor n | CTool n | CVulnerability n | CSighting n => miss (is_empty n)
  | CSoftware n | CMutex n | CDirectory n | CDomainName n | CEmailAddress n | CIPv4Address n | CIPv6Address n | CMACAddress n | CURL n => bad (is_empty n)
  | CGrouping ctx l => miss (is_empty ctx || len0 l)
  | CIndicator p pt f => miss (is_empty p || is_empty pt || is_nil f)
  | CLocation r co lat long =>
      if is_empty r && is_empty co && flt_is_zero lat && flt_is_zero long then Some ErrPropertyMissing
      else if flt_lt lat (flt_int (-90)) || flt_lt (flt_int 90) lat || flt_lt long (flt_int (-180)) || flt_lt (flt_int 180) long ||
          (flt_is_zero lat && negb (flt_is_zero long)) || (negb (flt_is_zero lat) && flt_is_zero long) then Some ErrInvalidProperty else None
  | CMalwareAnalysis p r l => miss (is_empty p || (len0 l && is_empty r))
  | CNote _ l | COpinion _ l => miss (len0 l)
  | CObservedData f l n r => miss (len0 r || is_nil f || is_nil l || (n <? 1)%Z)
  | CReport n p l => miss (is_empty n || is_nil p || len0 l)
  | CRelationship r s t => miss (is_empty r || is_empty s || is_empty t)
  | CLanguageContent o x => miss (is_empty o || is_nil x)
  | CMarkingDefinition t d => miss (is_empty t || is_nil d)
  | CExtensionDefinition n s v l => bad (is_empty n || is_empty s || is_empty v || len0 l)
  | CAutonomousSystem n => bad (n =? 0)%Z
  | CFile n h => bad (is_empty n && is_nil h)
  | CNetworkTraffic p => bad (len0 p)
  | CMalware _ | CEmailMessage _ | CArtifact | CProcess | CRegistryKey | CUserAccount | CX509Certificate => None
  end.
Definition wants_option (c : call) : bool :=
  match c with CProcess | CRegistryKey | CUserAccount | CX509Certificate => true | _ => false end.
Definition strict (c : call) : bool := match c with CSighting _ | CArtifact | CNetworkTraffic _ => true | _ => false end.
Definition post_error (c : call) (v : gval) : option string :=
  let inv (b : bool) := if b then Some ErrInvalidProperty else None in
  match c with
  | CCampaign _ => inv (bad_seen v)
  | CLocation _ _ lat long => inv (negb (flt_is_zero (flt_of (get_field "Precision" v))) && (flt_is_zero lat || flt_is_zero long))
  | CMalware family => inv (family && is_empty (str_field "Name" v))
  | CSighting _ => inv (((int_of (get_field "Count" v) <? 0)%Z || (999999999 <? int_of (get_field "Count" v))%Z) || bad_seen v)
  | CArtifact =>
      let nil_payload := is_nil (get_field "Payload" v) in
      let no_url := is_empty (str_field "URL" v) in
      if nil_payload && no_url then Some ErrPropertyMissing
      else if negb nil_payload && negb no_url then Some ErrInvalidParameter
      else if negb no_url && is_nil (get_field "Hashes" v) then Some ErrPropertyMissing else None
  | CNetworkTraffic _ =>
      if is_empty (str_field "Src" v) && is_empty (str_field "Dst" v) then Some "at least one of src or dst is required" else None
  | _ => None
  end.
Definition contribution (c : call) : option (gval -> res string) :=
  match c with
  | CArtifact => Some (fun v => Ok (bracket (artifact_parts v)))
  | CAutonomousSystem n => Some (fun _ => Ok ("[" ++ Z_to_string n ++ "]")%string)
  | CDirectory s | CDomainName s | CEmailAddress s | CIPv4Address s | CIPv6Address s | CMACAddress s | CMutex s | CURL s =>
      Some (fun _ => Ok ("[" ++ q s ++ "]")%string)
  | CEmailMessage _ => Some (fun v => Ok (bracket (email_parts v)))
  | CFile _ _ => Some (fun v => do l <- file_parts pf v; Ok (bracket l))
  | CNetworkTraffic _ => Some (fun v => do l <- network_parts pf v; Ok (bracket l))
  | CRegistryKey => Some (fun v => do l <- registry_parts v; Ok (bracket l))
  | CSoftware _ => Some (fun v => Ok (bracket (software_parts v)))
  | CUserAccount => Some (fun v => Ok (bracket (user_parts v)))
  | CX509Certificate => Some (fun v => Ok (bracket (x509_parts v)))
  | _ => None
  end.

Definition closing (c : call) (v : gval) (r : res unit) : cres :=
  match r with
  | Panic => Crashed
  | _ =>
      match (if strict c then err_of r else None) with
      | Some e => Ret None (Some e)
      | None =>
          match post_error c v with
          | Some e => Ret None (Some e)
          | None =>
              match contribution c with
              | None => Ret (Some v) (err_of r)
              | Some f =>
                  match f v with
                  | Ok s => Ret (Some (set_path p_sco_id (VStr (new_observable_identifier s (call_name c))) v)) (err_of r)
                  | _ => Crashed
                  end
              end
          end
      end
  end.
Definition null {A} (l : list A) : bool := match l with [] => true | _ => false end.
Definition uniform (c : call) (os : list stix_option) : cres :=
  match arg_error c with
  | Some e => Ret None (Some e)
  | None =>
      if wants_option c && null os then Ret None (Some ErrPropertyMissing)
      else let (v, r) := apply_opts (call_ty c) os (init c) in closing c v r
  end.

Lemma let_pair {A B C} (p : A * B) (f : A -> B -> C) : (let (a, b) := p in f a b) = f (fst p) (snd p).
Proof. now destruct p. Qed.
Lemma finish_closing c v r : contribution c = None -> strict c = false -> (forall v, post_error c v = None) -> finish (v, r) = closing c v r.
Proof. intros H1 H2 H3. unfold finish, closing. rewrite H1, H2, H3. cbn [fst snd]. now destruct r. Qed.
Lemma check_closing c (bad : gval -> bool) v r : contribution c = None -> strict c = false ->
  (forall v, post_error c v = if bad v then Some ErrInvalidProperty else None) -> finish_check bad ErrInvalidProperty (v, r) = closing c v r.
Proof. intros H1 H2 H3. unfold finish_check, closing. rewrite H1, H2, H3. cbn [fst snd]. destruct r; [now destruct (bad v)|now destruct (bad v)|reflexivity]. Qed.
Lemma id_closing c f v r : contribution c = Some f -> strict c = false -> (forall v, post_error c v = None) -> with_id (call_name c) f (v, r) = closing c v r.
Proof. intros H1 H2 H3. unfold with_id, closing. rewrite H1, H2, H3. cbn [fst snd]. destruct r; try reflexivity; now destruct (f v). Qed.

Ltac to_pair c :=
  match goal with
  | |- context [apply_opts ?t ?os ?v] =>
      lazymatch t with
      | call_ty _ => fail
      | _ => change (apply_opts t os v) with (apply_opts (call_ty c) os (init c))
      end
  end; destruct (apply_opts (call_ty c) _ (init c)) as [w r].
Ltac guards := repeat match goal with
  | |- (if ?b then _ else _) = _ => destruct b eqn:?; [reflexivity|]
  | |- match ?os with [] => _ | _ :: _ => _ end = _ => destruct os as [|o os]; cbn [null]; [reflexivity|]
  end.
Ltac pair_call := match goal with |- _ = let (_, _) := apply_opts (call_ty ?c) _ (init ?c) in _ => to_pair c end.
Ltac closings := first [now apply finish_closing | now apply check_closing | match goal with |- with_id _ ?f _ = closing ?c _ _ => now apply (id_closing c f) end].

Lemma construct_uniform c os : construct c os = uniform c os.
Proof.
  unfold uniform.
  destruct c; cbn [Constructors.construct arg_error wants_option andb null];
    unfold new_attack_pattern, new_campaign, new_course_of_action, new_grouping, new_identity, new_incident, new_indicator, new_infrastructure,
      new_intrusion_set, new_location, new_malware, new_malware_analysis, new_note, new_observed_data, new_opinion, new_report, new_threat_actor,
      new_tool, new_vulnerability, new_relationship, new_sighting, new_language_content, new_marking_definition, new_extension_definition,
      new_artifact, new_autonomous_system, new_directory, new_domain_name, new_email_address, new_email_message, new_file, new_ipv4_address,
      new_ipv6_address, new_mac_address, new_mutex, new_network_traffic, new_process, new_registry_key, new_software, new_url, new_user_account,
      new_x509_certificate, new_single;
    guards; cbv beta iota; cbn [null]; pair_call; try closings.
  - unfold closing. cbn [strict err_of post_error contribution]. destruct r; cbn [err_of]; [|reflexivity|reflexivity].
    destruct ((_ <? 0)%Z || _); cbn [orb]; [reflexivity|]. now destruct (bad_seen w).
  - unfold closing. cbn [strict err_of post_error contribution]. destruct r; cbn [err_of]; [|reflexivity|reflexivity].
    unfold with_id. cbn [fst snd err_of]. destruct (is_nil _ && _); [reflexivity|]. destruct (negb _ && _); [reflexivity|]. now destruct (negb _ && _).
  - unfold closing. cbn [strict err_of post_error contribution]. destruct r; cbn [err_of]; [|reflexivity|reflexivity].
    unfold with_id. cbn [fst snd err_of]. destruct (_ && _); [reflexivity|]. destruct (network_parts pf w); reflexivity.
Qed.

(** ** The struct types *)
Lemma call_builtin c : In (call_name c, call_ty c) builtin_types.
Proof. destruct c; apply alookup_Some_In; vm_compute; reflexivity. Qed.
Lemma call_struct c : exists n, call_ty c = GStruct n (call_fields c).
Proof. destruct c; eexists; vm_compute; reflexivity. Qed.
Lemma call_opt c : opt_struct (call_fields c).
Proof.
  destruct (builtin_opt _ _ (call_builtin c)) as (n & fs & E & O). unfold call_fields. now rewrite E.
Qed.
Lemma call_flat c : flat_ok (call_fields c).
Proof. exact (os_flat _ (call_opt c)). Qed.

Definition base_keys (c : call) : list string :=
  "Type" :: (if random_id c then ["ID"] else []) ++ "SpecVersion" :: map fst (stamps c 0).
Lemma base_keys_eq c : akeys (base_props c) = base_keys c.
Proof. destruct c; reflexivity. Qed.
Definition base_fields (c : call) : list (fmeta * gty) := match base_ty c with GStruct _ fs => fs | _ => [] end.
Definition own_named (fs : list (fmeta * gty)) (k : string) : bool :=
  existsb (fun ft : fmeta * gty => String.eqb (fm_name (fst ft)) k && negb (fm_embed (fst ft))) fs.
Definition lit_check (c : call) : bool :=
  match base_name c with
  | Some b =>
      nodupb (b :: akeys (given c)) && nodupb (base_keys c) && forallb (own_named (call_fields c)) (akeys (given c)) &&
      forallb (fun k => mem_str k (names (base_fields c))) (base_keys c) &&
      existsb (fun ft : fmeta * gty => String.eqb (fm_name (fst ft)) b && fm_embed (fst ft) && gty_eqb (snd ft) (base_ty c)) (call_fields c) &&
      forallb (fun ft : fmeta * gty => negb (fm_embed (fst ft)) || String.eqb (fm_name (fst ft)) b) (call_fields c) &&
      nodupb (names (base_fields c))
  | None => nodupb (base_keys c ++ akeys (given c)) && forallb (own_named (call_fields c)) (base_keys c ++ akeys (given c)) &&
      forallb (fun ft : fmeta * gty => negb (fm_embed (fst ft))) (call_fields c)
  end.
Lemma lit_check_ok c : lit_check c = true.
Proof. destruct c; vm_compute; reflexivity. Qed.
Lemma own_named_In fs k : own_named fs k = true -> exists m t, In (m, t) fs /\ fm_name m = k /\ fm_embed m = false.
Proof.
  unfold own_named. rewrite existsb_exists. intros ([m t] & Hin & E). cbn [fst] in E. apply andb_true_iff in E as [E1 E2].
  apply String.eqb_eq in E1. apply negb_true_iff in E2. eauto.
Qed.

(** Every property of the composite literal. *)
Definition all_props (c : call) : list (string * gval) := base_props c ++ given c.
Lemma alookup_app {A} k (l1 l2 : list (string * A)) : alookup k (l1 ++ l2) = match alookup k l1 with Some x => Some x | None => alookup k l2 end.
Proof. induction l1 as [|[k1 x] l1 IH]; [reflexivity|]. cbn [app alookup]. now destruct (String.eqb k k1). Qed.
Lemma alookup_key {A} k (l : list (string * A)) x : alookup k l = Some x -> In k (akeys l).
Proof. intros H. apply alookup_Some_In in H. exact (in_map fst _ _ H). Qed.

Lemma init_path c p m t : has_path (call_fields c) p m t ->
  get_path p (init c) = match alookup (fm_name m) (all_props c) with Some x => x | None => zero t end.
Proof.
  intros HP. assert (O := call_opt c). assert (L := lit_check_ok c). unfold lit_check in L. unfold init, all_props. rewrite alookup_app.
  destruct (call_struct c) as [n ->]. destruct (base_name c) as [b|] eqn:B.
  - rewrite !andb_true_iff in L. destruct L as [[[[[[L1 L2] L3] L4] L5] L6] L7].
    apply nodupb_NoDup in L1, L2, L7. rewrite forallb_forall in L3, L4, L6.
    apply existsb_exists in L5 as ([mb tb] & Hb & E). cbn [fst snd] in E. rewrite !andb_true_iff in E. destruct E as [[Eb Em] Et].
    apply String.eqb_eq in Eb. apply gty_eqb_eq in Et.
    assert (Hbt : exists nb, base_ty c = GStruct nb (base_fields c)) by (destruct c; try discriminate B; eexists; reflexivity).
    destruct Hbt as [nb Hbt]. subst tb. rewrite Hbt in Hb.
    assert (NL : NoDup (akeys ((b, build (base_ty c) (base_props c)) :: given c))) by exact L1.
    assert (HL : forall k, In k (akeys ((b, build (base_ty c) (base_props c)) :: given c)) -> In k (names (call_fields c))).
    { intros k [<-|Hk]; [cbn [fst]; rewrite <- Eb; eapply In_names; exact Hb|].
      destruct (own_named_In _ _ (L3 _ Hk)) as (m1 & t1 & Hin & <- & _). eapply In_names; exact Hin. }
    assert (N := proj1 (os_flat _ O)).
    destruct HP as [m t Hin Hem|mb' nb' fsb m t Hin Hem Hin']; cbn [get_path].
    + rewrite (build_get _ _ _ _ _ N NL HL Hin). cbn [alookup].
      destruct (String.eqb_spec (fm_name m) b) as [Q|_].
      { exfalso. assert (X := names_inj _ _ _ _ _ N Hin Hb (eq_trans Q (eq_sym Eb))). inversion X; subst; congruence. }
      destruct (alookup (fm_name m) (base_props c)) as [x|] eqn:A; [|reflexivity].
      exfalso. apply alookup_key in A. rewrite base_keys_eq in A. apply L4 in A. apply mem_str_In in A.
      apply in_map_iff in A as ([m2 t2] & Q & Hin2). cbn [fst] in Q.
      destruct (os_uniq _ O _ _ _ _ _ _ (hp_own _ _ _ Hin Hem) (hp_base _ _ _ _ _ _ Hb Em Hin2) (eq_sym Q)) as [X _]. discriminate X.
    + assert (Q : (mb', GStruct nb' fsb) = (mb, GStruct nb (base_fields c))).
      { apply (names_inj _ _ _ _ _ N Hin Hb). specialize (L6 _ Hin). cbn [fst] in L6. rewrite Hem in L6. cbn [negb orb] in L6.
        apply String.eqb_eq in L6. congruence. }
      inversion Q; subst mb' nb' fsb. rewrite (build_get _ _ _ _ _ N NL HL Hb). cbn [alookup]. rewrite Eb, String.eqb_refl, Hbt.
      rewrite (build_get nb (base_fields c) (base_props c) m t L7); [|now rewrite base_keys_eq| |exact Hin'].
      * destruct (alookup (fm_name m) (base_props c)) as [x|]; [reflexivity|].
        destruct (alookup (fm_name m) (given c)) as [x|] eqn:A; [|reflexivity].
        exfalso. apply alookup_key, L3, own_named_In in A as (m1 & t1 & Hin1 & Q1 & Hem1).
        destruct (os_uniq _ O _ _ _ _ _ _ (hp_own _ _ _ Hin1 Hem1) (hp_base _ _ _ _ _ _ Hb Em Hin') Q1) as [X _]. discriminate X.
      * intros k Hk. rewrite base_keys_eq in Hk. apply mem_str_In. now apply L4.
  - rewrite !andb_true_iff in L. destruct L as [[L1 L2] L3]. apply nodupb_NoDup in L1. rewrite forallb_forall in L2, L3.
    assert (K : akeys (base_props c ++ given c) = base_keys c ++ akeys (given c)) by (unfold akeys at 1; rewrite map_app; f_equal; apply base_keys_eq).
    destruct HP as [m t Hin Hem|mb nb fsb m t Hin Hem Hin']; cbn [get_path].
    + rewrite (build_get n (call_fields c) _ m t (proj1 (os_flat _ O))); [now rewrite alookup_app|now rewrite K| |exact Hin].
      intros k Hk. rewrite K in Hk. destruct (own_named_In _ _ (L2 _ Hk)) as (m1 & t1 & Hin1 & <- & _). eapply In_names; exact Hin1.
    + exfalso. specialize (L3 _ Hin). cbn [fst] in L3. now rewrite Hem in L3.
Qed.

Lemma init_typed c : args_typed c = true -> typed (call_ty c) (init c) = true.
Proof.
  intros T. assert (O := call_opt c). assert (L := lit_check_ok c). unfold lit_check in L. unfold init.
  destruct (call_struct c) as [n E]. rewrite E. unfold args_typed in T. rewrite forallb_forall in T.
  assert (G : forall k x, In (k, x) (given c) -> exists m t, In (m, t) (call_fields c) /\ fm_name m = k /\ typed t x = true).
  { intros k x Hin. specialize (T _ Hin). cbn [fst snd] in T. destruct (own_field (call_fields c) k) as [t|] eqn:F; [|discriminate].
    apply own_field_In in F as (m & Hm & <-). eauto. }
  assert (B : forall k x, In (k, x) (base_props c) -> exists m t,
    In (m, t) (match base_name c with Some _ => base_fields c | None => call_fields c end) /\ fm_name m = k /\ typed t x = true).
  { assert (X : forallb (fun kv : string * gval => match own_field (match base_name c with Some _ => base_fields c | None => call_fields c end) (fst kv) with
        | Some t => match snd kv, t with VStr _, GString _ => true | VPtr (VTime _), GPtr GTime => true | _, _ => false end | None => false end) (base_props c) = true)
      by (destruct c; reflexivity).
    rewrite forallb_forall in X. intros k x Hin. specialize (X _ Hin). cbn [fst snd] in X. destruct (own_field _ k) as [t|] eqn:F; [|discriminate].
    apply own_field_In in F as (m & Hm & <-). exists m, t. split; [exact Hm|]. split; [reflexivity|].
    destruct x; try discriminate X; destruct t; try discriminate X; try reflexivity; destruct x; try discriminate X; destruct t; try discriminate X; reflexivity. }
  destruct (base_name c) as [b|] eqn:BN.
  - rewrite !andb_true_iff in L. destruct L as [[[[[[L1 L2] L3] L4] L5] L6] L7]. apply nodupb_NoDup in L7.
    apply existsb_exists in L5 as ([mb tb] & Hb & Q). cbn [fst snd] in Q. rewrite !andb_true_iff in Q. destruct Q as [[Eb Em] Et].
    apply String.eqb_eq in Eb. apply gty_eqb_eq in Et. subst tb.
    apply build_typed; [exact (proj1 (os_flat _ O))|]. intros k x [Q|Hin]; [|now apply G]. injection Q as <- <-.
    exists mb, (base_ty c). split; [exact Hb|]. split; [exact Eb|].
    assert (Hbt : exists nb, base_ty c = GStruct nb (base_fields c)) by (destruct c; try discriminate BN; eexists; reflexivity).
    destruct Hbt as [nb Hbt]. rewrite Hbt. apply build_typed; [exact L7|exact B].
  - apply build_typed; [exact (proj1 (os_flat _ O))|]. intros k x Hin. apply in_app_or in Hin as [Hin|Hin]; [now apply B|now apply G].
Qed.
Lemma init_inv c : args_typed c = true -> opt_inv (call_fields c) (init c).
Proof. intros T. apply init_typed in T. destruct (call_struct c) as [n E]. rewrite E in T. eapply typed_inv; [exact (call_flat c)|exact T]. Qed.

(** ** Properties by name *)
Definition same_path (p p' : fpath) : bool :=
  match fst p, fst p' with None, None => true | Some a, Some b => String.eqb a b | _, _ => false end && String.eqb (snd p) (snd p').
Lemma same_path_eq p p' : same_path p p' = true -> p = p'.
Proof.
  destruct p as [[a|] f], p' as [[b|] f']; unfold same_path; cbn [fst snd]; rewrite ?andb_true_iff, ?String.eqb_eq; intros H; try (now destruct H); destruct H; congruence.
Qed.
Lemma prop_check c : forallb (fun p => match field_by_name (call_fields c) (snd p) with Some (p', _) => same_path p p' | None => false end)
  (all_paths (call_fields c)) = true.
Proof. destruct c; vm_compute; reflexivity. Qed.
Lemma fbn_path c p m t : has_path (call_fields c) p m t -> ~ In (fm_name m) ext_bases -> field_by_name (call_fields c) (fm_name m) = Some (p, t).
Proof.
  intros H N. assert (X := prop_check c). rewrite forallb_forall in X. destruct (has_path_all _ _ _ _ H) as [Hin E]. specialize (X _ Hin). rewrite E in X.
  destruct (field_by_name (call_fields c) (fm_name m)) as [[p' t']|] eqn:F; [|discriminate]. apply same_path_eq in X. subst p'.
  destruct (field_by_name_path _ _ _ _ (call_opt c) N F) as (m' & H' & _). destruct (has_path_inj _ _ _ _ _ _ (call_flat c) H H') as [-> ->]. reflexivity.
Qed.
Lemma prop_path c p m t v : has_path (call_fields c) p m t -> prop c (fm_name m) v = get_path p v.
Proof.
  intros H. assert (X := prop_check c). rewrite forallb_forall in X. destruct (has_path_all _ _ _ _ H) as [Hin E]. specialize (X _ Hin). rewrite E in X.
  unfold prop. destruct (field_by_name (call_fields c) (fm_name m)) as [[p' t']|] eqn:F; [|discriminate]. apply same_path_eq in X. now subst p'.
Qed.
Lemma prop_cases c f : ~ In f ext_bases -> (forall v, prop c f v = VNil) \/ exists p m t, has_path (call_fields c) p m t /\ fm_name m = f /\ forall v, prop c f v = get_path p v.
Proof.
  intros N. unfold prop. destruct (field_by_name (call_fields c) f) as [[p t]|] eqn:F; [right|left; reflexivity].
  destruct (field_by_name_path _ _ _ _ (call_opt c) N F) as (m & H & E). eauto 6.
Qed.
Lemma init_prop c p m t : has_path (call_fields c) p m t ->
  prop c (fm_name m) (init c) = match alookup (fm_name m) (all_props c) with Some x => x | None => zero t end.
Proof. intros H. rewrite (prop_path _ _ _ _ _ H). now apply init_path. Qed.

(** ** The effect of the options on a property *)
Lemma is_target_eq f o : is_target f o = true <-> Some f = target o.
Proof. unfold is_target. destruct (target o) as [g|]; [|split; discriminate]. rewrite String.eqb_eq. split; congruence. Qed.
Lemma opts_path n fs os p m t : opt_struct fs -> Forall table_option os -> has_path fs p m t -> forall v v', opt_inv fs v ->
  apply_opts (GStruct n fs) os v = (v', Ok tt) -> get_path p v' = final (fm_name m) os (get_path p v).
Proof.
  intros O T HP. induction T as [|o os To T IH]; intros v v' I E; [now injection E as <-|].
  rewrite apply_opts_cons in E. destruct (apply_opt (GStruct n fs) o v) as [v1 r1] eqn:E1. destruct r1 as [[]| |]; try discriminate.
  assert (X := effect_of _ _ _ _ _ O To E1). assert (I1 := effect_inv _ _ _ _ O To I X). rewrite (IH _ _ I1 E). unfold final. cbn [fold_left]. f_equal.
  destruct (is_target (fm_name m) o) eqn:Q.
  - apply is_target_eq in Q. exact (effect_same _ _ _ _ _ _ _ O I X HP Q).
  - apply (effect_other _ _ _ _ _ _ _ O I X HP). intros Q'. apply is_target_eq in Q'. congruence.
Qed.
Lemma final_filter f os x : final f os x = final f (filter (is_target f) os) x.
Proof.
  revert x. induction os as [|o os IH]; intros x; [reflexivity|]. unfold final in *. cbn [fold_left filter]. destruct (is_target f o) eqn:E; cbn [fold_left]; [rewrite E|]; apply IH.
Qed.
Lemma final_id os f x : Forall (fun o => is_target f o = false) os -> final f os x = x.
Proof. intros H. unfold final. induction H as [|o os Ho H IH]; [reflexivity|]. cbn [fold_left]. now rewrite Ho. Qed.

(** ** The result of a constructor *)
Lemma contribution_random c : contribution c = None <-> random_id c = true.
Proof. destruct c; cbn; split; try discriminate; reflexivity. Qed.
Lemma construct_inv c os v e : construct c os = Ret (Some v) e ->
  arg_error c = None /\ (wants_option c = true -> os <> []) /\
  exists v0 r, apply_opts (call_ty c) os (init c) = (v0, r) /\ r <> Panic /\ e = err_of r /\ (strict c = true -> r = Ok tt) /\ post_error c v0 = None /\
    match contribution c with
    | None => v = v0
    | Some f => exists s, f v0 = Ok s /\ v = set_path p_sco_id (VStr (new_observable_identifier s (call_name c))) v0
    end.
Proof.
  rewrite construct_uniform. unfold uniform. destruct (arg_error c); [discriminate|]. destruct (wants_option c && null os) eqn:W; [discriminate|].
  intros E. split; [reflexivity|]. split; [intros W1 ->; rewrite W1 in W; discriminate|].
  destruct (apply_opts (call_ty c) os (init c)) as [v0 r]. exists v0, r. split; [reflexivity|]. unfold closing in E.
  assert (NP : r <> Panic) by (intros ->; discriminate). split; [exact NP|].
  assert (E' : match (if strict c then err_of r else None) with
      | Some e => Ret None (Some e)
      | None => match post_error c v0 with
          | Some e => Ret None (Some e)
          | None => match contribution c with
              | None => Ret (Some v0) (err_of r)
              | Some f => match f v0 with
                  | Ok s => Ret (Some (set_path p_sco_id (VStr (new_observable_identifier s (call_name c))) v0)) (err_of r)
                  | _ => Crashed end end end end = Ret (Some v) e) by (destruct r; [exact E|exact E|discriminate]). clear E.
  destruct (if strict c then err_of r else None) eqn:S; [discriminate|]. destruct (post_error c v0); [discriminate|].
  assert (ST : strict c = true -> r = Ok tt) by (intros St; rewrite St in S; destruct r as [[]| |]; [reflexivity|discriminate|contradiction]).
  destruct (contribution c) as [f|].
  - destruct (f v0) as [s| |]; try discriminate. injection E' as <- <-. repeat split; try assumption. eauto.
  - injection E' as <- <-. now repeat split.
Qed.
Lemma err_of_none r : err_of r = None -> r <> Panic -> r = Ok tt.
Proof. destruct r as [[]| |]; cbn; [reflexivity|discriminate|contradiction]. Qed.
Lemma construct_ok c os v : construct c os = Ret (Some v) None ->
  arg_error c = None /\ (wants_option c = true -> os <> []) /\
  exists v0, apply_opts (call_ty c) os (init c) = (v0, Ok tt) /\ post_error c v0 = None /\
    match contribution c with
    | None => v = v0
    | Some f => exists s, f v0 = Ok s /\ v = set_path p_sco_id (VStr (new_observable_identifier s (call_name c))) v0
    end.
Proof.
  intros H. apply construct_inv in H as (A & W & v0 & r & E & NP & Er & _ & P & C). split; [exact A|]. split; [exact W|].
  assert (r = Ok tt) as -> by (apply err_of_none; [now symmetry|exact NP]). eauto.
Qed.

Lemma sco_id_path c : random_id c = false -> exists m t, has_path (call_fields c) p_sco_id m t /\ fm_name m = "ID" /\ t = GString "Identifier".
Proof.
  intros R. assert (F : field_by_name (call_fields c) "ID" = Some (p_sco_id, GString "Identifier")) by (destruct c; try discriminate R; vm_compute; reflexivity).
  apply field_by_name_path in F as (m & H & E); [eauto|exact (call_opt c)|]. intros [Q|[Q|[Q|[]]]]; discriminate Q.
Qed.
Lemma id_prop c v x : random_id c = false -> shape (call_fields c) v -> prop c "ID" (set_path p_sco_id x v) = x.
Proof.
  intros R S. destruct (sco_id_path c R) as (m & t & H & E & _). rewrite <- E. rewrite (prop_path _ _ _ _ _ H). eapply get_set_same; eauto.
Qed.
Lemma id_other c v x p m t : random_id c = false -> shape (call_fields c) v -> has_path (call_fields c) p m t -> fm_name m <> "ID" ->
  get_path p (set_path p_sco_id x v) = get_path p v.
Proof.
  intros R S HP N. destruct (sco_id_path c R) as (m0 & t0 & H & E & _). eapply get_set_other; [exact (call_flat c)|exact S|exact H|exact HP|].
  intros ->. destruct (has_path_inj _ _ _ _ _ _ (call_flat c) H HP) as [<- _]. contradiction.
Qed.
Lemma id_other_prop c v x f : random_id c = false -> shape (call_fields c) v -> ~ In f ext_bases -> f <> "ID" ->
  prop c f (set_path p_sco_id x v) = prop c f v.
Proof.
  intros R S N Nf. destruct (prop_cases c f N) as [X|(p & m & t & H & E & X)]; rewrite !X; [reflexivity|]. eapply id_other; eauto. congruence.
Qed.

(** ** Properties of the returned object *)
Section R.
Variables (c : call) (os : list stix_option) (v : gval).
Hypothesis AT : args_typed c = true.
Hypothesis UO : Forall user_option os.
Hypothesis OK : construct c os = Ret (Some v) None.

Lemma result_shape : opt_inv (call_fields c) v.
Proof.
  apply construct_ok in OK as (_ & _ & v0 & E & _ & C). destruct (call_struct c) as [n Q]. rewrite Q in E.
  assert (I := apply_opts_inv _ _ _ (call_opt c) (user_tables _ UO) _ _ _ (init_inv c AT) E).
  destruct (contribution c) as [f|] eqn:F; [|now subst]. destruct C as (s & _ & ->).
  assert (R : random_id c = false) by (destruct (random_id c) eqn:R; [apply contribution_random in R; congruence|reflexivity]).
  destruct (sco_id_path c R) as (m & t & H & Em & Et). split; [eapply shape_set; [exact (call_flat c)|exact (proj1 I)|exact H]|].
  intros p m0 HP. rewrite (id_other c _ _ _ _ _ R (proj1 I) HP); [exact (proj2 I _ _ HP)|]. rewrite (os_ext _ (call_opt c) _ _ HP). discriminate.
Qed.
Lemma result_path p m t : has_path (call_fields c) p m t -> fm_name m <> "ID" ->
  get_path p v = final (fm_name m) os (match alookup (fm_name m) (all_props c) with Some x => x | None => zero t end).
Proof.
  intros HP N. apply construct_ok in OK as (_ & _ & v0 & E & _ & C). destruct (call_struct c) as [n Q]. rewrite Q in E.
  assert (I := apply_opts_inv _ _ _ (call_opt c) (user_tables _ UO) _ _ _ (init_inv c AT) E).
  rewrite <- (init_path c p m t HP), <- (opts_path _ _ _ _ _ _ (call_opt c) (user_tables _ UO) HP _ _ (init_inv c AT) E).
  destruct (contribution c) as [f|] eqn:F; [|now subst]. destruct C as (s & _ & ->).
  assert (R : random_id c = false) by (destruct (random_id c) eqn:R; [apply contribution_random in R; congruence|reflexivity]).
  eapply id_other; eauto. exact (proj1 I).
Qed.
End R.

Lemma no_id_target os f : Forall user_option os -> f = "ID" \/ f = "Type" -> Forall (fun o => is_target f o = false) os.
Proof.
  intros U F. eapply Forall_impl; [|exact U]. intros o H. destruct (is_target f o) eqn:Q; [|reflexivity]. apply is_target_eq in Q.
  destruct o as [|r x|k x]; cbn [target] in Q; [discriminate| |destruct F; subst; discriminate].
  destruct H as [H _]. destruct (row_field _ H) as (A & B & _). destruct F; subst; congruence.
Qed.

(** The contribution depends only on the contributing properties. *)
Lemma contribution_props c g v w : contribution c = Some g -> (forall f, In f (contributing c) -> prop c f v = prop c f w) -> g v = g w.
Proof.
  destruct c; cbn [contribution contributing]; intros Q H; try discriminate Q; injection Q as <-; try reflexivity; cbv beta.
  - assert (H1 := H "Hashes" ltac:(cbn; tauto)). assert (H2 := H "Payload" ltac:(cbn; tauto)).
    change (get_field "Hashes" v = get_field "Hashes" w) in H1. change (get_field "Payload" v = get_field "Payload" w) in H2.
    unfold artifact_parts, hash_part. now rewrite H1, H2.
  - assert (H1 := H "From" ltac:(cbn; tauto)). assert (H2 := H "Subject" ltac:(cbn; tauto)). assert (H3 := H "Body" ltac:(cbn; tauto)).
    change (get_field "From" v = get_field "From" w) in H1. change (get_field "Subject" v = get_field "Subject" w) in H2.
    change (get_field "Body" v = get_field "Body" w) in H3. unfold email_parts, str_field. now rewrite H1, H2, H3.
  - assert (H1 := H "Hashes" ltac:(cbn; tauto)). assert (H2 := H "Name" ltac:(cbn; tauto)). assert (H3 := H "Extensions" ltac:(cbn; tauto)).
    assert (H4 := H "ParentDirectory" ltac:(cbn; tauto)).
    change (get_field "Hashes" v = get_field "Hashes" w) in H1. change (get_field "Name" v = get_field "Name" w) in H2.
    change (get_path p_extensions v = get_path p_extensions w) in H3. change (get_field "ParentDirectory" v = get_field "ParentDirectory" w) in H4.
    unfold file_parts, str_field, hash_part, ext_part, canonicalize_extensions. now rewrite H1, H2, H3, H4.
  - assert (H1 := H "Start" ltac:(cbn; tauto)). assert (H2 := H "End" ltac:(cbn; tauto)). assert (H3 := H "Src" ltac:(cbn; tauto)).
    assert (H4 := H "Dst" ltac:(cbn; tauto)). assert (H5 := H "SrcPort" ltac:(cbn; tauto)). assert (H6 := H "DstPort" ltac:(cbn; tauto)).
    assert (H7 := H "Protocols" ltac:(cbn; tauto)). assert (H8 := H "Extensions" ltac:(cbn; tauto)).
    change (get_field "Start" v = get_field "Start" w) in H1. change (get_field "End" v = get_field "End" w) in H2.
    change (get_field "Src" v = get_field "Src" w) in H3. change (get_field "Dst" v = get_field "Dst" w) in H4.
    change (get_field "SrcPort" v = get_field "SrcPort" w) in H5. change (get_field "DstPort" v = get_field "DstPort" w) in H6.
    change (get_field "Protocols" v = get_field "Protocols" w) in H7. change (get_path p_extensions v = get_path p_extensions w) in H8.
    unfold network_parts, str_field, protocols_part, ext_part, canonicalize_extensions. now rewrite H1, H2, H3, H4, H5, H6, H7, H8.
  - assert (H1 := H "Key" ltac:(cbn; tauto)). assert (H2 := H "Values" ltac:(cbn; tauto)).
    change (get_field "Key" v = get_field "Key" w) in H1. change (get_field "Values" v = get_field "Values" w) in H2.
    unfold registry_parts, str_field. now rewrite H1, H2.
  - assert (H1 := H "Name" ltac:(cbn; tauto)). assert (H2 := H "CPE" ltac:(cbn; tauto)). assert (H3 := H "Vendor" ltac:(cbn; tauto)).
    assert (H4 := H "Version" ltac:(cbn; tauto)).
    change (get_field "Name" v = get_field "Name" w) in H1. change (get_field "CPE" v = get_field "CPE" w) in H2.
    change (get_field "Vendor" v = get_field "Vendor" w) in H3. change (get_field "Version" v = get_field "Version" w) in H4.
    unfold software_parts, str_field. now rewrite H1, H2, H3, H4.
  - assert (H1 := H "AccountType" ltac:(cbn; tauto)). assert (H2 := H "UserID" ltac:(cbn; tauto)). assert (H3 := H "AccountLogin" ltac:(cbn; tauto)).
    change (get_field "AccountType" v = get_field "AccountType" w) in H1. change (get_field "UserID" v = get_field "UserID" w) in H2.
    change (get_field "AccountLogin" v = get_field "AccountLogin" w) in H3. unfold user_parts, str_field. now rewrite H1, H2, H3.
  - assert (H1 := H "Hashes" ltac:(cbn; tauto)). assert (H2 := H "SerialNumber" ltac:(cbn; tauto)).
    change (get_field "Hashes" v = get_field "Hashes" w) in H1. change (get_field "SerialNumber" v = get_field "SerialNumber" w) in H2.
    unfold x509_parts, hash_part, str_field. now rewrite H1, H2.
Qed.
Lemma contributing_ok c f : In f (contributing c) -> ~ In f ext_bases /\ f <> "ID".
Proof.
  assert (X : forallb (fun f => negb (mem_str f ("ID" :: ext_bases))) (contributing c) = true) by (destruct c; reflexivity).
  rewrite forallb_forall in X. intros H. specialize (X _ H). apply negb_true_iff in X.
  assert (Y : ~ In f ("ID" :: ext_bases)) by (intros Q; apply mem_str_In in Q; congruence). cbn [In] in Y |- *. split; [tauto|]. intros ->. tauto.
Qed.
Lemma contribution_id c g v x : contribution c = Some g -> shape (call_fields c) v -> g (set_path p_sco_id x v) = g v.
Proof.
  intros G S. apply (contribution_props c g _ _ G). intros f Hf. destruct (contributing_ok _ _ Hf) as [N1 N2].
  apply id_other_prop; try assumption. destruct (random_id c) eqn:R; [apply contribution_random in R; congruence|reflexivity].
Qed.

(** The identifier. *)
Lemma result_id_value c os v : args_typed c = true -> Forall user_option os -> construct c os = Ret (Some v) None ->
  match contribution c with
  | None => prop c "ID" v = VStr (new_identifier rb (call_name c))
  | Some g => exists s, g v = Ok s /\ prop c "ID" v = VStr (new_observable_identifier s (call_name c))
  end.
Proof.
  intros AT UO OK. assert (OK' := OK). apply construct_ok in OK as (_ & _ & v0 & E & _ & C). destruct (call_struct c) as [n Q]. rewrite Q in E.
  assert (I := apply_opts_inv _ _ _ (call_opt c) (user_tables _ UO) _ _ _ (init_inv c AT) E).
  destruct (contribution c) as [g|] eqn:F.
  - destruct C as (s & G & ->). exists s.
    assert (R : random_id c = false) by (destruct (random_id c) eqn:R; [apply contribution_random in R; congruence|reflexivity]).
    rewrite (contribution_id _ _ _ _ F (proj1 I)), (id_prop _ _ _ R (proj1 I)). now split.
  - subst v. assert (HID : exists p m t, has_path (call_fields c) p m t /\ fm_name m = "ID").
    { assert (X : existsb (fun p => String.eqb (snd p) "ID") (all_paths (call_fields c)) = true) by (destruct c; vm_compute; reflexivity).
      apply contribution_random in F.
      assert (Y : exists pt, field_by_name (call_fields c) "ID" = Some pt) by (destruct c; try discriminate F; eexists; vm_compute; reflexivity).
      destruct Y as [[p t] Y]. apply field_by_name_path in Y as (m & H & Em); [eauto|exact (call_opt c)|]. intros [W|[W|[W|[]]]]; discriminate W. }
    destruct HID as (p & m & t & HP & Em). rewrite <- Em, (prop_path _ _ _ _ _ HP).
    rewrite (opts_path _ _ _ _ _ _ (call_opt c) (user_tables _ UO) HP _ _ (init_inv c AT) E), Em, final_id by (apply no_id_target; [exact UO|now left]).
    rewrite (init_path _ _ _ _ HP), Em. unfold all_props, base_props. apply contribution_random in F. rewrite F. reflexivity.
Qed.
Lemma result_type c os v : args_typed c = true -> Forall user_option os -> construct c os = Ret (Some v) None ->
  prop c "Type" v = VStr (call_name c).
Proof.
  intros AT UO OK.
  assert (Y : exists pt, field_by_name (call_fields c) "Type" = Some pt) by (destruct c; eexists; vm_compute; reflexivity).
  destruct Y as [[p t] Y]. apply field_by_name_path in Y as (m & HP & Em); [|exact (call_opt c)|intros [W|[W|[W|[]]]]; discriminate W].
  rewrite <- Em, (prop_path _ _ _ _ _ HP). rewrite (result_path _ _ _ AT UO OK _ _ _ HP) by (rewrite Em; discriminate).
  rewrite Em, final_id by (apply no_id_target; [exact UO|now right]). unfold all_props, base_props. reflexivity.
Qed.

(** ** Types of the properties *)
Lemma go_user os : Forall go_option os -> Forall user_option os.
Proof. intros H. eapply Forall_impl; [|exact H]. intros o [U _]. exact U. Qed.
Lemma effect_storable n fs o v v' : opt_struct fs -> go_option o -> storable (GStruct n fs) v = true -> effect fs o v v' -> storable (GStruct n fs) v' = true.
Proof.
  intros O [U G] S E. destruct E as [v|r x p m ft v HP Nm K A|k x p m v HP Nm].
  - exact S.
  - destruct U as [Hr Tx]. eapply st_set_path; [exact (os_flat _ O)|exact S|exact HP|]. apply typed_storable.
    eapply assignable_typed; [exact Hr|exact A| |exact Tx]. intros ->. destruct (row_field _ Hr) as (_ & _ & N & _).
    apply N. rewrite <- Nm. eapply (os_ext _ O); eauto.
  - eapply st_set_path; [exact (os_flat _ O)|exact S|exact HP|]. cbn [storable].
    assert (X := st_path _ _ _ _ _ _ (os_flat _ O) S HP).
    assert (Y : msorted (old_map (get_path p v)) = true /\ forallb (fun kv => storable GIface (snd kv)) (old_map (get_path p v)) = true).
    { destruct (get_path p v); cbn [old_map]; try (split; reflexivity). cbn [storable] in X. now apply andb_true_iff in X. }
    apply minsert_forall; [exact (proj1 Y)|exact (proj2 Y)|exact G].
Qed.
Lemma opts_storable n fs os : opt_struct fs -> Forall go_option os -> forall v v' r, storable (GStruct n fs) v = true ->
  apply_opts (GStruct n fs) os v = (v', r) -> storable (GStruct n fs) v' = true.
Proof.
  intros O T. induction T as [|o os To T IH]; intros v v' r S E; [injection E as <- _; exact S|].
  rewrite apply_opts_cons in E. destruct (apply_opt (GStruct n fs) o v) as [v1 r1] eqn:E1. destruct r1 as [[]|e|].
  - assert (X := effect_of _ _ _ _ _ O (user_table _ (proj1 To)) E1). eapply IH; [|exact E]. eapply effect_storable; eauto.
  - injection E as <- _. assert (v1 = v) as -> by (eapply apply_opt_fail; [exact E1|discriminate]). exact S.
  - injection E as <- _. assert (v1 = v) as -> by (eapply apply_opt_fail; [exact E1|discriminate]). exact S.
Qed.
Lemma result_storable c os v e : args_typed c = true -> Forall go_option os -> construct c os = Ret (Some v) e -> storable (call_ty c) v = true.
Proof.
  intros AT GO OK. apply construct_inv in OK as (_ & _ & v0 & r & E & _ & _ & _ & _ & C). assert (T := init_typed c AT). apply typed_storable in T.
  destruct (call_struct c) as [n Q]. rewrite Q in *. assert (S := opts_storable _ _ _ (call_opt c) GO _ _ _ T E).
  destruct (contribution c) as [f|] eqn:F; [|now subst]. destruct C as (s & _ & ->).
  assert (R : random_id c = false) by (destruct (random_id c) eqn:R; [apply contribution_random in R; congruence|reflexivity]).
  destruct (sco_id_path c R) as (m & t & H & Em & ->). eapply st_set_path; [exact (call_flat c)|exact S|exact H|reflexivity].
Qed.
Lemma result_prop_storable c os v e p m t : args_typed c = true -> Forall go_option os -> construct c os = Ret (Some v) e ->
  has_path (call_fields c) p m t -> storable t (get_path p v) = true.
Proof.
  intros AT GO OK HP. assert (S := result_storable _ _ _ _ AT GO OK). destruct (call_struct c) as [n Q]. rewrite Q in S.
  eapply st_path; [exact (call_flat c)|exact S|exact HP].
Qed.

(** ** The values checked after the options *)
Lemma post_error_props c v w : (forall f, In f ["FirstSeen"; "LastSeen"; "Precision"; "Name"; "Count"; "Payload"; "URL"; "Hashes"; "Src"; "Dst"] ->
  get_field f v = get_field f w) -> post_error c v = post_error c w.
Proof.
  intros H. destruct c; cbn [post_error]; cbv zeta; try reflexivity; unfold bad_seen, str_field;
  rewrite ?(H "FirstSeen") by (cbn; tauto); rewrite ?(H "LastSeen") by (cbn; tauto); rewrite ?(H "Precision") by (cbn; tauto);
  rewrite ?(H "Name") by (cbn; tauto); rewrite ?(H "Count") by (cbn; tauto); rewrite ?(H "Payload") by (cbn; tauto);
  rewrite ?(H "URL") by (cbn; tauto); rewrite ?(H "Hashes") by (cbn; tauto); rewrite ?(H "Src") by (cbn; tauto);
  rewrite ?(H "Dst") by (cbn; tauto); reflexivity.
Qed.
Lemma result_post c os v : args_typed c = true -> Forall user_option os -> construct c os = Ret (Some v) None -> post_error c v = None.
Proof.
  intros AT UO OK. apply construct_ok in OK as (_ & _ & v0 & E & P & C). destruct (contribution c) as [f|] eqn:F; [|now subst]. destruct C as (s & _ & ->).
  rewrite <- P. apply post_error_props. intros g Hg. cbn [set_path p_sco_id]. apply set_field_other. cbn [In] in Hg. intuition (subst; discriminate).
Qed.
Lemma result_args c os v e : construct c os = Ret (Some v) e -> arg_error c = None.
Proof. intros H. now apply construct_inv in H as (A & _). Qed.
End C.
