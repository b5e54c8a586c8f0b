(** GetID, GetType, GetCreated, GetModified and GetExtendedTopLevelProperties of
    objects that were read: C64. *)
From Verif Require Import GoStr GoStrFacts JsonStr StrSpec StrSpecFacts JsonSpec JsonSpecFacts Json JsonFacts Float Consts GoTypes Schema GoVal GoValFacts Time TimeSpec TimeSpecFacts NumSpec Codec CodecSpec CodecFacts StructFacts CodecRound ObjFacts TypedFacts
  DataTypes Ident Collection CollectionSpec FromJson FromJsonSpec FromJsonFacts ReadFacts IndepFacts ParseFacts BundleFacts FromJsonProps PropCodec PropFromJson ReadSpec ReadMeaning ReadExact PropRead Getters.

(** [s] is what the member [k] of the object says, [""] if there is none. *)
Definition says_string (ms : list (string * json)) (k : string) (s : string) : Prop :=
  (named k ms = [] -> s = ""%string) /\
  (forall n x, named k ms = [(n, x)] -> (x = JNull /\ s = ""%string) \/ exists raw, x = JStr raw /\ str_means raw s).
(** [o] is the instant the member [k] of the object says, if any. *)
Definition says_time (ms : list (string * json)) (k : string) (o : option Z) : Prop :=
  (named k ms = [] -> o = None) /\
  (forall n x, named k ms = [(n, x)] -> (x = JNull /\ o = None) \/ exists raw z, x = JStr raw /\ time_text raw z /\ o = Some z).

Lemma means_struct_inv rnd n fs ms v : means rnd (GStruct n fs) (JObj ms) v ->
  (forall k p t, In (k, p, t) (flat_fields fs) -> named k ms = [] -> get_path p v = zero t) /\
  (forall k p t kx, In (k, p, t) (flat_fields fs) -> named k ms = [kx] -> means rnd t (snd kx) (get_path p v)).
Proof. inversion 1; subst. auto. Qed.
Lemma means_says_string rnd n fs ms v0 k p sn : means rnd (GStruct n fs) (JObj ms) v0 -> In (k, p, GString sn) (flat_fields fs) ->
  forall s, get_path p v0 = VStr s -> says_string ms k s.
Proof.
  intros M I s G. apply means_struct_inv in M as [M1 M2]. split.
  - intros N. assert (X := M1 _ _ _ I N). rewrite G in X. now injection X.
  - intros a x N. assert (X := M2 _ _ _ _ I N). rewrite G in X. cbn [snd] in X. inversion X; subst; [left; auto|right; eauto].
Qed.
Lemma means_says_time rnd n fs ms v0 k p : means rnd (GStruct n fs) (JObj ms) v0 -> In (k, p, GPtr GTime) (flat_fields fs) ->
  says_time ms k (ptr_time (get_path p v0)).
Proof.
  intros M I. apply means_struct_inv in M as [M1 M2]. split.
  - intros N. now rewrite (M1 _ _ _ I N).
  - intros a x N. assert (X := M2 _ _ _ _ I N). cbn [snd] in X. remember (get_path p v0) as w eqn:W. clear W. inversion X as [| | | | | | | | | |t j w' NJ Y| | | | | | | | | | | |]; subst; [left; auto|]. right.
    inversion Y; subst; [contradiction|]. cbn. eauto.
Qed.

(** Where the getters look. *)
Definition holds (fs : list (fmeta * gty)) (k : string) (p : fpath) (str : bool) : bool :=
  existsb (fun e => match e with (k', p', t) => String.eqb k' k && fpath_eqb p' p &&
    match t with GString _ => str | GPtr GTime => negb str | _ => false end end) (flat_fields fs).
Lemma holds_string fs k p : holds fs k p true = true -> exists n, In (k, p, GString n) (flat_fields fs).
Proof.
  unfold holds. rewrite existsb_exists. intros ([[k' p'] t] & I & H). rewrite !andb_true_iff in H. destruct H as [[A B] C]. apply String.eqb_eq in A as ->. apply fpath_eqb_eq in B as ->.
  destruct t; try discriminate C; eauto. destruct t; discriminate C.
Qed.
Lemma holds_time fs k p : holds fs k p false = true -> In (k, p, GPtr GTime) (flat_fields fs).
Proof.
  unfold holds. rewrite existsb_exists. intros ([[k' p'] t] & I & H). rewrite !andb_true_iff in H. destruct H as [[A B] C]. apply String.eqb_eq in A as ->. apply fpath_eqb_eq in B as ->.
  destruct t; try discriminate C. destruct t; try discriminate C. exact I.
Qed.
Definition observable (t : gty) : bool :=
  match t with GStruct _ fs => match find (fun ft : fmeta * gty => fm_embed (fst ft)) fs with Some (m, _) => String.eqb (fm_name m) "STIXCyberObservableObject" | None => false end | _ => false end.
Lemma getter_table : forallb (fun kv => match snd kv with GStruct n fs =>
    let t := GStruct n fs in
    holds fs "id" (field_path t "ID") true && holds fs "type" (field_path t "Type") true &&
    (observable t || holds fs "created" (field_path t "Created") false && (String.eqb n "MarkingDefinition" || holds fs "modified" (field_path t "Modified") false))
  | _ => false end) builtin_types = true.
Proof. vm_compute. reflexivity. Qed.

(** The observables of the standard: the objects without "created". *)
Definition observable_types : list string :=
  [TypeArtifact; TypeAutonomousSystem; TypeDirectory; TypeDomainName; TypeEmailAddress; TypeEmailMessage; TypeFile; TypeIPv4Addr; TypeIPv6Addr;
   TypeMACAddress; TypeMutex; TypeNetworkTraffic; TypeProcess; TypeSoftware; TypeURL; TypeUserAccount; TypeRegistryKey; TypeX509Certificate].
Lemma observable_iff name t : In (name, t) builtin_types -> observable t = mem_str name observable_types.
Proof.
  assert (X : forallb (fun kv => Bool.eqb (observable (snd kv)) (mem_str (fst kv) observable_types)) builtin_types = true) by (vm_compute; reflexivity).
  rewrite forallb_forall in X. intros H. specialize (X _ H). now apply Bool.eqb_prop in X.
Qed.

Lemma names_table : forallb (fun kv => match snd kv with GStruct n fs =>
    let base := match find (fun ft : fmeta * gty => fm_embed (fst ft)) fs with Some _ => true | None => false end in
    Bool.eqb (String.eqb n "ExtensionDefinition" && negb base) (String.eqb (fst kv) TypeExtensionDefinition) &&
    Bool.eqb (String.eqb n "MarkingDefinition" && negb base) (String.eqb (fst kv) TypeMarkingDefinition)
  | _ => false end) builtin_types = true.
Proof. vm_compute. reflexivity. Qed.

(** [r] is the result of a getter of an object of type [name] for the instant
    the member [k] says.  The getters of extension definitions panic when there
    is none. *)
Definition time_result (name : string) (ms : list (string * json)) (k : string) (r : res (option Z)) : Prop :=
  exists o, says_time ms k o /\
    r = match o with Some z => Ok (Some z) | None => if String.eqb name TypeExtensionDefinition then Panic else Ok None end.

Lemma getters_of rnd name n fs ms v v0 : In (name, GStruct n fs) builtin_types -> means rnd (GStruct n fs) (JObj ms) v0 ->
  (forall k p t, In (k, p, t) (flat_fields fs) -> get_path p v = get_path p v0) ->
  let o := (GStruct n fs, v) in
  (forall s, obj_id o = Ok s -> says_string ms "id" s) /\ (forall s, obj_type o = Ok s -> says_string ms "type" s) /\
  (In name observable_types -> obj_created o = Ok None /\ obj_modified o = Ok None) /\
  (~ In name observable_types -> time_result name ms "created" (obj_created o)) /\
  (~ In name observable_types -> name <> TypeMarkingDefinition -> time_result name ms "modified" (obj_modified o)) /\
  (name = TypeMarkingDefinition -> obj_modified o = Ok None).
Proof.
  intros H M A o. assert (T := getter_table). rewrite forallb_forall in T. specialize (T _ H). cbn [snd] in T. cbv zeta in T.
  assert (NT := names_table). rewrite forallb_forall in NT. specialize (NT _ H). cbn [fst snd] in NT. cbv zeta in NT.
  assert (OI := observable_iff _ _ H).
  rewrite !andb_true_iff in T. destruct T as [[T1 T2] T3]. apply andb_true_iff in NT as [N1 N2]. apply Bool.eqb_prop in N1, N2.
  assert (TR : forall f k, In (k, field_path (GStruct n fs) f, GPtr GTime) (flat_fields fs) -> observable (GStruct n fs) = false ->
    (String.eqb n "MarkingDefinition" && String.eqb f "Modified" = false \/ name <> TypeMarkingDefinition) -> time_result name ms k (obj_time f k o)).
  { intros f k I NO NM. exists (ptr_time (get_path (field_path (GStruct n fs) f) v0)). split; [eapply means_says_time; eauto|].
    unfold obj_time, o. cbn [fst snd]. rewrite (A _ _ _ I). unfold observable in NO.
    destruct (find _ fs) as [[m tb]|] eqn:F.
    - rewrite NO. rewrite andb_false_r in N1. rewrite <- N1. now destruct (ptr_time _).
    - rewrite andb_true_r in N1, N2. rewrite N1. destruct (String.eqb name TypeExtensionDefinition) eqn:E.
      + now destruct (ptr_time _).
      + replace (String.eqb n "MarkingDefinition" && String.eqb f "Modified") with false; [now destruct (ptr_time _)|]. symmetry. destruct NM as [NM|NM]; [exact NM|].
        rewrite N2. apply String.eqb_neq in NM. now rewrite NM. }
  split; [|split; [|split; [|split; [|split]]]].
  - intros s E. unfold obj_id, obj_field, o in E. cbn [fst snd] in E. apply holds_string in T1 as (sn & I). rewrite (A _ _ _ I) in E.
    destruct (get_path _ v0) eqn:G; try discriminate E. assert (s0 = s) by congruence. subst. eapply means_says_string; eauto.
  - intros s E. unfold obj_type, obj_field, o in E. cbn [fst snd] in E. apply holds_string in T2 as (sn & I). rewrite (A _ _ _ I) in E.
    destruct (get_path _ v0) eqn:G; try discriminate E. assert (s0 = s) by congruence. subst. eapply means_says_string; eauto.
  - intros I. apply mem_str_In in I. rewrite I in OI. unfold obj_created, obj_modified, obj_time, o. cbn [fst snd]. unfold observable in OI. destruct (find _ fs) as [[m tb]|]; [|discriminate OI]. rewrite OI. auto.
  - intros NI. assert (NO : observable (GStruct n fs) = false) by (rewrite OI; destruct (mem_str name observable_types) eqn:E; [apply mem_str_In in E; contradiction|reflexivity]).
    rewrite NO in T3. cbn [orb] in T3. apply andb_true_iff in T3 as [T3 _]. apply TR; [now apply holds_time|exact NO|]. left. now rewrite andb_false_r.
  - intros NI NM. assert (NO : observable (GStruct n fs) = false) by (rewrite OI; destruct (mem_str name observable_types) eqn:E; [apply mem_str_In in E; contradiction|reflexivity]).
    rewrite NO in T3. cbn [orb] in T3. apply andb_true_iff in T3 as [_ T3]. apply TR; [|exact NO|now right]. apply holds_time.
    destruct (String.eqb n "MarkingDefinition") eqn:E; [|exact T3]. cbn [orb andb] in N2. unfold observable in NO.
    destruct (find _ fs) as [[m tb]|] eqn:F.
    + exfalso. assert (X : forallb (fun kv : string * gty => match snd kv with GStruct n fs => negb (String.eqb n "MarkingDefinition") || match find (fun ft : fmeta * gty => fm_embed (fst ft)) fs with Some _ => false | None => true end | _ => true end) builtin_types = true) by (vm_compute; reflexivity).
      rewrite forallb_forall in X. specialize (X _ H). cbn [snd] in X. rewrite E, F in X. discriminate X.
    + cbn in N2. symmetry in N2. apply String.eqb_eq in N2. contradiction.
  - intros ->. rewrite String.eqb_refl in N2. apply andb_true_iff in N2 as [E1 E2]. unfold obj_modified, obj_time, o. cbn [fst snd].
    destruct (find _ fs) as [[m tb]|]; [discriminate E2|]. rewrite E1. apply String.eqb_eq in E1 as ->. reflexivity.
Qed.

(** Objects of built-in types read by FromJSON: each getter returns what the
    member of that name says; observables have no times and markings no
    modification time. *)
Theorem document_getters_partial : forall rnd cf js s c, document js s -> from_json rnd cf s = Ok c -> (forall typ, parser_of cf typ = None) ->
  exists outs, c = collect (cf_nosort cf) outs /\ Forall acceptable outs /\
  Forall2 (fun j o => forall name t v, o = Some (t, v) -> In (name, t) builtin_types -> exists ms id ty, j = JObj ms /\
     obj_id (t, v) = Ok id /\ says_string ms "id" id /\
     obj_type (t, v) = Ok ty /\ says_string ms "type" ty /\
     (In name observable_types -> obj_created (t, v) = Ok None /\ obj_modified (t, v) = Ok None) /\
     (~ In name observable_types -> time_result name ms "created" (obj_created (t, v))) /\
     (~ In name observable_types -> name <> TypeMarkingDefinition -> time_result name ms "modified" (obj_modified (t, v))) /\
     (name = TypeMarkingDefinition -> obj_modified (t, v) = Ok None)) js outs.
Proof.
  intros rnd cf js s c D E NP. destruct (document_means rnd cf js s c D E NP) as (outs & -> & A & F). exists outs. split; [reflexivity|]. split; [exact A|].
  clear D E. induction F as [|j o js outs H F IH]; [constructor|]. apply Forall_cons_iff in A as [Ao A]. constructor; [|auto].
  intros name t v -> Hb. destruct (H _ _ eq_refl) as (ms & -> & [[-> _]|(name' & n & fs & v0 & -> & Hb' & M & G)]).
  { exfalso. destruct (builtin_facts _ _ Hb) as (n & fs & Q & _). discriminate Q. }
  destruct Ao as (id & ty & I & T & _). exists ms, id, ty. destruct (getters_of rnd name n fs ms v v0 Hb M G) as (G1 & G2 & G3 & G4 & G5 & G6).
  split; [reflexivity|]. split; [exact I|]. split; [now apply G1|]. split; [exact T|]. split; [now apply G2|]. auto.
Qed.
Print Assumptions document_getters_partial.

(** Custom objects read by FromJSON: identifier and type are the strings of
    their members; the times are those of the members when these are strings,
    nil for a string that is no time, and the getters panic on other values. *)
Definition custom_time (ms : list (string * json)) (k : string) (r : res (option Z)) : Prop :=
  (~ In k (map fst ms) /\ r = Ok None) \/
  (exists x, final_member k ms x /\
     ((exists raw s o, x = JStr raw /\ str_means raw s /\ r = Ok o /\ forall z, o = Some z <-> time_text s z) \/
      ((forall raw, x <> JStr raw) /\ r = Panic))).
Lemma final_exists k : forall ms : list (string * json), In k (map fst ms) -> exists x, final_member k ms x.
Proof.
  induction ms as [|[k' x'] ms IH]; [destruct 1|]. intros H. destruct (in_dec string_dec k (map fst ms)) as [I|N].
  - destruct (IH I) as (x & a & b & -> & Nb). exists x, ((k', x') :: a), b. split; [reflexivity|exact Nb].
  - destruct H as [H|H]; [|contradiction]. cbn in H. subst. exists x', [], ms. split; [reflexivity|exact N].
Qed.
Lemma custom_members rnd ms v : means rnd ty_CustomObject (JObj ms) v -> exists m, v = VMap m /\ forall k,
  (~ In k (map fst ms) -> alookup k m = None) /\ (forall x, final_member k ms x -> exists w, alookup k m = Some w /\ means rnd GIface x w).
Proof.
  intros M. inversion M as [| | | | | | | | | | | | |n kt t ms' m S K V| | | | | | | | |]; subst. exists m. split; [reflexivity|]. intros k. split.
  - intros N. destruct (alookup k m) eqn:L; [|reflexivity]. exfalso. apply N. apply K. apply alookup_Some_In in L. now apply (in_map fst) in L.
  - intros x F. assert (I : In k (akeys ms)) by (destruct F as (a & b & -> & _); unfold akeys; rewrite map_app, in_app_iff; right; now left).
    apply K in I. apply lookup_In_some in I as (w & L). eauto.
Qed.
Lemma custom_time_of rnd ms v k : means rnd ty_CustomObject (JObj ms) v -> custom_time ms k (co_time k v).
Proof.
  intros M. destruct (custom_members _ _ _ M) as (m & -> & K). destruct (K k) as [K1 K2]. unfold co_time. cbn [map_get].
  destruct (in_dec string_dec k (map fst ms)) as [I|N]; [|left; split; [exact N|now rewrite (K1 N)]].
  destruct (final_exists k ms I) as (x & F). destruct (K2 x F) as (w & L & MI). right. exists x. split; [exact F|]. rewrite L.
  inversion MI; subst; cbn [as_string zero bind]; try (right; split; [congruence|reflexivity]).
  left. exists raw, s, (ts_parse s). split; [reflexivity|]. split; [assumption|]. split; [reflexivity|]. intros z. apply parse_exact.
Qed.
Theorem custom_getters_partial : forall rnd cf js s c, document js s -> from_json rnd cf s = Ok c -> (forall typ, parser_of cf typ = None) ->
  exists outs, c = collect (cf_nosort cf) outs /\ Forall acceptable outs /\
  Forall2 (fun j o => forall v, o = Some (ty_CustomObject, v) -> exists ms id ty, j = JObj ms /\
     obj_id (ty_CustomObject, v) = Ok id /\ (exists raw, final_member "id" ms (JStr raw) /\ str_means raw id) /\
     obj_type (ty_CustomObject, v) = Ok ty /\ (exists raw, final_member "type" ms (JStr raw) /\ str_means raw ty) /\
     custom_time ms "created" (obj_created (ty_CustomObject, v)) /\ custom_time ms "modified" (obj_modified (ty_CustomObject, v)) /\
     obj_extended (ty_CustomObject, v) = v) js outs.
Proof.
  intros rnd cf js s c D E NP. destruct (document_means rnd cf js s c D E NP) as (outs & -> & A & F). exists outs. split; [reflexivity|]. split; [exact A|].
  clear D E. induction F as [|j o js outs H F IH]; [constructor|]. apply Forall_cons_iff in A as [Ao A]. constructor; [|auto].
  intros v ->. destruct (H _ _ eq_refl) as (ms & -> & [[_ M]|(name' & n & fs & v0 & Q & _)]); [|discriminate Q].
  destruct Ao as (id & ty & I & T & V). exists ms, id, ty. 
  assert (X : forall k s, co_field k v = Ok s -> s <> ""%string -> exists raw, final_member k ms (JStr raw) /\ str_means raw s).
  { intros k s0 Q NE. destruct (custom_members _ _ _ M) as (m & -> & K). destruct (K k) as [K1 K2]. unfold co_field in Q. cbn [map_get] in Q.
    destruct (in_dec string_dec k (map fst ms)) as [Ik|N]; [|rewrite (K1 N) in Q; congruence].
    destruct (final_exists k ms Ik) as (x & Fx). destruct (K2 x Fx) as (w & L & MI). rewrite L in Q. inversion MI; subst; try discriminate Q. cbn in Q. exists raw. split; [exact Fx|congruence]. }
  split; [reflexivity|]. split; [exact I|]. split; [apply X; [exact I|]|].
  { intros ->. discriminate V. }
  split; [exact T|]. split; [apply X; [exact T|]|].
  { intros ->. unfold has_valid_identifier in V. destruct (split_dd id) as [|p0 [|u [|]]]; try discriminate V.
    destruct (String.eqb p0 ""); discriminate V. }
  split; [exact (custom_time_of _ _ _ "created" M)|]. split; [exact (custom_time_of _ _ _ "modified" M)|reflexivity].
Qed.
Print Assumptions custom_getters_partial.

(** GetExtendedTopLevelProperties of what FromJSON read: the properties [props_of]
    that C10 and C57 speak of, nil when there are none. *)
Theorem document_extended : forall rnd cf js s c, document js s -> from_json rnd cf s = Ok c -> (forall typ, parser_of cf typ = None) ->
  exists outs, c = collect (cf_nosort cf) outs /\ Forall acceptable outs /\
  Forall (fun o => forall name t v, o = Some (t, v) -> In (name, t) builtin_types ->
     obj_extended (t, v) = match props_of t v with [] => VNil | l => VMap l end) outs.
Proof.
  intros rnd cf js s c D E NP. destruct (outputs _ _ _ _ _ D E) as (outs & -> & A & F). exists outs. split; [reflexivity|]. split; [exact A|].
  apply document_ok in D. clear E A. induction F as [|j o js outs (ts & C) F IH]; [constructor|]. cbn [forallb] in D. apply andb_true_iff in D as [Oj D]. constructor; [|auto].
  intros name t v -> Hb. apply contributes_builds in C as [C|(typ & B & _)]; [discriminate|].
  destruct (builtin_read _ _ Hb) as (n & fs & -> & _ & _ & _ & _ & _ & _ & FO & _).
  inversion B as [h t' v0 v' l P Hh U Dr|t' v' l P Hb' U Dr|v' P Hb' Dr U|P Hb' Dr]; subst.
  - rewrite NP in P. discriminate.
  - apply (unmarshal_dec rnd) in U; [|exact Oj]. assert (Sh := dec_shape rnd _ _ _ _ _ FO U). assert (M := builtin_sound _ _ _ _ _ Hb' Oj U).
    unfold obj_extended, props_of. cbn [fst snd]. destruct (props_path (GStruct n fs)) as [q|] eqn:PP; [|reflexivity].
    destruct (builtin_props _ _ _ _ Hb' PP) as (m' & HP' & K'). unfold add_props. rewrite PP. destruct l as [|kv l].
    + assert (Z : get_path q v' = VNil).
      { inversion M as [t0 ? Q| | | | | | | | | | | | | | | | | | | | |n0 fs0 ms v0 S0 Z0 _ _ Q1 Q2|]; subst.
        - cbn [zero] in Sh. exact (zero_path n _ _ _ _ FO HP').
        - exact (Z0 _ _ _ HP' K'). }
      now rewrite Z.
    + now rewrite (get_set_same _ _ _ _ _ _ Sh HP').
Qed.
Print Assumptions document_extended.

(** The full statement is false: FromJSON takes an extension definition without
    "created", and a custom object whose "created" is a number; GetCreated then
    panics. *)
Definition ext_def : json := JObj [("type", JStr "extension-definition"); ("id", JStr "extension-definition--9c59fd79-4215-4ba2-920d-3e4f320e1e62")].
Definition x_new : json := JObj [("type", JStr "x-new"); ("id", JStr "x-new--9c59fd79-4215-4ba2-920d-3e4f320e1e62"); ("created", JNum "5")].
Definition read_as (j : json) (t : gty) : gval := match unmarshal rnd_id (print j) t (zero t) with Ok v => v | _ => VNil end.
Theorem getters_refuted : exists v1 v2,
  document [ext_def] (alone ext_def) /\ from_json rnd_id default_cf (alone ext_def) = Ok (collect false [Some (ty_ExtensionDefinition, v1)]) /\
  acceptable (Some (ty_ExtensionDefinition, v1)) /\ obj_created (ty_ExtensionDefinition, v1) = Panic /\
  document [x_new] (alone x_new) /\ from_json rnd_id default_cf (alone x_new) = Ok (collect false [Some (ty_CustomObject, v2)]) /\
  acceptable (Some (ty_CustomObject, v2)) /\ obj_created (ty_CustomObject, v2) = Panic.
Proof.
  exists (read_as ext_def ty_ExtensionDefinition), (read_as x_new ty_CustomObject).
  split; [apply doc_array, json_exact; vm_compute; reflexivity|]. split; [vm_compute; reflexivity|].
  split; [exists "extension-definition--9c59fd79-4215-4ba2-920d-3e4f320e1e62"%string, "extension-definition"%string; vm_compute; auto|].
  split; [vm_compute; reflexivity|]. split; [apply doc_array, json_exact; vm_compute; reflexivity|]. split; [vm_compute; reflexivity|].
  split; [exists "x-new--9c59fd79-4215-4ba2-920d-3e4f320e1e62"%string, "x-new"%string; vm_compute; auto|]. vm_compute. reflexivity.
Qed.
Print Assumptions getters_refuted.

(** Non-vacuity: a malware object with times and one extended property, and a
    custom object with a time. *)
Definition mal_times : json := mal [("created", JStr "1970-01-01T00:00:02Z"); ("x_more", JBool true)].
Definition x_time : json := JObj [("type", JStr "x-new"); ("id", JStr "x-new--9c59fd79-4215-4ba2-920d-3e4f320e1e62"); ("created", JStr "1970-01-01T00:00:02Z")].
Example document_getters_ex :
  from_json rnd_id default_cf (print (JArr [mal_times; x_time])) =
    Ok (collect false [Some (ty_Malware, add_props ty_Malware [("x_more", VDyn GBool (VBool true))] (read_as mal_times ty_Malware)); Some (ty_CustomObject, read_as x_time ty_CustomObject)]) /\
  (let m := (ty_Malware, add_props ty_Malware [("x_more", VDyn GBool (VBool true))] (read_as mal_times ty_Malware)) in
   obj_created m = Ok (Some 2000000000%Z) /\ obj_modified m = Ok None /\ obj_extended m = VMap [("x_more", VDyn GBool (VBool true))]) /\
  obj_created (ty_CustomObject, read_as x_time ty_CustomObject) = Ok (Some 2000000000%Z).
Proof. split; [vm_compute; reflexivity|]. split; [cbv zeta; split; [vm_compute; reflexivity|split; vm_compute; reflexivity]|vm_compute; reflexivity]. Qed.
