(** Properties of the JSON codec: C19, C20, C22, C23, C24, C25, C34, C54, C55,
    C56. *)
From Verif Require Import GoStr GoStrFacts JsonStr JsonStrFacts Json JsonFacts Float FloatFacts Consts Enums
  GoTypes Schema GoVal GoValFacts Time TimeFacts Base64 Base64Facts Codec CodecSpec CodecFacts StructFacts CodecRound ObjFacts
  TypedFacts StoreFacts DataTypes DataTypesFacts Tlp Ident.

(** ** C19 *)
(** The properties of an object type with marshalToJSONHelper: [has_path fs p m
    t] lists its fields, own or in the embedded base struct. *)
Theorem encode_fails_iff : forall name n fs v,
  In (name, GStruct n fs) builtin_types -> In n helper_types ->
  storable (GStruct n fs) v = true ->
  (forall k, In k (akeys (props_of (GStruct n fs) v)) -> ~ In k (own_keys (GStruct n fs))) ->
  marshal (GStruct n fs) v <> Panic /\
  ((exists e, marshal (GStruct n fs) v = Err e) <->
   (exists p m t, has_path fs p m t /\ fm_key m <> "" /\
      ((fm_omit m = false /\ is_zero (get_path p v) = true /\ is_bool_val (get_path p v) = false) \/
       fin t (get_path p v) = false)) \/
   (exists k x, In (k, x) (props_of (GStruct n fs) v) /\ fin GIface x = false)).
Proof.
  intros name n fs v H Hn W A. apply mem_str_In in Hn.
  destruct (builtin_cases _ _ H) as (n' & fs' & Q & [(M & O & P)|(M & O & P)]); injection Q as <- <-; [|congruence].
  unfold marshal. cbn [ty_name]. rewrite Hn. now apply st_obj_fails.
Qed.
Print Assumptions encode_fails_iff.

Theorem encode_members : forall name n fs v j,
  In (name, GStruct n fs) builtin_types -> In n helper_types ->
  storable (GStruct n fs) v = true ->
  (forall k, In k (akeys (props_of (GStruct n fs) v)) -> ~ In k (own_keys (GStruct n fs))) ->
  marshal (GStruct n fs) v = Ok j ->
  exists ms, j = JObj ms /\ NoDup (akeys ms) /\
    (forall p m t, has_path fs p m t -> fm_key m <> "" ->
       match alookup (fm_key m) ms with
       | Some jx => enc t (get_path p v) = Ok jx /\ (is_bool_val (get_path p v) = true \/ is_zero (get_path p v) = false)
       | None => is_bool_val (get_path p v) = false /\ is_zero (get_path p v) = true /\ fm_omit m = true
       end) /\
    (forall k x, In (k, x) (props_of (GStruct n fs) v) -> exists jx, alookup k ms = Some jx /\ enc GIface x = Ok jx) /\
    (forall k, In k (akeys ms) -> In k (own_keys (GStruct n fs)) \/ In k (akeys (props_of (GStruct n fs) v))).
Proof.
  intros name n fs v j H Hn W A E. apply mem_str_In in Hn.
  destruct (builtin_cases _ _ H) as (n' & fs' & Q & [(M & O & P)|(M & O & P)]); injection Q as <- <-; [|congruence].
  unfold marshal in E. cbn [ty_name] in E. rewrite Hn in E.
  destruct (g_enc_obj_members _ st_struct st_custom _ _ _ _ O P W A E) as (ms & Q & S & R). exists ms. split; [exact Q|]. split; [now apply msorted_nodup|exact R].
Qed.
Print Assumptions encode_members.

(** Every built-in type but extension-definition is covered. *)
Theorem encode_covers : forall name t, In (name, t) builtin_types ->
  In (ty_name t) helper_types \/ name = TypeExtensionDefinition.
Proof.
  assert (X : forallb (fun kv => mem_str (ty_name (snd kv)) helper_types || String.eqb (fst kv) TypeExtensionDefinition) builtin_types = true)
    by (vm_compute; reflexivity).
  intros name t H. rewrite forallb_forall in X. specialize (X _ H). cbn [fst snd] in X. apply orb_true_iff in X as [X|X].
  - left. now apply mem_str_In.
  - right. now apply String.eqb_eq.
Qed.
Print Assumptions encode_covers.
(** That one goes through the default encoder, which requires nothing: only NaN
    and infinities are refused. *)
Theorem encode_default_fails_iff : forall v, storable ty_ExtensionDefinition v = true ->
  marshal ty_ExtensionDefinition v <> Panic /\
  ((exists e, marshal ty_ExtensionDefinition v = Err e) <-> fin ty_ExtensionDefinition v = false).
Proof.
  intros v W. change (marshal ty_ExtensionDefinition v) with (enc ty_ExtensionDefinition v). assert (I := st_enc_ok_iff _ _ W). assert (N := enc_no_panic v ty_ExtensionDefinition).
  split; [exact N|]. destruct (fin ty_ExtensionDefinition v).
  - destruct (proj2 I eq_refl) as [j E]. rewrite E. split; [intros [e Q]; discriminate|discriminate].
  - split; [reflexivity|]. intros _. destruct (enc ty_ExtensionDefinition v) as [j|e|] eqn:E; [|eauto|contradiction].
    assert (false = true) by (apply I; eauto). discriminate.
Qed.
Print Assumptions encode_default_fails_iff.

(** ** C20 *)
(** Marshalling a value of a built-in type and unmarshalling the bytes gives
    [norm_top]: the same value with times cut to milliseconds, undefined
    enumeration members and empty optional nested values replaced by the zero
    value and interface contents replaced by their generic view. *)
Theorem object_round_trip : forall rnd name t v s,
  In (name, t) builtin_types -> wf rnd t v = true ->
  (forall k, In k (akeys (props_of t v)) -> free_name t k = true) ->
  marshal_bytes t v = Ok s ->
  unmarshal rnd s t (zero t) = Ok (norm_top rnd t v).
Proof. intros rnd. exact (marshal_roundtrip_bytes rnd). Qed.
Print Assumptions object_round_trip.

(** The same value exactly when it has no extended properties, no times finer
    than a millisecond, only defined enumeration members, no empty but non nil
    optional containers in nested structs and only JSON-like interface
    contents. *)
Theorem object_round_trip_exact : forall rnd name t v s,
  In (name, t) builtin_types -> wf rnd t v = true -> props_of t v = [] -> canon_top t v = true ->
  marshal_bytes t v = Ok s ->
  unmarshal rnd s t (zero t) = Ok v.
Proof.
  intros rnd name t v s H W P C E. rewrite (marshal_roundtrip_bytes rnd name t v s H W); [|rewrite P; intros k []|exact E].
  now rewrite (norm_top_canon rnd name t v H W C).
Qed.
Print Assumptions object_round_trip_exact.

(** Nested values of any type of the schema. *)
Theorem nested_round_trip : forall rnd t v j,
  ty_ok t = true -> wf rnd t v = true -> enc t v = Ok j ->
  unmarshal rnd (print j) t (zero t) = Ok (norm rnd t v).
Proof.
  intros rnd t v j T W E. unfold unmarshal. rewrite parse_print by (eapply enc_json_ok; eauto). now rewrite (value_roundtrip rnd t v j T W E).
Qed.
Print Assumptions nested_round_trip.

Definition rnd_id : bool -> N -> Z -> option flt := fun neg m e => Some (FFin neg m e).
Definition set_paths (l : list (fpath * gval)) (v : gval) : gval := fold_left (fun v px => set_path (fst px) (snd px) v) l v.
Definition ex_malware : gval :=
  set_paths [((Some "STIXDomainObject", "Type"), VStr "malware");
             ((Some "STIXDomainObject", "ID"), VStr "malware--30313233-3435-4637-b839-616263646566");
             ((Some "STIXDomainObject", "SpecVersion"), VStr "2.1");
             ((Some "STIXDomainObject", "Created"), VPtr (VTime 1600000000000000000));
             ((Some "STIXDomainObject", "Modified"), VPtr (VTime 1600000000001000000));
             ((None, "IsFamily"), VBool true); ((None, "Name"), VStr "Poison Ivy");
             ((None, "FirstSeen"), VPtr (VTime 1500000000123000000));
             ((None, "KillChainPhase"), VSlice [VPtr (build ty_KillChainPhase [("Name", VStr "a"); ("Phase", VStr "b")])])]
            (zero ty_Malware).
Example object_round_trip_ex :
  wf rnd_id ty_Malware ex_malware = true /\ props_of ty_Malware ex_malware = [] /\ canon_top ty_Malware ex_malware = true /\
  mem_str (ty_name ty_Malware) helper_types = true /\
  exists s, marshal_bytes ty_Malware ex_malware = Ok s /\ unmarshal rnd_id s ty_Malware (zero ty_Malware) = Ok ex_malware.
Proof.
  split; [vm_compute; reflexivity|]. split; [vm_compute; reflexivity|]. split; [vm_compute; reflexivity|]. split; [vm_compute; reflexivity|].
  eexists. split; [vm_compute; reflexivity|]. vm_compute. reflexivity.
Qed.

(** With extended properties. *)
Definition ex_malware2 : gval :=
  set_path (Some "STIXDomainObject", "toplevelProperties") (VPtr (VMap [("x_rank", dyn_str "high")])) ex_malware.
Example encode_members_ex :
  storable ty_Malware ex_malware2 = true /\
  (forall k, In k (akeys (props_of ty_Malware ex_malware2)) -> free_name ty_Malware k = true /\ ~ In k (own_keys ty_Malware)) /\
  exists j, marshal ty_Malware ex_malware2 = Ok j.
Proof.
  split; [vm_compute; reflexivity|]. split.
  - intros k [<-|[]]. split; [vm_compute; reflexivity|]. intros C. apply mem_str_In in C. vm_compute in C. discriminate.
  - eexists. vm_compute. reflexivity.
Qed.
(** A required property missing. *)
Example encode_fails_ex :
  exists e, marshal ty_Malware (set_path (Some "STIXDomainObject", "ID") (VStr "") ex_malware) = Err e.
Proof. eexists. vm_compute. reflexivity. Qed.

(** ** C22 *)
(** Whatever JSON is decoded, an Extensions map holds a pointer to the
    documented type under a predefined key and to a CustomObject under any
    other. *)
Theorem parsed_extensions_typed : forall rnd j old l e,
  typed GExt old = true -> dec rnd j GExt old = DOk (VMap l) e ->
  forall k x, In (k, x) l -> exists w,
    x = VDyn (GPtr (match alookup k ext_types with Some t => t | None => ty_CustomObject end)) (VPtr w) /\
    typed (match alookup k ext_types with Some t => t | None => ty_CustomObject end) w = true.
Proof.
  intros rnd j old l e T D k x Hin. assert (X := dec_typed rnd j GExt old _ _ eq_refl T D). cbn [typed] in X.
  apply andb_true_iff in X as [_ X]. rewrite forallb_forall in X. specialize (X _ Hin). cbn [fst snd] in X.
  destruct x; try discriminate. destruct x; try discriminate. apply andb_true_iff in X as [X1 X2]. apply gty_eqb_eq in X1. subst t.
  exists x. now split.
Qed.
Print Assumptions parsed_extensions_typed.

(** The accessors on a parsed object return the extension, or nil when it is
    absent; they never panic. *)
Theorem parsed_extension_accessors : forall rnd stixtype t j v e go meth key et,
  In (stixtype, t) builtin_types -> ty_name t = go -> In (go, meth, key, et) ext_accessors ->
  dec rnd j t (zero t) = DOk v e ->
  match map_get key (get_path p_extensions v) with
  | None => ext_accessor key et v = Ok VNil
  | Some x => exists w, x = VDyn (GPtr et) (VPtr w) /\ ext_accessor key et v = Ok (VPtr w) /\ typed et w = true
  end.
Proof.
  intros rnd stixtype t j v e go meth key et Hb Hn Ha D.
  assert (G : typed t v = true /\ exists n fs m, t = GStruct n fs /\ flat_ok fs /\ has_path fs p_extensions m GExt).
  { assert (X : forallb (fun kv => if existsb (fun a => String.eqb (fst (fst (fst a))) (ty_name (snd kv))) ext_accessors
        then match snd kv with GStruct _ fs => existsb (fun f => match f with (k, (Some b, f), GExt) => String.eqb k "extensions" && String.eqb b "STIXCyberObservableObject" && String.eqb f "Extensions" | _ => false end) (flat_fields fs) | _ => false end
        else true) builtin_types = true) by (vm_compute; reflexivity).
    rewrite forallb_forall in X. specialize (X _ Hb). cbn [snd] in X.
    assert (Y : existsb (fun a => String.eqb (fst (fst (fst a))) (ty_name t)) ext_accessors = true).
    { apply existsb_exists. exists (go, meth, key, et). split; [exact Ha|]. cbn [fst]. rewrite Hn. apply String.eqb_refl. }
    rewrite Y in X. destruct (builtin_cases _ _ Hb) as (n & fs & -> & C).
    apply existsb_exists in X as ([[k p] t'] & Hin & X). destruct p as [[b|] f]; [|discriminate]. destruct t'; try discriminate.
    rewrite !andb_true_iff in X. destruct X as [[X1 X2] X3]. apply String.eqb_eq in X1. apply String.eqb_eq in X2. apply String.eqb_eq in X3. subst.
    apply flat_fields_In in Hin as (m & HP & _).
    assert (FO : flat_ok fs /\ forall p m t, has_path fs p m t -> ty_ok t = true).
    { destruct C as [(M & O & P)|(M & O & P)].
      - destruct (obj_ok_facts _ _ O) as (_ & F & _). split; [exact F|]. intros p m' t' HP'. now destruct (has_path_ok _ _ _ _ _ O HP').
      - destruct (ty_ok_flat _ _ O) as (F & FT & _). split; [exact F|]. intros p m' t' HP'.
        destruct (has_path_plain _ _ _ _ (fun m t H => proj1 (FT m t H)) HP') as [_ Hin']. now destruct (FT _ _ Hin') as (_ & _ & Tt). }
    destruct FO as [F FT]. split.
    - eapply dec_obj_typed; [exact F|exact FT| |exact D]. apply typed_zero.
    - exists n, fs, m. auto. }
  destruct G as [T (n & fs & m & -> & F & HP)].
  eapply ext_ptr_typed; [exact Ha| |reflexivity]. eapply typed_path; eauto.
Qed.
Print Assumptions parsed_extension_accessors.

Example parsed_extension_ex :
  exists v, dec rnd_id (JObj [("type", JStr "file"); ("extensions", JObj [("archive-ext", JObj [("comment", JStr "c")]); ("x-ext", JNull)])])
     ty_File (zero ty_File) = DOk v false /\
  ext_accessor ExtArchive ty_ArchiveFileExtension v = Ok (VPtr (build ty_ArchiveFileExtension [("Comment", VStr "c")])) /\
  ext_accessor ExtPDF ty_PDFExtension v = Ok VNil.
Proof. eexists. split; [vm_compute; reflexivity|]. split; vm_compute; reflexivity. Qed.

(** ** C23 *)
(** The ten enumerations. *)
Theorem enum_round_trip : forall name tbl n s, In (name, tbl) enum_table -> In (n, s) tbl ->
  enc (GEnum name) (VEnum n) = Ok (JStr s) /\
  forall rnd old, unmarshal rnd (print (JStr s)) (GEnum name) old = Ok (VEnum n).
Proof.
  intros name tbl n s H1 H2.
  assert (X : forallb (fun nm => match alookup (fst nm) enum_table with Some t => forallb (fun kv => existsb (fun kv' => N.eqb (fst kv) (fst kv') && String.eqb (snd kv) (snd kv')) t) (snd nm) | None => false end) enum_table = true)
    by (vm_compute; reflexivity).
  rewrite forallb_forall in X. specialize (X _ H1). cbn [fst snd] in X.
  assert (Hm : In (n, s) (enum_map name)).
  { unfold enum_map. destruct (alookup name enum_table) as [t|]; [|discriminate]. rewrite forallb_forall in X. specialize (X _ H2).
    apply existsb_exists in X as ([n' s'] & Hin & X). cbn [fst snd] in X. apply andb_true_iff in X as [X1 X2].
    apply N.eqb_eq in X1. apply String.eqb_eq in X2. now subst. }
  destruct (enum_table_facts _ _ _ Hm) as [PL U]. split.
  - cbn [enc]. f_equal. f_equal. unfold enum_string.
    assert (C := enum_check_ok). unfold enum_check in C. rewrite forallb_forall in C. specialize (C _ H1). cbv beta iota in C.
    apply andb_true_iff in C as [C _]. rewrite forallb_forall in C. specialize (C _ H2). cbv beta iota in C.
    apply andb_true_iff in C as [_ C]. now apply String.eqb_eq in C.
  - intros rnd old. unfold unmarshal. rewrite parse_print.
    + rewrite dec_enum, U. reflexivity.
    + cbn [json_okb]. now rewrite (unq_plain _ PL).
Qed.
Print Assumptions enum_round_trip.

Theorem enum_names_distinct : forall name tbl, In (name, tbl) enum_table ->
  (forall n s s', In (n, s) tbl -> In (n, s') tbl -> s = s') /\
  (forall n n' s, In (n, s) tbl -> In (n', s) tbl -> n = n').
Proof.
  assert (X : forallb (fun nm : string * list (N * string) => forallb (fun a => forallb (fun b =>
     Bool.eqb (N.eqb (fst a) (fst b)) (String.eqb (snd a) (snd b))) (snd nm)) (snd nm)) enum_table = true) by (vm_compute; reflexivity).
  intros name tbl H. rewrite forallb_forall in X. specialize (X _ H). cbn [snd] in X. rewrite forallb_forall in X.
  split; intros.
  - specialize (X _ H0). rewrite forallb_forall in X. specialize (X _ H1). cbn [fst snd] in X. rewrite N.eqb_refl in X.
    apply Bool.eqb_prop in X. symmetry in X. now apply String.eqb_eq in X.
  - specialize (X _ H0). rewrite forallb_forall in X. specialize (X _ H1). cbn [fst snd] in X. rewrite String.eqb_refl in X.
    apply Bool.eqb_prop in X. now apply N.eqb_eq in X.
Qed.
Print Assumptions enum_names_distinct.

(** Any JSON string decodes without error: to the member whose name is the text
    between the quotation marks as written (for extension_types entries: after
    resolving escapes), else to the zero value. *)
Theorem enum_decode_string : forall rnd name raw s old, unq raw = Some s ->
  unmarshal rnd (print (JStr raw)) (GEnum name) old =
    Ok (VEnum (match enum_find name (if String.eqb name "ExtensionType" then s else raw) with Some n => n | None => 0%N end)).
Proof.
  intros rnd name raw s old U. unfold unmarshal. rewrite parse_print by (cbn [json_okb]; now rewrite U). rewrite dec_enum.
  assert (EZ : forall x, enum_or_zero name x = VEnum (match enum_find name x with Some n => n | None => 0%N end))
    by (intros x; unfold enum_or_zero; destruct (enum_find name x); reflexivity).
  assert (IS : inner_slice (print (JStr raw)) = Ok raw) by (cbn [print]; apply inner_slice_quoted).
  unfold enum_unmarshal. destruct (String.eqb name "ExtensionType") eqn:En; [rewrite U, EZ; reflexivity|].
  destruct (mem_str name _) eqn:M; [rewrite IS, EZ; reflexivity|].
  destruct (String.length (print (JStr raw)) <? 3)%nat eqn:L; [|rewrite IS, EZ; reflexivity].
  destruct raw as [|c raw]; [|exfalso; apply Nat.ltb_lt in L; cbn [print] in L; unfold q in L; cbn [String.append String.length] in L;
                             rewrite length_app in L; cbn [String.length] in L; lia].
  cbn [unmarshal_res].
  destruct (enum_find name "") as [n|] eqn:F; [|reflexivity]. unfold enum_find in F.
  destruct (find _ (enum_map name)) as [[n' s']|] eqn:F'; [|discriminate]. injection F as ->.
  apply find_some in F' as [F1 F2]. cbn in F2. apply String.eqb_eq in F2. subst s'.
  destruct (enum_map_cases name) as [E|E]; [rewrite E in F1; destruct F1|].
  assert (W : forallb (fun nm : string * list (N * string) => forallb (fun kv => negb (is_empty (snd kv)) || N.eqb (fst kv) 0) (snd nm)) enum_table = true) by (vm_compute; reflexivity).
  rewrite forallb_forall in W. specialize (W _ E). cbn [snd] in W. rewrite forallb_forall in W. specialize (W _ F1). cbn in W.
  apply N.eqb_eq in W. now subst.
Qed.
Print Assumptions enum_decode_string.

Example enum_ex : In ("OpinionValue", enum_map "OpinionValue") enum_table /\ length enum_table = 10%nat /\
  enum_find "OpinionValue" "agree" = Some 4%N /\ enum_find "OpinionValue" "whatever" = None.
Proof. repeat split; try (vm_compute; reflexivity). apply alookup_Some_In. vm_compute. reflexivity. Qed.

(** ** C24 *)
Theorem timestamp_round_trip : forall t, (0 <= year_of t < 10000)%Z ->
  ts_unmarshal (ts_marshal t) = Ok (t - t mod 1000000)%Z.
Proof. exact ts_unmarshal_marshal. Qed.
Print Assumptions timestamp_round_trip.

Theorem timestamp_round_trip_stable : forall t u, (0 <= year_of t < 10000)%Z -> ts_unmarshal (ts_marshal t) = Ok u ->
  (0 <= year_of u < 10000)%Z /\ ts_unmarshal (ts_marshal u) = Ok u /\ ts_marshal u = ts_marshal t /\ (u <= t < u + 1000000)%Z.
Proof.
  intros t u H E. rewrite ts_unmarshal_marshal in E by exact H. injection E as <-.
  split; [now rewrite year_trunc|]. split; [rewrite ts_unmarshal_marshal by (now rewrite year_trunc); now rewrite trunc_ms_idem|].
  split; [unfold ts_marshal; now rewrite ts_string_trunc|]. exact (trunc_ms_near t).
Qed.
Print Assumptions timestamp_round_trip_stable.

Theorem timestamp_order : forall t t' u u', (0 <= year_of t < 10000)%Z -> (0 <= year_of t' < 10000)%Z ->
  ts_unmarshal (ts_marshal t) = Ok u -> ts_unmarshal (ts_marshal t') = Ok u' -> (t <= t')%Z -> (u <= u')%Z.
Proof.
  intros t t' u u' H H' E E' L. rewrite ts_unmarshal_marshal in E, E' by assumption. injection E as <-. injection E' as <-.
  now apply trunc_ms_mono.
Qed.
Print Assumptions timestamp_order.

Example timestamp_ex : (0 <= year_of 1600000000123456789 < 10000)%Z /\
  ts_marshal 1600000000123456789 = String "034" ("2020-09-13T12:26:40.123Z" ++ String "034" "")%string.
Proof. split; [vm_compute; split; congruence|vm_compute; reflexivity]. Qed.

(** ** C25 *)
Theorem binary_round_trip : forall rnd b old,
  exists j, enc GBinary (VBin b) = Ok j /\ unmarshal rnd (print j) GBinary old = Ok (VBin b).
Proof.
  intros rnd b old. eexists. split; [reflexivity|]. unfold unmarshal.
  rewrite parse_print by (cbn [json_okb]; now rewrite (unq_plain _ (plain_b64 b))).
  rewrite dec_bin. cbn [bin_unmarshal]. rewrite (unq_plain _ (plain_b64 b)), b64_roundtrip. reflexivity.
Qed.
Print Assumptions binary_round_trip.

(** A nil Binary. *)
Theorem binary_nil_round_trip : forall rnd old,
  enc GBinary VNil = Ok JNull /\ unmarshal rnd (print JNull) GBinary old = Ok VNil.
Proof. split; [reflexivity|]. vm_compute. reflexivity. Qed.
Print Assumptions binary_nil_round_trip.

(** ** C34 *)
(** Written out with q_open/q_close: an object with one member. *)
Definition q_open (alg : string) : string := (String "{" (String "034" (alg ++ String "034" (String ":" (String "034" ""))))).
Definition q_close : string := String "034" "}".
Theorem hash_contribution_priority : forall l,
  hash_contribution (VMap l) =
    match alookup "MD5" l, alookup "SHA-1" l, alookup "SHA-256" l, alookup "SHA-512" l with
    | Some v, _, _, _ => (q_open "MD5" ++ str_of v ++ q_close)%string
    | None, Some v, _, _ => (q_open "SHA-1" ++ str_of v ++ q_close)%string
    | None, None, Some v, _ => (q_open "SHA-256" ++ str_of v ++ q_close)%string
    | None, None, None, Some v => (q_open "SHA-512" ++ str_of v ++ q_close)%string
    | None, None, None, None => ""
    end.
Proof.
  intros l. unfold hash_contribution, map_get, MD5, SHA1, SHA256, SHA512.
  destruct (alookup "MD5" l); [reflexivity|]. destruct (alookup "SHA-1" l); [reflexivity|].
  destruct (alookup "SHA-256" l); [reflexivity|]. destruct (alookup "SHA-512" l); reflexivity.
Qed.
Print Assumptions hash_contribution_priority.

(** Other algorithms never matter. *)
Theorem hash_contribution_others : forall l l',
  (forall k, In k ["MD5"; "SHA-1"; "SHA-256"; "SHA-512"] -> alookup k l = alookup k l') ->
  hash_contribution (VMap l) = hash_contribution (VMap l').
Proof.
  intros l l' H. rewrite !hash_contribution_priority.
  rewrite !H by (cbn; tauto). reflexivity.
Qed.
Print Assumptions hash_contribution_others.

(** The contribution determines algorithm and value. *)
Theorem hash_contribution_injective : forall l l',
  hash_contribution (VMap l) = hash_contribution (VMap l') -> hash_contribution (VMap l) <> "" ->
  exists alg, In alg ["MD5"; "SHA-1"; "SHA-256"; "SHA-512"] /\
    (exists v, alookup alg l = Some v) /\ (exists v, alookup alg l' = Some v) /\
    forall v v', alookup alg l = Some v -> alookup alg l' = Some v' -> str_of v = str_of v'.
Proof.
  intros l l'. rewrite !hash_contribution_priority. intros E N.
  assert (C : forall a b, (a ++ q_close)%string = (b ++ q_close)%string -> a = b).
  { intros a b H. apply (f_equal bytes_of) in H. rewrite !bytes_of_app in H. apply app_inv_tail in H.
    rewrite <- (of_bytes_bytes_of a), <- (of_bytes_bytes_of b). now f_equal. }
  destruct (alookup "MD5" l) eqn:A1; destruct (alookup "MD5" l') eqn:B1; [|destruct (alookup "SHA-1" l') eqn:B2;
     [|destruct (alookup "SHA-256" l') eqn:B3; [|destruct (alookup "SHA-512" l') eqn:B4]]| |]; try discriminate E; try contradiction.
  - exists "MD5". split; [now left|]. rewrite A1, B1. repeat split; eauto. intros v v' Q Q'. injection Q as <-. injection Q' as <-.
    unfold q_open in E. cbn in E. injection E as E. now apply C.
  - exfalso. destruct (alookup "SHA-1" l); [|destruct (alookup "SHA-256" l); [|destruct (alookup "SHA-512" l)]]; try discriminate E; now apply N.
  - destruct (alookup "SHA-1" l) eqn:A2; destruct (alookup "SHA-1" l') eqn:B2.
    + exists "SHA-1". split; [right; now left|]. rewrite A2, B2. repeat split; eauto. intros v v' Q Q'. injection Q as <-. injection Q' as <-.
      unfold q_open in E. cbn in E. injection E as E. now apply C.
    + exfalso. destruct (alookup "SHA-256" l'); [|destruct (alookup "SHA-512" l')]; discriminate E.
    + exfalso. destruct (alookup "SHA-256" l); [|destruct (alookup "SHA-512" l)]; try discriminate E; now apply N.
    + destruct (alookup "SHA-256" l) eqn:A3; destruct (alookup "SHA-256" l') eqn:B3.
      * exists "SHA-256". split; [right; right; now left|]. rewrite A3, B3. repeat split; eauto. intros v v' Q Q'. injection Q as <-. injection Q' as <-.
        unfold q_open in E. cbn in E. injection E as E. now apply C.
      * exfalso. destruct (alookup "SHA-512" l'); discriminate E.
      * exfalso. destruct (alookup "SHA-512" l); try discriminate E; now apply N.
      * destruct (alookup "SHA-512" l) eqn:A4; destruct (alookup "SHA-512" l') eqn:B4.
        -- exists "SHA-512". split; [right; right; right; now left|]. rewrite A4, B4. repeat split; eauto. intros v v' Q Q'. injection Q as <-. injection Q' as <-.
           unfold q_open in E. cbn in E. injection E as E. now apply C.
        -- exfalso. discriminate E.
        -- exfalso. now apply N.
        -- exfalso. now apply N.
Qed.
Print Assumptions hash_contribution_injective.

Example hash_contribution_ex :
  hash_contribution (VMap [("SHA-1", VStr "aa"); ("SHA-256", VStr "bb")]) = (q_open "SHA-1" ++ "aa" ++ q_close)%string /\
  hash_contribution (VMap [("SSDEEP", VStr "aa")]) = "".
Proof. split; reflexivity. Qed.

(** ** C54 *)
Theorem custom_object_get_set : forall c k v c',
  typed ty_CustomObject c = true -> co_set c k v = Ok c' ->
  co_get c' k = v /\ forall k', k' <> k -> co_get c' k' = co_get c k'.
Proof. exact co_get_set. Qed.
Print Assumptions custom_object_get_set.

(** Set works on every map that is not nil. *)
Theorem custom_object_set_total : forall l k v, exists c', co_set (VMap l) k v = Ok c'.
Proof. intros l k v. eexists. reflexivity. Qed.
Print Assumptions custom_object_set_total.

(** Typed getters: zero value when the key is absent or null, the value when it
    has the requested type. *)
Theorem custom_object_typed_getters_partial : forall f2i c k,
  (co_get c k = VNil -> co_string c k = Ok "" /\ co_strings c k = Ok [] /\ co_number f2i c k = Ok 0%Z) /\
  (forall s, co_get c k = VDyn (GString "string") (VStr s) -> co_string c k = Ok s) /\
  (forall l, co_get c k = VDyn (GSlice (GString "string")) (VSlice l) -> co_strings c k = Ok l) /\
  (forall z, co_get c k = VDyn (GInt "int64") (VInt z) -> co_number f2i c k = Ok z) /\
  (forall f, co_get c k = VDyn GFloat (VFloat f) -> co_number f2i c k = Ok (f2i f)).
Proof.
  intros f2i c k. unfold co_string, co_strings, co_number. repeat split; intros; rewrite ?H; reflexivity.
Qed.
Print Assumptions custom_object_typed_getters_partial.

(** The full statement (no panic) is false: a value of another type panics. *)
Theorem custom_object_getters_no_panic_refuted :
  exists c k, typed ty_CustomObject c = true /\ co_string c k = Panic /\ co_strings c k = Panic /\
    (forall f2i, co_number f2i c k = Panic) /\ exists c', co_id c' = Panic /\ co_type c' = Panic /\ typed ty_CustomObject c' = true.
Proof.
  exists (VMap [("x", VDyn GBool (VBool true))]), "x". repeat split.
  exists (VMap [("id", VNil); ("type", VNil)]). repeat split.
Qed.
Print Assumptions custom_object_getters_no_panic_refuted.

(** GetAsStringSlice never succeeds on a parsed attribute that is present: JSON
    arrays arrive as []interface{}. *)
Theorem custom_object_string_slice_parsed_refuted : forall rnd j c e k,
  dec rnd j ty_CustomObject VNil = DOk c e -> co_get c k <> VNil -> co_strings c k = Panic.
Proof.
  intros rnd j c e k D N. rewrite (co_strings_parsed _ _ _ _ _ D). destruct (co_get c k); try reflexivity. contradiction.
Qed.
Print Assumptions custom_object_string_slice_parsed_refuted.
Example custom_object_string_slice_ex :
  exists c, dec rnd_id (JObj [("x", JArr [JStr "a"; JStr "b"])]) ty_CustomObject VNil = DOk c false /\ co_get c "x" <> VNil.
Proof. eexists. split; [vm_compute; reflexivity|]. vm_compute. discriminate. Qed.

(** ** C55 *)
Theorem new_external_reference_spec : forall name description url external_id hashes,
  (exists e, new_external_reference name description url external_id hashes = Err e) /\
    (name = "" \/ (description = "" /\ url = "" /\ external_id = "")) \/
  (exists v, new_external_reference name description url external_id hashes = Ok v /\
    v = VStruct [("Name", VStr name); ("Description", VStr description); ("URL", VStr url); ("Hashes", hashes); ("ExternalID", VStr external_id)] /\
    name <> "" /\ ~ (description = "" /\ url = "" /\ external_id = "")).
Proof.
  intros name description url external_id hashes. unfold new_external_reference.
  destruct name; [left; cbn; eauto|]. cbn [is_empty].
  destruct description; destruct url; destruct external_id; cbn [is_empty andb]; try (left; split; [eexists; reflexivity|right; auto]; fail);
    right; eexists; (split; [reflexivity|]); (split; [reflexivity|]); (split; [discriminate|]); intros (A & B & C); discriminate.
Qed.
Print Assumptions new_external_reference_spec.

Theorem new_kill_chain_phase_spec : forall name phase,
  (exists e, new_kill_chain_phase name phase = Err e) /\ (name = "" \/ phase = "") \/
  (exists v, new_kill_chain_phase name phase = Ok v /\ v = VStruct [("Name", VStr name); ("Phase", VStr phase)] /\ name <> "" /\ phase <> "").
Proof.
  intros name phase. unfold new_kill_chain_phase. destruct name; [left; cbn; eauto|]. destruct phase; [left; cbn; eauto|].
  right. cbn [is_empty orb]. eexists. split; [reflexivity|]. split; [reflexivity|]. split; discriminate.
Qed.
Print Assumptions new_kill_chain_phase_spec.

(** What was constructed survives encoding and parsing. *)
Theorem external_reference_round_trip : forall rnd name description url external_id hashes v j,
  new_external_reference name description url external_id hashes = Ok v ->
  wf rnd ty_ExternalReference v = true -> canon ty_ExternalReference v = true ->
  enc ty_ExternalReference v = Ok j ->
  parse_external_reference rnd (print j) = Ok (VPtr v).
Proof.
  intros rnd name description url external_id hashes v j N W C E. unfold parse_external_reference, unmarshal.
  rewrite parse_print by (eapply enc_json_ok; eauto).
  assert (NN : j <> JNull).
  { eapply enc_not_null; [|exact E]. destruct (new_external_reference_spec name description url external_id hashes) as [[[e X] _]|(v' & X & -> & _)]; [congruence|].
    rewrite N in X. injection X as ->. reflexivity. }
  rewrite dec_ptr. assert (D := value_roundtrip rnd ty_ExternalReference v j eq_refl W E).
  rewrite (norm_canon rnd _ _ W C) in D. destruct j; try contradiction; rewrite D; reflexivity.
Qed.
Print Assumptions external_reference_round_trip.

Theorem kill_chain_phase_round_trip : forall rnd name phase v j,
  new_kill_chain_phase name phase = Ok v -> utf8b name = true -> utf8b phase = true ->
  enc ty_KillChainPhase v = Ok j -> parse_kill_chain_phase rnd (print j) = Ok (VPtr v).
Proof.
  intros rnd name phase v j N U1 U2 E. destruct (new_kill_chain_phase_spec name phase) as [[[e X] _]|(v' & X & -> & _)]; [congruence|].
  rewrite N in X. injection X as ->.
  assert (W : wf rnd ty_KillChainPhase (VStruct [("Name", VStr name); ("Phase", VStr phase)]) = true) by (cbn; now rewrite U1, U2).
  unfold parse_kill_chain_phase, unmarshal. rewrite parse_print by (eapply enc_json_ok; eauto).
  rewrite dec_ptr. assert (D := value_roundtrip rnd ty_KillChainPhase _ j eq_refl W E).
  assert (NN : j <> JNull) by (eapply enc_not_null; [|exact E]; reflexivity).
  cbn [norm norm_fields ty_KillChainPhase fs_KillChainPhase is_empty fm_key fm_omit andb] in D.
  destruct j; try contradiction; rewrite D; reflexivity.
Qed.
Print Assumptions kill_chain_phase_round_trip.

Example external_reference_ex :
  exists v, new_external_reference "capec" "" "" "CAPEC-163" VNil = Ok v /\
    wf rnd_id ty_ExternalReference v = true /\ canon ty_ExternalReference v = true /\ exists j, enc ty_ExternalReference v = Ok j.
Proof. eexists. split; [reflexivity|]. split; [reflexivity|]. split; [reflexivity|]. eexists. vm_compute. reflexivity. Qed.

(** ** C56 *)
Theorem tlp_markings_ok : forall rnd text, In text tlp_markings ->
  exists v s, must_parse_tlp rnd text = Ok v /\
    get_field "Type" v = VStr TypeMarkingDefinition /\
    (exists id, get_field "ID" v = VStr id /\ has_valid_identifier id TypeMarkingDefinition = true) /\
    wf rnd ty_MarkingDefinition v = true /\
    marshal_bytes ty_MarkingDefinition v = Ok s /\ unmarshal rnd s ty_MarkingDefinition (zero ty_MarkingDefinition) = Ok v.
Proof.
  intros rnd text H. repeat destruct H as [<-|H]; try contradiction;
    (eexists; eexists; split; [vm_compute; reflexivity|]; split; [reflexivity|]; split; [eexists; split; [reflexivity|vm_compute; reflexivity]|];
     split; [vm_compute; reflexivity|]; split; [vm_compute; reflexivity|vm_compute; reflexivity]).
Qed.
Print Assumptions tlp_markings_ok.

(** The markings of the standard: identifier, name and colour. *)
Definition standard_tlp : list (string * string * string) :=
  [("marking-definition--613f2e26-407d-48c7-9eca-b8e91df99dc9", "TLP:WHITE", "white");
   ("marking-definition--34098fce-860f-48ae-8e50-ebd3cc5e41da", "TLP:GREEN", "green");
   ("marking-definition--f88d31f6-486f-44da-b317-01333bde0b82", "TLP:AMBER", "amber");
   ("marking-definition--5e57c739-391a-4eb3-b6be-7d15ca92d5ed", "TLP:RED", "red")]%string.
Theorem tlp_markings_standard : forall rnd,
  Forall2 (fun text (m : string * string * string) => let '(id, name, colour) := m in
    exists v, must_parse_tlp rnd text = Ok v /\
      get_field "Type" v = VStr "marking-definition" /\ get_field "SpecVersion" v = VStr "2.1" /\
      get_field "ID" v = VStr id /\ get_field "Name" v = VStr name /\
      get_field "Created" v = VPtr (VTime (17186 * 86400 * 1000000000)) (* 17186 days after 1970-01-01: 2017-01-20 *) /\
      get_field "DefinitionType" v = VStr "tlp" /\
      get_field "Definition" v = VDyn (GMap "" "string" GIface) (VMap [("tlp", VDyn (GString "string") (VStr colour))]) /\
      props_of ty_MarkingDefinition v = [])%string
    tlp_markings standard_tlp.
Proof. intros rnd. repeat constructor; eexists; (split; [vm_compute; reflexivity|]); repeat (split; [reflexivity|]); reflexivity. Qed.
Print Assumptions tlp_markings_standard.

Theorem tlp_markings_distinct : NoDup tlp_markings /\ NoDup (map (fun m => fst (fst m)) standard_tlp).
Proof. split; apply nodupb_NoDup; vm_compute; reflexivity. Qed.
Print Assumptions tlp_markings_distinct.
