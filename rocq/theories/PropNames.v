(** C60: the encodings use the property names and kinds of values of the STIX
    2.1 standard (Stix21.v). *)
From Verif Require Import GoStr GoStrFacts JsonStr Json Float Consts Enums GoTypes Schema GoVal GoValFacts Time Base64 Codec CodecSpec
  CodecFacts StructFacts CodecRound ObjFacts StoreFacts DataTypes Stix21 ShapeFacts.

Lemma row_of_own name t rows : In (name, t) builtin_types -> alookup name stix_objects = Some rows -> obj_shaped rows t = true ->
  forall k, In k (own_keys t) -> In k (map (fun r : row => fst (fst r)) rows).
Proof.
  intros H Er O k Hk. destruct (builtin_cases _ _ H) as (n & fs & -> & _). apply own_keys_In in Hk as (p & m & t & HP & <- & Nk).
  apply flat_ft_path in HP. cbn [obj_shaped] in O. apply andb_true_iff in O as [_ O]. rewrite forallb_forall in O. specialize (O _ HP).
  cbn [fst snd] in O. apply orb_true_iff in O as [Z|O]; [apply is_empty_true in Z; contradiction|]. apply andb_true_iff in O as [O _].
  apply row_for_In in O. apply in_map_iff. eexists. split; [|exact O]. reflexivity.
Qed.

(** Every member of an encoded object is a property of its type in the
    standard with a value of that kind, or an extended property; the
    properties every object has are there. *)
Theorem encoded_property_names : forall name t v j,
  In (name, t) builtin_types -> storable t v = true ->
  (forall rows k, In (name, rows) stix_objects -> In k (akeys (props_of t v)) -> ~ In k (map (fun r => fst (fst r)) rows)) ->
  marshal t v = Ok j ->
  exists rows ms, In (name, rows) stix_objects /\ j = JObj ms /\ NoDup (akeys ms) /\
    (forall k x, In (k, x) ms ->
       In k (akeys (props_of t v)) \/
       exists s b, In (k, s, b) rows /\
         (conforms s x \/ (name = "extension-definition"%string /\ x = JNull /\ may_null s = true /\ b = true))) /\
    (forall k s, In (k, s, true) rows -> In k (akeys ms)).
Proof.
  intros name t v j H S A E. assert (X := obj_shaped_check). rewrite forallb_forall in X. specialize (X _ H). cbn [fst snd] in X.
  destruct (alookup name stix_objects) as [rows|] eqn:Er; [|discriminate]. exists rows. assert (Hr := alookup_Some_In _ _ _ Er).
  assert (A' : forall k, In k (akeys (props_of t v)) -> ~ In k (own_keys t)).
  { intros k Hk Ho. apply (A _ _ Hr Hk). eapply row_of_own; eauto. }
  destruct (builtin_cases _ _ H) as (n & fs & -> & [(M & O & P)|(M & O & P)]); unfold marshal in E; cbn [ty_name] in E; rewrite M in E;
    cbn [obj_shaped] in X; rewrite M in X; apply andb_true_iff in X as [X1 X2]; rewrite forallb_forall in X2.
  - destruct (g_enc_obj_members _ st_struct st_custom _ _ _ _ O P S A' E) as (ms & -> & So & Own & Pr & Ks).
    assert (ND := msorted_nodup _ So). exists ms. split; [exact Hr|]. split; [reflexivity|]. split; [exact ND|]. split.
    + intros k x Hin. destruct (Ks k (in_map fst _ _ Hin)) as [Hk|Hk]; [right|now left].
      apply own_keys_In in Hk as (p & m & t & HP & <- & Nk). assert (L := alookup_In _ _ _ ND Hin).
      specialize (Own _ _ _ HP Nk). rewrite L in Own. destruct Own as [Ex Nz].
      specialize (X2 _ (flat_ft_path _ _ _ _ HP)). cbn [fst snd] in X2. apply orb_true_iff in X2 as [Z|X2]; [apply is_empty_true in Z; contradiction|].
      apply andb_true_iff in X2 as [X2 X3]. apply row_for_In in X2. do 2 eexists. split; [exact X2|]. left.
      eapply enc_conforms; [exact X3| |exact Ex|].
      * destruct (obj_ok_facts _ _ O) as (_ & F & _ & _). exact (g_wf_path _ st_struct _ _ _ _ _ _ F S HP).
      * intros Q. rewrite Q in Nz. cbn in Nz. destruct Nz; discriminate.
    + intros k s Hk. destruct (rows_covered_In _ _ _ X1 _ _ Hk) as (Nk & m & t & Hf & <- & Al).
      apply path_flat_ft in Hf as (p & HP). specialize (Own _ _ _ HP Nk). destruct (alookup (fm_key m) ms) as [x|] eqn:L.
      * apply alookup_Some_In in L. exact (in_map fst _ _ L).
      * destruct Own as (B & Z & Om). unfold always_helper in Al. rewrite Om in Al. cbn [negb orb] in Al. destruct t; try discriminate.
        destruct (obj_ok_facts _ _ O) as (_ & F & _ & _). assert (Sp := g_wf_path _ st_struct _ _ _ _ _ _ F S HP).
        destruct (get_path p v); cbn in Sp, B; discriminate.
  - assert (Nm : name = "extension-definition"%string).
    { assert (Y : forallb (fun kv => mem_str (ty_name (snd kv)) helper_types || String.eqb (fst kv) "extension-definition") builtin_types = true)
        by (vm_compute; reflexivity).
      rewrite forallb_forall in Y. specialize (Y _ H). cbn [fst snd ty_name] in Y. rewrite M in Y. now apply String.eqb_eq. }
    destruct (st_struct _ _ _ S) as (vs & -> & WF). cbn [enc] in E. apply bind_ok in E as (ms & E & Q). injection Q as <-.
    destruct (ty_ok_flat _ _ O) as (F & FT & ND0). assert (ND := enc_fields_nodup _ _ _ _ E ND0).
    assert (FF : forall m t, In (m, t) fs -> In (m, t) (flat_ft fs)).
    { intros m t Hin. apply in_flat_map. exists (m, t). split; [exact Hin|]. destruct (FT _ _ Hin) as (Em & _). cbn [fst]. rewrite Em. now left. }
    exists ms. split; [exact Hr|]. split; [reflexivity|]. split; [exact ND|]. split.
    + intros k x Hin. right. destruct (enc_fields_In _ _ _ _ E _ _ Hin) as (m & t & n0 & y & H1 & -> & H3 & H4 & H5).
      assert (Hf := in_combine_l _ _ _ _ H1). specialize (X2 _ (FF _ _ Hf)). cbn [fst snd] in X2.
      apply orb_true_iff in X2 as [Z|X2]; [apply is_empty_true in Z; contradiction|].
      apply andb_true_iff in X2 as [X2 X3]. apply row_for_In in X2. do 2 eexists. split; [exact X2|].
      destruct (wf_fields_combine _ _ _ WF _ _ _ _ H1) as [_ St].
      destruct (or_null _ _ _ X3 St H5 (enc_conforms y t x X3 St H5)) as [(-> & -> & Q)|Q]; [right|now left].
      repeat split; auto. unfold always_plain. cbn [is_empty_val] in H4. rewrite andb_true_r in H4. now rewrite H4.
    + intros k s Hk. destruct (rows_covered_In _ _ _ X1 _ _ Hk) as (Nk & m & t & Hf & <- & Al).
      apply path_flat_ft in Hf as (p & HP). destruct (has_path_plain _ _ _ _ (fun m t H => proj1 (FT m t H)) HP) as [-> Hf].
      destruct (combine_ex _ vs _ (wf_fields_len _ _ _ WF) Hf) as ([n0 x] & Hc). eapply enc_fields_keys; [exact E|exact Hc|exact Nk|].
      unfold always_plain in Al. destruct (fm_omit m); [|reflexivity]. cbn [negb orb andb] in *. destruct t; try discriminate.
      destruct (wf_fields_combine _ _ _ WF _ _ _ _ Hc) as [_ St]. destruct (st_struct _ _ _ St) as (us & -> & _). reflexivity.
Qed.
Print Assumptions encoded_property_names.

(** The object types of the library are those of the standard, each with one
    table. *)
Theorem object_types_standard :
  (forall name, (exists t, In (name, t) builtin_types) <-> (exists rows, In (name, rows) stix_objects)) /\
  NoDup (map fst builtin_types) /\ NoDup (map fst stix_objects).
Proof.
  assert (X := obj_shaped_check). assert (Y := names_check). apply andb_true_iff in Y as [Y Z]. rewrite forallb_forall in X, Y. repeat split.
  - intros (t & H). specialize (X _ H). cbn [fst] in X. destruct (alookup name stix_objects) as [rows|] eqn:Er; [|discriminate].
    exists rows. now apply alookup_Some_In.
  - intros (rows & H). specialize (Y _ H). cbn [fst] in Y. apply mem_str_In in Y. apply in_map_iff in Y as ([n t] & <- & Hin). now exists t.
  - apply nodupb_NoDup. vm_compute. reflexivity.
  - now apply nodupb_NoDup.
Qed.
Print Assumptions object_types_standard.

(** The predefined extensions. *)
Theorem encoded_extension_names : forall key t v j,
  In (key, t) ext_types -> storable t v = true -> enc t v = Ok j -> conforms (Rec key) j.
Proof.
  intros key t v j H S E. assert (X := ext_check). rewrite forallb_forall in X. specialize (X _ H). cbn [fst snd] in X.
  apply andb_true_iff in X as [X1 X2]. assert (C : v <> VNil -> conforms (shape_of t) j) by (intros N; eapply enc_conforms; eauto).
  destruct t; try discriminate. cbn [shape_of] in C. apply String.eqb_eq in X2. rewrite <- X2. apply C. intros ->. discriminate.
Qed.
Print Assumptions encoded_extension_names.

Theorem extension_keys_standard : forall key, (exists t, In (key, t) ext_types) <->
  In key ["archive-ext"; "ntfs-ext"; "pdf-ext"; "raster-image-ext"; "windows-pebinary-ext"; "http-request-ext"; "icmp-ext"; "socket-ext"; "tcp-ext";
          "windows-process-ext"; "windows-service-ext"; "unix-account-ext"]%string.
Proof.
  intros key. rewrite <- mem_str_In. split.
  - intros (t & H). assert (X : forallb (fun kt : string * gty => mem_str (fst kt)
      ["archive-ext"; "ntfs-ext"; "pdf-ext"; "raster-image-ext"; "windows-pebinary-ext"; "http-request-ext"; "icmp-ext"; "socket-ext"; "tcp-ext";
          "windows-process-ext"; "windows-service-ext"; "unix-account-ext"]%string) ext_types = true) by (vm_compute; reflexivity).
    rewrite forallb_forall in X. exact (X _ H).
  - intros H. apply mem_str_In in H. assert (X : forallb (fun k => mem_str k (map fst ext_types))
      ["archive-ext"; "ntfs-ext"; "pdf-ext"; "raster-image-ext"; "windows-pebinary-ext"; "http-request-ext"; "icmp-ext"; "socket-ext"; "tcp-ext";
          "windows-process-ext"; "windows-service-ext"; "unix-account-ext"]%string = true) by (vm_compute; reflexivity).
    rewrite forallb_forall in X. specialize (X _ H). apply mem_str_In in X. apply in_map_iff in X as ([k t] & <- & Hin). now exists t.
Qed.
Print Assumptions extension_keys_standard.

(** The letters of a name, in lower case. *)
Fixpoint letters (s : string) : string :=
  match s with
  | EmptyString => EmptyString
  | String c s' => let c' := lower c in if ((97 <=? bt c') && (bt c' <=? 122))%N then String c' (letters s') else letters s'
  end.
(** C22: every type has an accessor for each of its predefined extensions, and
    no other; the Go type it returns is the one parsing stores for the key, and
    its name tells which one it is. *)
Theorem extension_accessors_standard :
  (forall typ t key, In (typ, t) builtin_types ->
     ((exists meth et, In (ty_name t, meth, key, et) ext_accessors) <-> (exists keys, In (typ, keys) stix_extensions /\ In key keys))) /\
  (forall go meth key et, In (go, meth, key, et) ext_accessors ->
     In (key, et) ext_types /\ (exists typ t, In (typ, t) builtin_types /\ ty_name t = go) /\ letters meth = letters (key ++ "ension")) /\
  NoDup (map (fun a => (fst (fst (fst a)), snd (fst (fst a)))) ext_accessors) /\ NoDup (map (fun a => snd (fst a)) ext_accessors).
Proof.
  split; [|split; [|split]].
  - intros typ t key H.
    assert (X : forallb (fun kt : string * gty => if list_eq_dec string_dec
        (map (fun a => snd (fst a)) (filter (fun a => String.eqb (fst (fst (fst a))) (ty_name (snd kt))) ext_accessors))
        (match alookup (fst kt) stix_extensions with Some l => l | None => [] end) then true else false) builtin_types = true) by (vm_compute; reflexivity).
    rewrite forallb_forall in X. specialize (X _ H). cbn [fst snd] in X. destruct (list_eq_dec _ _ _) as [X'|]; [clear X; rename X' into X|discriminate].
    assert (ND : NoDup (akeys stix_extensions)) by (repeat constructor; cbn [In]; intuition discriminate).
    split.
    + intros (meth & et & Hin). assert (K : In key (match alookup typ stix_extensions with Some l => l | None => [] end)).
      { rewrite <- X. apply in_map_iff. exists (ty_name t, meth, key, et). split; [reflexivity|]. apply filter_In. split; [exact Hin|]. cbn [fst]. apply String.eqb_refl. }
      destruct (alookup typ stix_extensions) as [l|] eqn:E; [|destruct K]. apply alookup_Some_In in E. eauto.
    + intros (keys & H1 & H2). rewrite (alookup_In _ _ _ ND H1) in X. rewrite <- X in H2. apply in_map_iff in H2 as ([[[go meth] k] et] & Q & H2). cbn [fst snd] in Q. subst k.
      apply filter_In in H2 as [H2 H3]. cbn [fst] in H3. apply String.eqb_eq in H3. subst go. eauto.
  - intros go meth key et H.
    assert (X : forallb (fun a => existsb (fun ke => String.eqb (fst ke) (snd (fst a)) && gty_eqb (snd ke) (snd a)) ext_types &&
        existsb (fun kt => String.eqb (ty_name (snd kt)) (fst (fst (fst a)))) builtin_types && String.eqb (letters (snd (fst (fst a)))) (letters (snd (fst a) ++ "ension"))) ext_accessors = true) by (vm_compute; reflexivity).
    rewrite forallb_forall in X. specialize (X _ H). cbn [fst snd] in X. apply andb_true_iff in X as [X X3]. apply String.eqb_eq in X3. apply andb_true_iff in X as [X1 X2]. apply existsb_exists in X1 as ([k e] & H1 & Q). cbn [fst snd] in Q.
    apply andb_true_iff in Q as [Q1 Q2]. apply String.eqb_eq in Q1. apply gty_eqb_eq in Q2. subst. split; [exact H1|]. split; [|exact X3].
    apply existsb_exists in X2 as ([typ t] & H2 & Q). cbn [snd] in Q. apply String.eqb_eq in Q. eauto.
  - repeat constructor; cbn [In fst snd map ext_accessors]; intuition discriminate.
  - repeat constructor; cbn [In fst snd map ext_accessors]; unfold ExtArchive, ExtNTFS, ExtPDF, ExtRasterImage, ExtWindowsPEBinary, ExtHTTPRequest, ExtICMP, ExtSocket, ExtTCP, ExtWindowsProcess, ExtWindowsService, ExtUnixAccount; intuition discriminate.
Qed.
Print Assumptions extension_accessors_standard.

(** A malware object with a nested list and an extended property. *)
Definition ex_names : gval :=
  fold_left (fun v px => set_path (fst px) (snd px) v) [((Some "STIXDomainObject", "Type"), VStr "malware"); ((Some "STIXDomainObject", "ID"), VStr "malware--0");
             ((Some "STIXDomainObject", "SpecVersion"), VStr "2.1");
             ((Some "STIXDomainObject", "Created"), VPtr (VTime 1600000000000000000));
             ((Some "STIXDomainObject", "Modified"), VPtr (VTime 1600000000001000000));
             ((Some "STIXDomainObject", "toplevelProperties"), VPtr (VMap [("x_rank", dyn_str "high")]));
             ((None, "KillChainPhase"), VSlice [VPtr (build ty_KillChainPhase [("Name", VStr "a"); ("Phase", VStr "b")])])]%string
            (zero ty_Malware).
Example encoded_property_names_ex :
  In ("malware"%string, ty_Malware) builtin_types /\ storable ty_Malware ex_names = true /\
  (forall rows k, In ("malware"%string, rows) stix_objects -> In k (akeys (props_of ty_Malware ex_names)) -> ~ In k (map (fun r => fst (fst r)) rows)) /\
  exists j, marshal ty_Malware ex_names = Ok j.
Proof.
  split; [apply alookup_Some_In; vm_compute; reflexivity|]. split; [vm_compute; reflexivity|]. split.
  - intros rows k Hr [<-|[]] C. apply (alookup_In _ _ _ (proj2 (proj2 object_types_standard))) in Hr.
    assert (X : match alookup "malware" stix_objects with Some rows => mem_str "x_rank" (map (fun r : row => fst (fst r)) rows) | None => true end = false)
      by (vm_compute; reflexivity).
    rewrite Hr in X. apply mem_str_In in C. exact (eq_true_false_abs _ C X).
  - eexists. vm_compute. reflexivity.
Qed.
