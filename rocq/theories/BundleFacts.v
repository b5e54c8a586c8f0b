(** FromJSON of encoded objects and bundles. *)
From Verif Require Import GoStr GoStrFacts JsonStr StrSpec StrSpecFacts JsonSpec JsonSpecFacts JsonStrFacts Json JsonFacts Float Consts GoTypes Schema GoVal GoValFacts Codec CodecSpec CodecFacts
  StructFacts CodecRound ObjFacts TypedFacts DataTypes DataTypesFacts Ident IdentFacts Collection CollectionSpec CollectionFacts
  FromJson FromJsonSpec FromJsonFacts ReadFacts IndepFacts ParseFacts CollectFacts PropCollectionAux.

Section B.
Variable rnd : bool -> N -> Z -> option flt.

Lemma str_field_members fs key p n1 k t' : flat_ok fs -> In (key, p, GString n1) (flat_fields fs) ->
  find_field k (flat_fields fs) = Some (p, t') -> fold_key k = fold_key key.
Proof.
  intros F T1 E. apply flat_fields_In in T1 as (m1 & HP1 & Q1 & _). destruct (find_field_has _ _ _ _ E) as (m & HP & _ & FK).
  destruct (has_path_inj _ _ _ _ _ _ F HP1 HP) as [-> _]. now rewrite <- Q1 in FK.
Qed.
Lemma dec_str n fs key p n1 ms raw s v e : flat_ok fs -> In (key, p, GString n1) (flat_fields fs) ->
  (forall k x, In (k, x) ms -> fold_key k = fold_key key -> k = key) ->
  last_member key ms = Some (JStr raw) -> unq raw = Some s -> dec rnd (JObj ms) (GStruct n fs) (zero (GStruct n fs)) = DOk v e -> get_path p v = VStr s.
Proof.
  intros F T1 K L U D. destruct (last_member_split _ _ _ L) as (ms1 & ms2 & -> & N). rewrite dec_struct_obj in D.
  assert (HF := find_field_exact _ _ _ _ F T1). assert (T1' := T1). apply flat_fields_In in T1 as (m1 & HP1 & Q1 & _).
  eapply dec_struct_str; [exact F|exact HP1|apply (shape_zero n fs F)|exact HF|exact U| |exact D].
  intros k x t' Hin Q. apply N. assert (k = key) as <-.
  { eapply (K k x); [apply in_or_app; right; now right|]. eapply str_field_members; eauto. }
  exact (in_map fst _ _ Hin).
Qed.

Lemma last_member_alookup {A} k (ms : list (string * A)) : NoDup (akeys ms) -> last_member k ms = alookup k ms.
Proof.
  induction ms as [|[k' y] ms IH]; intros N; [reflexivity|]. cbn [akeys map fst] in N. inversion N as [|? ? N1 N2]; subst. cbn [last_member alookup].
  rewrite (IH N2). destruct (String.eqb_spec k k').
  - subst. destruct (alookup k' ms) eqn:E; [|reflexivity]. exfalso. apply N1. apply alookup_Some_In in E. exact (in_map fst _ _ E).
  - now destruct (alookup k ms).
Qed.

(** What the encoder writes. *)
Lemma marshal_members name t v j : In (name, t) builtin_types -> wf rnd t v = true ->
  (forall k, In k (akeys (props_of t v)) -> free_name t k = true) -> marshal t v = Ok j ->
  exists ms, j = JObj ms /\ NoDup (akeys ms) /\
    (forall k jx, In (k, jx) ms -> exists w, dec_any rnd jx = DOk w false) /\
    (forall k, In k (akeys ms) -> In k (own_keys t) \/ In k (akeys (props_of t v))) /\
    (forall k x, In (k, x) (props_of t v) -> exists jx, alookup k ms = Some jx /\ enc GIface x = Ok jx) /\
    (forall key p n1 s, In (key, p, GString n1) (match t with GStruct _ fs => flat_fields fs | _ => [] end) -> get_path p v = VStr s -> s <> "" ->
       alookup key ms = Some (JStr (quote s))).
Proof.
  intros H W PF E. destruct (builtin_cases _ _ H) as (n & fs & -> & [(M & O & P)|(M & O & P)]); unfold marshal in E; cbn [ty_name] in E; rewrite M in E.
  - assert (A : apart (GStruct n fs) (props_of (GStruct n fs) v)).
    { intros k Hk Ho. specialize (PF _ Hk). unfold free_name in PF. apply negb_true_iff in PF. apply not_true_iff_false in PF. apply PF.
      apply existsb_exists. exists k. split; [exact Ho|]. apply String.eqb_refl. }
    destruct (obj_ok_facts _ _ O) as (_ & F & _ & _).
    destruct (enc_obj_members rnd _ _ _ _ O P W A E) as (ms & -> & S & Own & Pr & Ks). exists ms. split; [reflexivity|]. split; [now apply msorted_nodup|].
    assert (ND := msorted_nodup _ S). split; [|split; [exact Ks|split; [exact Pr|]]].
    + intros k jx Hin. assert (L := alookup_In _ _ _ ND Hin). destruct (Ks k (in_map fst _ _ Hin)) as [Hk|Hk].
      * apply own_keys_In in Hk as (p & m & t & HP & <- & Nk). specialize (Own _ _ _ HP Nk). rewrite L in Own. destruct Own as [Ex _].
        eexists. eapply dec_any_enc; [|exact Ex]. eapply wf_path; eauto.
      * apply in_map_iff in Hk as ([k' x] & <- & Hp). cbn [fst] in *. destruct (Pr _ _ Hp) as (jx' & L' & Ex). rewrite L in L'. injection L' as <-.
        eexists. eapply dec_any_enc; [|exact Ex]. now apply (props_wf rnd _ _ _ O P W) in Hp.
    + intros key p n1 s Hf G Ns. apply flat_fields_In in Hf as (m & HP & -> & Nk). specialize (Own _ _ _ HP Nk). rewrite G in Own.
      destruct (alookup (fm_key m) ms) as [jx|]; [destruct Own as [Ex _]; injection Ex as <-; reflexivity|].
      destruct Own as (_ & Z & _). cbn [is_zero] in Z. apply is_empty_true in Z. contradiction.
  - destruct (wf_struct _ _ _ _ W) as (vs & -> & WF). cbn [enc] in E. apply bind_ok in E as (ms & E & Q). injection Q as <-. exists ms. split; [reflexivity|].
    destruct (ty_ok_flat _ _ O) as (F & FT & ND0). assert (ND := enc_fields_nodup _ _ _ _ E ND0). split; [exact ND|].
    assert (NP : props_of (GStruct n fs) (VStruct vs) = []) by (unfold props_of; now rewrite P).
    split; [|split; [|split]].
    + intros k jx Hin. destruct (enc_fields_In _ _ _ _ E _ _ Hin) as (m & t & n0 & x & H1 & H2 & H3 & H4 & H5).
      eexists. eapply dec_any_enc; [|exact H5]. now destruct (wf_fields_combine _ _ _ WF _ _ _ _ H1).
    + intros k Hk. left. apply in_map_iff in Hk as ([k' jx] & <- & Hin). cbn [fst].
      destruct (enc_fields_In _ _ _ _ E _ _ Hin) as (m & t & n0 & x & H1 & H2 & H3 & H4 & H5). apply own_keys_In.
      assert (Hin0 := in_combine_l _ _ _ _ H1). destruct (FT _ _ Hin0) as (Em & _ & _). exists (None, fm_name m), m, t. split; [now constructor|]. now split.
    + rewrite NP. intros k x [].
    + intros key p n1 s Hf G Ns. apply flat_fields_In in Hf as (m & HP & -> & Nk).
      destruct (has_path_plain _ _ _ _ (fun m t H => proj1 (FT m t H)) HP) as [-> Hin]. cbn [get_path] in G.
      destruct (combine_ex _ vs _ (wf_fields_len _ _ _ WF) Hin) as ([n0 x] & Hc).
      rewrite (combine_get _ _ _ _ _ _ _ (proj1 F) WF Hc) in G. subst x.
      assert (Hk : In (fm_key m) (akeys ms)).
      { eapply enc_fields_keys; [exact E|exact Hc|exact Nk|]. cbn [is_empty_val]. replace (is_empty s) with false; [apply andb_false_r|].
        symmetry. apply not_true_is_false. intros Z. apply is_empty_true in Z. contradiction. }
      apply in_map_iff in Hk as ([k' jx] & Q & Hj). cbn [fst] in Q. subst k'. rewrite (alookup_In _ _ _ ND Hj). f_equal.
      destruct (enc_fields_In _ _ _ _ E _ _ Hj) as (m' & t' & n0' & x' & H1 & H2 & H3 & H4 & H5).
      assert (Hin' := in_combine_l _ _ _ _ H1). destruct (FT _ _ Hin') as (Em' & _ & _).
      assert (Q : ((None, fm_name m) : fpath, GString n1) = ((None, fm_name m'), t')).
      { eapply flat_key_inj; [exact F|apply flat_fields_In; exists m; repeat split; auto|].
        apply flat_fields_In. exists m'. split; [now constructor|]. now split. }
      injection Q as Qn <-. assert (Q2 := names_inj _ _ _ _ _ (proj1 F) Hin Hin' Qn). injection Q2 as ->.
      assert (VStr s = x').
      { rewrite <- (combine_get _ _ _ _ _ _ _ (proj1 F) WF Hc). now rewrite (combine_get _ _ _ _ _ _ _ (proj1 F) WF H1). }
      subst x'. cbn [enc] in H5. now injection H5 as <-.
Qed.

Lemma map_props_sorted {A B} (f : A -> B) (l : list (string * A)) : msorted l = true -> msorted (map (fun kv => (fst kv, f (snd kv))) l) = true.
Proof. intros S. rewrite <- S. apply msorted_keys. unfold akeys. rewrite map_map. reflexivity. Qed.
Lemma alookup_map_snd {A B} (f : A -> B) k (l : list (string * A)) : alookup k (map (fun kv => (fst kv, f (snd kv))) l) = match alookup k l with Some x => Some (f x) | None => None end.
Proof. induction l as [|[k' x] l IH]; [reflexivity|]. cbn [map fst snd alookup]. destruct (String.eqb k k'); [reflexivity|exact IH]. Qed.

(** ** Reading back one encoded object *)
Local Notation own_object := (own_object rnd).
Local Notation read_back := (read_back rnd).


Lemma valid_nonempty id ty : has_valid_identifier id ty = true -> id <> "".
Proof. rewrite has_valid_identifier_spec. intros (_ & u & -> & _) Q. destruct ty; discriminate. Qed.
Lemma builtin_name_ne name t : In (name, t) builtin_types -> name <> "".
Proof.
  intros H ->. assert (X : mem_str "" (akeys builtin_types) = false) by (vm_compute; reflexivity). apply not_true_iff_false in X. apply X.
  apply mem_str_In. exact (in_map fst _ _ H).
Qed.

Lemma obj_field_str n fs f key v s : obj_field f key (GStruct n fs, v) = Ok s -> get_path (field_path (GStruct n fs) f) v = VStr s.
Proof. unfold obj_field. cbn [fst snd]. destruct (get_path _ v); intros Q; try discriminate. now injection Q as ->. Qed.

Lemma fold_eq_own t ms l key : NoDup (map fold_key (own_keys t)) -> In key (own_keys t) ->
  (forall k, In k (akeys ms) -> In k (own_keys t) \/ In k l) -> (forall k, In k l -> free_name t k = true) ->
  forall k (x : json), In (k, x) ms -> fold_key k = fold_key key -> k = key.
Proof.
  intros N Hk Ks PF k x Hin Q. destruct (Ks k (in_map fst _ _ Hin)) as [Ho|Hp].
  - exact (NoDup_map_eq fold_key _ _ _ N Ho Hk Q).
  - exfalso. specialize (PF _ Hp). unfold free_name in PF. apply negb_true_iff in PF. apply not_true_iff_false in PF. apply PF.
    apply existsb_exists. exists key. split; [exact Hk|]. rewrite Q. apply String.eqb_refl.
Qed.

Lemma free_not_tag name n fs k : In (name, GStruct n fs) builtin_types -> free_name (GStruct n fs) k = true -> k <> "" -> ~ In k (tag_keys fs).
Proof.
  intros H PF Nk Ht. destruct (builtin_read _ _ H) as (n' & fs' & Q & TK & _). injection Q as <- <-. apply TK in Ht as [Ho|[-> _]]; [|congruence].
  unfold free_name in PF. apply negb_true_iff in PF. apply not_true_iff_false in PF. apply PF.
  apply existsb_exists. exists k. split; [exact Ho|]. apply String.eqb_refl.
Qed.

Lemma read_marshal_any cf ob j p : own_object cf ob ->
  (forall k, In k (akeys (props_of (fst ob) (snd ob))) -> free_name (fst ob) k = true /\ k <> "") ->
  marshal (fst ob) (snd ob) = Ok j -> msorted (old_map p) = true ->
  exists m p', read rnd cf j p = Ok (Some (fst ob, add_props (fst ob) (if cf_drop cf then [] else filter_out (fst ob) m) (norm_top rnd (fst ob) (snd ob))), p') /\
    (cf_drop cf = false -> p' = VMap (filter_out (fst ob) m)) /\ msorted m = true /\
    (forall k, alookup k (filter_out (fst ob) m) = alookup k (filter_out (fst ob) (match alookup k (props_of (fst ob) (snd ob)) with
       Some x => [(k, norm rnd GIface x)] | None => old_map p end))) /\
    (forall l, obj_id (fst ob, add_props (fst ob) l (norm_top rnd (fst ob) (snd ob))) = obj_id ob /\ obj_type (fst ob, add_props (fst ob) l (norm_top rnd (fst ob) (snd ob))) = obj_type ob).
Proof.
  destruct ob as [t v]. cbn [fst snd]. intros (name & id & H & NP & OT & OI & V & W) PF E Sp. cbn [fst snd] in *.
  assert (PF1 : forall k, In k (akeys (props_of t v)) -> free_name t k = true) by (intros k Hk; now apply PF).
  assert (RT := marshal_roundtrip rnd _ _ _ _ H W PF1 E).
  destruct (marshal_members _ _ _ _ H W PF1 E) as (ms & -> & ND & DA & Ks & Pr & St).
  destruct (builtin_read _ _ H) as (n & fs & -> & TK & NF & (n1 & T1) & (n2 & T2) & KT & KI & F & FT).
  apply obj_field_str in OT as GT. apply obj_field_str in OI as GI.
  assert (AT := St _ _ _ _ T1 GT (builtin_name_ne _ _ H)). assert (AI := St _ _ _ _ T2 GI (valid_nonempty _ _ V)).
  assert (UT : forall k pth nn s, In (k, pth, GString nn) (flat_fields fs) -> get_path pth v = VStr s -> unq (quote s) = Some s).
  { intros k pth nn s Hf G. apply flat_fields_In in Hf as (m & HP & _). assert (X := wf_path _ _ _ _ _ _ _ F W HP). rewrite G in X. cbn [wf] in X. apply utf8b_spec in X. now apply unq_quote. }
  assert (LT : last_member "type" ms = Some (JStr (quote name))) by now rewrite last_member_alookup.
  assert (LI : last_member "id" ms = Some (JStr (quote id))) by now rewrite last_member_alookup.
  (* the decoded object *)
  assert (RB : forall l, obj_type (GStruct n fs, add_props (GStruct n fs) l (norm_top rnd (GStruct n fs) v)) = Ok name /\
               obj_id (GStruct n fs, add_props (GStruct n fs) l (norm_top rnd (GStruct n fs) v)) = Ok id).
  { intros l. destruct (builtin_field rnd _ _ _ _ _ l H RT) as [(s1 & Q1 & G1) (s2 & Q2 & G2)].
    assert (FE1 := fold_eq_own _ ms _ "type" NF KT Ks PF1). assert (FE2 := fold_eq_own _ ms _ "id" NF KI Ks PF1).
    rewrite (dec_str _ _ _ _ _ _ _ _ _ _ F T1 FE1 LT (UT _ _ _ _ T1 GT) RT) in G1.
    rewrite (dec_str _ _ _ _ _ _ _ _ _ _ F T2 FE2 LI (UT _ _ _ _ T2 GI) RT) in G2.
    injection G1 as <-. injection G2 as <-. now split. }
  (* the peek *)
  assert (PK : exists m, unmarshal_res (dec rnd (JObj ms) peak_ty p) = Ok (VMap m)).
  { rewrite dec_peak_obj. assert (X : forall acc, exists m, dec_mems (dec_any rnd) ms acc = DOk m false).
    { clear -DA. induction ms as [|[k x] ms IH]; intros acc; [now exists acc|]. destruct (DA k x (or_introl eq_refl)) as (w & Dw). cbn [dec_mems].
      rewrite Dw, dbind_ok. apply IH. intros k' x' Hin. apply (DA k'). now right. }
    destruct (X (old_map p)) as (m & ->). exists m. reflexivity. }
  destruct PK as (m & PK). assert (M := peak_obj rnd ms p m Sp PK). destruct M as (Sm & L & OKm).
  assert (TV : alookup "type" m = Some (dyn_str name)).
  { rewrite L, LT. unfold dval. cbn [dec_any]. now rewrite (UT _ _ _ _ T1 GT). }
  assert (FO : forall k, alookup k (filter_out (GStruct n fs) m) = alookup k (filter_out (GStruct n fs) (match alookup k (props_of (GStruct n fs) v) with
       Some x => [(k, norm rnd GIface x)] | None => old_map p end))).
  { intros k. rewrite !alookup_filter_out. destruct (mem_str k (tag_keys fs)) eqn:Mt; [reflexivity|]. rewrite L, last_member_alookup by exact ND.
    destruct (alookup k (props_of (GStruct n fs) v)) as [x|] eqn:Pk.
    - cbn [alookup]. rewrite String.eqb_refl. apply alookup_Some_In in Pk.
      destruct (builtin_cases _ _ H) as (n' & fs' & Q & [(Mm & O & P)|(Mm & O & P)]); injection Q as <- <-; [|unfold props_of in Pk; rewrite P in Pk; destruct Pk].
      destruct (props_wf rnd _ _ _ O P W) as [PS PW]. destruct (Pr _ _ Pk) as (jx & -> & Ex). f_equal. destruct (PW _ _ Pk) as [_ Wx].
      unfold dval. assert (D := value_roundtrip rnd GIface x jx eq_refl Wx Ex). rewrite dec_iface in D. now rewrite D.
    - destruct (alookup k ms) as [jx|] eqn:Lk; [|reflexivity]. exfalso.
      apply alookup_Some_In in Lk. destruct (Ks _ (in_map fst _ _ Lk)) as [Ho|Hp]; cbn [fst] in *.
      + assert (In k (tag_keys fs)) as X by (apply TK; now left). apply mem_str_In in X. congruence.
      + apply alookup_akeys in Pk. contradiction. }
  unfold read. rewrite PK. cbn [bind map_get old_map]. rewrite TV. cbn [as_string dyn_str bind].
  rewrite (start_builtin _ _ _ _ NP H). cbn [bind]. unfold read_finish. rewrite RT. cbn [unmarshal_res bind].
  exists m. destruct (cf_drop cf) eqn:Dr.
  - destruct (RB []) as [R1 R2]. cbn [add_props] in R1, R2 |- *. rewrite R1, R2. cbn [bind]. rewrite V. eexists. split; [reflexivity|]. split; [discriminate|]. split; [exact Sm|]. split; [exact FO|].
    intros l. rewrite OT, OI. destruct (RB l). now split.
  - destruct (RB (filter_out (GStruct n fs) m)) as [R1 R2].
    rewrite R1, R2. cbn [bind]. rewrite V. eexists. split; [reflexivity|]. split; [reflexivity|]. split; [exact Sm|]. split; [exact FO|]. 
    intros l. rewrite OT, OI. destruct (RB l). now split.
Qed.

Lemma read_marshal cf ob j p : own_object cf ob ->
  (forall k, In k (akeys (props_of (fst ob) (snd ob))) -> free_name (fst ob) k = true /\ k <> "") ->
  marshal (fst ob) (snd ob) = Ok j -> (cf_drop cf = true \/ old_map p = []) -> msorted (old_map p) = true ->
  exists p', read rnd cf j p = Ok (Some (read_back cf ob), p') /\
    (cf_drop cf = false -> p' = VMap (map (fun kv => (fst kv, norm rnd GIface (snd kv))) (props_of (fst ob) (snd ob)))) /\
    obj_id (read_back cf ob) = obj_id ob /\ obj_type (read_back cf ob) = obj_type ob.
Proof.
  intros Ow PF E DP Sp. destruct (read_marshal_any cf ob j p Ow PF E Sp) as (m & p' & R & P' & Sm & FO & ID). exists p'.
  unfold FromJsonSpec.read_back. destruct (cf_drop cf) eqn:Dr; [split; [exact R|split; [discriminate|apply ID]]|].
  destruct DP as [DP|Ep]; [discriminate|].
  assert (Q : filter_out (fst ob) m = map (fun kv => (fst kv, norm rnd GIface (snd kv))) (props_of (fst ob) (snd ob))).
  { destruct ob as [t v]. cbn [fst snd] in *. destruct Ow as (name & id & H & NP & OT & OI & V & W). cbn [fst snd] in *.
    assert (PS : msorted (props_of t v) = true).
    { destruct (builtin_cases _ _ H) as (n & fs & -> & [(Mm & O & P)|(Mm & O & P)]); [now destruct (props_wf rnd _ _ _ O P W)|]. unfold props_of. now rewrite P. }
    apply msorted_ext; [now apply filter_out_msorted|now apply map_props_sorted|]. intros k. rewrite FO, alookup_map_snd, Ep.
    destruct (alookup k (props_of t v)) as [x|] eqn:Pk.
    - rewrite alookup_filter_out. destruct (builtin_read _ _ H) as (n & fs & -> & _). cbn [alookup]. rewrite String.eqb_refl.
      destruct (mem_str k (tag_keys fs)) eqn:Mt; [|reflexivity]. exfalso. apply mem_str_In in Mt. apply alookup_Some_In in Pk. assert (Hk := in_map fst _ _ Pk). cbn [fst] in Hk.
      destruct (PF _ Hk) as [Fk Nk]. exact (free_not_tag _ _ _ _ H Fk Nk Mt).
    - now destruct t. }
  rewrite Q in R, P'. split; [exact R|]. split; [exact P'|]. apply ID.
Qed.

(** ** Reading back a bundle *)
Lemma bundle_document ty id js : utf8b ty = true -> utf8b id = true -> forallb json_okb js = true ->
  document js (bundle_bytes (Bundle ty id (map print js))).
Proof.
  intros Ut Ui O.
  assert (E : bundle_bytes (Bundle ty id (map print js)) =
    print (JObj ([("type", JStr (quote ty)); ("id", JStr (quote id))] ++ match js with [] => [] | _ => [("objects", JArr js)] end))).
  { unfold bundle_bytes. cbn [b_type b_id b_objects]. destruct js as [|j js]; cbn [map app print join fst snd];
      change (quote "type") with "type"; change (quote "id") with "id"; change (quote "objects") with "objects".
    - rewrite !sapp_assoc. cbn [append]. now rewrite ?sapp_assoc.
    - cbn [map join]. rewrite !sapp_assoc. cbn [append]. rewrite ?sapp_assoc. reflexivity. }
  rewrite E. set (ms := _ ++ _).
  assert (O' : json_okb (JObj ms) = true).
  { subst ms. cbn [json_okb app forallb fst snd]. apply utf8b_spec in Ut, Ui. rewrite (unq_quote _ Ut), (unq_quote _ Ui).
    destruct js; [reflexivity|]. cbn [forallb fst snd json_okb]. cbn [forallb] in O. rewrite O. reflexivity. }
  replace js with (match last_fold "objects" ms with Some (JArr l) => l | _ => [] end).
  - apply doc_bundle; [apply json_exact; now apply parse_print|].
    intros k x Hin. subst ms. apply in_app_or in Hin as [[Q|[Q|[]]]|Hin].
    + injection Q as <- <-. split; [discriminate|]. split; [|discriminate]. intros _. right. eauto.
    + injection Q as <- <-. split; [discriminate|]. split; [discriminate|]. intros _. right. eauto.
    + destruct js; [destruct Hin|]. destruct Hin as [Q|[]]. injection Q as <- <-. split; [|split; discriminate]. intros _. right. eauto.
  - subst ms. destruct js; reflexivity.
Qed.

Lemma read_all_marshal cf os : (forall ob, In ob os -> own_object cf ob /\ props_of (fst ob) (snd ob) = []) -> cf_drop cf = false ->
  forall js p, Forall2 (fun ob j => marshal (fst ob) (snd ob) = Ok j) os js -> old_map p = [] ->
  read_all rnd cf js p = Ok (map (fun ob => Some (read_back cf ob)) os).
Proof.
  intros H Dr. induction os as [|ob os IH]; intros js p F Ep; inversion F as [|? j ? js' E F']; subst; [reflexivity|].
  destruct (H ob (or_introl eq_refl)) as [Ow Np].
  destruct (read_marshal cf ob j p Ow) as (p' & R & P' & _); auto.
  - rewrite Np. intros k [].
  - now rewrite Ep.
  - cbn [read_all map]. rewrite R. cbn [bind fst snd]. rewrite (IH (fun x Hx => H x (or_intror Hx)) js' p' F'); [reflexivity|].
    rewrite (P' Dr), Np. reflexivity.
Qed.

(** Collections of distinct objects *)
Lemma first_ids_distinct (l : list (call gobj)) : (forall x, In x l -> c_ok x = true) -> NoDup (map c_id l) -> first_ids l = map c_id l.
Proof.
  induction l as [|x l IH]; intros A N; [reflexivity|]. cbn [first_ids map]. rewrite (A x (or_introl eq_refl)). inversion N as [|? ? N1 N2]; subst.
  rewrite (IH (fun y Hy => A y (or_intror Hy)) N2). f_equal. apply filter_notin_id. exact N1.
Qed.
Lemma collect_all ids os l : NoDup ids -> Forall2 (fun id ob => obj_id ob = Ok id) ids os -> Forall acceptable (map Some os) ->
  all_objects (collect false (map Some os)) l <-> l = map Some os.
Proof.
  intros N F A. unfold collect. destruct (run (new_coll false) (calls_of (map Some os))) as [c oks] eqn:R. cbn [fst].
  assert (L : oks = map (fun _ => true) (calls_of (map Some os))) by (rewrite <- (calls_log _ A false), R; reflexivity).
  destruct (all_objects_sorted_total _ _ _ _ R) as [(l0 & H0) H].
  assert (Q : forall l, all_objects c l -> l = map Some os).
  { intros l1 H1. destruct (H _ H1) as (os' & -> & F2). f_equal. rewrite L, log_true in F2.
    assert (Ids : map c_id (map (fun x : string * string * gobj => Call (fst (fst x)) (snd (fst x)) (snd x) true) (calls_of (map Some os))) = ids).
    { clear -F A. induction F as [|id ob ids os E F IH]; [reflexivity|]. cbn [map] in *. inversion A as [|? ? A1 A2]; subst. destruct A1 as (id' & ty & E1 & E2 & _).
      unfold calls_of. cbn [flat_map]. rewrite E1, E2. cbn [app map fst snd c_id]. fold (calls_of (map Some os)). rewrite (IH A2). congruence. }
    rewrite first_ids_distinct in F2; [|intros x Hx; apply in_map_iff in Hx as (y & <- & _); reflexivity|now rewrite Ids]. rewrite Ids in F2.
    assert (G : forall id ob, In (id, ob) (combine ids os) -> forall o, last_accepted (map (fun x : string * string * gobj => Call (fst (fst x)) (snd (fst x)) (snd x) true) (calls_of (map Some os))) id o -> o = ob).
    { intros id ob Hin o (l1 & t & l2 & E & _).
      assert (Ho : In (Call id t o true) (map (fun x : string * string * gobj => Call (fst (fst x)) (snd (fst x)) (snd x) true) (calls_of (map Some os)))) by (rewrite E; apply in_or_app; right; now left).
      apply in_map_iff in Ho as ([[i y] o'] & Q & Ho). cbn [fst snd] in Q. injection Q as <- <- <-. apply In_calls in Ho as (Ho & Ei & _).
      apply in_map_iff in Ho as (o2 & Q & Ho). injection Q as ->. clear -N F Hin Ho Ei. revert Hin Ho. induction F as [|id0 ob0 ids os E F IH]; intros Hin Ho; [destruct Ho|].
      cbn [combine] in Hin. inversion N as [|? ? N1 N2]; subst. 
      assert (X : forall i x, In (i, x) (combine ids os) -> obj_id x = Ok i) by (clear -F; induction F; cbn [combine]; intros ? ? []; [now inversion H0; subst|auto]).
      assert (Y : forall x, In x os -> obj_id x = Ok i -> In i ids).
      { clear -F. induction F as [|a b ids os E F IH]; intros x Hx Ex; [destruct Hx|]. destruct Hx as [->|Hx]; [left; congruence|right; eauto]. }
      destruct Hin as [Q|Hin].
      - injection Q as -> ->. destruct Ho as [->|Ho]; [reflexivity|]. exfalso. apply N1. eapply Y; eauto.
      - destruct Ho as [->|Ho]; [|now apply IH]. exfalso. apply N1. assert (id0 = i) by congruence. subst. apply in_combine_l in Hin. exact Hin. }
    revert F2 G. generalize (map (fun x : string * string * gobj => Call (fst (fst x)) (snd (fst x)) (snd x) true) (calls_of (map Some os))). intros lg F2 G.
    clear -F F2 G. revert os' F2. induction F as [|id ob ids os E F IH]; intros os' F2; inversion F2; subst; [reflexivity|]. f_equal.
    - eapply G; [now left|eassumption].
    - apply IH; [|assumption]. intros i o Hin. apply (G i o). now right. }
  split; [apply Q|]. intros ->. now rewrite <- (Q _ H0).
Qed.
End B.
