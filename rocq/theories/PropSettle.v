(** Repeated encoding and decoding: C74. *)
From Coq Require Import QArith Qabs Qpower Lqa.
From Verif Require Import GoStr GoStrFacts JsonStr JsonStrFacts JsonSpec JsonSpecFacts Json JsonFacts Float FloatFacts NumSpecFacts Consts Enums GoTypes Schema GoVal GoValFacts Time Base64
  Codec CodecSpec CodecFacts StructFacts CodecRound ObjFacts TypedFacts DataTypes Ident IdentFacts Collection CollectionSpec CollectionFacts PropCollectionAux FromJson FromJsonSpec FromJsonFacts ReadFacts ParseFacts IndepFacts BundleFacts FromJsonProps
  SettleFacts SettleRead Double DoubleFacts DoubleSpec DoubleReal PropCodec PropFromJson.
Close Scope Q_scope.

(** A rounding function: reading a float64 again does not change it, and no
    int64 is out of range. *)
Definition rounding (rnd : bool -> N -> Z -> option flt) : Prop :=
  rnd false 0%N 0%Z = Some (FFin false 0 0) /\
  (forall neg m e f, rnd neg m e = Some f -> is_f64 rnd f = true) /\
  (forall z, int64_ok z = true -> int_to_float rnd z <> None).

(** Go's is one. *)
Theorem go_rounding : rounding go_rnd.
Proof.
  split; [reflexivity|]. split.
  - intros neg m e f R. apply go_rnd_stands in R as (y & _ & S). apply f64_double. intros n m' e' ->. exists y.
    destruct S as (D & P & m0 & e0 & E & Sh). injection E as -> -> ->. split; [exact D|]. split; [exact P|]. now exists m0, e0.
  - intros z I E. unfold int_to_float in E. destruct (norm10 (Z.to_N (Z.abs z)) 0) as [m e] eqn:Nm.
    assert (R : in_range (decimal m e)).
    { apply norm10_spec in Nm as (L & i & Q & Ei). unfold in_range. rewrite Qabs_pos by apply decimal_nonneg.
      assert (V : (decimal m e == inject_Z (Z.abs z))%Q).
      { destruct (N.eq_dec m 0) as [->|Nz].
        - cbn in Q. replace (Z.abs z) with 0%Z by lia. unfold decimal. change (inject_Z (Z.of_N 0)) with 0%Q. ring.
        - rewrite (Ei Nz). unfold decimal. replace (Z.abs z) with (Z.of_N m * 10 ^ Z.of_nat i)%Z.
          + rewrite inject_Z_mult. rewrite Zpower_Qpower by lia. cbn [Z.add]. reflexivity.
          + assert (H := f_equal Z.of_N Q). rewrite Z2N.id, N2Z.inj_mul, N2Z.inj_pow, nat_N_Z in H by lia. change (Z.of_N 10) with 10%Z in H. lia. }
      rewrite V. unfold int64_ok in I. apply andb_true_iff in I as [I1 I2]. apply Z.leb_le in I1, I2.
      apply Qle_lt_trans with (inject_Z 9223372036854775808); [rewrite <- Zle_Qle; lia|]. reflexivity. }
    destruct (go_rnd_some (z <? 0)%Z m e R) as (y & m' & e' & _ & _ & G). congruence.
Qed.
Print Assumptions go_rounding.

(** What is read back from an encoding is read back unchanged from its own
    encoding, and so on: one round trip settles the value. *)
Theorem round_trip_settles : forall rnd name t v s, rounding rnd -> In (name, t) builtin_types -> wf rnd t v = true ->
  (forall k, In k (akeys (props_of t v)) -> free_name t k = true) -> marshal_bytes t v = Ok s ->
  exists v', unmarshal rnd s t (zero t) = Ok v' /\
    forall s', marshal_bytes t v' = Ok s' -> unmarshal rnd s' t (zero t) = Ok v'.
Proof.
  intros rnd name t v s (R1 & R2 & _) H W F M. assert (ST : settled rnd) by (split; assumption). exists (norm_top rnd t v).
  assert (U := object_round_trip rnd name t v s H W F M). split; [exact U|]. intros s' M'.
  destruct (settle_top rnd ST name t v H W) as [W' C'].
  assert (P' : props_of t (norm_top rnd t v) = []).
  { unfold unmarshal in U. destruct (parse_json s) as [j|]; [|discriminate]. destruct (dec rnd j t (zero t)) as [w [|]| |] eqn:D; try discriminate. injection U as <-. exact (dec_props rnd name t j w _ H D). }
  exact (object_round_trip_exact rnd name t _ s' H W' P' C' M').
Qed.
Print Assumptions round_trip_settles.

(** The values read from JSON texts are well formed, apart from times outside
    the years 0 to 9999 and extensions that are null. *)
Lemma builtin_utf8 : forallb (fun kt => utf8_ty (snd kt)) builtin_types = true.
Proof. vm_compute. reflexivity. Qed.
Theorem read_value_well_formed : forall rnd name t s v, rounding rnd -> In (name, t) builtin_types -> unmarshal rnd s t (zero t) = Ok v -> years v = true ->
  wf rnd t v = true /\ props_of t v = [].
Proof.
  intros rnd name t s v (R1 & R2 & R3) H U Y. assert (ST : settled rnd) by (split; assumption). unfold unmarshal in U. destruct (parse_json s) as [j|] eqn:P; [|discriminate].
  destruct (dec rnd j t (zero t)) as [w [|]| |] eqn:D; try discriminate. injection U as ->. split; [|exact (dec_props rnd name t j v _ H D)].
  apply (wfr_wf rnd v); [|exact Y]. assert (X := builtin_utf8). rewrite forallb_forall in X. assert (Ut := X _ H). cbn [snd] in Ut. assert (Wz := wfr_zero rnd ST R3 t Ut).
  assert (J : json_okb j = true) by (exact (parse_ok _ _ P)).
  destruct (builtin_read _ _ H) as (n & fs & -> & _ & _ & _ & _ & _ & _ & F & FT).
  refine (dec_obj_wfr rnd ST R3 j n fs (zero (GStruct n fs)) v J F _ Wz D). intros p m t HP. split; [exact (FT _ _ _ HP)|]. exact (path_utf8 _ _ _ _ _ Ut HP).
Qed.
Print Assumptions read_value_well_formed.

(** So for every JSON text: if what is read can be written, read, written and
    read again, the last two values are the same. *)
Theorem read_write_settles : forall rnd name t s0 v s, rounding rnd -> In (name, t) builtin_types -> unmarshal rnd s0 t (zero t) = Ok v -> years v = true ->
  marshal_bytes t v = Ok s ->
  exists v', unmarshal rnd s t (zero t) = Ok v' /\
    forall s', marshal_bytes t v' = Ok s' -> unmarshal rnd s' t (zero t) = Ok v'.
Proof.
  intros rnd name t s0 v s R H U Y M. destruct (read_value_well_formed rnd name t s0 v R H U Y) as [W P].
  apply (round_trip_settles rnd name t v s R H W); [|exact M]. rewrite P. intros k [].
Qed.
Print Assumptions read_write_settles.

(** ** Collections *)
Lemma bundle_encodes (r : string) (h : list (string * string * gobj)) c oks b : String.length r = 16%nat ->
  run (new_coll false) h = (c, oks) -> to_bundle marshal_obj r c (Ok b) -> forall id ob, get c id = Some ob -> exists s, marshal_obj ob = Ok s.
Proof.
  intros L R TB id ob G. destruct (to_bundle_full _ marshal_obj r h c oks (Ok b) L R TB) as (_ & os & F & OK & _).
  apply (get_spec false h c oks id R) in G.
  assert (I : In id (first_ids (log h oks))).
  { destruct G as (l1 & t & l2 & E & _). apply In_first_ids. exists (Call id t ob true). rewrite E. split; [apply in_or_app; right; now left|]. now split. }
  assert (X : exists o, In o os /\ last_accepted (log h oks) id o).
  { clear OK. induction F as [|i o ids os A F IH]; [destruct I|]. destruct I as [->|I]; [exists o; split; [now left|exact A]|]. destruct (IH I) as (o' & A' & B'). exists o'. split; [now right|exact B']. }
  destruct X as (o & Io & A). assert (o = ob). { apply (get_spec false h c oks id R) in A, G. congruence. } subst o.
  assert (K := proj1 OK eq_refl ob Io). destruct (marshal_obj ob) as [s| |]; try discriminate. eauto.
Qed.
Lemma read_back_plain rnd cf name t v : In (name, t) builtin_types -> (cf_drop cf = false -> props_of t v = []) -> read_back rnd cf (t, v) = (t, norm_top rnd t v).
Proof.
  intros H P. unfold read_back. cbn [fst snd]. destruct (cf_drop cf); [reflexivity|]. now rewrite (P eq_refl).
Qed.

(** A collection that was written to a bundle and read is not changed by doing
    it again.  Like C17 for objects of built-in types without extended
    properties (or dropping them). *)
Theorem collection_settles : forall rnd cf (r r' : string) (h : list (string * string * gobj)) c oks b c' b',
  rounding rnd -> String.length r = 16%nat -> String.length r' = 16%nat -> cf_nosort cf = false ->
  run (new_coll false) h = (c, oks) -> to_bundle marshal_obj r c (Ok b) ->
  (forall id ty ob, In (id, ty, ob) h -> obj_id ob = Ok id /\ obj_type ob = Ok ty) ->
  (forall id ob, get c id = Some ob -> own_object rnd cf ob /\
     (forall k, In k (akeys (props_of (fst ob) (snd ob))) -> free_name (fst ob) k = true /\ k <> "") /\
     (cf_drop cf = false -> props_of (fst ob) (snd ob) = [])) ->
  from_json rnd cf (bundle_bytes b) = Ok c' -> to_bundle marshal_obj r' c' (Ok b') ->
  exists c'', from_json rnd cf (bundle_bytes b') = Ok c'' /\ (forall id, get c'' id = get c' id) /\
    forall os, all_objects c' (map Some os) -> all_objects c'' (map Some os).
Proof.
  intros rnd cf r r' h c oks b c' b' Rn L L' Ns R TB Co Ow FJ TB'. assert (Rn0 := Rn). destruct Rn0 as (R1 & R2 & R3). assert (ST : settled rnd) by (split; assumption).
  destruct (bundle_survives_partial rnd cf r h c oks b L R TB Co Ow) as (c1 & FJ1 & G & _). rewrite FJ in FJ1. injection FJ1 as <-.
  destruct (proj1 (from_json_all_or_nothing rnd cf (bundle_bytes b)) c' FJ) as (js & outs & _ & Ec & Ac & _). rewrite Ns in Ec.
  destruct (run (new_coll false) (calls_of outs)) as [c1 oks1] eqn:R'. assert (c1 = c') as -> by (unfold collect in Ec; now rewrite R' in Ec).
  assert (Co' : forall id ty ob, In (id, ty, ob) (calls_of outs) -> obj_id ob = Ok id /\ obj_type ob = Ok ty).
  { intros id ty ob I. unfold calls_of in I. apply in_flat_map in I as ([o|] & _ & I); [|destruct I]. destruct (obj_id o) eqn:E1; try destruct I. destruct (obj_type o) eqn:E2; try destruct I; [|contradiction]. injection H as <- <- <-. auto. }
  assert (Ow' : forall id ob', get c' id = Some ob' -> (own_object rnd cf ob' /\
     (forall k, In k (akeys (props_of (fst ob') (snd ob'))) -> free_name (fst ob') k = true /\ k <> "") /\
     (cf_drop cf = false -> props_of (fst ob') (snd ob') = [])) /\ read_back rnd cf ob' = ob').
  { intros id ob' G'. rewrite G in G'. destruct (get c id) as [[t v]|] eqn:Gc; [|discriminate]. injection G' as <-.
    destruct (Ow _ _ Gc) as (Owo & Fr & Pr). destruct (bundle_encodes r h c oks b L R TB id (t, v) Gc) as (s & M).
    destruct (single_round_trip rnd cf (t, v) s Owo Fr M) as (_ & _ & Ei & Et).
    destruct Owo as (name & id' & H & Np & Ty & Id & Va & W). cbn [fst snd] in *.
    rewrite (read_back_plain rnd cf name t v H Pr) in *. cbn [fst snd].
    destruct (settle_top rnd ST name t v H W) as [W' C'].
    assert (P' : props_of t (norm_top rnd t v) = []).
    { assert (U := object_round_trip rnd name t v s H W (fun k I => proj1 (Fr k I)) M). unfold unmarshal in U. destruct (parse_json s) as [j|]; [|discriminate].
      destruct (dec rnd j t (zero t)) as [w [|]| |] eqn:D; try discriminate. injection U as <-. exact (dec_props rnd name t j w _ H D). }
    rewrite P'. split; [|exact (read_back_normal rnd cf name t _ H W' C' P')]. split; [|split; [intros k []|reflexivity]].
    exists name, id'. cbn [fst snd]. rewrite Et, Ei. auto 8. }
  destruct (bundle_survives_partial rnd cf r' (calls_of outs) c' oks1 b' L' R' TB' Co' (fun id ob' G' => proj1 (Ow' id ob' G'))) as (c'' & FJ'' & G'' & A'').
  exists c''. split; [exact FJ''|]. split.
  - intros id. rewrite G''. destruct (get c' id) as [ob'|] eqn:E; [|reflexivity]. cbn [option_map]. f_equal. now apply (Ow' id).
  - intros os A. apply (A'' Ns os A). f_equal. symmetry.
    assert (X : forall o, In o os -> read_back rnd cf o = o).
    { intros o Io. destruct (all_objects_sorted_total _ _ _ _ R') as [_ SO]. destruct (SO _ A) as (os2 & Q & F2).
      assert (os = os2) as -> by (clear -Q; revert os2 Q; induction os as [|x l IH]; intros [|y l2] Q; try discriminate; [reflexivity|]; injection Q as <- Q; f_equal; auto).
      assert (Y : exists id, last_accepted (log (calls_of outs) oks1) id o).
      { clear -F2 Io. induction F2 as [|i x ids os B F IH]; [destruct Io|]. destruct Io as [->|Io]; [now exists i|auto]. }
      destruct Y as (id & Y). apply (get_spec false _ _ _ id R') in Y. now apply (Ow' id). }
    clear -X. induction os as [|o os IH]; [reflexivity|]. cbn [map]. rewrite (X o (or_introl eq_refl)). f_equal. apply IH. intros o' I. apply X. now right.
Qed.
Print Assumptions collection_settles.

(** Non-vacuity: a time with nanoseconds changes in the first round trip only. *)
Definition fine_malware : gval := set_path (None, "FirstSeen") (VPtr (VTime 1500000000123456789)) ex_malware.
Example round_trip_settles_ex : wf go_rnd ty_Malware fine_malware = true /\ props_of ty_Malware fine_malware = [] /\
  exists s v' s', marshal_bytes ty_Malware fine_malware = Ok s /\ unmarshal go_rnd s ty_Malware (zero ty_Malware) = Ok v' /\ v' <> fine_malware /\
    years v' = true /\ marshal_bytes ty_Malware v' = Ok s' /\ unmarshal go_rnd s' ty_Malware (zero ty_Malware) = Ok v'.
Proof.
  split; [vm_compute; reflexivity|]. split; [vm_compute; reflexivity|]. do 3 eexists. split; [vm_compute; reflexivity|]. split; [vm_compute; reflexivity|].
  split; [vm_compute; discriminate|]. split; [vm_compute; reflexivity|]. split; [vm_compute; reflexivity|]. vm_compute. reflexivity.
Qed.
Example collection_settles_ex : let ob := (ty_Malware, fine_malware) in
  own_object go_rnd default_cf ob /\
  exists c b c' b', run (new_coll false) [(mid, "malware", ob)] = (c, [true]) /\ to_bundle marshal_obj "0123456789abcdef" c (Ok b) /\
    from_json go_rnd default_cf (bundle_bytes b) = Ok c' /\ get c' mid <> get c mid /\ to_bundle marshal_obj "fedcba9876543210" c' (Ok b').
Proof.
  cbv zeta. split; [exists "malware", mid; split; [apply (proj1 (alookup_builtin _ ty_Malware)); vm_compute; reflexivity|repeat split; vm_compute; reflexivity]|].
  do 4 eexists. split; [vm_compute; reflexivity|]. split; [eexists; split; [vm_compute; reflexivity|]; vm_compute; reflexivity|].
  split; [vm_compute; reflexivity|]. split; [vm_compute; discriminate|]. eexists. split; [vm_compute; reflexivity|]. vm_compute. reflexivity.
Qed.

(** The value that is read back need not be encodable: an undefined member of an
    enumeration is written as the empty string, read as the zero value and then
    missing. *)
Definition odd_opinion : gval :=
  set_paths [((Some "STIXDomainObject", "Type"), VStr "opinion");
             ((Some "STIXDomainObject", "ID"), VStr "opinion--30313233-3435-4637-b839-616263646566");
             ((Some "STIXDomainObject", "SpecVersion"), VStr "2.1");
             ((Some "STIXDomainObject", "Created"), VPtr (VTime 1600000000000000000));
             ((Some "STIXDomainObject", "Modified"), VPtr (VTime 1600000000001000000));
             ((None, "Value"), VEnum 99); ((None, "Objects"), VSlice [VStr mid])] (zero ty_Opinion).
Theorem second_encoding_refuted : exists name t v s v' e, In (name, t) builtin_types /\ wf go_rnd t v = true /\ props_of t v = [] /\
  marshal_bytes t v = Ok s /\ unmarshal go_rnd s t (zero t) = Ok v' /\ marshal_bytes t v' = Err e.
Proof.
  exists "opinion", ty_Opinion, odd_opinion. do 3 eexists. split; [apply (proj1 (alookup_builtin _ ty_Opinion)); vm_compute; reflexivity|].
  split; [vm_compute; reflexivity|]. split; [vm_compute; reflexivity|]. split; [vm_compute; reflexivity|]. split; [vm_compute; reflexivity|]. vm_compute. reflexivity.
Qed.
Print Assumptions second_encoding_refuted.
