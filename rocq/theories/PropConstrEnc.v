(** Encoding of constructed objects: C43, C44. *)
From Verif Require Import GoStr GoStrFacts Json Float Consts GoTypes Schema OptTable GoVal GoValFacts Codec CodecSpec CodecFacts
  StructFacts CodecRound ObjFacts TypedFacts StoreFacts DataTypes FromJson IndepFacts ParseFacts Options OptionFacts PropOptions Ident IdentFacts
  PropCodec Constructors ConstrSpec ConstrFacts ConstrArgs PropConstr.
From Coq Require Import QArith.

Definition path_list (fs : list (fmeta * gty)) : list (fpath * fmeta * gty) :=
  flat_map (fun ft => if fm_embed (fst ft) then match snd ft with
     | GStruct _ fsb => map (fun mt : fmeta * gty => ((Some (fm_name (fst ft)), fm_name (fst mt)), fst mt, snd mt)) fsb | _ => [] end
     else [((None, fm_name (fst ft)), fst ft, snd ft)]) fs.
Lemma path_list_In fs p m t : In (p, m, t) (path_list fs) <-> has_path fs p m t.
Proof.
  unfold path_list. rewrite in_flat_map. split.
  - intros ((m0 & t0) & Hin & H). cbn [fst snd] in H. destruct (fm_embed m0) eqn:E.
    + destruct t0; try destruct H. apply in_map_iff in H as ((m1 & t1) & Q & Hin'). injection Q as <- <- <-. econstructor; eauto.
    + destruct H as [Q|[]]. injection Q as <- <- <-. now constructor.
  - intros H. destruct H as [m t Hin E|mb nb fsb m t Hin E Hin'].
    + exists (m, t). split; [exact Hin|]. cbn [fst snd]. rewrite E. now left.
    + exists (mb, GStruct nb fsb). split; [exact Hin|]. cbn [fst snd]. rewrite E. apply in_map_iff. now exists (m, t).
Qed.

Definition is_ext (c : call) : bool := match c with CExtensionDefinition _ _ _ _ => true | _ => false end.
(** The table [required] is what the struct tags ask for. *)
Definition plain_ty (t : gty) : bool := match t with GString _ | GInt _ | GBool | GEnum _ | GPtr _ | GSlice _ | GMap _ _ _ | GIface => true | _ => false end.
Definition req_check (c : call) : bool :=
  forallb (fun x => let '(p, m, t) := x in
    if is_empty (fm_key m) || fm_omit m then negb (mem_str (fm_name m) (required c))
    else plain_ty t && (match t with GBool => true | _ => mem_str (fm_name m) (required c) end)) (path_list (call_fields c)) &&
  forallb (fun f => existsb (fun x => String.eqb (fm_name (snd (fst x))) f) (path_list (call_fields c))) (required c).
Lemma req_check_ok c : is_ext c = false -> req_check c = true.
Proof. destruct c; intros E; try discriminate E; vm_compute; reflexivity. Qed.
Lemma zero_unset t x : plain_ty t = true -> storable t x = true -> (is_zero x = true /\ is_bool_val x = false <-> unset x).
Proof.
  intros P S. unfold unset. split.
  - intros [Z B]. destruct x; cbn [is_zero is_bool_val] in *; try discriminate.
    + destruct s; [tauto|discriminate].
    + apply Z.eqb_eq in Z. subst. tauto.
    + destruct t; discriminate.
    + apply N.eqb_eq in Z. subst. tauto.
    + destruct t; discriminate.
    + tauto.
    + destruct t; discriminate.
  - intros [->|[->|[->| ->]]]; auto.
Qed.

Section E.
Variables (rb : string) (now : Z) (pf : string -> flt * bool).

Lemma call_helper_type c : is_ext c = false -> In (ty_name (call_ty c)) helper_types.
Proof. intros E. apply mem_str_In. destruct c; try discriminate E; vm_compute; reflexivity. Qed.
Lemma props_nil c os v p : args_typed c = true -> Forall go_option os -> construct rb now pf c os = Ret (Some v) None -> props_path (call_ty c) = Some p -> get_path p v = VNil.
Proof.
  intros AT GO OK E. destruct (call_struct c) as [n Q].
  assert (B := call_builtin c). rewrite Q in B, E. destruct (builtin_props _ _ _ _ B E) as (m & HP & K).
  assert (N : fm_name m = "toplevelProperties").
  { cbn [props_path] in E. destruct (find _ (call_fields c)) as [[m0 t0]|]; [|destruct (mem_str n _); [|discriminate E]]; injection E as <-; inversion HP; subst; reflexivity. }
  rewrite (result_path _ _ _ _ _ _ AT (go_user _ GO) OK _ _ _ HP) by (rewrite N; discriminate). rewrite N, final_id.
  - rewrite starts_props by discriminate. assert (X : alookup "toplevelProperties" (starts c now) = None) by (clear; destruct c; vm_compute; reflexivity).
    rewrite X. reflexivity.
  - eapply Forall_impl; [|exact (go_user _ GO)]. intros o U. destruct (is_target "toplevelProperties" o) eqn:T; [|reflexivity]. exfalso. apply is_target_eq in T.
    destruct o as [|rr y|k y]; cbn [target] in T; [discriminate| |discriminate]. destruct U as [U _]. injection T as T.
    assert (Z : negb (mem_str "toplevelProperties" (map or_field option_table)) = true) by (vm_compute; reflexivity).
    apply negb_true_iff in Z. assert (W := in_map or_field _ _ U). rewrite <- T in W || rewrite T in W; apply mem_str_In in W; congruence.
Qed.
Lemma no_props c os v : args_typed c = true -> Forall go_option os -> construct rb now pf c os = Ret (Some v) None -> props_of (call_ty c) v = [].
Proof.
  intros AT GO OK. unfold props_of. destruct (props_path (call_ty c)) as [p|] eqn:E; [|reflexivity]. now rewrite (props_nil c os v p AT GO OK E).
Qed.
End E.

Lemma fin_paths n fs v : (forall m t, In (m, t) fs -> fm_embed m = false) -> NoDup (names fs) -> storable (GStruct n fs) v = true ->
  (fin (GStruct n fs) v = true <-> forall p m t, has_path fs p m t -> fm_key m <> "" -> fin t (get_path p v) = true).
Proof.
  intros NE ND S. apply st_struct in S as (vs & -> & W). cbn [fin].
  assert (X : fin_fields fin fs vs = true <-> forall m t, In (m, t) fs -> fm_key m <> "" -> fin t (get_field (fm_name m) (VStruct vs)) = true).
  { clear NE. revert vs W ND. induction fs as [|[m t] fs IH]; intros [|[k x] vs] W ND; cbn [wf_fields] in W; try discriminate.
    - split; [intros _ m t []|reflexivity].
    - apply andb_true_iff in W as [W W3]. apply andb_true_iff in W as [W1 W2]. apply String.eqb_eq in W1. subst k. inversion ND as [|? ? ND1 ND2]; subst.
      cbn [fin_fields]. rewrite andb_true_iff, (IH vs W3 ND2). split.
      + intros [H1 H2] m' t' [Q|Hin] K.
        * injection Q as <- <-. cbn [get_field alookup]. rewrite String.eqb_refl. destruct (fm_key m); [now contradiction K|exact H1].
        * specialize (H2 _ _ Hin K). cbn [get_field alookup] in *. destruct (String.eqb (fm_name m') (fm_name m)) eqn:Q; [|exact H2].
          exfalso. apply String.eqb_eq in Q. apply ND1. rewrite <- Q. exact (in_map (fun ft => fm_name (fst ft)) _ _ Hin).
      + intros H. split.
        * destruct (fm_key m) eqn:K; [reflexivity|]. specialize (H m t (or_introl eq_refl) ltac:(congruence)). cbn [get_field alookup] in H. rewrite String.eqb_refl in H.
          cbn [is_empty orb]. exact H.
        * intros m' t' Hin K. specialize (H m' t' (or_intror Hin) K). cbn [get_field alookup] in H. destruct (String.eqb (fm_name m') (fm_name m)) eqn:Q; [|exact H].
          exfalso. apply String.eqb_eq in Q. apply ND1. rewrite <- Q. exact (in_map (fun ft => fm_name (fst ft)) _ _ Hin). }
  rewrite X. split.
  - intros H p m t HP K. destruct HP as [m t Hin _|mb nb fsb m t Hin E _]; [exact (H m t Hin K)|]. rewrite (NE _ _ Hin) in E. discriminate.
  - intros H m t Hin K. apply (H (None, fm_name m) m t); [|exact K]. constructor; [exact Hin|exact (NE _ _ Hin)].
Qed.

(** ** C43 *)
(** A successful constructor may return an object that cannot be encoded. *)
Theorem constructed_encodable_refuted : forall rb now pf, exists v e,
  construct rb now pf (CIdentity "x") [] = Ret (Some v) None /\ marshal (call_ty (CIdentity "x")) v = Err e.
Proof.
  intros. eexists. eexists. split; [lazy -[new_identifier]; reflexivity|]. vm_compute. reflexivity.
Qed.
Print Assumptions constructed_encodable_refuted.
(** Exactly when it can: all required properties are still there, and there is
    no NaN and no infinity. *)
Theorem constructed_encodable_partial : forall rb now pf c os v, args_typed c = true -> Forall go_option os ->
  construct rb now pf c os = Ret (Some v) None ->
  marshal (call_ty c) v <> Panic /\
  ((exists j, marshal (call_ty c) v = Ok j) <-> finite c v /\ forall f, In f (required c) -> ~ unset (prop c f v)).
Proof.
  intros rb now pf c os v AT GO OK. assert (S := result_storable _ _ _ _ _ _ _ AT GO OK). destruct (is_ext c) eqn:X.
  - destruct c; try discriminate X. change (call_ty _) with ty_ExtensionDefinition in S |- *. destruct (encode_default_fails_iff v S) as [NP F]. split; [exact NP|].
    assert (FP : fin ty_ExtensionDefinition v = true <-> finite (CExtensionDefinition name schema version ext_types) v).
    { apply (fin_paths "ExtensionDefinition"); [|apply nodupb_NoDup; vm_compute; reflexivity|exact S]. intros m t Hin.
      assert (Z : forallb (fun ft => negb (fm_embed (fst ft))) (call_fields (CExtensionDefinition "" "" "" VNil)) = true) by (vm_compute; reflexivity).
      rewrite forallb_forall in Z. specialize (Z _ Hin). now apply negb_true_iff in Z. }
    rewrite <- FP. destruct (fin ty_ExtensionDefinition v).
    + split; [intros _; split; [reflexivity|intros f []]|]. intros _. destruct (marshal ty_ExtensionDefinition v) as [j|e|] eqn:M; [eauto| |contradiction].
      assert (true = false) by (apply F; eauto). discriminate.
    + split; [|intros [Q _]; discriminate]. intros [j M]. destruct (proj2 F eq_refl) as [e M']. congruence.
  - destruct (call_struct c) as [n Q]. assert (B := call_builtin c). assert (H := call_helper_type c X). assert (NPr := no_props _ _ _ _ _ _ AT GO OK).
    assert (U := req_check_ok c X). unfold req_check in U. apply andb_true_iff in U as [U1 U2]. rewrite forallb_forall in U1, U2.
    rewrite Q in *. cbn [ty_name] in H. destruct (encode_fails_iff _ _ _ v B H S) as [NP F]; [rewrite NPr; intros k []|]. split; [exact NP|].
    rewrite NPr in F.
    assert (G : (exists e, marshal (GStruct n (call_fields c)) v = Err e) <-> ~ exists j, marshal (GStruct n (call_fields c)) v = Ok j).
    { destruct (marshal (GStruct n (call_fields c)) v) as [j|e|]; [|split; [intros _ [j M]; discriminate|eauto]|contradiction].
      split; [intros [e M]; discriminate|]. intros M. exfalso. apply M. eauto. }
    assert (ST : forall p m t, has_path (call_fields c) p m t -> storable t (get_path p v) = true) by (intros p m t; exact (result_prop_storable _ _ _ _ _ _ _ _ _ _ AT GO OK)).
    split.
    + intros J. assert (NE : ~ exists e, marshal (GStruct n (call_fields c)) v = Err e) by (intros Z; apply G in Z; exact (Z J)). rewrite F in NE. split.
      * intros p m t HP K. destruct (fin t (get_path p v)) eqn:Fi; [reflexivity|]. exfalso. apply NE. left. exists p, m, t. auto.
      * intros f Hf Un. apply NE. left. specialize (U2 f Hf). apply existsb_exists in U2 as ([[p m] t] & Hin & E). cbn [fst snd] in E. apply String.eqb_eq in E. subst f.
        specialize (U1 _ Hin). cbn beta iota in U1. apply path_list_In in Hin. rewrite (prop_path _ _ _ _ _ Hin) in Un.
        apply mem_str_In in Hf. rewrite Hf in U1. destruct (is_empty (fm_key m) || fm_omit m) eqn:K; [discriminate U1|].
        apply orb_false_iff in K as [K1 K2]. apply andb_true_iff in U1 as [U1 _]. apply (zero_unset t) in Un as [Z1 Z2]; [|exact U1|now apply (ST _ m)].
        exists p, m, t. split; [exact Hin|]. split; [destruct (fm_key m); [discriminate K1|discriminate]|]. left. auto.
    + intros [Fi Rq]. destruct (marshal (GStruct n (call_fields c)) v) as [j|e|] eqn:M; [eauto| |contradiction]. exfalso.
      destruct (proj1 F (ex_intro _ e eq_refl)) as [(p & m & t & HP & K & [(Om & Z1 & Z2)|Z])|(k & x & [] & _)].
      * assert (Hin := HP). apply path_list_In in Hin. specialize (U1 _ Hin). cbn beta iota in U1.
        assert (K' : is_empty (fm_key m) = false) by (destruct (fm_key m); [now contradiction K|reflexivity]). rewrite K', Om in U1. cbn [orb] in U1.
        apply andb_true_iff in U1 as [P1 P2]. assert (Un := proj1 (zero_unset t _ P1 (ST _ _ _ HP)) (conj Z1 Z2)).
        assert (MB : mem_str (fm_name m) (required c) = true).
        { destruct t; try exact P2. specialize (ST _ _ _ HP). destruct (get_path p v); try discriminate ST. discriminate Z2. }
        apply mem_str_In in MB. apply (Rq _ MB). now rewrite (prop_path _ _ _ _ _ HP).
      * rewrite (Fi _ _ _ HP K) in Z. discriminate.
Qed.
Print Assumptions constructed_encodable_partial.
Example encodable_example : let pf := fun _ => (FNaN, false) in exists v v',
  construct "0123456789abcdef" 0 pf (CIdentity "x") [OField (row "OptionClass") (VStr "group")] = Ret (Some v) None /\
  (exists j, marshal (call_ty (CIdentity "x")) v = Ok j) /\
  construct "0123456789abcdef" 0 pf (CTool "x") [OField (row "OptionName") (VStr "")] = Ret (Some v') None /\ (exists e, marshal (call_ty (CTool "x")) v' = Err e).
Proof.
  eexists. eexists. split; [vm_compute; reflexivity|]. split; [eexists; vm_compute; reflexivity|].
  split; [vm_compute; reflexivity|]. eexists. vm_compute. reflexivity.
Qed.

(** ** C44 *)
Fixpoint finite_ty (t : gty) : bool :=
  match t with
  | GString _ | GInt _ | GBool | GEnum _ | GTime | GBinary | GRaw => true
  | GPtr t' | GSlice t' => finite_ty t'
  | GMap _ _ t' => finite_ty t'
  | _ => false
  end.
Lemma finite_ty_fin t v : finite_ty t = true -> storable t v = true -> fin t v = true.
Proof.
  revert t. induction v using gval_ind'; intros t0 F S; cbn [storable fin] in *; try reflexivity.
  - destruct t0; discriminate.
  - destruct t0; try discriminate S. cbn [finite_ty] in F. auto.
  - destruct t0; try discriminate S. cbn [finite_ty] in F. rewrite forallb_forall in *. rewrite Forall_forall in H. intros x Hx. auto.
  - destruct t0; try discriminate S; try discriminate F. cbn [finite_ty] in F. apply andb_true_iff in S as [_ S]. rewrite forallb_forall in *. rewrite Forall_forall in H.
    intros x Hx. auto.
  - destruct t0; discriminate.
  - destruct t0; discriminate.
Qed.
Lemma given_prop rb now pf c v : args_typed c = true -> construct rb now pf c [] = Ret (Some v) None -> forall f x, In (f, x) (starts c now) -> f <> "ID" -> prop c f v = x.
Proof.
  intros AT OK f x Hin N.
  assert (ND : NoDup (akeys (starts c now))) by (apply nodupb_NoDup; clear; destruct c; vm_compute; reflexivity).
  assert (Y : forallb (fun k => match field_by_name (call_fields c) k with Some _ => negb (mem_str k ext_bases) | None => false end) (akeys (starts c now)) = true)
    by (clear; destruct c; vm_compute; reflexivity).
  rewrite forallb_forall in Y. specialize (Y f (in_map fst _ _ Hin)). destruct (field_by_name (call_fields c) f) as [[p t]|] eqn:F; [|discriminate].
  apply negb_true_iff in Y. assert (NE : ~ In f ext_bases) by (intros Q; apply mem_str_In in Q; congruence).
  apply field_by_name_path in F as (m & HP & <-); [|apply call_opt|exact NE].
  rewrite (prop_path _ _ _ _ _ HP), (constructor_properties _ _ _ _ _ _ AT (Forall_nil _) OK _ _ _ HP N). cbn [final fold_left]. unfold start_value.
  now rewrite (alookup_In _ _ _ ND Hin).
Qed.
Lemma id_set rb now pf c v : args_typed c = true -> construct rb now pf c [] = Ret (Some v) None -> exists s, prop c "ID" v = VStr s /\ s <> "".
Proof.
  intros AT OK. assert (X := result_id_value _ _ _ _ _ _ AT (Forall_nil _) OK). assert (N : forall r, (call_name c ++ r)%string <> "") by (intros r; clear; destruct c; discriminate).
  destruct (contribution pf c) as [g|]; [destruct X as (s & _ & X)|]; eexists; (split; [exact X|]); apply N.
Qed.
(** The properties whose type can hold a NaN. *)
Definition special (f : string) (t : gty) : bool :=
  match t with
  | GFloat => mem_str f ["Latitude"; "Longitude"]
  | GIface => String.eqb f "Definition"
  | GMap a b (GMap c d GIface) => String.eqb f "Contents" && String.eqb a "" && String.eqb b "string" && String.eqb c "" && String.eqb d "string"
  | _ => false
  end.
Lemma given_finite c : forallb (fun x => let '(p, m, t) := x in finite_ty t || negb (mem_str (fm_name m) (akeys (given c))) || special (fm_name m) t) (path_list (call_fields c)) = true.
Proof. destruct c; vm_compute; reflexivity. Qed.
Lemma special_paths c f : In f ["Latitude"; "Longitude"; "Contents"; "Definition"] -> In f (akeys (given c)) -> exists m t,
  has_path (call_fields c) (None, f) m t /\ fm_name m = f /\ fm_key m <> "" /\ special f t = true.
Proof.
  intros Hf Hg. assert (Z : forallb (fun f => negb (mem_str f (akeys (given c))) || existsb (fun x => let '(p, m, t) := x in
      String.eqb (fm_name m) f && negb (is_empty (fm_key m)) && special f t && match p with (None, g) => String.eqb g f | _ => false end) (path_list (call_fields c)))
      ["Latitude"; "Longitude"; "Contents"; "Definition"] = true) by (clear; destruct c; vm_compute; reflexivity).
  rewrite forallb_forall in Z. specialize (Z _ Hf). apply mem_str_In in Hg. rewrite Hg in Z. cbn [negb orb] in Z.
  apply existsb_exists in Z as ([[p m] t] & Hin & Z). apply path_list_In in Hin. rewrite !andb_true_iff in Z. destruct Z as [[[Z1 Z2] Z3] Z4].
  destruct p as [[b|] g]; [discriminate|]. apply String.eqb_eq in Z1, Z4. subst g. exists m, t. repeat split; auto. destruct (fm_key m); discriminate.
Qed.
Lemma zero_ty_fin t : fin t (zero t) = true.
Proof.
  induction t using gty_ind'; try reflexivity. rewrite zero_struct. cbn [fin].
  induction H as [|[m t] fs Ht Hf IH]; [reflexivity|]. cbn [map fin_fields fst snd] in *. rewrite Ht, orb_true_r. exact IH.
Qed.
Ltac find_in := first [left; reflexivity|right; find_in].
Theorem constructor_result_encodable : forall rb now pf c v, args_typed c = true -> construct rb now pf c [] = Ret (Some v) None ->
  marshal (call_ty c) v <> Panic /\ ((exists j, marshal (call_ty c) v = Ok j) <-> encodable_args c).
Proof.
  intros rb now pf c v AT OK. destruct (constructed_encodable_partial rb now pf c [] v AT (Forall_nil _) OK) as [NP E]. split; [exact NP|]. rewrite E. clear E.
  assert (NB := proj1 (proj2 (constructor_without_options rb now pf c AT)) (ex_intro _ v OK)).
  assert (G := given_prop _ _ _ _ _ AT OK). destruct (id_set _ _ _ _ _ AT OK) as (id & Gi & Ni).
  assert (G' : forall f x, In (f, x) (given c) -> prop c f v = x).
  { intros f x Hin. apply G; [right; right; apply in_or_app; now right|]. intros ->. clear - Hin. destruct c; cbn in Hin; intuition discriminate. }
  split.
  - intros [Fi Rq]. destruct c; cbn [encodable_args]; try exact I.
    + apply (Rq "Class"); [cbn; tauto|]. 
      assert (F : exists t, field_by_name (call_fields (CIdentity name)) "Class" = Some ((None, "Class"), GString t)) by (eexists; vm_compute; reflexivity).
      destruct F as [t F]. apply field_by_name_path in F as (m & HP & Em); [|apply call_opt|intros [W|[W|[W|[]]]]; discriminate W].
      rewrite <- Em, (prop_path _ _ _ _ _ HP), (constructor_properties _ _ _ _ _ _ AT (Forall_nil _) OK _ _ _ HP) by (rewrite Em; discriminate).
      unfold start_value. rewrite Em. right. left. reflexivity.
    + assert (X : forall f a, In (f, VFloat a) (given (CLocation region country lat long)) -> In f ["Latitude"; "Longitude"; "Contents"; "Definition"] -> a <> FNaN).
      { intros f a Hin Hf. destruct (special_paths (CLocation region country lat long) f Hf (in_map fst _ _ Hin)) as (m & t & HP & Em & K & _). specialize (Fi _ _ _ HP K).
        rewrite <- (prop_path _ _ _ _ _ HP), Em, (G' _ _ Hin) in Fi. intros ->. discriminate Fi. }
      split; [apply (X "Latitude")|apply (X "Longitude")]; cbn; tauto.
    + intros ->. apply (Rq "Content"); [cbn; tauto|]. rewrite (G' "Content" (VStr "")) by now left. right. left. reflexivity.
    + intros ->. apply (Rq "Value"); [cbn; tauto|]. rewrite (G' "Value" (VEnum 0)) by now left. right. right. right. reflexivity.
    + assert (X : In ("Contents", content) (given (CLanguageContent object content))) by (cbn; tauto).
      destruct (special_paths _ "Contents" ltac:(cbn; tauto) (in_map fst _ _ X)) as (m & t & HP & Em & K & S). specialize (Fi _ _ _ HP K).
      rewrite <- (prop_path _ _ _ _ _ HP), Em, (G' _ _ X) in Fi. destruct t; try discriminate S. destruct t; try discriminate S. destruct t; try discriminate S.
      cbn [special] in S. rewrite !andb_true_iff, !String.eqb_eq in S. destruct S as [[[[_ ->] ->] ->] ->]. exact Fi.
    + assert (X : In ("Definition", definition) (given (CMarkingDefinition typ definition))) by (cbn; tauto).
      destruct (special_paths _ "Definition" ltac:(cbn; tauto) (in_map fst _ _ X)) as (m & t & HP & Em & K & S). specialize (Fi _ _ _ HP K).
      rewrite <- (prop_path _ _ _ _ _ HP), Em, (G' _ _ X) in Fi. destruct t; try discriminate S; [|exact Fi].
      destruct t; try discriminate S. destruct t; discriminate S.
  - intros EA. split.
    + intros p m t HP K. destruct (string_dec (fm_name m) "ID") as [N|N].
      * rewrite <- (prop_path _ _ _ _ _ HP), N, Gi. reflexivity.
      * rewrite (constructor_properties _ _ _ _ _ _ AT (Forall_nil _) OK _ _ _ HP N). cbn [final fold_left]. unfold start_value.
        destruct (alookup (fm_name m) (starts c now)) as [x|] eqn:A; [|apply zero_ty_fin].
        apply alookup_Some_In in A. destruct A as [A|[A|A]]; [injection A as _ <-; reflexivity|injection A as _ <-; reflexivity|].
        apply in_app_or in A as [A|A].
        -- assert (Z : forallb (fun kv => match snd kv with VPtr (VTime _) => true | _ => false end) (stamps c now) = true) by (clear; destruct c; reflexivity).
           rewrite forallb_forall in Z. specialize (Z _ A). cbn [snd] in Z. destruct x; try discriminate Z. destruct x; try discriminate Z. destruct t; reflexivity.
        -- assert (Z := given_finite c). rewrite forallb_forall in Z. assert (HP' := HP). apply path_list_In in HP'. specialize (Z _ HP'). cbn beta iota in Z.
           assert (V : get_path p v = x) by (rewrite <- (prop_path _ _ _ _ _ HP); apply G'; exact A).
           assert (S := result_prop_storable _ _ _ _ _ _ _ _ _ _ AT (Forall_nil _) OK HP). rewrite V in S.
           assert (Hk : mem_str (fm_name m) (akeys (given c)) = true) by (apply mem_str_In; exact (in_map fst _ _ A)). rewrite Hk in Z. cbn [negb] in Z. rewrite orb_false_r in Z.
           apply orb_true_iff in Z as [Z|Z]; [now apply finite_ty_fin|].
           destruct t; try discriminate Z.
           ++ cbn [special] in Z. apply mem_str_In in Z. destruct x; try discriminate S.
              destruct c; try (exfalso; cbn [given In] in A; try contradiction A; destruct Z as [Z|[Z|[]]]; rewrite <- Z in A; repeat destruct A as [A|A]; (discriminate A || contradiction A)).
              assert (B : (f = lat \/ f = long) /\ (f = lat -> within lat 90 \/ lat = FNaN) /\ (f = long -> within long 180 \/ long = FNaN)).
              { split; [cbn [given In] in A; destruct Z as [Z|[Z|[]]]; rewrite <- Z in A; repeat destruct A as [A|A]; try discriminate A; try contradiction A; injection A as <-; auto|].
                cbn [args_bad] in NB. clear - NB OK AT. assert (D : forall a r, (within a r \/ a = FNaN) \/ ~ (within a r \/ a = FNaN)).
                { intros a r. destruct a as [|n|n q e]; [left; now right|right; intros [(q & Q & _)|Q]; discriminate|].
                  assert (DQ : forall x y : Q, (x <= y)%Q \/ ~ (x <= y)%Q) by (intros x y; destruct (Qlt_le_dec y x) as [L|L]; [right; now apply Qlt_not_le|now left]).
                  set (v0 := (inject_Z (signed n q) * Qpower 10 e)%Q). destruct (DQ (inject_Z (- r)) v0) as [L|L]; [destruct (DQ v0 (inject_Z r)) as [L'|L']|].
                  - left. left. exists v0. auto.
                  - right. intros [(q0 & Q0 & Q1 & Q2)|Q0]; [|discriminate]. injection Q0 as <-. contradiction.
                  - right. intros [(q0 & Q0 & Q1 & Q2)|Q0]; [|discriminate]. injection Q0 as <-. contradiction. }
                split; intros _.
                - destruct (D lat 90%Z) as [Y|Y]; [exact Y|]. exfalso. apply NB. left. right. left. exact Y.
                - destruct (D long 180%Z) as [Y|Y]; [exact Y|]. exfalso. apply NB. left. right. right. left. exact Y. }
              destruct B as (B1 & B2 & B3). cbn [encodable_args] in EA. destruct EA as [E1 E2].
              destruct f; [destruct B1; congruence| |reflexivity]. exfalso. destruct B1 as [B1|B1]; [destruct (B2 B1) as [(q & Q & _)|Q]|destruct (B3 B1) as [(q & Q & _)|Q]]; rewrite <- B1 in Q; discriminate Q.
           ++ destruct t; try discriminate Z. destruct t; try discriminate Z. cbn [special] in Z. rewrite !andb_true_iff, !String.eqb_eq in Z. destruct Z as [[[[Z ->] ->] ->] ->].
              rewrite Z in A. destruct c; try (exfalso; cbn [given In] in A; try contradiction A; repeat destruct A as [A|A]; (discriminate A || contradiction A)).
              cbn [given In] in A. repeat destruct A as [A|A]; try discriminate A; try contradiction A. injection A as <-. exact EA.
           ++ cbn [special] in Z. apply String.eqb_eq in Z.
              rewrite Z in A. destruct c; try (exfalso; cbn [given In] in A; try contradiction A; repeat destruct A as [A|A]; (discriminate A || contradiction A)).
              cbn [given In] in A. repeat destruct A as [A|A]; try discriminate A; try contradiction A. injection A as <-. exact EA.
    + assert (TG : forall f x, In (f, x) (given c) -> match own_field (call_fields c) f with Some t => typed t x | None => false end = true)
        by (intros f x Hin; unfold args_typed in AT; rewrite forallb_forall in AT; exact (AT _ Hin)).
      intros f Hf Un. destruct c; cbn [required call_kind app In] in Hf; cbn [encodable_args] in EA; try exact (False_ind _ EA);
      repeat (destruct Hf as [<-|Hf]; [first [rewrite Gi in Un; destruct Un as [U|[U|[U|U]]]; try discriminate U; injection U as U; contradiction
        |match type of Un with unset (prop _ ?g _) => assert (Tg := TG g) end; erewrite G in Un; [|find_in|discriminate]; destruct Un as [U|[U|[U|U]]]; try discriminate U;
         first [injection U as U|idtac]; subst; first [apply NB; left; cbn [args_bad]; unfold no_elements; first [tauto|lia]|contradiction
           |first [specialize (Tg (VStr "") ltac:(find_in))|specialize (Tg (VInt 0) ltac:(find_in))|specialize (Tg (VEnum 0) ltac:(find_in))]; vm_compute in Tg; discriminate Tg]]|]); try destruct Hf.
Qed.
Print Assumptions constructor_result_encodable.
Example result_example : let pf := fun _ => (FNaN, false) in let c := CObservedData (VPtr (VTime 5)) (VPtr (VTime 6)) 2 (VSlice [VStr "x"]) in args_typed c = true /\
  exists v, construct "0123456789abcdef" 0 pf c [] = Ret (Some v) None.
Proof. split; [vm_compute; reflexivity|]. eexists. vm_compute. reflexivity. Qed.
