(** Properties of options: C35-C39. *)
From Verif Require Import GoStr GoStrFacts Json Float Consts GoTypes Schema OptTable GoVal GoValFacts Codec CodecSpec CodecFacts
  StructFacts CodecRound ObjFacts TypedFacts FromJson IndepFacts Options OptionFacts.
From Coq Require Import Permutation.

(** An option a user can write: nil, an option constructor of the library
    applied to an argument of its parameter type, or OptionExtension. *)
Definition user_option (o : stix_option) : Prop :=
  match o with OField r x => In r option_table /\ typed (or_ty r) x = true | _ => True end.

Lemma user_table o : user_option o -> table_option o.
Proof. destruct o; cbn [user_option table_option]; tauto. Qed.
Lemma user_tables os : Forall user_option os -> Forall table_option os.
Proof. intros H. eapply Forall_impl; [|exact H]. intros o. apply user_table. Qed.

Lemma assignable_typed r ft x : In r option_table -> assignable (or_ty r) ft = true -> ft <> GExt -> typed (or_ty r) x = true -> typed ft x = true.
Proof.
  intros _ A N T. unfold assignable in A. apply orb_true_iff in A as [A|A]; [apply gty_eqb_eq in A; now rewrite <- A|].
  destruct (or_ty r); try discriminate. destruct ft; try discriminate; [|contradiction].
  rewrite !andb_true_iff in A. destruct A as [[_ _] A]. apply gty_eqb_eq in A. subst. destruct x; exact T.
Qed.

(** ** C35 *)
(** Named after the field: OptionX sets property X, but for two options. *)
Theorem option_names : forall r, In r option_table ->
  or_name r = ("Option" ++ or_field r)%string \/
  (or_name r, or_field r) = ("OptionPathEncoding", "PathEnc") \/ (or_name r, or_field r) = ("OptionV3Extensions", "X509v3Extensions").
Proof.
  assert (X : forallb (fun r => String.eqb (or_name r) ("Option" ++ or_field r) ||
    (String.eqb (or_name r) "OptionPathEncoding" && String.eqb (or_field r) "PathEnc" ||
     String.eqb (or_name r) "OptionV3Extensions" && String.eqb (or_field r) "X509v3Extensions")) option_table = true) by (vm_compute; reflexivity).
  intros r H. rewrite forallb_forall in X. specialize (X _ H). rewrite !orb_true_iff, !andb_true_iff, !String.eqb_eq in X.
  destruct X as [X|[[X1 X2]|[X1 X2]]]; [now left|right; left; congruence|right; right; congruence].
Qed.
Print Assumptions option_names.

Theorem option_sets_only_its_property : forall name n fs r x v v',
  In (name, GStruct n fs) builtin_types -> user_option (OField r x) -> typed (GStruct n fs) v = true ->
  apply_opt (GStruct n fs) (OField r x) v = (v', Ok tt) ->
  typed (GStruct n fs) v' = true /\
  (exists p m t, has_path fs p m t /\ fm_name m = or_field r) /\
  (forall p m t, has_path fs p m t -> get_path p v' = if String.eqb (fm_name m) (or_field r) then x else get_path p v).
Proof.
  intros name n fs r x v v' H U T E. destruct (builtin_opt _ _ H) as (n' & fs' & Q & O). injection Q as <- <-. destruct U as [Hr Tx].
  assert (I := typed_inv _ _ _ (os_flat _ O) T). assert (X := effect_of _ _ (OField r x) _ _ O Hr E).
  split; [|split].
  - inversion X as [|? ? p m ft ? HP Nm K A|]; subst. eapply typed_set_path; [exact (os_flat _ O)|exact T|exact HP|].
    eapply assignable_typed; [exact Hr|exact A| |exact Tx]. intros ->. destruct (row_field _ Hr) as (_ & _ & N & _).
    apply N. rewrite <- Nm. eapply (os_ext _ O); eauto.
  - inversion X as [|? ? p m ft ? HP Nm K A|]; subst. eauto.
  - intros p m t HP. destruct (String.eqb_spec (fm_name m) (or_field r)) as [Q|Q].
    + now rewrite (effect_same _ _ _ _ _ _ _ O I X HP ltac:(cbn; congruence)).
    + apply (effect_other _ _ _ _ _ _ _ O I X HP). cbn. congruence.
Qed.
Print Assumptions option_sets_only_its_property.

Theorem extension_option_sets_only_its_key : forall name n fs k x v v',
  In (name, GStruct n fs) builtin_types -> typed (GStruct n fs) v = true ->
  apply_opt (GStruct n fs) (OExt k x) v = (v', Ok tt) ->
  (exists p m, has_path fs p m GExt /\ fm_name m = "Extensions" /\ exists l, get_path p v' = VMap l /\ msorted l = true /\
     alookup k l = Some x /\ forall k', k' <> k -> alookup k' l = alookup k' (old_map (get_path p v))) /\
  (forall p m t, has_path fs p m t -> fm_name m <> "Extensions" -> get_path p v' = get_path p v).
Proof.
  intros name n fs k x v v' H T E. destruct (builtin_opt _ _ H) as (n' & fs' & Q & O). injection Q as <- <-.
  assert (I := typed_inv _ _ _ (os_flat _ O) T). assert (X := effect_of _ _ (OExt k x) _ _ O Logic.I E).
  split.
  - assert (HE : exists p m, has_path fs p m GExt /\ fm_name m = "Extensions") by (inversion X; subst; eauto).
    destruct HE as (p & m & HP & Nm). exists p, m. split; [exact HP|]. split; [exact Nm|].
    exists (minsert k x (old_map (get_path p v))). assert (S := proj2 I _ _ HP).
    split; [rewrite (effect_same _ _ _ _ _ _ _ O I X HP ltac:(cbn; congruence)); reflexivity|]. split; [now apply msorted_minsert|].
    split; [rewrite alookup_minsert, String.eqb_refl; auto|]. intros k' Nk. rewrite alookup_minsert by assumption.
    now destruct (String.eqb_spec k' k).
  - intros p m t HP N. apply (effect_other _ _ _ _ _ _ _ O I X HP). cbn. congruence.
Qed.
Print Assumptions extension_option_sets_only_its_key.

Theorem failing_option_changes_nothing : forall t o v v' r, apply_opt t o v = (v', r) -> r <> Ok tt -> v' = v.
Proof. exact apply_opt_fail. Qed.
Print Assumptions failing_option_changes_nothing.

Definition row (name : string) : optrow :=
  match find (fun r => String.eqb (or_name r) name) option_table with Some r => r | None => OptRow "" "" GBool KBool [] end.
Example option_example :
  let (v, r) := apply_opts ty_Malware [OField (row "OptionName") (VStr "abc"); ONil; OExt "k" (VDyn GBool (VBool true)); OField (row "OptionConfidence") (VInt 7)] (zero ty_Malware) in
  r = Ok tt /\ get_path (None, "Name") v = VStr "abc" /\ get_path (Some "STIXDomainObject", "Confidence") v = VInt 7 /\
  get_path (Some "STIXDomainObject", "Extensions") v = VMap [("k", VDyn GBool (VBool true))].
Proof. vm_compute. repeat split. Qed.
Example option_example_hyp : user_option (OField (row "OptionName") (VStr "abc")) /\ typed ty_Malware (zero ty_Malware) = true /\ In (TypeMalware, ty_Malware) builtin_types.
Proof.
  split; [split; [|reflexivity]|split; [vm_compute; reflexivity|]].
  - apply (find_some (fun r => String.eqb (or_name r) "OptionName")). vm_compute. reflexivity.
  - apply alookup_Some_In. vm_compute. reflexivity.
Qed.

(** ** C36 *)
Theorem options_keep_type_and_id : forall name t os v v' r,
  In (name, t) builtin_types -> Forall user_option os -> typed t v = true ->
  apply_opts t os v = (v', r) ->
  get_path (field_path t "Type") v' = get_path (field_path t "Type") v /\
  get_path (field_path t "ID") v' = get_path (field_path t "ID") v.
Proof.
  intros name t os v v' r H U T E. destruct (builtin_opt _ _ H) as (n & fs & -> & O). apply user_tables in U.
  destruct (builtin_read _ _ H) as (n0 & fs0 & Q & _ & _ & (n1 & T1) & (n2 & T2) & _). injection Q as <- <-.
  assert (I := typed_inv _ _ _ (os_flat _ O) T).
  apply flat_fields_In in T1 as (m1 & P1 & _ & _). apply flat_fields_In in T2 as (m2 & P2 & _ & _).
  assert (N1 : fm_name m1 = "Type") by (destruct (has_path_all _ _ _ _ P1) as [_ <-]; unfold field_path; destruct (find _ _) as [[]|]; reflexivity).
  assert (N2 : fm_name m2 = "ID") by (destruct (has_path_all _ _ _ _ P2) as [_ <-]; unfold field_path; destruct (find _ _) as [[]|]; reflexivity).
  split; (eapply apply_opts_keep; [exact O|exact U|eassumption| |exact I|exact E]);
    (eapply Forall_impl; [|exact U]; intros [|rr x|k x] TO; cbn [target]; [discriminate| |congruence]);
    (cbn [table_option] in TO; destruct (row_field _ TO) as (A & B & _); congruence).
Qed.
Print Assumptions options_keep_type_and_id.

(** ** C37 *)
(** Options whose documentation names a type on which they fail. *)
Definition wrong_docs : list (string * string) :=
  [("OptionBelongsTo", "IPv4Address"); ("OptionBelongsTo", "IPv6Address"); ("OptionUserID", "Software")].
Theorem documented_options_refuted : exists r n name t, In r option_table /\ In n (or_docs r) /\ In (name, t) builtin_types /\ ty_name t = n /\
  forall x v, exists e, snd (apply_opt t (OField r x) v) = Err e.
Proof.
  exists (row "OptionUserID"), "Software", TypeSoftware, ty_Software.
  split; [apply (find_some (fun r => String.eqb (or_name r) "OptionUserID")); vm_compute; reflexivity|].
  split; [apply mem_str_In; vm_compute; reflexivity|].
  split; [apply alookup_Some_In; vm_compute; reflexivity|]. split; [reflexivity|].
  intros x v. exists "field not found". vm_compute. reflexivity.
Qed.
Print Assumptions documented_options_refuted.

Definition sometimes (p : string * string) (l : list (string * string)) : bool :=
  existsb (fun q => String.eqb (fst p) (fst q) && String.eqb (snd p) (snd q)) l.
Lemma sometimes_In p l : sometimes p l = true <-> In p l.
Proof.
  unfold sometimes. rewrite existsb_exists. split.
  - intros (q & Hin & E). apply andb_true_iff in E as [E1 E2]. apply String.eqb_eq in E1, E2. destruct p, q; cbn in *; congruence.
  - intros H. exists p. split; [exact H|]. now rewrite !String.eqb_refl.
Qed.
Definition succeeds (t : gty) (o : stix_option) : bool := match snd (apply_opt t o VNil) with Ok _ => true | _ => false end.
Definition fails (t : gty) (o : stix_option) : bool := match snd (apply_opt t o VNil) with Err _ => true | _ => false end.
Definition ty_named (n : string) : option gty :=
  match find (fun kv => String.eqb (ty_name (snd kv)) n) builtin_types with Some (_, t) => Some t | None => None end.
Lemma docs_check : forallb (fun r => forallb (fun n =>
    match ty_named n with
    | Some t => if sometimes (or_name r, n) wrong_docs then fails t (OField r VNil) else succeeds t (OField r VNil)
    | None => String.eqb n "Bundle"
    end) (or_docs r)) option_table = true.
Proof. vm_compute. reflexivity. Qed.
Lemma ext_docs_check : forallb (fun n => match ty_named n with Some t => succeeds t (OExt "" VNil) | None => false end) option_extension_docs = true.
Proof. vm_compute. reflexivity. Qed.
Lemma names_nodup : nodupb (map (fun kv => ty_name (snd kv)) builtin_types) = true.
Proof. vm_compute. reflexivity. Qed.
Lemma ty_named_In name t : In (name, t) builtin_types -> ty_named (ty_name t) = Some t.
Proof.
  intros H. unfold ty_named. destruct (find _ builtin_types) as [[k t']|] eqn:F.
  - apply find_some in F as [Hin E]. cbn [snd] in E. apply String.eqb_eq in E.
    assert (X := NoDup_map_eq (fun kv => ty_name (snd kv)) _ _ _ (nodupb_NoDup _ names_nodup) Hin H E). congruence.
  - exfalso. apply find_none with (x := (name, t)) in F; [|exact H]. cbn [snd] in F. now rewrite String.eqb_refl in F.
Qed.
Lemma field_value_irrelevant t r x y v w : snd (apply_opt t (OField r x) v) = snd (apply_opt t (OField r y) w).
Proof.
  cbn [apply_opt]. unfold set_field_opt. destruct t; try reflexivity. destruct (get_field_from_base fields (or_field r)) as [[p ft]| |]; try reflexivity.
  destruct (match kind_of ft with Some k' => kind_eqb (or_kind r) k' | None => false end); [|reflexivity]. now destruct (assignable (or_ty r) ft).
Qed.
Lemma ext_value_irrelevant t k k' x y v w : snd (apply_opt t (OExt k x) v) = snd (apply_opt t (OExt k' y) w).
Proof.
  cbn [apply_opt]. unfold set_extension. destruct t; try reflexivity. destruct (find_extension_field fields) as [[p ft]|]; [|reflexivity]. now destruct ft.
Qed.

(** Missing for the full statement: the three pairs of [wrong_docs] always fail;
    OptionSpecVersion names Bundle, to which no option applies at all. *)
Theorem documented_options_partial : forall r name t x v, In r option_table -> In (ty_name t) (or_docs r) -> In (name, t) builtin_types ->
  (snd (apply_opt t (OField r x) v) = Ok tt <-> ~ In (or_name r, ty_name t) wrong_docs) /\
  (In (or_name r, ty_name t) wrong_docs -> exists e, snd (apply_opt t (OField r x) v) = Err e).
Proof.
  intros r name t x v Hr Hd Ht. assert (X := docs_check). rewrite forallb_forall in X. specialize (X _ Hr).
  rewrite forallb_forall in X. specialize (X _ Hd). rewrite (ty_named_In _ _ Ht) in X. unfold succeeds, fails in X.
  rewrite (field_value_irrelevant t r VNil x VNil v) in X.
  destruct (sometimes (or_name r, ty_name t) wrong_docs) eqn:S.
  - apply sometimes_In in S. destruct (snd (apply_opt t (OField r x) v)) as [[]|e|] eqn:E; try discriminate.
    split; [split; [discriminate|contradiction]|eauto].
  - assert (N : ~ In (or_name r, ty_name t) wrong_docs) by (intros Q; apply sometimes_In in Q; congruence).
    destruct (snd (apply_opt t (OField r x) v)) as [[]|e|] eqn:E; try discriminate. split; [tauto|contradiction].
Qed.
Print Assumptions documented_options_partial.
Theorem documented_types_exist : forall r n, In r option_table -> In n (or_docs r) -> n = "Bundle" \/ exists name t, In (name, t) builtin_types /\ ty_name t = n.
Proof.
  intros r n Hr Hd. assert (X := docs_check). rewrite forallb_forall in X. specialize (X _ Hr).
  rewrite forallb_forall in X. specialize (X _ Hd). destruct (ty_named n) as [t|] eqn:E; [|left; now apply String.eqb_eq]. right.
  unfold ty_named in E. destruct (find _ builtin_types) as [[k t']|] eqn:F; [|discriminate]. injection E as ->.
  apply find_some in F as [Hin F]. cbn [snd] in F. apply String.eqb_eq in F. eauto.
Qed.
Print Assumptions documented_types_exist.
Theorem documented_extension_option : forall name t k x v, In (name, t) builtin_types -> In (ty_name t) option_extension_docs ->
  snd (apply_opt t (OExt k x) v) = Ok tt.
Proof.
  intros name t k x v H D. assert (X := ext_docs_check). rewrite forallb_forall in X. specialize (X _ D). rewrite (ty_named_In _ _ H) in X.
  unfold succeeds in X. rewrite (ext_value_irrelevant t "" k VNil x VNil v) in X. now destruct (snd (apply_opt t (OExt k x) v)) as [[]| |].
Qed.
Print Assumptions documented_extension_option.
Example documented_example : In (ty_name ty_Tool) (or_docs (row "OptionKillChainPhase")) /\ ~ In (or_name (row "OptionKillChainPhase"), ty_name ty_Tool) wrong_docs.
Proof. split; [apply mem_str_In; vm_compute; reflexivity|]. intros [Q|[Q|[Q|[]]]]; vm_compute in Q; discriminate. Qed.

(** ** C38 *)
(** Options on different properties may be given in any order. *)
Theorem options_commute : forall name t os os' v v',
  In (name, t) builtin_types -> Forall user_option os -> typed t v = true ->
  Permutation os os' -> ForallOrdPairs differ os ->
  apply_opts t os v = (v', Ok tt) -> apply_opts t os' v = (v', Ok tt).
Proof.
  intros name t os os' v v' H U T P D E. destruct (builtin_opt _ _ H) as (n & fs & -> & O).
  eapply perm_opts; eauto using user_tables. eapply typed_inv; eauto using os_flat.
Qed.
Print Assumptions options_commute.
Theorem adjacent_options_commute : forall name t l1 a b l2 v v',
  In (name, t) builtin_types -> Forall user_option (l1 ++ a :: b :: l2) -> typed t v = true -> differ a b ->
  apply_opts t (l1 ++ a :: b :: l2) v = (v', Ok tt) -> apply_opts t (l1 ++ b :: a :: l2) v = (v', Ok tt).
Proof.
  intros name t l1 a b l2 v v' H U T D E. destruct (builtin_opt _ _ H) as (n & fs & -> & O). apply user_tables in U.
  apply Forall_app in U as [U1 U2]. inversion U2 as [|? ? Ua U3]; subst. inversion U3; subst.
  rewrite apply_opts_app in *. destruct (apply_opts (GStruct n fs) l1 v) as [v1 r1] eqn:E1. destruct r1 as [[]| |]; try discriminate.
  assert (I := typed_inv _ _ _ (os_flat _ O) T). assert (I1 := apply_opts_inv _ _ _ O U1 _ _ _ I E1).
  apply swap_opts; auto.
Qed.
Print Assumptions adjacent_options_commute.
(** Of two options for the same property, only the later one counts. *)
Theorem last_option_wins : forall name t l1 a l2 b l3 v v',
  In (name, t) builtin_types -> Forall user_option (l1 ++ a :: l2 ++ b :: l3) -> typed t v = true -> overrides a b ->
  apply_opts t (l1 ++ a :: l2 ++ b :: l3) v = (v', Ok tt) -> apply_opts t (l1 ++ l2 ++ b :: l3) v = (v', Ok tt).
Proof.
  intros name t l1 a l2 b l3 v v' H U T Ov E. destruct (builtin_opt _ _ H) as (n & fs & -> & O). apply user_tables in U.
  apply Forall_app in U as [U1 U2]. inversion U2 as [|? ? Ua U3]; subst. apply Forall_app in U3 as [U3 U4]. inversion U4; subst.
  rewrite apply_opts_app in *. destruct (apply_opts (GStruct n fs) l1 v) as [v1 r1] eqn:E1. destruct r1 as [[]| |]; try discriminate.
  eapply override_opts; [exact O|exact Ua| |exact Ov|exact U3| | |exact E]; auto.
  exact (apply_opts_inv _ _ _ O U1 _ _ _ (typed_inv _ _ _ (os_flat _ O) T) E1).
Qed.
Print Assumptions last_option_wins.
Example commute_example : differ (OField (row "OptionName") (VStr "a")) (OField (row "OptionLang") (VStr "en")) /\
  overrides (OField (row "OptionName") (VStr "a")) (OField (row "OptionName") (VStr "b")) /\
  snd (apply_opts ty_Malware [OField (row "OptionName") (VStr "a"); OField (row "OptionLang") (VStr "en"); OField (row "OptionName") (VStr "b")] (zero ty_Malware)) = Ok tt.
Proof. vm_compute. repeat split. discriminate. Qed.

(** ** C39 *)
Definition panics (t : gty) (o : stix_option) : bool := match snd (apply_opt t o VNil) with Panic => true | _ => false end.
Theorem options_no_panic_refuted : exists r x v name t, In (name, t) builtin_types /\ user_option (OField r x) /\ typed t v = true /\
  snd (apply_opt t (OField r x) v) = Panic.
Proof.
  exists (row "OptionContent"), (VStr ""), (zero ty_Note), TypeNote, ty_Note.
  split; [apply alookup_Some_In; vm_compute; reflexivity|].
  split; [split; [apply (find_some (fun r => String.eqb (or_name r) "OptionContent")); vm_compute; reflexivity|vm_compute; reflexivity]|].
  split; vm_compute; reflexivity.
Qed.
Print Assumptions options_no_panic_refuted.
Lemma panic_check : forallb (fun r => forallb (fun kv =>
    Bool.eqb (panics (snd kv) (OField r VNil)) (String.eqb (or_name r) "OptionContent" && String.eqb (fst kv) TypeNote)) builtin_types) option_table = true.
Proof. vm_compute. reflexivity. Qed.
(** Missing for the full statement: OptionContent on a Note, the only panic. *)
Theorem options_no_panic_partial : forall o name t v, user_option o -> In (name, t) builtin_types ->
  (snd (apply_opt t o v) = Panic <-> exists r x, o = OField r x /\ or_name r = "OptionContent" /\ name = TypeNote).
Proof.
  intros o name t v U H. destruct o as [|r x|k x].
  - cbn. split; [discriminate|]. intros (r & x & Q & _). discriminate.
  - destruct U as [Hr _]. assert (X := panic_check). rewrite forallb_forall in X. specialize (X _ Hr). rewrite forallb_forall in X.
    specialize (X _ H). cbn [fst snd] in X. apply eqb_prop in X. unfold panics in X. rewrite (field_value_irrelevant t r VNil x VNil v) in X.
    split.
    + intros E. rewrite E in X. symmetry in X. apply andb_true_iff in X as [X1 X2]. apply String.eqb_eq in X1, X2. eauto.
    + intros (r' & x' & Q & E1 & E2). injection Q as <- <-. rewrite E1, E2, !String.eqb_refl in X. cbn [andb] in X.
      destruct (snd (apply_opt t (OField r x) v)); try discriminate. reflexivity.
  - split; [|intros (r & x' & Q & _); discriminate]. cbn [apply_opt]. unfold set_extension. intros E. exfalso.
    destruct (builtin_opt _ _ H) as (n & fs & -> & O). destruct (find_extension_field fs) as [[p ft]|] eqn:F; [|discriminate].
    assert (Q : forallb (fun kv => match snd kv with GStruct _ fs => match find_extension_field fs with Some (_, GExt) | None => true | _ => false end | _ => true end) builtin_types = true) by (vm_compute; reflexivity).
    rewrite forallb_forall in Q. specialize (Q _ H). cbn [snd] in Q. rewrite F in Q. destruct ft; discriminate.
Qed.
Print Assumptions options_no_panic_partial.
(** Options on custom objects, or anything else that is no struct, are errors. *)
Theorem options_on_custom_objects : forall o v, o <> ONil -> exists e, apply_opt ty_CustomObject o v = (v, Err e).
Proof. intros [|r x|k x] v N; [contradiction| |]; eexists; reflexivity. Qed.
Print Assumptions options_on_custom_objects.

(** ** C40: lists of options *)
Theorem first_failure_reported : forall t os v v' r, apply_opts t os v = (v', r) -> r <> Ok tt ->
  exists l1 o l2, os = l1 ++ o :: l2 /\ apply_opts t l1 v = (v', Ok tt) /\ apply_opt t o v' = (v', r).
Proof.
  intros t os v v' r E N. revert v E. induction os as [|o os IH]; intros v E; [cbn in E; congruence|].
  rewrite apply_opts_cons in E. destruct (apply_opt t o v) as [v1 r1] eqn:E1. destruct r1 as [[]|e|].
  - destruct (IH _ E) as (l1 & o' & l2 & -> & A & B). exists (o :: l1), o', l2. split; [reflexivity|]. split; [|exact B]. now rewrite apply_opts_cons, E1.
  - injection E as <- <-. assert (v1 = v) as -> by (eapply apply_opt_fail; [exact E1|discriminate]). exists [], o, os. auto.
  - injection E as <- <-. assert (v1 = v) as -> by (eapply apply_opt_fail; [exact E1|discriminate]). exists [], o, os. auto.
Qed.
Print Assumptions first_failure_reported.
Theorem any_failure_fails : forall t l1 o l2 v, (forall w, snd (apply_opt t o w) <> Ok tt) -> snd (apply_opts t (l1 ++ o :: l2) v) <> Ok tt.
Proof.
  intros t l1 o l2 v H Q. destruct (apply_opts t (l1 ++ o :: l2) v) as [v' r] eqn:E. cbn [snd] in Q. subst r. apply apply_opts_fail in E.
  apply Forall_app in E as [_ E]. inversion E as [|? ? E1 _]; subst. exact (H v (E1 v)).
Qed.
Print Assumptions any_failure_fails.
Theorem nil_options_ignored : forall t os v, apply_opts t (filter (fun o => match o with ONil => false | _ => true end) os) v = apply_opts t os v.
Proof.
  intros t os. induction os as [|o os IH]; intros v; [reflexivity|]. cbn [filter]. destruct o; [exact (IH v)| |];
  rewrite !apply_opts_cons; (destruct (apply_opt t _ v) as [v1 [[]| |]]; [apply IH|reflexivity|reflexivity]).
Qed.
Print Assumptions nil_options_ignored.
