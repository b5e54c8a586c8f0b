(** Objects of one document sharing values of extended properties (C88).  [rnd]
    is the rounding of decimals to doubles. *)
From Coq Require Import Lia.
From Verif Require Import GoStr GoStrFacts JsonStr StrSpec JsonSpec Json Float Consts GoTypes Schema GoVal Codec CodecSpec DataTypes Ident
  Collection FromJson FromJsonSpec FromJsonFacts PropCodec PropFromJson Share ShareSpec ShareFacts ShareProps.

(** ** The model with memory is the one without *)
(** Reading with memory fails when FromJSON fails, in the same way, and else
    gives the objects of FromJSON. *)
Theorem memory_same_objects : forall rnd cf s, from_json rnd cf s =
  match m_from_json rnd cf s with
  | Ok w => Ok (collect (cf_nosort cf) (map (option_map (obj_of (fst w))) (snd w)))
  | Err e => Err e
  | Panic => Panic
  end.
Proof. exact m_from_json_same. Qed.
Print Assumptions memory_same_objects.

(** What is read through a reference is the extended property of the object, also
    after changes. *)
Theorem memory_same_properties : forall rnd cf s w es i o k, (forall typ, parser_of cf typ = None) -> m_from_json rnd cf s = Ok w ->
  nth_error (snd (after w es)) i = Some (Some o) ->
  reading (after w es) i k = alookup k (props_of (fst (obj_of (fst (after w es)) o)) (snd (obj_of (fst (after w es)) o))).
Proof. intros rnd cf s w es i o k NP H E. apply fresh_reading; [|exact E]. eapply after_fresh; [|exact E]. eapply from_json_fresh; eauto. Qed.
Print Assumptions memory_same_properties.

(** ** C88 *)
(** Setting an extended property of an object shows in that property of that
    object and nowhere else, whatever was done before. *)
Theorem set_property_isolated : forall rnd cf s w es i k x, m_from_json rnd cf s = Ok w ->
  ((exists k0, reading (after w es) i k0 <> None) -> reading (step (after w es) (SetProp i k x)) i k = Some x) /\
  forall j k', (i, k) <> (j, k') -> reading (step (after w es) (SetProp i k x)) j k' = reading (after w es) j k'.
Proof.
  intros rnd cf s w es i k x H. assert (S : sound (after w es)) by (apply after_sound; eapply read_sound; eauto). split.
  - intros N. now apply set_there.
  - intros j k' N. now apply set_elsewhere.
Qed.
Print Assumptions set_property_isolated.

(** A change of the value in place shows in another object exactly when that has
    the property too and no JSON value after the one, up to the other, has a
    member of that name: the later object did not get a value of its own. *)
Theorem change_seen_exactly : forall rnd cf js s w i k x, document js s -> m_from_json rnd cf s = Ok w -> reading w i k <> None ->
  forall j k', reading w j k' <> None ->
    (k' = k /\ unnamed js i j k -> reading (step w (Change i k x)) j k' = Some x) /\
    (~ (k' = k /\ unnamed js i j k) -> reading (step w (Change i k x)) j k' = reading w j k').
Proof.
  intros rnd cf js s w i k x D H Ri j k' Rj. assert (S := read_sound _ _ _ _ H). rewrite (m_from_json_document rnd cf js s D) in H.
  unfold reading in Ri, Rj. destruct (ref_of w i k) as [a|] eqn:A; [|cbn in Ri; congruence]. destruct (ref_of w j k') as [b|] eqn:B; [|cbn in Rj; congruence].
  rewrite (change_reading _ _ _ x _ j k' S A). unfold reading. rewrite B. cbn [option_map].
  assert (E : b = a <-> k' = k /\ unnamed js i j k).
  { unfold unnamed. destruct (Nat.lt_trichotomy i j) as [L|[->|L]].
    - rewrite Nat.min_l, Nat.max_r by lia. assert (Q := pair _ _ _ _ _ _ _ _ _ _ _ _ (fit_nil []) H L A B). destruct Q as [Q1 Q2]. split; [intros ->; destruct (Q1 eq_refl) as [-> N]; auto|intros [-> N]; symmetry; apply Q2; auto].
    - rewrite Nat.min_id, Nat.max_id. split; [intros ->|intros [-> _]; congruence]. split; [eapply sound_apart; eauto|intros n v Ln; lia].
    - rewrite Nat.min_r, Nat.max_l by lia. assert (Q := pair _ _ _ _ _ _ _ _ _ _ _ _ (fit_nil []) H L B A). split.
      + intros ->. destruct Q as [Q _]. destruct (Q eq_refl) as [-> N]. auto.
      + intros [-> N]. apply Q. auto. }
  destruct (Nat.eqb_spec b a) as [Q|Q].
  - split; [reflexivity|]. intros N. exfalso. apply N. now apply E.
  - split; [intros N; exfalso; apply Q; now apply E|reflexivity].
Qed.
Print Assumptions change_seen_exactly.

(** If the extended properties of every object are members of its own JSON text,
    nothing done with a property of an object ever shows in another property or
    in another object. *)
Theorem own_properties_isolated_partial : forall rnd cf js s w es e j k', document js s -> m_from_json rnd cf s = Ok w -> own_names js w ->
  place e <> (j, k') -> reading (step (after w es) e) j k' = reading (after w es) j k'.
Proof.
  intros rnd cf js s w es e j k' D H O N. assert (S := read_sound _ _ _ _ H). rewrite (m_from_json_document rnd cf js s D) in H.
  assert (P : separate w).
  { assert (X : forall i j k k' a, i < j -> ref_of w i k = Some a -> ref_of w j k' = Some a -> False).
    { intros i1 j1 k1 k2 a L A B. assert (Q := pair _ _ _ _ _ _ _ _ _ _ _ _ (fit_nil []) H L A B). destruct Q as [Q _]. destruct (Q eq_refl) as [-> M].
      destruct (m_read_all_spec _ _ _ _ _ _ (fit_nil []) H) as (_ & Len & _). destruct (nth_error js j1) as [v|] eqn:Ej.
      - apply (M j1 v); [lia|exact Ej|]. apply (O j1 v); [exact Ej|]. unfold reading. rewrite B. discriminate.
      - apply nth_error_None in Ej. rewrite <- Len in Ej. apply nth_error_None in Ej. unfold ref_of in B. rewrite Ej in B. discriminate. }
    intros i1 j1 k1 k2 a A B. destruct (Nat.lt_trichotomy i1 j1) as [L|[->|L]]; [exfalso; eapply X; eauto| |exfalso; eapply X; eauto].
    f_equal. eapply sound_apart; eauto. }
  assert (S' := after_sound es _ S). assert (P' := after_separate es _ S P). destruct e as [i k x|i k x]; cbn [place] in N.
  - now apply set_elsewhere.
  - now apply change_elsewhere.
Qed.
Print Assumptions own_properties_isolated_partial.

(** The two objects of a document share the value of a property only the first
    has: a change through the first shows in the second. *)
Definition list_doc : list json := [mal [("x_list", JArr [JStr "a"])]; tool []].
Definition changed_list : gval := VDyn (GSlice GIface) (VSlice [dyn_str "b"]).
Theorem change_isolated_refuted : ~ forall rnd cf js s w i k x j k', document js s -> m_from_json rnd cf s = Ok w -> i <> j ->
  reading (step w (Change i k x)) j k' = reading w j k'.
Proof.
  intros H. assert (D : document list_doc (arr list_doc)) by (apply arr_document; reflexivity).
  destruct (m_from_json rnd_id default_cf (arr list_doc)) as [w| |] eqn:M; [|vm_compute in M; discriminate|vm_compute in M; discriminate].
  specialize (H _ _ _ _ _ 0 "x_list" changed_list 1 "x_list" D M ltac:(discriminate)).
  vm_compute in M. injection M as <-. vm_compute in H. discriminate.
Qed.
Print Assumptions change_isolated_refuted.

(** A document whose objects have their own lists. *)
Definition own_doc : list json := [mal [("x_list", JArr [JStr "a"])]; tool [("x_list", JArr [JStr "a"])]].
Example own_properties_isolated_ex : exists w, document own_doc (arr own_doc) /\ m_from_json rnd_id default_cf (arr own_doc) = Ok w /\ own_names own_doc w /\
  reading w 0 "x_list" = reading w 1 "x_list" /\ reading w 0 "x_list" <> None /\
  reading (step w (Change 0 "x_list" changed_list)) 0 "x_list" = Some changed_list /\
  reading (step w (Change 0 "x_list" changed_list)) 1 "x_list" = reading w 1 "x_list".
Proof.
  destruct (m_from_json rnd_id default_cf (arr own_doc)) as [w| |] eqn:M; [|vm_compute in M; discriminate|vm_compute in M; discriminate].
  exists w. split; [apply arr_document; reflexivity|]. split; [reflexivity|]. vm_compute in M. injection M as <-. split.
  - intros i v k E R. destruct i as [|[|i]]; [| |destruct i; discriminate E]; injection E as <-.
    + destruct (string_dec k "x_list") as [->|N]; [eexists; eexists; split; [reflexivity|cbn; auto 10]|]. exfalso. apply R. unfold reading, ref_of. cbn [snd nth_error mo_props alookup]. apply String.eqb_neq in N. now rewrite N.
    + destruct (string_dec k "x_list") as [->|N]; [eexists; eexists; split; [reflexivity|cbn; auto 10]|]. exfalso. apply R. unfold reading, ref_of. cbn [snd nth_error mo_props alookup]. apply String.eqb_neq in N. now rewrite N.
  - split; [reflexivity|]. split; [discriminate|]. split; reflexivity.
Qed.
(** The hypotheses of [change_seen_exactly] with both outcomes: the second object
    shares the list of the first, the third has its own. *)
Definition three_doc : list json := [mal [("x_list", JArr [JStr "a"])]; tool []; mal [("x_list", JArr [JStr "c"])]].
Example change_seen_ex : exists w, document three_doc (arr three_doc) /\ m_from_json rnd_id default_cf (arr three_doc) = Ok w /\
  reading w 0 "x_list" <> None /\ reading w 1 "x_list" <> None /\ reading w 2 "x_list" <> None /\
  unnamed three_doc 0 1 "x_list" /\ ~ unnamed three_doc 0 2 "x_list".
Proof.
  destruct (m_from_json rnd_id default_cf (arr three_doc)) as [w| |] eqn:M; [|vm_compute in M; discriminate|vm_compute in M; discriminate].
  exists w. split; [apply arr_document; reflexivity|]. split; [reflexivity|]. vm_compute in M. injection M as <-. repeat (split; [discriminate|]). split.
  - intros n v L E (ms & x & -> & Hin). assert (n = 1) by (cbn in L; lia). subst n. injection E as <-. cbn in Hin. intuition congruence.
  - intros U. apply (U 2 (mal [("x_list", JArr [JStr "c"])])); [cbn; lia|reflexivity|]. eexists; eexists. split; [reflexivity|]. cbn. auto 10.
Qed.
