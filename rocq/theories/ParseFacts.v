(** Fields of decoded objects, and where decoding panics. *)
From Verif Require Import GoStr GoStrFacts JsonStr Json JsonFacts Float Consts GoTypes Schema GoVal GoValFacts Time Base64 Codec CodecSpec CodecFacts
  StructFacts CodecRound ObjFacts TypedFacts DataTypes DataTypesFacts Ident IdentFacts Collection CollectionSpec CollectionFacts FromJson FromJsonSpec FromJsonFacts ReadFacts IndepFacts.

Lemma find_field_fold k fl p t : find_field k fl = Some (p, t) -> exists k', In (k', p, t) fl /\ fold_key k' = fold_key k.
Proof.
  unfold find_field. destruct (find _ fl) as [[[k1 p1] t1]|] eqn:E1.
  - intros Q. injection Q as <- <-. apply find_some in E1 as [E1 E]. cbn [fst] in E. apply String.eqb_eq in E. subst. eauto.
  - destruct (find (fun f => String.eqb (fold_key (fst (fst f))) (fold_key k)) fl) as [[[k1 p1] t1]|] eqn:E2; [|discriminate].
    intros Q. injection Q as <- <-. apply find_some in E2 as [E2 E]. cbn [fst] in E. apply String.eqb_eq in E. eauto.
Qed.
Lemma find_field_has fs k p t : find_field k (flat_fields fs) = Some (p, t) -> exists m, has_path fs p m t /\ fm_key m <> "" /\ fold_key (fm_key m) = fold_key k.
Proof.
  intros H. destruct (find_field_fold _ _ _ _ H) as (k' & Hin & Q). apply flat_fields_In in Hin as (m & HP & -> & N). eauto.
Qed.

Section P.
Variable rnd : bool -> N -> Z -> option flt.
Notation dec := (dec rnd).

(** ** What decoding does to a field *)
Lemma dec_struct_keep f fs p m t : flat_ok fs -> has_path fs p m t -> forall ms cur v e, shape fs cur ->
  (forall k x t', In (k, x) ms -> find_field k (flat_fields fs) <> Some (p, t')) ->
  dec_struct f (flat_fields fs) ms cur = DOk v e -> get_path p v = get_path p cur /\ shape fs v.
Proof.
  intros F HP. induction ms as [|[k x] ms IH]; intros cur v e S N D; cbn [dec_struct] in D.
  - injection D as <- _. now split.
  - fold (dec_struct f (flat_fields fs)) in D. assert (N' := fun k x t' Hin => N k x t' (or_intror Hin)).
    destruct (find_field k (flat_fields fs)) as [[p' t']|] eqn:E; [|eapply IH; eauto].
    apply dbind_inv in D as (w & e1 & e2 & D1 & D2 & _). destruct (find_field_has _ _ _ _ E) as (m' & HP' & _).
    destruct (IH _ _ _ (shape_set _ _ _ _ _ w F S HP') N' D2) as [G S']. split; [|exact S']. rewrite G.
    eapply get_set_other; eauto. intros <-. eapply N; [now left|exact E].
Qed.

Lemma dec_struct_str fs p m n : flat_ok fs -> has_path fs p m (GString n) -> forall ms1 k raw s ms2 cur v e, shape fs cur ->
  find_field k (flat_fields fs) = Some (p, GString n) -> unq raw = Some s ->
  (forall k' x t', In (k', x) ms2 -> find_field k' (flat_fields fs) <> Some (p, t')) ->
  dec_struct dec (flat_fields fs) (ms1 ++ (k, JStr raw) :: ms2) cur = DOk v e -> get_path p v = VStr s.
Proof.
  intros F HP. induction ms1 as [|[k1 x1] ms1 IH]; intros k raw s ms2 cur v e S E U N D; cbn [app dec_struct] in D; fold (dec_struct dec (flat_fields fs)) in D.
  - rewrite E in D. apply dbind_inv in D as (w & e1 & e2 & D1 & D2 & _). cbn [Codec.dec] in D1. rewrite U in D1. injection D1 as <- _.
    destruct (dec_struct_keep _ _ _ _ _ F HP _ _ _ _ (shape_set _ _ _ _ _ (VStr s) F S HP) N D2) as [G _]. rewrite G.
    eapply get_set_same; eauto.
  - destruct (find_field k1 (flat_fields fs)) as [[p' t']|] eqn:E1; [|eapply IH; eauto].
    apply dbind_inv in D as (w & e1 & e2 & D1 & D2 & _). destruct (find_field_has _ _ _ _ E1) as (m' & HP' & _).
    eapply (IH _ _ _ _ _ _ _ (shape_set _ _ _ _ _ w F S HP')); eauto.
Qed.

Lemma last_member_split {A} k (ms : list (string * A)) x : last_member k ms = Some x ->
  exists ms1 ms2, ms = ms1 ++ (k, x) :: ms2 /\ ~ In k (akeys ms2).
Proof.
  induction ms as [|[k' y] ms IH]; [discriminate|]. cbn [last_member]. destruct (last_member k ms) as [z|] eqn:E.
  - intros Q. injection Q as ->. destruct (IH eq_refl) as (a & b & -> & N). exists ((k', y) :: a), b. now split.
  - destruct (String.eqb_spec k k'); [|discriminate]. intros Q. injection Q as ->. subst k'. exists [], ms. split; [reflexivity|]. now apply last_member_None.
Qed.

Lemma dec_struct_shape (f : json -> gty -> gval -> dres gval) fs : flat_ok fs -> forall l cur v e, shape fs cur ->
  dec_struct f (flat_fields fs) l cur = DOk v e -> shape fs v.
Proof.
  intros F. induction l as [|[k x] l IH]; intros cur v e S D; cbn [dec_struct] in D.
  - injection D as <- _. exact S.
  - fold (dec_struct f (flat_fields fs)) in D. destruct (find_field k (flat_fields fs)) as [[p t]|] eqn:E; [|eapply IH; eauto].
    apply dbind_inv in D as (w & e1 & e2 & D1 & D2 & _). destruct (find_field_has _ _ _ _ E) as (m' & HP' & _).
    eapply IH; [eapply shape_set; eauto|exact D2].
Qed.
Lemma dec_shape n fs j v e : flat_ok fs -> dec j (GStruct n fs) (zero (GStruct n fs)) = DOk v e -> shape fs v.
Proof.
  intros F D. assert (S := shape_zero n fs F). destruct j; try (injection D as <- _; exact S). rewrite dec_struct_obj in D.
  eapply dec_struct_shape; eauto.
Qed.

(** ** Extended properties *)
Lemma builtin_props name n fs p : In (name, GStruct n fs) builtin_types -> props_path (GStruct n fs) = Some p ->
  exists m, has_path fs p m (GPtr ty_CustomObject) /\ fm_key m = "".
Proof.
  intros H E. destruct (builtin_cases _ _ H) as (n' & fs' & Q & [(M & O & P)|(M & O & P)]); injection Q as <- <-; [|congruence].
  eapply props_ok_path; eauto.
Qed.
Lemma props_ne fs p m t p' m' t' : flat_ok fs -> has_path fs p m t -> fm_key m = "" -> has_path fs p' m' t' -> fm_key m' <> "" -> p' <> p.
Proof. intros F H K H' K' ->. destruct (has_path_inj _ _ _ _ _ _ F H H') as [-> _]. congruence. Qed.

(** json.Unmarshal never sets extended properties. *)
Lemma dec_props name t j v e : In (name, t) builtin_types -> dec j t (zero t) = DOk v e -> props_of t v = [].
Proof.
  intros H D. destruct (builtin_read _ _ H) as (n & fs & -> & _ & _ & _ & _ & _ & _ & F & _). unfold props_of.
  destruct (props_path (GStruct n fs)) as [p|] eqn:E; [|reflexivity]. destruct (builtin_props _ _ _ _ H E) as (m & HP & K).
  assert (S := shape_zero n fs F).
  assert (Z : get_path p (zero (GStruct n fs)) = VNil) by (rewrite (zero_path n _ _ _ _ F HP); reflexivity).
  assert (G : get_path p v = VNil); [|now rewrite G].
  destruct j; try (injection D as <- _; exact Z). rewrite dec_struct_obj in D. rewrite <- Z.
  eapply dec_struct_keep; [exact F|exact HP|exact S| |exact D]. intros k x t' Hin Q.
  destruct (find_field_has _ _ _ _ Q) as (m' & HP' & K' & _). exact (props_ne _ _ _ _ _ _ _ F HP K HP' K' eq_refl).
Qed.
(** They are set apart from the own properties. *)
Lemma add_props_own name n fs l v p m t : In (name, GStruct n fs) builtin_types -> shape fs v -> has_path fs p m t -> fm_key m <> "" ->
  get_path p (add_props (GStruct n fs) l v) = get_path p v.
Proof.
  intros H S HP K. unfold add_props. destruct l as [|kv l]; [reflexivity|]. destruct (props_path (GStruct n fs)) as [q|] eqn:E; [|reflexivity].
  destruct (builtin_props _ _ _ _ H E) as (m' & HP' & K'). destruct (builtin_read _ _ H) as (n' & fs' & Q & _ & _ & _ & _ & _ & _ & F & _). injection Q as <- <-.
  eapply get_set_other; eauto. eapply props_ne; eauto.
Qed.
Lemma add_props_props name n fs l v : In (name, GStruct n fs) builtin_types -> shape fs v -> props_of (GStruct n fs) v = [] ->
  props_of (GStruct n fs) (add_props (GStruct n fs) l v) = match props_path (GStruct n fs) with Some _ => l | None => [] end.
Proof.
  intros H S N. unfold add_props, props_of in *. destruct l as [|kv l]; destruct (props_path (GStruct n fs)) as [q|] eqn:E; auto.
  destruct (builtin_props _ _ _ _ H E) as (m' & HP' & K'). now rewrite (get_set_same _ _ _ _ _ _ S HP').
Qed.
Lemma add_props_shape name n fs l v : In (name, GStruct n fs) builtin_types -> shape fs v -> shape fs (add_props (GStruct n fs) l v).
Proof.
  intros H S. unfold add_props. destruct l as [|kv l]; [exact S|]. destruct (props_path (GStruct n fs)) as [q|] eqn:E; [|exact S].
  destruct (builtin_props _ _ _ _ H E) as (m' & HP' & K'). destruct (builtin_read _ _ H) as (n' & fs' & Q & _ & _ & _ & _ & _ & _ & F & _). injection Q as <- <-.
  eapply shape_set; eauto.
Qed.

(** ** Type and identifier of a decoded object *)
Lemma builtin_field name t j v e l : In (name, t) builtin_types -> dec j t (zero t) = DOk v e ->
  (exists s, obj_type (t, add_props t l v) = Ok s /\ get_path (field_path t "Type") v = VStr s) /\
  (exists s, obj_id (t, add_props t l v) = Ok s /\ get_path (field_path t "ID") v = VStr s).
Proof.
  intros H D. destruct (builtin_read _ _ H) as (n & fs & -> & _ & _ & (n1 & T1) & (n2 & T2) & _ & _ & F & FT).
  assert (S := dec_shape _ _ _ _ _ F D). assert (Ty := dec_obj_typed rnd j n fs _ _ _ F FT (typed_zero _) D).
  apply flat_fields_In in T1 as (m1 & HP1 & Q1 & _). apply flat_fields_In in T2 as (m2 & HP2 & Q2 & _).
  split; [|].
  - assert (X := typed_path _ _ _ _ _ _ F Ty HP1). destruct (get_path (field_path (GStruct n fs) "Type") v) eqn:G; try discriminate X.
    exists s. split; [|reflexivity]. unfold obj_type, obj_field. cbn [fst snd].
    rewrite (add_props_own _ _ _ _ _ _ _ _ H S HP1) by (rewrite <- Q1; discriminate). now rewrite G.
  - assert (X := typed_path _ _ _ _ _ _ F Ty HP2). destruct (get_path (field_path (GStruct n fs) "ID") v) eqn:G; try discriminate X.
    exists s. split; [|reflexivity]. unfold obj_id, obj_field. cbn [fst snd].
    rewrite (add_props_own _ _ _ _ _ _ _ _ H S HP2) by (rewrite <- Q2; discriminate). now rewrite G.
Qed.

(** Only members whose name folds to "type" end in the Type field. *)
Lemma type_field_members name n fs k t' : In (name, GStruct n fs) builtin_types ->
  find_field k (flat_fields fs) = Some (field_path (GStruct n fs) "Type", t') -> fold_key k = "type".
Proof.
  intros H E. destruct (builtin_read _ _ H) as (n' & fs' & Q & _ & _ & (n1 & T1) & _ & _ & _ & F & FT). injection Q as <- <-.
  apply flat_fields_In in T1 as (m1 & HP1 & Q1 & _). destruct (find_field_has _ _ _ _ E) as (m & HP & _ & FK).
  destruct (has_path_inj _ _ _ _ _ _ F HP1 HP) as [-> _]. rewrite <- Q1 in FK. rewrite <- FK. reflexivity.
Qed.
Lemma dec_type name t ms typ v e : In (name, t) builtin_types ->
  (forall k x, In (k, x) ms -> fold_key k = "type" -> k = "type") ->
  json_type (JObj ms) = Some typ -> dec (JObj ms) t (zero t) = DOk v e -> get_path (field_path t "Type") v = VStr typ.
Proof.
  intros H K JT D. destruct (builtin_read _ _ H) as (n & fs & -> & _ & _ & (n1 & T1) & _ & _ & _ & F & FT).
  unfold json_type in JT. cbn [member] in JT. destruct (last_member "type" ms) as [x|] eqn:L; [|discriminate]. destruct x; try discriminate.
  destruct (last_member_split _ _ _ L) as (ms1 & ms2 & -> & N). rewrite dec_struct_obj in D.
  assert (HF := find_field_exact _ _ _ _ F T1). apply flat_fields_In in T1 as (m1 & HP1 & Q1 & _).
  eapply dec_struct_str; [exact F|exact HP1|apply (shape_zero n fs F)|exact HF|exact JT| |exact D].
  intros k x t' Hin Q. apply N. assert (k = "type") as <-.
  { eapply (K k x); [apply in_or_app; right; now right|]. eapply type_field_members; eauto. }
  exact (in_map fst _ _ Hin).
Qed.
Lemma dec_no_type name t ms v e : In (name, t) builtin_types ->
  (forall k x, In (k, x) ms -> fold_key k <> "type") ->
  dec (JObj ms) t (zero t) = DOk v e -> get_path (field_path t "Type") v = VStr "".
Proof.
  intros H K D. destruct (builtin_read _ _ H) as (n & fs & -> & _ & _ & (n1 & T1) & _ & _ & _ & F & FT).
  apply flat_fields_In in T1 as (m1 & HP1 & Q1 & _). rewrite dec_struct_obj in D.
  assert (Z : get_path (field_path (GStruct n fs) "Type") (zero (GStruct n fs)) = VStr "") by (rewrite (zero_path n _ _ _ _ F HP1); reflexivity).
  rewrite <- Z. eapply dec_struct_keep; [exact F|exact HP1|apply (shape_zero n fs F)| |exact D].
  intros k x t' Hin Q. eapply K; [exact Hin|]. eapply type_field_members; eauto.
Qed.

(** ** Panics *)
Definition NP j := forall t old, dec j t old = DPanic -> panics t j.

Lemma inner_panic b : inner_slice b = Panic -> (String.length b <= 1)%nat.
Proof. destruct b as [|a [|c r]]; cbn [inner_slice String.length]; intros H; try discriminate; lia. Qed.
Lemma print_len j : (String.length (print j) <= 1)%nat -> exists l, j = JNum l /\ (String.length l <= 1)%nat.
Proof.
  destruct j; cbn [print]; intros H; eauto.
  - cbn in H. lia.
  - destruct b; cbn in H; lia.
  - unfold q in H. cbn [String.length] in H. rewrite slength_app in H. cbn [String.length] in H. lia.
  - cbn [append String.length] in H. rewrite slength_app in H. cbn [String.length] in H. lia.
  - cbn [append String.length] in H. rewrite slength_app in H. cbn [String.length] in H. lia.
Qed.
Lemma dbind_panic {A B} (x : dres A) (f : A -> dres B) : dbind x f = DPanic -> x = DPanic \/ exists a e, x = DOk a e /\ f a = DPanic.
Proof. destruct x as [a e| |]; cbn; try discriminate; [|now left]. destruct (f a) eqn:E; try discriminate. right. eauto. Qed.
Lemma bytes_no_panic l : dec_bytes l <> DPanic.
Proof.
  induction l as [|x l IH]; cbn [dec_bytes]; [discriminate|]. intros H. apply dbind_panic in H as [H|(a & e & _ & H)].
  - destruct x; try discriminate. destruct (lex_num lexeme) as [[[[[] ?] []] [? []]]|]; try discriminate. destruct (N_of_digits s <? 256)%N; discriminate.
  - apply dbind_panic in H as [H|(b & e' & _ & H)]; [now apply IH|discriminate].
Qed.

Lemma dec_panic_step j : (forall l, j = JArr l -> Forall NP l) -> (forall l, j = JObj l -> Forall (fun kv => NP (snd kv)) l) -> NP j.
Proof.
  intros HA HO t. induction t using gty_ind'; intros old D.
  - destruct j; cbn in D; try discriminate. destruct (unq raw); discriminate.
  - destruct j; cbn in D; try discriminate. destruct (parse_int lexeme); discriminate.
  - destruct j; discriminate.
  - destruct j; cbn in D; try discriminate. destruct (parse_float rnd lexeme); discriminate.
  - rewrite dec_enum in D. unfold enum_unmarshal in D. destruct (String.eqb n "ExtensionType").
    { destruct j; try discriminate. destruct (unq raw); discriminate. }
    destruct (mem_str n _) eqn:M.
    + destruct (inner_slice (print j)) eqn:I; try discriminate. apply inner_panic in I. apply print_len in I as (l & -> & L).
      apply pan_enum; [|exact L]. now apply mem_str_In.
    + destruct (String.length (print j) <? 3)%nat eqn:L; [discriminate|]. apply Nat.ltb_ge in L.
      destruct (inner_slice (print j)) eqn:I; try discriminate. apply inner_panic in I. lia.
  - rewrite dec_time in D. unfold time_unmarshal, ts_unmarshal in D. destruct (inner_slice (print j)) eqn:I; cbn [bind] in D; try discriminate.
    + destruct (ts_parse a); discriminate.
    + apply inner_panic in I. apply print_len in I as (l & -> & L). now apply pan_time.
  - rewrite dec_bin in D. destruct j; cbn [bin_unmarshal] in D; try discriminate.
    + destruct (unq raw); [|discriminate]. destruct (b64_decode s); discriminate.
    + destruct (dec_bytes l) as [s [|]| |]; discriminate.
  - rewrite dec_ptr in D. apply pan_ptr. destruct j; try discriminate; (apply dbind_panic in D as [D|(a & e & _ & D)]; [eauto|discriminate]).
  - destruct j; try discriminate.
    + destruct t; try discriminate. cbn in D. destruct (unq raw) as [s|]; [|discriminate]. destruct (b64_decode s); discriminate.
    + rewrite dec_slice_arr in D. apply dbind_panic in D as [D|(a & e & _ & D)]; [|discriminate].
      specialize (HA l eq_refl). assert (G : exists x, In x l /\ panics t x).
      { clear HO IHt. revert D. generalize (old_list old). induction HA as [|x l Hx Hl IH]; intros ol D; cbn [dec_list] in D; [discriminate|].
        fold (dec_list (fun x o => dec x t o) (zero t)) in D. apply dbind_panic in D as [D|(w & e & _ & D)].
        - exists x. split; [now left|]. eapply Hx; eauto.
        - apply dbind_panic in D as [D|(ws & e' & _ & D)]; [|discriminate]. destruct (IH _ D) as (y & Hy & Py). exists y. split; [now right|exact Py]. }
      destruct G as (x & Hx & Px). eapply pan_slice; eauto.
  - destruct j; try discriminate. rewrite dec_map_obj in D. apply dbind_panic in D as [D|(a & e & _ & D)]; [|discriminate].
    specialize (HO l eq_refl). assert (G : exists k' x, In (k', x) l /\ panics t x).
    { clear HA IHt. revert D. generalize (old_map old). induction HO as [|[k' x] l Hx Hl IH]; intros ol D; cbn [dec_mems] in D; [discriminate|].
      fold (dec_mems (fun x => dec x t (zero t))) in D. apply dbind_panic in D as [D|(w & e & _ & D)].
      - exists k', x. split; [now left|]. eapply Hx; eauto.
      - destruct (IH _ D) as (k2 & y & Hy & Py). exists k2, y. split; [now right|exact Py]. }
    destruct G as (k' & x & Hx & Px). eapply pan_map; eauto.
  - rewrite dec_iface in D. destruct (dec_any_total rnd j) as (v & e & E). congruence.
  - destruct j; try discriminate. rewrite dec_struct_obj in D. specialize (HO l eq_refl).
    assert (G : exists k' p t x, In (k', x) l /\ find_field k' (flat_fields fs) = Some (p, t) /\ panics t x).
    { clear HA H. revert old D. induction HO as [|[k' x] l Hx Hl IH]; intros old D; cbn [dec_struct] in D; [discriminate|].
      fold (dec_struct dec (flat_fields fs)) in D. destruct (find_field k' (flat_fields fs)) as [[p t]|] eqn:E.
      - apply dbind_panic in D as [D|(w & e & _ & D)].
        + exists k', p, t, x. split; [now left|]. split; [exact E|]. eapply Hx; eauto.
        + destruct (IH _ D) as (k2 & p2 & t2 & y & Hy & Py). exists k2, p2, t2, y. split; [now right|exact Py].
      - destruct (IH _ D) as (k2 & p2 & t2 & y & Hy & Py). exists k2, p2, t2, y. split; [now right|exact Py]. }
    destruct G as (k' & p & t & x & Hx & E & Px). eapply pan_struct; eauto.
  - destruct j; try discriminate. rewrite dec_ext_obj in D. apply dbind_panic in D as [D|(a & e & _ & D)]; [|discriminate].
    specialize (HO l eq_refl). assert (G : exists k' x, In (k', x) l /\ panics (ext_ty k') x).
    { clear HA. revert D. generalize (@nil (string * gval)). induction HO as [|[k' x] l Hx Hl IH]; intros acc D; cbn [dec_ext] in D; [discriminate|].
      fold (dec_ext dec) in D.
      assert (X : forall acc, dec_ext dec l acc = DPanic -> exists k2 y, In (k2, y) ((k', x) :: l) /\ panics (ext_ty k2) y).
      { intros acc' D'. destruct (IH _ D') as (k2 & y & Hy & Py). exists k2, y. split; [now right|exact Py]. }
      destruct (mem_str k' (map fst l)); [eapply X; eauto|].
      destruct (dec x (ext_ty k') (fresh (ext_ty k'))) as [w [|]| |] eqn:Dx; try discriminate; [eapply X; eauto|].
      exists k', x. split; [now left|]. eapply Hx; eauto. }
    destruct G as (k' & x & Hx & Px). eapply pan_ext; eauto.
  - rewrite dec_raw in D. discriminate.
Qed.
Lemma dec_panic j t old : dec j t old = DPanic -> panics t j.
Proof. revert t old. change (NP j). induction j using json_ind'; apply dec_panic_step; intros l' Q; try discriminate Q; injection Q as <-; assumption. Qed.
End P.
