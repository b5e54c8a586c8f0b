(** Lemmas for C76: constructed objects are well formed. *)
From Verif Require Import GoStr GoStrFacts Uuid Ident IdentFacts JsonStr JsonStrFacts Json JsonFacts Float Time Consts GoTypes Schema GoVal GoValFacts Codec CodecSpec CodecFacts StructFacts CodecRound TypedFacts ObjFacts StoreFacts
  OptTable FromJson Options OptionFacts PropOptions Constructors ConstrSpec ConstrFacts ConstrArgs PropConstr MadeSpec SettleFacts FromJsonProps.
Local Open Scope string_scope.

(** Types with a zero value that JSON can carry. *)
Fixpoint sendable (t : gty) : bool :=
  match t with
  | GRaw => false
  | GStruct _ fs => forallb (fun ft => utf8b (fm_key (fst ft)) && sendable (snd ft)) fs
  | _ => true
  end.

Section Wf.
Variable rnd : bool -> N -> Z -> option flt.
Hypothesis ST : settled rnd.

Lemma zero_wf t : sendable t = true -> wf rnd t (zero t) = true.
Proof.
  induction t using gty_ind'; intros S; try discriminate S; try reflexivity.
  - cbn. destruct ST as [A _]. unfold int_to_float. cbn. now rewrite A.
  - exact (zero_f64 rnd ST).
  - rewrite zero_struct. cbn [CodecSpec.wf]. cbn [sendable] in S. apply andb_true_iff. split.
    + apply forallb_forall. intros ft Hin. rewrite forallb_forall in S. specialize (S _ Hin). now apply andb_true_iff in S.
    + induction H as [|[m t] fs Hx Hl IH]; [reflexivity|]. cbn [forallb fst snd] in S. apply andb_true_iff in S as [S1 S2]. apply andb_true_iff in S1 as [_ S1].
      cbn [map wf_fields fst snd] in *. now rewrite String.eqb_refl, (Hx S1), (IH S2).
Qed.

Lemma wf_fields_pointwise fs : forall vs, wf_fields storable fs vs = true -> NoDup (names fs) ->
  (forall m t, In (m, t) fs -> wf rnd t (get_field (fm_name m) (VStruct vs)) = true) -> wf_fields (wf rnd) fs vs = true.
Proof.
  induction fs as [|[m t] fs IH]; intros [|[k x] vs] W ND H; cbn [wf_fields] in W; try discriminate; [reflexivity|].
  apply andb_true_iff in W as [W W3]. apply andb_true_iff in W as [W1 W2]. apply String.eqb_eq in W1. subst k. inversion ND as [|? ? ND1 ND2]; subst.
  cbn [wf_fields]. rewrite String.eqb_refl. cbn [andb]. apply andb_true_iff. split.
  - specialize (H m t (or_introl eq_refl)). cbn [get_field alookup] in H. now rewrite String.eqb_refl in H.
  - apply IH; [exact W3|exact ND2|]. intros m' t' Hin. specialize (H m' t' (or_intror Hin)). cbn [get_field alookup] in H.
    destruct (String.eqb (fm_name m') (fm_name m)) eqn:Q; [|exact H]. exfalso. apply String.eqb_eq in Q. apply ND1. rewrite <- Q. exact (in_map (fun ft => fm_name (fst ft)) _ _ Hin).
Qed.
Lemma wf_of_paths n fs v : flat_ok fs -> sendable (GStruct n fs) = true -> storable (GStruct n fs) v = true ->
  (forall p m t, has_path fs p m t -> wf rnd t (get_path p v) = true) -> wf rnd (GStruct n fs) v = true.
Proof.
  intros (N & _ & E) S W H. cbn [sendable] in S. rewrite forallb_forall in S. destruct (st_struct _ _ _ W) as (vs & -> & WF). cbn [CodecSpec.wf]. apply andb_true_iff. split.
  { apply forallb_forall. intros ft Hin. specialize (S _ Hin). now apply andb_true_iff in S. }
  apply wf_fields_pointwise; [exact WF|exact N|]. intros m t Hin. destruct (fm_embed m) eqn:Em; [|exact (H _ _ _ (hp_own _ _ _ Hin Em))].
  destruct (E _ _ Hin Em) as (nb & fsb & -> & Nb). destruct (combine_ex _ vs _ (wf_fields_len _ _ _ WF) Hin) as ([nm y] & Hc).
  assert (G := combine_get _ _ _ _ _ _ _ N WF Hc). destruct (wf_fields_combine _ _ _ WF _ _ _ _ Hc) as [_ Wy].
  assert (H' : forall m' t', In (m', t') fsb -> wf rnd t' (get_field (fm_name m') (get_field (fm_name m) (VStruct vs))) = true).
  { intros m' t' Hin'. exact (H _ _ _ (hp_base _ _ _ _ _ _ Hin Em Hin')). }
  rewrite G in *. destruct (st_struct _ _ _ Wy) as (vs' & -> & WF'). cbn [CodecSpec.wf]. apply andb_true_iff. split; [|now apply wf_fields_pointwise].
  specialize (S _ Hin). apply andb_true_iff in S as [_ S]. cbn [snd sendable] in S. rewrite forallb_forall in S. apply forallb_forall. intros ft Hf. specialize (S _ Hf). now apply andb_true_iff in S.
Qed.

Lemma assignable_wf r ft x : assignable (or_ty r) ft = true -> ft <> GExt -> wf rnd (or_ty r) x = true -> wf rnd ft x = true.
Proof.
  intros A N T. unfold assignable in A. apply orb_true_iff in A as [A|A]; [apply gty_eqb_eq in A; now rewrite <- A|].
  destruct (or_ty r); try discriminate. destruct ft; try discriminate; [|contradiction].
  rewrite !andb_true_iff in A. destruct A as [[_ _] A]. apply gty_eqb_eq in A. subst. destruct x; exact T.
Qed.
Definition ext_wf (kv : string * gval) : bool := utf8b (fst kv) &&
  match snd kv with VDyn t' w => gty_eqb t' (GPtr (ext_ty (fst kv))) && wf rnd t' w && match w with VNil => false | _ => true end | _ => false end.

Lemma wf_set_field n fs v m t x : NoDup (names fs) -> wf rnd (GStruct n fs) v = true -> In (m, t) fs -> wf rnd t x = true ->
  wf rnd (GStruct n fs) (set_field (fm_name m) x v) = true.
Proof.
  intros N W Hin Tx. destruct v; cbn [CodecSpec.wf] in W; try discriminate. apply andb_true_iff in W as [K WF]. cbn [set_field CodecSpec.wf]. rewrite K. cbn [andb]. eapply wf_fields_areplace; eauto.
Qed.
Lemma wf_set_path n fs v p m t x : flat_ok fs -> wf rnd (GStruct n fs) v = true -> has_path fs p m t -> wf rnd t x = true ->
  wf rnd (GStruct n fs) (set_path p x v) = true.
Proof.
  intros (N & K & E) W H Tx. destruct H as [m t Hin Em|mb nb fsb m t Hin Em Hin']; cbn [set_path].
  - eapply wf_set_field; eauto.
  - eapply wf_set_field; [exact N|exact W|exact Hin|]. destruct (E _ _ Hin Em) as (n' & fs' & Q & N'). injection Q as <- <-.
    eapply wf_set_field; [exact N'| |exact Hin'|exact Tx].
    destruct v; cbn [CodecSpec.wf] in W; try discriminate. apply andb_true_iff in W as [_ WF].
    destruct (combine_ex _ _ _ (wf_fields_len _ _ _ WF) Hin) as ([nm y] & Hc).
    rewrite (combine_get _ _ _ _ _ _ _ N WF Hc). now destruct (wf_fields_combine _ _ _ WF _ _ _ _ Hc).
Qed.
Lemma effect_wf n fs o v v' : opt_struct fs -> go_option o -> readable_option rnd o -> wf rnd (GStruct n fs) v = true -> effect fs o v v' -> wf rnd (GStruct n fs) v' = true.
Proof.
  intros O [U _] R S E. destruct E as [v|r x p m ft v HP Nm K A|k x p m v HP Nm].
  - exact S.
  - destruct U as [Hr Tx]. eapply wf_set_path; [exact (os_flat _ O)|exact S|exact HP|].
    eapply assignable_wf; [exact A| |exact R]. intros ->. destruct (row_field _ Hr) as (_ & _ & N & _). apply N. rewrite <- Nm. eapply (os_ext _ O); eauto.
  - eapply wf_set_path; [exact (os_flat _ O)|exact S|exact HP|]. cbn [CodecSpec.wf].
    assert (X := g_wf_path (wf rnd) (wf_struct rnd) _ _ _ _ _ _ (os_flat _ O) S HP).
    assert (Y : msorted (old_map (get_path p v)) = true /\ forallb ext_wf (old_map (get_path p v)) = true).
    { destruct (get_path p v); cbn [old_map]; try (split; reflexivity). cbn [CodecSpec.wf] in X. now apply andb_true_iff in X. }
    apply (minsert_forall ext_wf); [exact (proj1 Y)|exact (proj2 Y)|]. destruct R as (U8 & w & -> & Ww & Nw). unfold ext_wf. cbn [fst snd].
    rewrite U8, Ww. replace (gty_eqb _ _) with true by (symmetry; apply gty_eqb_refl). destruct w; try reflexivity. now contradiction Nw.
Qed.
Lemma opts_wf n fs os : opt_struct fs -> Forall go_option os -> Forall (readable_option rnd) os -> forall v v' r, wf rnd (GStruct n fs) v = true ->
  apply_opts (GStruct n fs) os v = (v', r) -> wf rnd (GStruct n fs) v' = true.
Proof.
  intros O T Rd. induction T as [|o os To T IH]; intros v v' r S E; [injection E as <- _; exact S|]. inversion Rd as [|? ? R1 R2]; subst.
  rewrite apply_opts_cons in E. destruct (apply_opt (GStruct n fs) o v) as [v1 r1] eqn:E1. destruct r1 as [[]|e|].
  - assert (X := effect_of _ _ _ _ _ O (user_table _ (proj1 To)) E1). eapply IH; [exact R2| |exact E]. eapply effect_wf; eauto.
  - injection E as <- _. assert (v1 = v) as -> by (eapply apply_opt_fail; [exact E1|discriminate]). exact S.
  - injection E as <- _. assert (v1 = v) as -> by (eapply apply_opt_fail; [exact E1|discriminate]). exact S.
Qed.

Lemma ident_utf8 u t : String.length u = 16%nat -> utf8b t = true -> utf8b (t ++ "--" ++ uuid_string u) = true.
Proof.
  intros L T. apply utf8b_spec. apply utf8_app; [now apply utf8b_spec|]. apply utf8_app; [apply utf8b_spec; reflexivity|]. now apply canonical_utf8, uuid_string_canonical.
Qed.
Lemma init_wf rb now c : String.length rb = 16%nat -> args_typed c = true -> year_ok now = true ->
  (forall f x t, In (f, x) (given c) -> own_field (call_fields c) f = Some t -> wf rnd t x = true) -> wf rnd (call_ty c) (init rb now c) = true.
Proof.
  intros L AT Y A. assert (T := init_typed rb now c AT). apply typed_storable in T. destruct (call_struct c) as [n Q]. rewrite Q in *.
  assert (SE : sendable (GStruct n (call_fields c)) = true) by (rewrite <- Q; clear; destruct c; vm_compute; reflexivity).
  apply wf_of_paths; [exact (call_flat c)|exact SE|exact T|]. intros p m t HP. rewrite (init_path _ _ _ _ _ _ HP).
  destruct (alookup (fm_name m) (all_props rb now c)) as [x|] eqn:E.
  2: { apply zero_wf. cbn [sendable] in SE. rewrite forallb_forall in SE. destruct HP as [m t Hin Em|mb nb fsb m t Hin Em Hin'].
       - specialize (SE _ Hin). now apply andb_true_iff in SE.
       - specialize (SE _ Hin). apply andb_true_iff in SE as [_ SE]. cbn [snd sendable] in SE. rewrite forallb_forall in SE. specialize (SE _ Hin'). now apply andb_true_iff in SE. }
  apply alookup_Some_In in E.
  assert (ID : utf8b (new_identifier rb (call_name c)) = true).
  { apply ident_utf8; [unfold uuid_v4; now rewrite stamp_length|destruct c; reflexivity]. }
  assert (FB : ~ In (fm_name m) ext_bases -> field_by_name (call_fields c) (fm_name m) = Some (p, t)) by (apply fbn_path; exact HP).
  unfold all_props in E. apply in_app_or in E as [E|E].
  - assert (X : forallb (fun kv : string * gval => negb (mem_str (fst kv) ext_bases) && match field_by_name (call_fields c) (fst kv), snd kv with
      | Some (_, GString _), VStr _ => true | Some (_, GPtr GTime), VPtr (VTime _) => true | _, _ => false end) (base_props rb now c) = true) by (clear; destruct c; reflexivity).
    rewrite forallb_forall in X. specialize (X _ E). cbn [fst snd] in X. apply andb_true_iff in X as [X1 X2]. apply negb_true_iff in X1.
    rewrite (FB ltac:(intros H; apply mem_str_In in H; congruence)) in X2. unfold base_props in E. destruct E as [E|E].
    { injection E as _ <-. destruct t; try discriminate; try (destruct t; discriminate). cbn [CodecSpec.wf]. clear. destruct c; reflexivity. }
    apply in_app_or in E as [E|[E|E]].
    { destruct (random_id c); [|destruct E]. destruct E as [E|[]]. injection E as _ <-. destruct t; try discriminate; try (destruct t; discriminate). exact ID. }
    { injection E as _ <-. destruct t; try discriminate; try (destruct t; discriminate). reflexivity. }
    { assert (x = VPtr (VTime now)) as -> by (clear - E; destruct c; cbn in E; intuition congruence). destruct t; try discriminate. destruct t; try discriminate. exact Y. }
  - assert (X : forallb (fun kv : string * gval => negb (mem_str (fst kv) ext_bases) && match own_field (call_fields c) (fst kv), field_by_name (call_fields c) (fst kv) with
      | Some t, Some (_, t') => gty_eqb t t' | _, _ => false end) (given c) = true) by (clear; destruct c; reflexivity).
    rewrite forallb_forall in X. specialize (X _ E). cbn [fst snd] in X. apply andb_true_iff in X as [X1 X2]. apply negb_true_iff in X1.
    rewrite (FB ltac:(intros H; apply mem_str_In in H; congruence)) in X2. destruct (own_field (call_fields c) (fm_name m)) as [t'|] eqn:F; [|discriminate].
    apply gty_eqb_eq in X2. subst t'. exact (A _ _ _ E F).
Qed.
Lemma made_wf m : made_ok m -> readable rnd m -> wf rnd (call_ty (m_call m)) (m_val m) = true.
Proof.
  intros (L & AT & GO & OK) (Y & A & R). apply construct_inv in OK as (_ & _ & v0 & r & E & _ & _ & _ & _ & C).
  assert (T := init_wf _ _ _ L AT Y A). destruct (call_struct (m_call m)) as [n Q]. rewrite Q in *. assert (S := opts_wf _ _ _ (call_opt (m_call m)) GO R _ _ _ T E).
  destruct (contribution (m_pf m) (m_call m)) as [f|] eqn:F; [|now rewrite C]. destruct C as (s & _ & ->).
  assert (Rd : random_id (m_call m) = false) by (destruct (random_id (m_call m)) eqn:Rd; [apply (contribution_random (m_pf m)) in Rd; congruence|reflexivity]).
  destruct (sco_id_path (m_call m) Rd) as (mm & t & H & Em & ->). eapply wf_set_path; [exact (call_flat (m_call m))|exact S|exact H|].
  cbn [CodecSpec.wf]. apply ident_utf8; [apply uuid_v5_length|destruct (m_call m); reflexivity].
Qed.
End Wf.
