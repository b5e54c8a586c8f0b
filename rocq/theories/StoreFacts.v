(** Encoding of values of any contents. *)
From Verif Require Import GoStr GoStrFacts JsonStr JsonStrFacts Json JsonFacts Float FloatFacts Consts Enums
  GoTypes Schema GoVal GoValFacts Time TimeFacts Codec CodecSpec CodecFacts StructFacts CodecRound ObjFacts TypedFacts.

Lemma typed_storable v : forall t, typed t v = true -> storable t v = true.
Proof.
  assert (G : forall v, (forall t, typed t v = true -> storable t v = true) /\
    match v with
    | VDyn t' (VPtr w) => forall t, typed t w = true -> storable t w = true
    | VPtr w => forall t, typed t w = true -> storable t w = true
    | _ => True end).
  { clear. intros v. induction v using gval_ind'; (split; [intros t0 W; cbn [typed] in W; cbn [storable]|try exact I]).
    - exact W.
    - exact W.
    - exact W.
    - exact W.
    - exact W.
    - exact W.
    - exact W.
    - exact W.
    - destruct t0; try discriminate. now apply IHv.
    - apply IHv.
    - destruct t0; try discriminate. rewrite forallb_forall in *. intros x Hx. rewrite Forall_forall in H. now apply H; [|apply W].
    - destruct t0; try discriminate; apply andb_true_iff in W as [W1 W2]; rewrite W1; cbn [andb]; rewrite forallb_forall in *;
        intros [k x] Hx; specialize (W2 _ Hx); cbn [fst snd] in *; rewrite Forall_forall in H; specialize (H _ Hx); cbn [snd] in H.
      + now apply H.
      + destruct x; try discriminate. destruct x; try discriminate. apply andb_true_iff in W2 as [Q W2]. apply gty_eqb_eq in Q. subst t.
        cbn [storable]. destruct H as [_ H]. now apply H.
    - destruct t0; try discriminate. revert fields W. induction H as [|[k x] l Hx Hl IH]; intros [|[m t] fs] W; cbn [wf_fields] in *; try discriminate; [reflexivity|].
      rewrite !andb_true_iff in *. destruct W as [[W1 W2] W3]. split; [split; [exact W1|]|].
      + now apply Hx.
      + now apply IH.
    - destruct t0; try discriminate. now apply IHv.
    - destruct v; try exact I. apply IHv.
    - exact W. }
  apply G.
Qed.

Lemma st_struct n fs x : storable (GStruct n fs) x = true -> exists vs, x = VStruct vs /\ wf_fields storable fs vs = true.
Proof. destruct x; cbn [storable]; intros H; try discriminate. eauto. Qed.
Lemma st_custom l : storable (GPtr ty_CustomObject) (VPtr (VMap l)) = true -> msorted l = true /\ forall k x, In (k, x) l -> storable GIface x = true.
Proof.
  cbn [storable ty_CustomObject]. rewrite !andb_true_iff. intros [Wp1 Wp2]. split; [exact Wp1|].
  intros k x Hin. rewrite forallb_forall in Wp2. exact (Wp2 _ Hin).
Qed.
Lemma st_zero_fin t v : storable t v = true -> is_zero v = true -> fin t v = true.
Proof.
  revert t. induction v using gval_ind'; intros t0 W Z; cbn [storable is_zero fin] in *; try reflexivity; try discriminate.
  - destruct f; [discriminate Z|discriminate Z|reflexivity].
  - destruct t0; try discriminate. revert fields W Z.
    induction H as [|[k x] l Hx Hl IH]; intros [|[m t] fs] W Z; cbn [wf_fields fin_fields forallb fst snd] in *; try discriminate; [reflexivity|].
    rewrite !andb_true_iff in W. destruct W as [[W1 W2] W3]. apply andb_true_iff in Z as [Z1 Z2].
    rewrite (Hx _ W2 Z1), orb_true_r. now apply IH.
Qed.
Lemma st_empty_fin t v : storable t v = true -> is_empty_val v = true -> fin t v = true.
Proof.
  destruct v as [| | |f| | | | |v|l|l|l|d v|]; cbn; intros W H; try discriminate; try reflexivity.
  - destruct f; try discriminate; reflexivity.
  - destruct l; [destruct t; reflexivity|discriminate].
  - destruct l; [reflexivity|discriminate].
Qed.
Lemma st_enc_ok_iff v : forall t, storable t v = true -> ((exists j, enc t v = Ok j) <-> fin t v = true).
Proof.
  induction v using gval_ind'; intros t0 W; cbn [storable] in W; cbn [enc fin].
  - split; eauto.
  - split; eauto.
  - split; eauto.
  - destruct f; cbn; (split; [intros [j E]; try discriminate; reflexivity|intros E; try discriminate E; eauto]).
  - destruct t0; try discriminate. split; eauto.
  - split; eauto.
  - split; eauto.
  - split; eauto.
  - destruct t0; try discriminate. auto.
  - destruct t0; try discriminate.
    assert (G : (exists js, enc_list (enc t0) l = Ok js) <-> forallb (fin t0) l = true).
    { rewrite forallb_forall in W. induction H as [|x l Hx Hl IH]; cbn [enc_list forallb]; [split; eauto|].
      specialize (IH (fun y Hy => W y (or_intror Hy))). specialize (Hx t0 (W x (or_introl eq_refl))).
      rewrite andb_true_iff, <- Hx, <- IH. fold (enc_list (enc t0)). split.
      - intros [js E]. apply bind_ok in E as (j & A & E). apply bind_ok in E as (js' & B & E). eauto.
      - intros [[j A] [js B]]. rewrite A. cbn [bind]. rewrite B. cbn. eauto. }
    rewrite <- G. split; [intros [j E]; apply bind_ok in E as (js & E1 & E); eauto|intros [js E]; rewrite E; cbn; eauto].
  - assert (G : forall t', (forall k x, In (k, x) l -> storable t' x = true) ->
        ((exists js, enc_mems (enc t') l = Ok js) <-> forallb (fun kv => fin t' (snd kv)) l = true)).
    { intros t' HW. clear W. induction H as [|[k x] l Hx Hl IH]; cbn [enc_mems forallb snd]; [split; eauto|].
      specialize (IH (fun k y Hy => HW k y (or_intror Hy))). specialize (Hx t' (HW k x (or_introl eq_refl))). cbn [snd] in Hx.
      rewrite andb_true_iff, <- Hx, <- IH. fold (enc_mems (enc t')). split.
      - intros [js E]. apply bind_ok in E as (j & A & E). apply bind_ok in E as (js' & B & E). eauto.
      - intros [[j A] [js B]]. rewrite A. cbn [bind]. rewrite B. cbn. eauto. }
    destruct t0; try discriminate; apply andb_true_iff in W as [W1 W2]; rewrite <- G;
      try (intros k x Hx; rewrite forallb_forall in W2; exact (W2 _ Hx));
      (split; [intros [j E]; apply bind_ok in E as (js & E1 & E); eauto|intros [js E]; rewrite E; cbn; eauto]).
  - destruct t0; try discriminate.
    assert (G : (exists js, enc_fields enc fields l = Ok js) <-> fin_fields fin fields l = true).
    { revert fields W. induction H as [|[n x] l Hx Hl IH]; intros [|[m t] fs] W; cbn [wf_fields] in W; try discriminate.
      - split; cbn; eauto.
      - rewrite !andb_true_iff in W. destruct W as [[W1 W2] W3]. specialize (IH fs W3). specialize (Hx t W2). cbn [snd] in Hx.
        cbn [enc_fields fin_fields]. rewrite andb_true_iff, <- IH, orb_true_iff.
        destruct (is_empty (fm_key m)); [intuition|].
        destruct (fm_omit m && is_empty_val x) eqn:Eo.
        + apply andb_true_iff in Eo as [_ Eo]. rewrite (st_empty_fin _ _ W2 Eo). intuition.
        + rewrite <- Hx. fold (enc_fields enc). split.
          * intros [js E]. apply bind_ok in E as (j & A & E). apply bind_ok in E as (js' & B & E). eauto.
          * intros [[Z|[j A]] [js B]]; [discriminate|]. rewrite A. cbn [bind]. rewrite B. cbn. eauto. }
    rewrite <- G. split; [intros [j E]; apply bind_ok in E as (js & E1 & E); eauto|intros [js E]; rewrite E; cbn; eauto].
  - destruct t0; try discriminate. auto.
  - split; eauto.
Qed.

Definition st_obj_fails := g_enc_obj_fails storable st_struct st_custom st_zero_fin st_enc_ok_iff.
Definition st_path := g_wf_path storable st_struct.

Lemma wf_storable rnd v : forall t, wf rnd t v = true -> storable t v = true.
Proof.
  induction v using gval_ind'; intros t0 W; cbn [wf] in W; cbn [storable]; try (destruct t0; try discriminate; reflexivity).
  - destruct t0; try discriminate. apply andb_true_iff in W as [_ W]. auto.
  - destruct t0; try discriminate. rewrite forallb_forall in *. rewrite Forall_forall in H. auto.
  - destruct t0; try discriminate; apply andb_true_iff in W as [W1 W2]; rewrite W1; cbn [andb]; rewrite forallb_forall in *;
        intros [k x] Hx; specialize (W2 _ Hx); cbn [fst snd] in *; rewrite Forall_forall in H; specialize (H _ Hx); cbn [snd] in H;
        apply andb_true_iff in W2 as [_ W2].
    + auto.
    + destruct x; try discriminate. apply H. cbn [wf]. rewrite !andb_true_iff in W2. tauto.
  - destruct t0; try discriminate. apply andb_true_iff in W as [_ W]. revert fields W. induction H as [|[k x] l Hx Hl IH]; intros [|[m t] fs] W; cbn [wf_fields] in *; try discriminate; [reflexivity|].
    rewrite !andb_true_iff in *. destruct W as [[W1 W2] W3]. split; [split; [exact W1|]|]; [now apply Hx|now apply IH].
  - destruct t0; try discriminate. auto.
Qed.

Lemma st_set_field n fs v m t x : NoDup (names fs) -> storable (GStruct n fs) v = true -> In (m, t) fs -> storable t x = true ->
  storable (GStruct n fs) (set_field (fm_name m) x v) = true.
Proof.
  intros N W Hin Tx. destruct (st_struct _ _ _ W) as (vs & -> & WF). cbn [set_field storable]. eapply wf_fields_areplace; eauto.
Qed.
Lemma st_set_path n fs v p m t x : flat_ok fs -> storable (GStruct n fs) v = true -> has_path fs p m t -> storable t x = true ->
  storable (GStruct n fs) (set_path p x v) = true.
Proof.
  intros (N & K & E) W H Tx. destruct H as [m t Hin Em|mb nb fsb m t Hin Em Hin']; cbn [set_path].
  - eapply st_set_field; eauto.
  - eapply st_set_field; [exact N|exact W|exact Hin|]. destruct (E _ _ Hin Em) as (n' & fs' & Q & N'). injection Q as <- <-.
    eapply st_set_field; [exact N'| |exact Hin'|exact Tx].
    destruct (st_struct _ _ _ W) as (vs & -> & WF).
    destruct (combine_ex _ vs _ (wf_fields_len _ _ _ WF) Hin) as ([nm y] & Hc).
    rewrite (combine_get _ _ _ _ _ _ _ N WF Hc). now destruct (wf_fields_combine _ _ _ WF _ _ _ _ Hc).
Qed.
