(** Reading and writing struct fields, decoding of structs. *)
From Verif Require Import GoStr GoStrFacts JsonStr Json Float Consts Enums
  GoTypes Schema GoVal GoValFacts Codec CodecSpec CodecFacts.

Lemma NoDup_map_eq {A B} (f : A -> B) l x y : NoDup (map f l) -> In x l -> In y l -> f x = f y -> x = y.
Proof.
  induction l as [|a l IH]; intros N Hx Hy E; [destruct Hx|]. cbn in N. inversion N as [|? ? N1 N2]; subst.
  destruct Hx as [->|Hx], Hy as [->|Hy].
  - reflexivity.
  - exfalso. apply N1. rewrite E. now apply in_map.
  - exfalso. apply N1. rewrite <- E. now apply in_map.
  - now apply IH.
Qed.
Lemma nodupb_NoDup l : nodupb l = true -> NoDup l.
Proof.
  induction l as [|x l IH]; intros H; [constructor|]. cbn in H. apply andb_true_iff in H as [H1 H2].
  constructor; [|now apply IH]. intros Hin. apply mem_str_In in Hin. now rewrite Hin in H1.
Qed.

Lemma fpath_dec (p p' : fpath) : {p = p'} + {p <> p'}.
Proof. repeat decide equality. Qed.

Definition names (fs : list (fmeta * gty)) : list string := map (fun ft => fm_name (fst ft)) fs.

(** [has_path fs p m t]: the struct with fields [fs] has at [p] the field with
    metadata [m] and type [t]. *)
Inductive has_path (fs : list (fmeta * gty)) : fpath -> fmeta -> gty -> Prop :=
| hp_own m t : In (m, t) fs -> fm_embed m = false -> has_path fs (None, fm_name m) m t
| hp_base mb nb fsb m t : In (mb, GStruct nb fsb) fs -> fm_embed mb = true -> In (m, t) fsb ->
    has_path fs (Some (fm_name mb), fm_name m) m t.

Definition flat_ok (fs : list (fmeta * gty)) : Prop :=
  NoDup (names fs) /\ NoDup (map (fun f => fst (fst f)) (flat_fields fs)) /\
  (forall m t, In (m, t) fs -> fm_embed m = true -> exists n fs', t = GStruct n fs' /\ NoDup (names fs')).

Definition shape (fs : list (fmeta * gty)) (v : gval) : Prop :=
  exists vs, v = VStruct vs /\ akeys vs = names fs /\
    forall m n fs', In (m, GStruct n fs') fs -> fm_embed m = true ->
      exists vs', alookup (fm_name m) vs = Some (VStruct vs') /\ akeys vs' = names fs'.

Lemma flat_fields_In fs k p t : In (k, p, t) (flat_fields fs) <-> exists m, has_path fs p m t /\ k = fm_key m /\ k <> "".
Proof.
  unfold flat_fields. rewrite in_flat_map. split.
  - intros ([m t0] & Hin & H). destruct (fm_embed m) eqn:Em.
    + destruct t0; try destruct H. apply in_flat_map in H as ([m' t'] & Hin' & H).
      destruct (is_empty (fm_key m')) eqn:Ek; [destruct H|]. destruct H as [H|[]]. injection H as <- <- <-.
      exists m'. split; [econstructor; eauto|]. split; [reflexivity|]. intros E. rewrite E in Ek. discriminate.
    + destruct (is_empty (fm_key m)) eqn:Ek; [destruct H|]. destruct H as [H|[]]. injection H as <- <- <-.
      exists m. split; [econstructor; eauto|]. split; [reflexivity|]. intros E. rewrite E in Ek. discriminate.
  - intros (m & H & -> & N). destruct H as [m t Hin Em|mb nb fsb m t Hin Em Hin'].
    + exists (m, t). split; [exact Hin|]. rewrite Em.
      destruct (is_empty (fm_key m)) eqn:Ek; [apply is_empty_true in Ek; contradiction|]. now left.
    + exists (mb, GStruct nb fsb). split; [exact Hin|]. rewrite Em. apply in_flat_map. exists (m, t). split; [exact Hin'|].
      destruct (is_empty (fm_key m)) eqn:Ek; [apply is_empty_true in Ek; contradiction|]. now left.
Qed.

Lemma names_inj fs m t m' t' : NoDup (names fs) -> In (m, t) fs -> In (m', t') fs -> fm_name m = fm_name m' -> (m, t) = (m', t').
Proof. intros N H1 H2 E. exact (NoDup_map_eq (fun ft => fm_name (fst ft)) fs (m, t) (m', t') N H1 H2 E). Qed.

Lemma has_path_inj fs p m t m' t' : flat_ok fs -> has_path fs p m t -> has_path fs p m' t' -> m = m' /\ t = t'.
Proof.
  intros (N & _ & E) H1 H2. destruct H1 as [m t Hin Em|mb nb fsb m t Hin Em Hin'].
  - remember (None, fm_name m) as p eqn:P. destruct H2 as [m2 t2 Hin2 Em2|]; [|discriminate P]. injection P as P.
    assert (X := names_inj _ _ _ _ _ N Hin2 Hin P). now injection X as -> ->.
  - remember (Some (fm_name mb), fm_name m) as p eqn:P. destruct H2 as [|mb2 nb2 fsb2 m2 t2 Hin2 Em2 Hin2']; [discriminate P|].
    injection P as P1 P2. assert (X := names_inj _ _ _ _ _ N Hin2 Hin P1). injection X as -> -> ->.
    destruct (E _ _ Hin Em) as (n' & fs' & Q & N'). injection Q as <- <-.
    assert (X := names_inj _ _ _ _ _ N' Hin2' Hin' P2). now injection X as -> ->.
Qed.
Lemma flat_key_inj fs k p t p' t' : flat_ok fs -> In (k, p, t) (flat_fields fs) -> In (k, p', t') (flat_fields fs) ->
  (p, t) = (p', t').
Proof.
  intros (_ & N & _) H1 H2. assert (X := NoDup_map_eq _ _ _ _ N H1 H2 eq_refl). now injection X as -> ->.
Qed.

Lemma In_names m t fs : In (m, t) fs -> In (fm_name m) (names fs).
Proof. intros H. exact (in_map (fun ft => fm_name (fst ft)) fs (m, t) H). Qed.

Lemma shape_base fs v m n fs' : shape fs v -> In (m, GStruct n fs') fs -> fm_embed m = true ->
  exists vs', get_field (fm_name m) v = VStruct vs' /\ akeys vs' = names fs'.
Proof.
  intros (vs & -> & K & B) Hin Em. destruct (B _ _ _ Hin Em) as (vs' & L & K'). exists vs'. cbn. now rewrite L.
Qed.

Lemma set_own_get fs v m t x : shape fs v -> In (m, t) fs -> get_field (fm_name m) (set_field (fm_name m) x v) = x.
Proof.
  intros (vs & -> & K & _) Hin. cbn. rewrite areplace_same; [reflexivity|]. rewrite K. eapply In_names; eauto.
Qed.
Lemma set_field_other v n n' x : n' <> n -> get_field n' (set_field n x v) = get_field n' v.
Proof. intros N. destruct v; try reflexivity. cbn. now rewrite areplace_other. Qed.

Lemma shape_set fs v p m t x : flat_ok fs -> shape fs v -> has_path fs p m t -> shape fs (set_path p x v).
Proof.
  intros (N & _ & E) S H. destruct H as [m t Hin Em|mb nb fsb m t Hin Em Hin'].
  - destruct S as (vs & -> & K & B). cbn. exists (areplace (fm_name m) x vs). split; [reflexivity|].
    split; [now rewrite areplace_keys|]. intros m2 n2 fs2 Hin2 Em2.
    destruct (B _ _ _ Hin2 Em2) as (vs' & L & K'). exists vs'. split; [|exact K'].
    rewrite areplace_other; [exact L|]. intros Q. assert (X := names_inj _ _ _ _ _ N Hin2 Hin Q). inversion X; subst; congruence.
  - destruct (shape_base _ _ _ _ _ S Hin Em) as (vb & G & Kb).
    destruct S as (vs & -> & K & B). cbn [set_path]. rewrite G. cbn [set_field].
    exists (areplace (fm_name mb) (VStruct (areplace (fm_name m) x vb)) vs). split; [reflexivity|].
    split; [now rewrite areplace_keys|]. intros m2 n2 fs2 Hin2 Em2.
    destruct (String.eqb_spec (fm_name m2) (fm_name mb)) as [Q|Q].
    + assert (X := names_inj _ _ _ _ _ N Hin2 Hin Q). injection X as -> -> ->.
      exists (areplace (fm_name m) x vb). split; [|now rewrite areplace_keys].
      apply areplace_same. rewrite K. eapply In_names; eauto.
    + destruct (B _ _ _ Hin2 Em2) as (vs' & L & K'). exists vs'. split; [|exact K']. now rewrite areplace_other.
Qed.

Lemma get_set_same fs v p m t x : shape fs v -> has_path fs p m t -> get_path p (set_path p x v) = x.
Proof.
  intros S H. destruct H as [m t Hin Em|mb nb fsb m t Hin Em Hin'].
  - cbn. eapply set_own_get; eauto.
  - cbn. rewrite (set_own_get _ _ _ _ _ S Hin).
    destruct (shape_base _ _ _ _ _ S Hin Em) as (vb & G & Kb). rewrite G. cbn.
    rewrite areplace_same; [reflexivity|]. rewrite Kb. eapply In_names; eauto.
Qed.

Lemma get_set_other fs v p p' m t m' t' x : flat_ok fs -> shape fs v -> has_path fs p m t -> has_path fs p' m' t' -> p' <> p ->
  get_path p' (set_path p x v) = get_path p' v.
Proof.
  intros (N & _ & E) S H H' Np. destruct H as [m t Hin Em|mb nb fsb m t Hin Em Hb];
    destruct H' as [m' t' Hin' Em'|mb' nb' fsb' m' t' Hin' Em' Hb']; cbn [get_path set_path].
  - apply set_field_other. congruence.
  - rewrite set_field_other; [reflexivity|]. intros Q. assert (X := names_inj _ _ _ _ _ N Hin' Hin Q). inversion X; subst; congruence.
  - apply set_field_other. intros Q. assert (X := names_inj _ _ _ _ _ N Hin' Hin Q). inversion X; subst; congruence.
  - destruct (String.eqb_spec (fm_name mb') (fm_name mb)) as [Q|Q].
    + rewrite Q, (set_own_get _ _ _ _ _ S Hin). apply set_field_other. intros Q2. apply Np. now rewrite Q, Q2.
    + now rewrite set_field_other.
Qed.

Lemma shape_ext fs v v' : flat_ok fs -> shape fs v -> shape fs v' ->
  (forall p m t, has_path fs p m t -> get_path p v = get_path p v') -> v = v'.
Proof.
  intros (N & _ & E) (vs & -> & K & B) (vs' & -> & K' & B') G. f_equal.
  apply assoc_ext; [congruence|rewrite K; exact N|].
  intros k Hk. assert (Hk0 := Hk). rewrite K in Hk. apply in_map_iff in Hk as ([m t] & <- & Hin). cbn [fst] in *.
  destruct (fm_embed m) eqn:Em.
  - destruct (E _ _ Hin Em) as (n & fs' & -> & N').
    destruct (B _ _ _ Hin Em) as (vb & L & Kb). destruct (B' _ _ _ Hin Em) as (vb' & L' & Kb').
    rewrite L, L'. do 2 f_equal. apply assoc_ext; [congruence|rewrite Kb; exact N'|].
    intros k2 Hk2. assert (Hk3 := Hk2). rewrite Kb in Hk2. apply in_map_iff in Hk2 as ([m2 t2] & <- & Hin2). cbn [fst] in *.
    assert (X := G _ _ _ (hp_base fs m n fs' m2 t2 Hin Em Hin2)). cbn in X. rewrite L, L' in X. cbn in X.
    destruct (alookup (fm_name m2) vb) eqn:A1; [|apply alookup_None in A1; contradiction].
    destruct (alookup (fm_name m2) vb') eqn:A2; [congruence|]. apply alookup_None in A2. rewrite Kb' in A2. rewrite Kb in Hk3. contradiction.
  - assert (X := G _ _ _ (hp_own fs m t Hin Em)). cbn in X.
    destruct (alookup (fm_name m) vs) eqn:A1; [|apply alookup_None in A1; contradiction].
    destruct (alookup (fm_name m) vs') eqn:A2; [congruence|]. apply alookup_None in A2. rewrite K' in A2. rewrite K in Hk0. contradiction.
Qed.

Lemma find_field_exact fs k p t : flat_ok fs -> In (k, p, t) (flat_fields fs) -> find_field k (flat_fields fs) = Some (p, t).
Proof.
  intros F H. unfold find_field.
  destruct (find (fun f => String.eqb (fst (fst f)) k) (flat_fields fs)) as [[[k' p'] t']|] eqn:E.
  - apply find_some in E as [E1 E2]. cbn in E2. apply String.eqb_eq in E2. subst k'.
    f_equal. eapply flat_key_inj; eauto.
  - assert (X := find_none _ _ E _ H). cbn in X. now rewrite eqb_refl in X.
Qed.

(** Decoding a list of members with distinct names into a struct. *)
Lemma dec_struct_to (f : json -> gty -> gval -> dres gval) fs tgt : flat_ok fs -> shape fs tgt ->
  forall ms cur, shape fs cur -> NoDup (akeys ms) ->
  (forall k x, In (k, x) ms -> find_field k (flat_fields fs) = None \/
     exists p t, In (k, p, t) (flat_fields fs) /\ f x t (get_path p cur) = DOk (get_path p tgt) false) ->
  (forall p m t, has_path fs p m t -> fm_key m = "" \/ ~ In (fm_key m) (akeys ms) -> get_path p tgt = get_path p cur) ->
  dec_struct f (flat_fields fs) ms cur = DOk tgt false.
Proof.
  intros F ST. induction ms as [|[k x] ms IH]; intros cur SC N HM HA; cbn [dec_struct].
  - f_equal. symmetry. eapply shape_ext; eauto.
  - fold (dec_struct f (flat_fields fs)). cbn in N. inversion N as [|? ? N1 N2]; subst.
    destruct (HM k x (or_introl eq_refl)) as [Hn|(p & t & Hin & Hf)].
    + rewrite Hn. apply IH; [assumption..| |].
      * intros k' x' H'. apply HM. now right.
      * intros p m t Hp C. destruct C as [C|C]; [apply (HA p m t Hp); now left|].
        destruct (String.eqb_spec (fm_key m) "") as [Z|NZ]; [apply (HA p m t Hp); now left|].
        apply (HA p m t Hp). right. cbn [akeys map fst]. intros [Q|Q]; [|contradiction].
        assert (Hin : In (k, p, t) (flat_fields fs)) by (apply flat_fields_In; exists m; repeat split; congruence).
        rewrite (find_field_exact _ _ _ _ F Hin) in Hn. discriminate.
    + rewrite (find_field_exact _ _ _ _ F Hin), Hf, dbind_ok.
      apply flat_fields_In in Hin as (m & Hp & Hk & Hne).
      apply IH; [eapply shape_set; eauto|assumption| |].
      * intros k' x' H'. destruct (HM k' x' (or_intror H')) as [Hn|(p' & t' & Hin' & Hf')]; [now left|right].
        exists p', t'. split; [exact Hin'|]. apply flat_fields_In in Hin' as (m' & Hp' & Hk' & Hne').
        rewrite (get_set_other _ _ _ _ _ _ _ _ _ F SC Hp Hp'); [exact Hf'|].
        intros ->. destruct (has_path_inj _ _ _ _ _ _ F Hp Hp') as [-> ->].
        apply N1. rewrite Hk, <- Hk'. now apply in_map with (f := fst) in H'.
      * intros p' m' t' Hp' C.
        destruct (fpath_dec p' p) as [->|Np].
        { now rewrite (get_set_same _ _ _ _ _ _ SC Hp). }
        rewrite (get_set_other _ _ _ _ _ _ _ _ _ F SC Hp Hp' Np). apply (HA p' m' t' Hp').
        destruct C as [C|C]; [now left|].
        destruct (String.eqb_spec (fm_key m') "") as [Z|NZ]; [now left|right].
        cbn [akeys map fst]. intros [Q|Q]; [|contradiction].
        apply Np.
        assert (I1 : In (k, p', t') (flat_fields fs)) by (apply flat_fields_In; exists m'; repeat split; congruence).
        assert (I2 : In (k, p, t) (flat_fields fs)) by (apply flat_fields_In; exists m; repeat split; congruence).
        assert (X := flat_key_inj _ _ _ _ _ _ F I1 I2). now inversion X.
Qed.
