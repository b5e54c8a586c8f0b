(** Round trip: decoding the encoding of a well formed value. *)
From Verif Require Import GoStr GoStrFacts JsonStr JsonStrFacts Json JsonFacts Float FloatFacts Consts Enums
  GoTypes Schema GoVal GoValFacts Time TimeFacts Base64 Base64Facts Codec CodecSpec CodecFacts StructFacts.

(** * Structs without embedding *)
Lemma flat_keys_plain fs : forallb (fun ft : fmeta * gty => negb (fm_embed (fst ft))) fs = true ->
  map (fun f => fst (fst f)) (flat_fields fs) = filter (fun k => negb (is_empty k)) (map (fun ft => fm_key (fst ft)) fs).
Proof.
  induction fs as [|[m t] fs IH]; intros H; [reflexivity|]. cbn [forallb fst] in H. apply andb_true_iff in H as [H1 H2].
  change (flat_fields ((m, t) :: fs)) with
    ((if fm_embed m then
      match t with
      | GStruct _ fs' =>
          flat_map (fun ft' : fmeta * gty => let (m', t') := ft' in
            if is_empty (fm_key m') then [] else [(fm_key m', (Some (fm_name m), fm_name m'), t')]) fs'
      | _ => []
      end
    else if is_empty (fm_key m) then [] else [(fm_key m, (None, fm_name m), t)]) ++ flat_fields fs).
  apply negb_true_iff in H1. rewrite H1. cbn [map filter fst].
  destruct (is_empty (fm_key m)); cbn [negb app map fst]; [now apply IH|]. f_equal. now apply IH.
Qed.

Lemma ty_ok_flat n fs : ty_ok (GStruct n fs) = true ->
  flat_ok fs /\ (forall m t, In (m, t) fs -> fm_embed m = false /\ utf8b (fm_key m) = true /\ ty_ok t = true) /\
  NoDup (filter (fun k => negb (is_empty k)) (map (fun ft => fm_key (fst ft)) fs)).
Proof.
  cbn [ty_ok]. rewrite !andb_true_iff. intros [[H1 H2] H3].
  assert (F : forall m t, In (m, t) fs -> fm_embed m = false /\ utf8b (fm_key m) = true /\ ty_ok t = true).
  { intros m t Hin. rewrite forallb_forall in H3. specialize (H3 _ Hin). cbn [fst snd] in H3.
    rewrite !andb_true_iff, negb_true_iff in H3. tauto. }
  assert (D := nodupb_NoDup _ H2).
  split; [|split; [exact F|exact D]]. repeat split.
  - now apply nodupb_NoDup.
  - rewrite flat_keys_plain; [exact D|]. apply forallb_forall. intros [m t] Hin. cbn. now rewrite (proj1 (F m t Hin)).
  - intros m t Hin Em. rewrite (proj1 (F m t Hin)) in Em. discriminate.
Qed.

Lemma zero_struct n fs : zero (GStruct n fs) = VStruct (map (fun ft => (fm_name (fst ft), zero (snd ft))) fs).
Proof. reflexivity. Qed.
Lemma alookup_zero fs m t : NoDup (names fs) -> In (m, t) fs ->
  alookup (fm_name m) (map (fun ft => (fm_name (fst ft), zero (snd ft))) fs) = Some (zero t).
Proof.
  intros N H. apply alookup_In.
  - unfold akeys. rewrite map_map. exact N.
  - exact (in_map (fun ft => (fm_name (fst ft), zero (snd ft))) fs (m, t) H).
Qed.
Lemma shape_zero n fs : flat_ok fs -> shape fs (zero (GStruct n fs)).
Proof.
  intros (N & _ & E). rewrite zero_struct. eexists. split; [reflexivity|]. split.
  - unfold akeys. rewrite map_map. reflexivity.
  - intros m n' fs' Hin Em. rewrite (alookup_zero _ _ _ N Hin). rewrite zero_struct. eexists. split; [reflexivity|].
    unfold akeys. rewrite map_map. reflexivity.
Qed.
Lemma zero_path n fs p m t : flat_ok fs -> has_path fs p m t -> get_path p (zero (GStruct n fs)) = zero t.
Proof.
  intros (N & _ & E) H. rewrite zero_struct. destruct H as [m t Hin Em|mb nb fsb m t Hin Em Hin'].
  - cbn. now rewrite (alookup_zero _ _ _ N Hin).
  - cbn [get_path get_field]. rewrite (alookup_zero _ _ _ N Hin).
    destruct (E _ _ Hin Em) as (n' & fs' & Q & N'). injection Q as <- <-.
    rewrite zero_struct. cbn. now rewrite (alookup_zero _ _ _ N' Hin').
Qed.

Lemma wf_fields_combine (f : gty -> gval -> bool) fs : forall vs, wf_fields f fs vs = true ->
  forall m t n v, In ((m, t), (n, v)) (combine fs vs) -> n = fm_name m /\ f t v = true.
Proof.
  induction fs as [|[m0 t0] fs IH]; intros [|[n0 v0] vs] H m t n v Hin; cbn [wf_fields] in H; try discriminate; [destruct Hin|].
  rewrite !andb_true_iff in H. destruct H as [[H1 H2] H3]. apply String.eqb_eq in H1.
  destruct Hin as [Q|Hin]; [injection Q as <- <- <- <-; auto|]. eapply IH; eauto.
Qed.
Lemma wf_fields_len (f : gty -> gval -> bool) fs : forall vs, wf_fields f fs vs = true -> length fs = length vs.
Proof.
  induction fs as [|[m0 t0] fs IH]; intros [|[n0 v0] vs] H; cbn [wf_fields] in H; try discriminate; [reflexivity|].
  rewrite !andb_true_iff in H. cbn. f_equal. now apply IH.
Qed.
Lemma combine_ex {A B} (l : list A) : forall (l' : list B) x, length l = length l' -> In x l -> exists y, In (x, y) (combine l l').
Proof.
  induction l as [|a l IH]; intros [|b l'] x L H; try discriminate; [destruct H|].
  destruct H as [->|H]; [exists b; now left|]. destruct (IH l' x ltac:(now injection L) H) as (y & Hy). exists y. now right.
Qed.

Lemma combine_get (f : gty -> gval -> bool) fs vs m t n v : NoDup (names fs) -> wf_fields f fs vs = true ->
  In ((m, t), (n, v)) (combine fs vs) -> get_field (fm_name m) (VStruct vs) = v.
Proof.
  intros N W H. cbn. destruct (wf_fields_combine _ _ _ W _ _ _ _ H) as [<- _].
  rewrite (alookup_In n v); [reflexivity| |eapply in_combine_r; eauto].
  rewrite <- (wf_fields_In _ _ _ W). exact N.
Qed.

Lemma norm_fields_keys (g : gty -> gval -> gval) fs : forall vs (f : gty -> gval -> bool), wf_fields f fs vs = true -> akeys (norm_fields g fs vs) = names fs.
Proof.
  induction fs as [|[m0 t0] fs IH]; intros [|[n0 v0] vs] f H; cbn [wf_fields] in H; try discriminate; [reflexivity|].
  rewrite !andb_true_iff in H. destruct H as [[H1 H2] H3]. apply String.eqb_eq in H1 as ->. cbn. unfold akeys in IH.
  now rewrite (IH vs f H3).
Qed.
Lemma norm_fields_In (g : gty -> gval -> gval) fs : forall vs m t n v, In ((m, t), (n, v)) (combine fs vs) ->
  In (n, if is_empty (fm_key m) then zero t else if fm_omit m && is_empty_val v then zero t else g t v) (norm_fields g fs vs).
Proof.
  induction fs as [|[m0 t0] fs IH]; intros [|[n0 v0] vs] m t n v H; try destruct H.
  - injection H as -> -> -> ->. left. cbn. now rewrite blank_eq.
  - right. now apply IH.
Qed.

Lemma enc_fields_In (f : gty -> gval -> res json) fs : forall vs js, enc_fields f fs vs = Ok js ->
  forall k x, In (k, x) js -> exists m t n v, In ((m, t), (n, v)) (combine fs vs) /\ k = fm_key m /\ k <> "" /\
    (fm_omit m && is_empty_val v) = false /\ f t v = Ok x.
Proof.
  induction fs as [|[m0 t0] fs IH]; intros [|[n0 v0] vs] js E k x Hin; cbn [enc_fields] in E;
    try (injection E as <-; destruct Hin; fail).
  assert (Rec : enc_fields f fs vs = Ok js -> exists m t n v, In ((m, t), (n, v)) (combine ((m0, t0) :: fs) ((n0, v0) :: vs)) /\ k = fm_key m /\ k <> "" /\
    (fm_omit m && is_empty_val v) = false /\ f t v = Ok x).
  { intros E'. destruct (IH vs js E' k x Hin) as (m & t & n & v & H1 & H2). exists m, t, n, v. split; [now right|exact H2]. }
  destruct (is_empty (fm_key m0)) eqn:Ek; [now apply Rec|].
  destruct (fm_omit m0 && is_empty_val v0) eqn:Eo; [now apply Rec|]. clear Rec.
  apply bind_ok in E as (j & E1 & E). apply bind_ok in E as (js' & E2 & E). injection E as <-.
  destruct Hin as [Q|Hin].
  - injection Q as <- <-. exists m0, t0, n0, v0. repeat split; auto; [now left|].
    intros Z. rewrite Z in Ek. discriminate.
  - destruct (IH vs js' E2 k x Hin) as (m & t & n & v & H1 & H2). exists m, t, n, v. split; [now right|exact H2].
Qed.
Lemma enc_fields_keys (f : gty -> gval -> res json) fs : forall vs js, enc_fields f fs vs = Ok js ->
  forall m t n v, In ((m, t), (n, v)) (combine fs vs) -> fm_key m <> "" -> (fm_omit m && is_empty_val v) = false ->
  In (fm_key m) (akeys js).
Proof.
  induction fs as [|[m0 t0] fs IH]; intros [|[n0 v0] vs] js E m t n v Hin Nk No; try destruct Hin; cbn [enc_fields] in E.
  - injection H as -> -> -> ->.
    destruct (is_empty (fm_key m)) eqn:Ek; [apply is_empty_true in Ek; contradiction|]. rewrite No in E.
    apply bind_ok in E as (j & E1 & E). apply bind_ok in E as (js' & E2 & E). injection E as <-. now left.
  - destruct (is_empty (fm_key m0)); [eapply IH; eauto|]. destruct (fm_omit m0 && is_empty_val v0); [eapply IH; eauto|].
    apply bind_ok in E as (j & E1 & E). apply bind_ok in E as (js' & E2 & E). injection E as <-. right.
    eapply (IH vs js' E2); eauto.
Qed.
Lemma enc_fields_nodup (f : gty -> gval -> res json) fs : forall vs js, enc_fields f fs vs = Ok js ->
  NoDup (filter (fun k => negb (is_empty k)) (map (fun ft => fm_key (fst ft)) fs)) -> NoDup (akeys js).
Proof.
  induction fs as [|[m0 t0] fs IH]; intros [|[n0 v0] vs] js E N; cbn [enc_fields] in E;
    try (injection E as <-; constructor; fail).
  cbn [map filter fst] in N.
  destruct (is_empty (fm_key m0)) eqn:Ek; cbn [negb] in N; [eapply IH; eauto|]. inversion N as [|? ? N1 N2]; subst.
  destruct (fm_omit m0 && is_empty_val v0) eqn:Eo; [eapply IH; eauto|].
  apply bind_ok in E as (j & E1 & E). apply bind_ok in E as (js' & E2 & E). injection E as <-.
  cbn. constructor; [|eapply IH; eauto]. intros Hin. apply in_map_iff in Hin as ([k x] & Q & Hin). cbn in Q. subst k.
  destruct (enc_fields_In _ _ _ _ E2 _ _ Hin) as (m & t & n & v & H1 & H2 & H3 & _).
  apply N1. apply filter_In. split; [|now rewrite Ek]. rewrite H2.
  apply in_map_iff. exists (m, t). split; [reflexivity|]. eapply in_combine_l; eauto.
Qed.

Lemma has_path_plain fs p m t : (forall m t, In (m, t) fs -> fm_embed m = false) -> has_path fs p m t ->
  p = (None, fm_name m) /\ In (m, t) fs.
Proof.
  intros F H. destruct H as [m t Hin Em|mb nb fsb m t Hin Em Hin']; [now split|].
  rewrite (F _ _ Hin) in Em. discriminate.
Qed.

Lemma ext_types_ok : forallb (fun kv => ty_ok (snd kv)) ext_types = true.
Proof. vm_compute. reflexivity. Qed.
Lemma ext_ty_ok k : ty_ok (ext_ty k) = true.
Proof.
  unfold ext_ty. destruct (alookup k ext_types) as [t|] eqn:E; [|reflexivity].
  apply alookup_Some_In in E. assert (X := ext_types_ok). rewrite forallb_forall in X. exact (X _ E).
Qed.
Lemma ext_ty_shape k : (exists n fs, ext_ty k = GStruct n fs) \/ ext_ty k = ty_CustomObject.
Proof.
  unfold ext_ty. destruct (alookup k ext_types) as [t|] eqn:E; [left|now right].
  apply alookup_Some_In in E.
  assert (X : forallb (fun kv => match snd kv with GStruct _ _ => true | _ => false end) ext_types = true) by (vm_compute; reflexivity).
  rewrite forallb_forall in X. specialize (X _ E). cbn in X. destruct t; try discriminate. eauto.
Qed.

Section Round.
Variable rnd : bool -> N -> Z -> option flt.
Notation dec := (dec rnd).

Lemma dec_fresh j k v : dec j (ext_ty k) (zero (ext_ty k)) = DOk v false -> dec j (ext_ty k) (fresh (ext_ty k)) = DOk v false.
Proof.
  destruct (ext_ty_shape k) as [(n & fs & ->)| ->]; [auto|].
  unfold ty_CustomObject. destruct j; cbn; auto; discriminate.
Qed.

(** The claim proved by induction on the value. *)
Definition Q v := forall t j, ty_ok t = true -> wf rnd t v = true -> enc t v = Ok j -> dec j t (zero t) = DOk (norm rnd t v) false.

Lemma dec_ext_map l :
  (forall k x, In (k, x) l -> exists w, x = VDyn (GPtr (ext_ty k)) (VPtr w) /\ wf rnd (ext_ty k) w = true /\ Q w) ->
  forall js acc, enc_mems (enc GIface) l = Ok js ->
  let g := fun kv : string * gval => (fst kv, match snd kv with
                          | VDyn (GPtr t') (VPtr w) => VDyn (GPtr t') (VPtr (norm rnd t' w))
                          | x => x
                          end) in
  msorted (acc ++ map g l) = true ->
  dec_ext dec js acc = DOk (acc ++ map g l) false.
Proof.
  induction l as [|[k x] l IH]; intros H js acc E g S; cbn [enc_mems] in E.
  - injection E as <-. cbn. now rewrite app_nil_r.
  - apply bind_ok in E as (j & E1 & E). apply bind_ok in E as (js' & E2 & E). injection E as <-.
    cbn [dec_ext]. fold (dec_ext dec).
    destruct (H k x (or_introl eq_refl)) as (w & -> & W & HQ).
    assert (K : akeys js' = akeys l) by now apply enc_mems_keys in E2.
    assert (M : mem_str k (map fst js') = false).
    { apply not_true_is_false. intros M. apply mem_str_In in M. change (In k (akeys js')) in M. rewrite K in M.
      apply msorted_nodup in S. unfold akeys in S. rewrite map_app in S. cbn [map fst] in S.
      apply NoDup_remove_2 in S. apply S. apply in_or_app. right. rewrite map_map.
      unfold g. cbn [fst]. exact M. }
    rewrite M. cbn [enc] in E1.
    assert (D := HQ _ _ (ext_ty_ok k) W E1). rewrite (dec_fresh _ _ _ D).
    cbn [map] in S |- *. subst g. cbv beta in S |- *. cbn [fst snd] in S |- *.
    rewrite minsert_last by (eapply msorted_app_lt; exact S).
    set (g := fun kv : string * gval => (fst kv, match snd kv with
                          | VDyn (GPtr t') (VPtr w) => VDyn (GPtr t') (VPtr (norm rnd t' w))
                          | x => x
                          end)) in *.
    set (e := VDyn (GPtr (ext_ty k)) (VPtr (norm rnd (ext_ty k) w))) in *.
    assert (R : acc ++ (k, e) :: map g l = (acc ++ [(k, e)]) ++ map g l) by now rewrite <- app_assoc.
    rewrite R in S |- *. apply IH; [|exact E2|exact S]. intros k' x' Hin. apply H. now right.
Qed.

Lemma enc_not_null v : forall t j, match v with VNil | VPtr _ | VDyn _ _ | VRaw _ => false | _ => true end = true ->
  enc t v = Ok j -> j <> JNull.
Proof.
  intros t j H E. destruct v; try discriminate H; cbn [enc] in E; destruct t; try discriminate E; try injection E as <-; try discriminate;
    try (destruct (fmt_float f); [injection E as <-; discriminate|discriminate E]);
    (apply bind_ok in E as (? & _ & E); injection E as <-; discriminate).
Qed.

Lemma roundtrip_struct vs n fs js :
  Forall (fun kv => Q (snd kv)) vs -> ty_ok (GStruct n fs) = true -> wf_fields (wf rnd) fs vs = true ->
  enc_fields enc fs vs = Ok js ->
  dec_struct dec (flat_fields fs) js (zero (GStruct n fs)) = DOk (VStruct (norm_fields (norm rnd) fs vs)) false.
Proof.
  intros HF T W E. destruct (ty_ok_flat _ _ T) as (F & FT & ND).
  assert (N := proj1 F).
  assert (SN : shape fs (VStruct (norm_fields (norm rnd) fs vs))).
  { eexists. split; [reflexivity|]. split; [eapply norm_fields_keys; eauto|].
    intros m n' fs' Hin Em. rewrite (proj1 (FT _ _ Hin)) in Em. discriminate. }
  assert (GN : forall m t n v, In ((m, t), (n, v)) (combine fs vs) -> get_field (fm_name m) (VStruct (norm_fields (norm rnd) fs vs)) =
     if is_empty (fm_key m) then zero t else if fm_omit m && is_empty_val v then zero t else norm rnd t v).
  { intros m t n0 v Hin. destruct (wf_fields_combine _ _ _ W _ _ _ _ Hin) as [-> _]. cbn.
    erewrite alookup_In; [reflexivity| |].
    - erewrite norm_fields_keys by eauto. exact N.
    - apply norm_fields_In. exact Hin. }
  apply dec_struct_to; [exact F|exact SN|now apply shape_zero|eapply enc_fields_nodup; eauto| |].
  - intros k x Hin. right.
    destruct (enc_fields_In _ _ _ _ E _ _ Hin) as (m & t & n0 & v & H1 & H2 & H3 & H4 & H5).
    assert (Hin0 := in_combine_l _ _ _ _ H1).
    destruct (FT _ _ Hin0) as (Em & _ & Tt).
    assert (HP : has_path fs (None, fm_name m) m t) by (now constructor).
    exists (None, fm_name m), t. split; [apply flat_fields_In; exists m; now repeat split|].
    rewrite (zero_path _ _ _ _ _ F HP). cbn [get_path]. rewrite (GN _ _ _ _ H1).
    replace (is_empty (fm_key m)) with false by (symmetry; apply not_true_is_false; intros Z; apply is_empty_true in Z; congruence).
    rewrite H4. destruct (wf_fields_combine _ _ _ W _ _ _ _ H1) as [_ Wv].
    rewrite Forall_forall in HF. assert (Hv := HF _ (in_combine_r _ _ _ _ H1)). cbn in Hv. now apply Hv.
  - intros p m t HP C.
    destruct (has_path_plain _ _ _ _ (fun m t H => proj1 (FT m t H)) HP) as [-> Hin].
    rewrite (zero_path _ _ _ _ _ F HP). cbn [get_path].
    destruct (combine_ex _ vs _ (wf_fields_len _ _ _ W) Hin) as ([n0 v] & Hc).
    rewrite (GN _ _ _ _ Hc). destruct (is_empty (fm_key m)) eqn:Ek; [reflexivity|].
    destruct (fm_omit m && is_empty_val v) eqn:Eo; [reflexivity|exfalso].
    destruct C as [C|C]; [rewrite C in Ek; discriminate|]. apply C.
    eapply enc_fields_keys; eauto. intros Z. rewrite Z in Ek. discriminate.
Qed.

Lemma roundtrip_aux v : Q v /\ match v with VPtr w => Q w | VDyn _ (VPtr w) => Q w | _ => True end.
Proof.
  induction v using gval_ind'; (split; [intros t0 jo T W E; cbn [wf] in W; cbn [enc] in E|try exact I]).
  - destruct t0; try discriminate. injection E as <-. cbn. apply utf8b_spec in W. now rewrite (unq_quote _ W).
  - destruct t0; try discriminate. injection E as <-. cbn. apply andb_true_iff in W as [W _]. now rewrite (parse_int_ok _ W).
  - destruct t0; try discriminate. injection E as <-. reflexivity.
  - destruct t0; try discriminate. destruct (fmt_float f) as [s|] eqn:F; [|discriminate]. injection E as <-. cbn.
    destruct (fmt_float_ok _ _ _ W F) as [P _]. now rewrite P.
  - destruct t0; try discriminate. injection E as <-. rewrite dec_enum, enum_roundtrip. reflexivity.
  - destruct t0; try discriminate. injection E as <-. rewrite dec_time. unfold time_unmarshal.
    change (print (JStr (ts_string t))) with (ts_marshal t). rewrite ts_unmarshal_marshal; [reflexivity|].
    unfold year_ok in W. apply andb_true_iff in W as [W1 W2]. apply Z.leb_le in W1. apply Z.ltb_lt in W2. lia.
  - destruct t0; try discriminate. injection E as <-. rewrite dec_bin. cbn [bin_unmarshal].
    rewrite (unq_plain _ (plain_b64 s)), b64_roundtrip. reflexivity.
  - injection E as <-. destruct t0; try discriminate; reflexivity.
  - destruct t0; try discriminate. apply andb_true_iff in W as [W1 W2].
    assert (NN := enc_not_null _ _ _ W1 E). destruct IHv as [IH _].
    rewrite dec_ptr. cbn [zero norm].
    assert (T' : ty_ok t0 = true) by (cbn [ty_ok] in T; now apply andb_true_iff in T).
    specialize (IH t0 jo T' W2 E). destruct jo; try contradiction; rewrite IH; now rewrite dbind_ok.
  - exact (proj1 IHv).
  - destruct t0; try discriminate. apply bind_ok in E as (js & E1 & E). injection E as <-.
    rewrite dec_slice_arr. cbn [zero old_list].
    rewrite (dec_list_map (fun x o => dec x t0 o) (zero t0) (norm rnd t0) (enc t0) l); [now rewrite dbind_ok| |exact E1].
    intros x j Hx Ex. rewrite Forall_forall in H. rewrite forallb_forall in W. apply (proj1 (H x Hx)); auto.
  - destruct t0; try discriminate; apply bind_ok in E as (js & E1 & E); injection E as <-;
      apply andb_true_iff in W as [W1 W2].
    + rewrite dec_map_obj. cbn [zero old_map].
      rewrite (dec_mems_map (fun x => dec x t0 (zero t0)) (norm rnd t0) (enc t0) l) with (acc := []);
        [now rewrite dbind_ok| |exact E1|cbn [app]; now rewrite msorted_map].
      intros k x j Hx Ex. rewrite Forall_forall in H. rewrite forallb_forall in W2.
      specialize (W2 _ Hx). cbn [fst snd] in W2. apply andb_true_iff in W2 as [_ W2].
      apply (proj1 (H _ Hx)); auto.
    + rewrite dec_ext_obj. rewrite (dec_ext_map l) with (acc := []); [now rewrite dbind_ok| |exact E1|].
      * intros k x Hx. rewrite forallb_forall in W2. specialize (W2 _ Hx). cbn [fst snd] in W2.
        apply andb_true_iff in W2 as [_ W2]. destruct x; try discriminate.
        rewrite !andb_true_iff in W2. destruct W2 as [[Et Wx] Nx]. apply gty_eqb_eq in Et. subst t.
        destruct x; try discriminate. exists x. split; [reflexivity|].
        cbn [wf] in Wx. apply andb_true_iff in Wx as [_ Wx]. split; [exact Wx|].
        rewrite Forall_forall in H. exact (proj2 (H _ Hx)).
      * cbn [app]. erewrite msorted_keys; [exact W1|]. unfold akeys. rewrite map_map. reflexivity.
  - destruct t0; try discriminate. apply bind_ok in E as (js & E1 & E). injection E as <-.
    apply andb_true_iff in W as [_ W]. rewrite dec_struct_obj. cbn [norm]. apply roundtrip_struct; auto.
    rewrite Forall_forall in H |- *. intros x Hx. exact (proj1 (H x Hx)).
  - destruct t0; try discriminate. rewrite dec_iface. cbn [norm]. now apply dec_any_enc.
  - destruct v; try exact I. exact (proj2 IHv).
  - discriminate.
Qed.

Theorem value_roundtrip t v j : ty_ok t = true -> wf rnd t v = true -> enc t v = Ok j ->
  dec j t (zero t) = DOk (norm rnd t v) false.
Proof. apply roundtrip_aux. Qed.

(** * The text is valid JSON *)
Lemma enc_json_ok v : forall t j, wf rnd t v = true -> enc t v = Ok j -> json_okb j = true.
Proof.
  induction v using gval_ind'; intros t0 jo W E; cbn [wf] in W; cbn [enc] in E.
  - destruct t0; try discriminate. injection E as <-. cbn. apply utf8b_spec in W. now rewrite (unq_quote _ W).
  - injection E as <-. cbn. apply num_ok_int.
  - injection E as <-. reflexivity.
  - destruct t0; try discriminate. destruct (fmt_float f) as [s|] eqn:F; [|discriminate]. injection E as <-. cbn.
    exact (proj2 (fmt_float_ok _ _ _ W F)).
  - destruct t0; try discriminate. injection E as <-. cbn [json_okb]. now rewrite (unq_plain _ (enum_plain name n)).
  - destruct t0; try discriminate. injection E as <-. cbn [json_okb]. now rewrite (unq_plain _ (plain_ts _ W)).
  - injection E as <-. cbn [json_okb]. now rewrite (unq_plain _ (plain_b64 s)).
  - injection E as <-. reflexivity.
  - destruct t0; try discriminate. apply andb_true_iff in W as [_ W]. eauto.
  - destruct t0; try discriminate. apply bind_ok in E as (js & E1 & E). injection E as <-. cbn [json_okb].
    rewrite forallb_forall in W. revert js E1. induction H as [|x l Hx Hl IH]; intros js E1; cbn [enc_list] in E1.
    + injection E1 as <-. reflexivity.
    + apply bind_ok in E1 as (j & A & E1). apply bind_ok in E1 as (js' & B & E1). injection E1 as <-.
      cbn [forallb]. rewrite (Hx _ _ (W x (or_introl eq_refl)) A). apply IH; [|exact B]. intros y Hy. apply W. now right.
  - assert (G : forall t' js, forallb (fun kv => utf8b (fst kv) && wf rnd t' (snd kv)) l = true ->
        enc_mems (enc t') l = Ok js -> forallb (fun kv => utf8b (fst kv) && json_okb (snd kv)) js = true).
    { intros t'. clear W E. induction H as [|[k x] l Hx Hl IH]; intros js HW E; cbn [enc_mems] in E.
      - injection E as <-. reflexivity.
      - apply bind_ok in E as (j & A & E). apply bind_ok in E as (js' & B & E). injection E as <-.
        cbn [forallb fst snd] in HW |- *. apply andb_true_iff in HW as [HW1 HW2]. apply andb_true_iff in HW1 as [HW1 HW3].
        rewrite HW1, (Hx _ _ HW3 A). now apply IH. }
    destruct t0; try discriminate; apply bind_ok in E as (js & E1 & E); injection E as <-;
      apply andb_true_iff in W as [W1 W2]; cbn [json_okb]; apply (G _ _) in E1; try assumption.
    rewrite forallb_forall in W2 |- *. intros [k x] Hx. specialize (W2 _ Hx). cbn [fst snd] in W2 |- *.
    apply andb_true_iff in W2 as [U W2]. rewrite U. cbn [andb]. destruct x; try discriminate. cbn [wf].
    rewrite !andb_true_iff in W2. tauto.
  - destruct t0; try discriminate. apply bind_ok in E as (js & E1 & E). injection E as <-. cbn [json_okb].
    apply andb_true_iff in W as [W0 W]. apply forallb_forall. intros [k x] Hin.
    destruct (enc_fields_In _ _ _ _ E1 _ _ Hin) as (m & t & n0 & v & H1 & H2 & H3 & H4 & H5). cbn [fst snd].
    rewrite forallb_forall in W0. assert (U := W0 _ (in_combine_l _ _ _ _ H1)). cbn in U. rewrite H2, U. cbn [andb].
    destruct (wf_fields_combine _ _ _ W _ _ _ _ H1) as [_ Wv].
    rewrite Forall_forall in H. eapply (H _ (in_combine_r _ _ _ _ H1)); eauto.
  - destruct t0; try discriminate. eauto.
  - discriminate.
Qed.

(** * Encoding fails only on NaN and infinities *)
Lemma empty_fin t v : wf rnd t v = true -> is_empty_val v = true -> fin t v = true.
Proof.
  destruct v as [| | |f| | | | |v|l|l|l|d v|]; cbn; intros W H; try discriminate; try reflexivity.
  - destruct f; try discriminate; reflexivity.
  - destruct l; [destruct t; reflexivity|discriminate].
  - destruct l; [reflexivity|discriminate].
Qed.

Lemma enc_ok_iff v : forall t, wf rnd t v = true -> ((exists j, enc t v = Ok j) <-> fin t v = true).
Proof.
  induction v using gval_ind'; intros t0 W; cbn [wf] in W; cbn [enc fin].
  - split; eauto.
  - split; eauto.
  - split; eauto.
  - destruct f; cbn; (split; [intros [j E]; try discriminate; reflexivity|intros E; try discriminate E; eauto]).
  - destruct t0; try discriminate. split; eauto.
  - split; eauto.
  - split; eauto.
  - split; eauto.
  - destruct t0; try discriminate. apply andb_true_iff in W as [_ W]. auto.
  - destruct t0; try discriminate.
    assert (G : (exists js, enc_list (enc t0) l = Ok js) <-> forallb (fin t0) l = true).
    { rewrite forallb_forall in W. induction H as [|x l Hx Hl IH]; cbn [enc_list forallb]; [split; eauto|].
      specialize (IH (fun y Hy => W y (or_intror Hy))). specialize (Hx t0 (W x (or_introl eq_refl))).
      rewrite andb_true_iff, <- Hx, <- IH. fold (enc_list (enc t0)). split.
      - intros [js E]. apply bind_ok in E as (j & A & E). apply bind_ok in E as (js' & B & E). eauto.
      - intros [[j A] [js B]]. rewrite A. cbn [bind]. rewrite B. cbn. eauto. }
    rewrite <- G. split; [intros [j E]; apply bind_ok in E as (js & E1 & E); eauto|intros [js E]; rewrite E; cbn; eauto].
  - assert (G : forall t', (forall k x, In (k, x) l -> wf rnd t' x = true) ->
        ((exists js, enc_mems (enc t') l = Ok js) <-> forallb (fun kv => fin t' (snd kv)) l = true)).
    { intros t' HW. clear W. induction H as [|[k x] l Hx Hl IH]; cbn [enc_mems forallb snd]; [split; eauto|].
      specialize (IH (fun k y Hy => HW k y (or_intror Hy))). specialize (Hx t' (HW k x (or_introl eq_refl))). cbn [snd] in Hx.
      rewrite andb_true_iff, <- Hx, <- IH. fold (enc_mems (enc t')). split.
      - intros [js E]. apply bind_ok in E as (j & A & E). apply bind_ok in E as (js' & B & E). eauto.
      - intros [[j A] [js B]]. rewrite A. cbn [bind]. rewrite B. cbn. eauto. }
    destruct t0; try discriminate; apply andb_true_iff in W as [W1 W2]; rewrite <- G.
    + split; [intros [j E]; apply bind_ok in E as (js & E1 & E); eauto|intros [js E]; rewrite E; cbn; eauto].
    + intros k x Hx. rewrite forallb_forall in W2. specialize (W2 _ Hx). cbn in W2. now apply andb_true_iff in W2.
    + split; [intros [j E]; apply bind_ok in E as (js & E1 & E); eauto|intros [js E]; rewrite E; cbn; eauto].
    + intros k x Hx. rewrite forallb_forall in W2. specialize (W2 _ Hx). cbn [fst snd] in W2.
      apply andb_true_iff in W2 as [_ W2]. destruct x; try discriminate. cbn [wf]. rewrite !andb_true_iff in W2. tauto.
  - destruct t0; try discriminate. apply andb_true_iff in W as [_ W].
    assert (G : (exists js, enc_fields enc fields l = Ok js) <-> fin_fields fin fields l = true).
    { revert fields W. induction H as [|[n x] l Hx Hl IH]; intros [|[m t] fs] W; cbn [wf_fields] in W; try discriminate.
      - split; cbn; eauto.
      - rewrite !andb_true_iff in W. destruct W as [[W1 W2] W3]. specialize (IH fs W3). specialize (Hx t W2). cbn [snd] in Hx.
        cbn [enc_fields fin_fields]. rewrite andb_true_iff, <- IH, orb_true_iff.
        destruct (is_empty (fm_key m)); [intuition|].
        destruct (fm_omit m && is_empty_val x) eqn:Eo.
        + apply andb_true_iff in Eo as [_ Eo]. rewrite (empty_fin _ _ W2 Eo). intuition.
        + rewrite <- Hx. fold (enc_fields enc). split.
          * intros [js E]. apply bind_ok in E as (j & A & E). apply bind_ok in E as (js' & B & E). eauto.
          * intros [[Z|[j A]] [js B]]; [discriminate|]. rewrite A. cbn [bind]. rewrite B. cbn. eauto. }
    rewrite <- G. split; [intros [j E]; apply bind_ok in E as (js & E1 & E); eauto|intros [js E]; rewrite E; cbn; eauto].
  - destruct t0; try discriminate. auto.
  - discriminate.
Qed.
End Round.
