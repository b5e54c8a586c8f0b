(** Decoding produces values of the requested Go type. *)
From Verif Require Import GoStr GoStrFacts JsonStr Json JsonFacts Float Consts Enums
  GoTypes Schema GoVal GoValFacts Time Base64 Codec CodecSpec CodecFacts StructFacts CodecRound.

Lemma typed_struct n fs x : typed (GStruct n fs) x = true -> exists vs, x = VStruct vs /\ wf_fields typed fs vs = true.
Proof. destruct x; cbn [typed]; intros H; try discriminate. eauto. Qed.

Lemma typed_path n fs v p m t : flat_ok fs -> typed (GStruct n fs) v = true -> has_path fs p m t -> typed t (get_path p v) = true.
Proof.
  intros (N & _ & E) W H. destruct (typed_struct _ _ _ W) as (vs & -> & WF).
  destruct H as [m t Hin Em|mb nb fsb m t Hin Em Hin'].
  - destruct (combine_ex _ vs _ (wf_fields_len _ _ _ WF) Hin) as ([nm x] & Hc).
    cbn [get_path]. rewrite (combine_get _ _ _ _ _ _ _ N WF Hc).
    now destruct (wf_fields_combine _ _ _ WF _ _ _ _ Hc).
  - destruct (combine_ex _ vs _ (wf_fields_len _ _ _ WF) Hin) as ([nm x] & Hc).
    cbn [get_path]. rewrite (combine_get _ _ _ _ _ _ _ N WF Hc).
    destruct (wf_fields_combine _ _ _ WF _ _ _ _ Hc) as [_ Wx]. destruct (typed_struct _ _ _ Wx) as (vs' & -> & WF').
    destruct (E _ _ Hin Em) as (n' & fs' & Q & N'). injection Q as <- <-.
    destruct (combine_ex _ vs' _ (wf_fields_len _ _ _ WF') Hin') as ([nm' x'] & Hc').
    rewrite (combine_get _ _ _ _ _ _ _ N' WF' Hc').
    now destruct (wf_fields_combine _ _ _ WF' _ _ _ _ Hc').
Qed.

Lemma wf_fields_areplace (f : gty -> gval -> bool) m t x fs : forall vs, NoDup (names fs) -> wf_fields f fs vs = true ->
  In (m, t) fs -> f t x = true -> wf_fields f fs (areplace (fm_name m) x vs) = true.
Proof.
  induction fs as [|[m0 t0] fs IH]; intros [|[n0 v0] vs] N W Hin Fx; cbn [wf_fields] in W; try discriminate; [destruct Hin|].
  rewrite !andb_true_iff in W. destruct W as [[W1 W2] W3]. apply String.eqb_eq in W1. subst n0. cbn [areplace].
  inversion N as [|? ? N1 N2]; subst. destruct (String.eqb (fm_name m) (fm_name m0)) eqn:E.
  - apply String.eqb_eq in E. destruct Hin as [Q|Hin].
    + injection Q as -> ->. cbn [wf_fields]. now rewrite String.eqb_refl, Fx, W3.
    + exfalso. apply N1. cbn [fst]. rewrite <- E. eapply In_names; eauto.
  - destruct Hin as [Q|Hin]; [injection Q as -> ->; rewrite String.eqb_refl in E; discriminate|].
    cbn [wf_fields]. rewrite String.eqb_refl, W2. cbn [andb]. now apply IH.
Qed.

Lemma typed_set_field n fs v m t x : NoDup (names fs) -> typed (GStruct n fs) v = true -> In (m, t) fs -> typed t x = true ->
  typed (GStruct n fs) (set_field (fm_name m) x v) = true.
Proof.
  intros N W Hin Tx. destruct (typed_struct _ _ _ W) as (vs & -> & WF). cbn [set_field typed]. eapply wf_fields_areplace; eauto.
Qed.

Lemma typed_set_path n fs v p m t x : flat_ok fs -> typed (GStruct n fs) v = true -> has_path fs p m t -> typed t x = true ->
  typed (GStruct n fs) (set_path p x v) = true.
Proof.
  intros (N & K & E) W H Tx. destruct H as [m t Hin Em|mb nb fsb m t Hin Em Hin']; cbn [set_path].
  - eapply typed_set_field; eauto.
  - eapply typed_set_field; [exact N|exact W|exact Hin|]. destruct (E _ _ Hin Em) as (n' & fs' & Q & N'). injection Q as <- <-.
    eapply typed_set_field; [exact N'| |exact Hin'|exact Tx].
    destruct (typed_struct _ _ _ W) as (vs & -> & WF).
    destruct (combine_ex _ vs _ (wf_fields_len _ _ _ WF) Hin) as ([nm y] & Hc).
    rewrite (combine_get _ _ _ _ _ _ _ N WF Hc). now destruct (wf_fields_combine _ _ _ WF _ _ _ _ Hc).
Qed.

Lemma typed_zero t : typed t (zero t) = true.
Proof.
  induction t using gty_ind'; try reflexivity. cbn [zero typed].
  induction H as [|[m t] fs Ht Hf IH]; [reflexivity|]. cbn [map fst snd wf_fields]. rewrite String.eqb_refl. cbn [fst snd] in Ht. now rewrite Ht.
Qed.
Lemma typed_fresh k : typed (ext_ty k) (fresh (ext_ty k)) = true.
Proof. destruct (ext_ty_shape k) as [(n & fs & ->)| ->]; [apply typed_zero|reflexivity]. Qed.

Lemma find_field_In k fl p t : find_field k fl = Some (p, t) -> exists k', In (k', p, t) fl.
Proof.
  unfold find_field. destruct (find _ fl) as [[[k1 p1] t1]|] eqn:E1.
  - intros Q. injection Q as <- <-. apply find_some in E1 as [E1 _]. eauto.
  - destruct (find (fun f => String.eqb (fold_key (fst (fst f))) (fold_key k)) fl) as [[[k1 p1] t1]|] eqn:E2; [|discriminate].
    intros Q. injection Q as <- <-. apply find_some in E2 as [E2 _]. eauto.
Qed.

Lemma dbind_inv {A B} (x : dres A) (f : A -> dres B) b e : dbind x f = DOk b e ->
  exists a e1 e2, x = DOk a e1 /\ f a = DOk b e2 /\ e = e1 || e2.
Proof.
  destruct x as [a e1| |]; cbn; try discriminate. destruct (f a) as [b' e2| |] eqn:E; try discriminate.
  intros Q. injection Q as -> <-. eauto 6.
Qed.

Section Typed.
Variable rnd : bool -> N -> Z -> option flt.
Notation dec := (dec rnd).

Lemma dec_struct_typed (f : json -> gty -> gval -> dres gval) n fs : flat_ok fs -> forall ms cur v e,
  (forall k x p m t old v e, In (k, x) ms -> has_path fs p m t -> typed t old = true -> f x t old = DOk v e -> typed t v = true) ->
  typed (GStruct n fs) cur = true -> dec_struct f (flat_fields fs) ms cur = DOk v e -> typed (GStruct n fs) v = true.
Proof.
  intros F. induction ms as [|[k x] ms IH]; intros cur v e H T D; cbn [dec_struct] in D.
  - injection D as <- _. exact T.
  - fold (dec_struct f (flat_fields fs)) in D. assert (H' := fun k x p m t old v e Hin => H k x p m t old v e (or_intror Hin)).
    destruct (find_field k (flat_fields fs)) as [[p t]|] eqn:E; [|eapply IH; eauto].
    apply dbind_inv in D as (w & e1 & e2 & D1 & D2 & _). destruct (find_field_In _ _ _ _ E) as [k' Hk].
    apply flat_fields_In in Hk as (m & HP & _). eapply IH; [exact H'| |exact D2].
    eapply typed_set_path; eauto. eapply H; [now left|exact HP| |exact D1]. eapply typed_path; eauto.
Qed.

Lemma dec_any_typed j : forall v e, dec_any rnd j = DOk v e -> typed GIface v = true.
Proof.
  induction j using json_ind'; intros v e D; cbn [dec_any] in D.
  - injection D as <- _. reflexivity.
  - injection D as <- _. reflexivity.
  - destruct (parse_float rnd l); injection D as <- _; reflexivity.
  - destruct (unq r); injection D as <- _; reflexivity.
  - apply dbind_inv in D as (vs & e1 & e2 & D1 & D2 & _). injection D2 as <- _. cbn [typed].
    revert vs e1 D1. generalize (@nil gval). induction H as [|x l Hx Hl IH]; intros old vs e1 D1; cbn [dec_list] in D1.
    + injection D1 as <- _. reflexivity.
    + apply dbind_inv in D1 as (w & e3 & e4 & D1 & D3 & _). apply dbind_inv in D3 as (ws & e5 & e6 & D3 & D4 & _). injection D4 as <- _.
      cbn [forallb]. rewrite (Hx _ _ D1). eapply IH; eauto.
  - apply dbind_inv in D as (vs & e1 & e2 & D1 & D2 & _). injection D2 as <- _. cbn [typed].
    assert (G : forall acc vs e1, msorted acc && forallb (fun kv => typed GIface (snd kv)) acc = true ->
       dec_mems (dec_any rnd) l acc = DOk vs e1 -> msorted vs && forallb (fun kv => typed GIface (snd kv)) vs = true); [|eapply G; [|exact D1]; reflexivity].
    clear D1 vs e1. induction H as [|[k x] l Hx Hl IH]; intros acc vs e1 A D1; cbn [dec_mems] in D1.
    + injection D1 as <- _. exact A.
    + apply dbind_inv in D1 as (w & e3 & e4 & D1 & D3 & _). eapply IH; [|exact D3].
      apply andb_true_iff in A as [A1 A2]. rewrite msorted_minsert by exact A1. cbn [andb].
      apply forallb_forall. intros [k' y] Hin. rewrite forallb_forall in A2.
      apply (alookup_In _ _ _ (msorted_nodup _ (msorted_minsert _ _ _ A1))) in Hin. rewrite alookup_minsert in Hin by exact A1.
      destruct (String.eqb k' k); [injection Hin as <-; exact (Hx _ _ D1)|]. apply alookup_Some_In in Hin. exact (A2 _ Hin).
Qed.

Lemma minsert_forall {A} (P : string * A -> bool) k x l : msorted l = true -> forallb P l = true -> P (k, x) = true ->
  msorted (minsert k x l) && forallb P (minsert k x l) = true.
Proof.
  intros A1 A2 H. rewrite msorted_minsert by exact A1. cbn [andb].
  apply forallb_forall. intros [k' y] Hin. rewrite forallb_forall in A2.
  apply (alookup_In _ _ _ (msorted_nodup _ (msorted_minsert _ _ _ A1))) in Hin. rewrite alookup_minsert in Hin by exact A1.
  destruct (String.eqb_spec k' k); [subst; injection Hin as <-; exact H|]. apply alookup_Some_In in Hin. exact (A2 _ Hin).
Qed.

(** [old] may be any value of the type: the second clause covers the types that
    keep parts of it. *)
Definition T j := forall t old v e, ty_ok t = true -> typed t old = true -> dec j t old = DOk v e -> typed t v = true.

Lemma enum_typed name j v e : enum_unmarshal name j = DOk v e -> typed (GEnum name) v = true.
Proof.
  assert (X : forall s, typed (GEnum name) (enum_or_zero name s) = true) by (intros s; unfold enum_or_zero; destruct (enum_find name s); reflexivity).
  unfold enum_unmarshal. destruct (String.eqb name "ExtensionType").
  - destruct j; try discriminate; [|destruct (unq raw); [|discriminate]]; intros Q; injection Q as <- _; apply X.
  - destruct (mem_str name _); [|destruct (String.length (print j) <? 3)%nat; [intros Q; injection Q as <- _; reflexivity|]];
      (destruct (inner_slice (print j)); try discriminate; intros Q; injection Q as <- _; apply X).
Qed.
Lemma bin_typed j v e : bin_unmarshal j = DOk v e -> typed GBinary v = true.
Proof.
  destruct j; cbn [bin_unmarshal]; try discriminate.
  - intros Q. injection Q as <- _. reflexivity.
  - destruct (unq raw); [|discriminate]. destruct (b64_decode s); [|discriminate]. intros Q. injection Q as <- _. reflexivity.
  - destruct (dec_bytes l) as [s [|]| |]; try discriminate. intros Q. injection Q as <- _. reflexivity.
Qed.

Lemma dec_typed_step j : (forall l, j = JArr l -> Forall T l) -> (forall l, j = JObj l -> Forall (fun kv => T (snd kv)) l) -> T j.
Proof.
  intros HA HO t. induction t using gty_ind'; intros old v e OK TO D.
  - destruct j; cbn in D; try (injection D as <- _; exact TO). destruct (unq raw); injection D as <- _; [reflexivity|exact TO].
  - destruct j; cbn in D; try (injection D as <- _; exact TO). destruct (parse_int lexeme); injection D as <- _; [reflexivity|exact TO].
  - destruct j; cbn in D; try (injection D as <- _; exact TO || reflexivity).
  - destruct j; cbn in D; try (injection D as <- _; exact TO). destruct (parse_float rnd lexeme); injection D as <- _; [reflexivity|exact TO].
  - rewrite dec_enum in D. eapply enum_typed; eauto.
  - rewrite dec_time in D. unfold time_unmarshal in D. destruct (ts_unmarshal (print j)); try discriminate. injection D as <- _. reflexivity.
  - rewrite dec_bin in D. eapply bin_typed; eauto.
  - rewrite dec_ptr in D. cbn [ty_ok] in OK. apply andb_true_iff in OK as [_ OK].
    assert (TO' : typed t (match old with VPtr v => v | _ => zero t end) = true).
    { destruct old; try apply typed_zero. cbn [typed] in TO. exact TO. }
    assert (D' : j = JNull /\ v = VNil \/ exists w e1, dec j t (match old with VPtr v => v | _ => zero t end) = DOk w e1 /\ v = VPtr w).
    { destruct j; try (injection D as <- _; left; now split); right; apply dbind_inv in D as (w & e1 & e2 & D1 & D2 & _); injection D2 as <- _; eauto. }
    destruct D' as [[_ ->]|(w & e1 & D1 & ->)]; [reflexivity|]. cbn [typed]. eapply IHt; eauto.
  - cbn [ty_ok] in OK. destruct j; try (injection D as <- _; exact TO || reflexivity).
    + destruct t; try (injection D as <- _; exact TO). cbn in D. destruct (unq raw) as [s|]; [|injection D as <- _; exact TO].
      destruct (b64_decode s); injection D as <- _; [|exact TO]. cbn [typed]. apply forallb_forall. intros x Hx.
      apply in_map_iff in Hx as (c & <- & _). reflexivity.
    + rewrite dec_slice_arr in D. apply dbind_inv in D as (vs & e1 & e2 & D1 & D2 & _). injection D2 as <- _. cbn [typed].
      assert (TL : forallb (typed t) (old_list old) = true) by (destruct old; try reflexivity; exact TO).
      specialize (HA l eq_refl). clear HO TO IHt. revert vs e1 D1 TL. generalize (old_list old). clear old.
      induction HA as [|x l Hx Hl IH]; intros ol vs e1 D1 TL; cbn [dec_list] in D1.
      * injection D1 as <- _. reflexivity.
      * apply dbind_inv in D1 as (w & e3 & e4 & D1 & D3 & _). apply dbind_inv in D3 as (ws & e5 & e6 & D3 & D4 & _). injection D4 as <- _.
        cbn [forallb]. fold (dec_list (fun x o => dec x t o) (zero t)) in D3. apply andb_true_iff. split.
        -- eapply Hx; [exact OK| |exact D1]. destruct ol; [apply typed_zero|]. cbn in TL. now apply andb_true_iff in TL.
        -- eapply IH; [exact D3|]. destruct ol; [reflexivity|]. cbn in TL. now apply andb_true_iff in TL.
  - cbn [ty_ok] in OK. destruct j; try (injection D as <- _; exact TO || reflexivity).
    rewrite dec_map_obj in D. apply dbind_inv in D as (vs & e1 & e2 & D1 & D2 & _). injection D2 as <- _. cbn [typed].
    assert (TL : msorted (old_map old) && forallb (fun kv => typed t (snd kv)) (old_map old) = true) by (destruct old; try reflexivity; exact TO).
    specialize (HO l eq_refl). clear HA TO IHt. revert vs e1 D1 TL. generalize (old_map old). clear old.
    induction HO as [|[k' x] l Hx Hl IH]; intros acc vs e1 D1 TL; cbn [dec_mems] in D1.
    + injection D1 as <- _. exact TL.
    + apply dbind_inv in D1 as (w & e3 & e4 & D1 & D3 & _). fold (dec_mems (fun x => dec x t (zero t))) in D3. eapply IH; [exact D3|].
      apply andb_true_iff in TL as [A1 A2]. apply minsert_forall; auto. cbn [snd]. eapply Hx; [exact OK|apply typed_zero|exact D1].
  - rewrite dec_iface in D. eapply dec_any_typed; eauto.
  - destruct (ty_ok_flat _ _ OK) as (F & FT & _). destruct j; try (injection D as <- _; exact TO).
    rewrite dec_struct_obj in D. eapply dec_struct_typed; [exact F| |exact TO|exact D].
    intros k x p m t o w e' Hin HP To De. specialize (HO l eq_refl). rewrite Forall_forall in HO. eapply (HO _ Hin); [|exact To|exact De].
    destruct (has_path_plain _ _ _ _ (fun m t H => proj1 (FT m t H)) HP) as [_ Hin']. now destruct (FT _ _ Hin') as (_ & _ & Tt).
  - destruct j; try (discriminate D); try (injection D as <- _; reflexivity).
    rewrite dec_ext_obj in D. apply dbind_inv in D as (vs & e1 & e2 & D1 & D2 & _). injection D2 as <- _. cbn [typed].
    specialize (HO l eq_refl). clear HA TO.
    assert (G : forall acc vs e1, dec_ext dec l acc = DOk vs e1 ->
      (msorted acc && forallb (fun kv => match snd kv with
                          | VDyn t' (VPtr w) => gty_eqb t' (GPtr (ext_ty (fst kv))) && typed (ext_ty (fst kv)) w
                          | _ => false
                          end) acc = true) ->
      (msorted vs && forallb (fun kv => match snd kv with
                          | VDyn t' (VPtr w) => gty_eqb t' (GPtr (ext_ty (fst kv))) && typed (ext_ty (fst kv)) w
                          | _ => false
                          end) vs = true)); [|eapply G; [exact D1|reflexivity]].
    clear D1 vs e1. induction HO as [|[k x] l Hx Hl IH]; intros acc vs e1 D1 TL; cbn [dec_ext] in D1.
    + injection D1 as <- _. exact TL.
    + fold (dec_ext dec) in D1. destruct (mem_str k (map fst l)); [eapply IH; eauto|].
      destruct (dec x (ext_ty k) (fresh (ext_ty k))) as [w [|]| |] eqn:Dx; try discriminate. eapply IH; [exact D1|].
      apply andb_true_iff in TL as [A1 A2]. apply minsert_forall; auto. cbn [fst snd]. rewrite gty_eqb_refl. cbn [andb].
      eapply Hx; [apply ext_ty_ok|apply typed_fresh|exact Dx].
  - rewrite dec_raw in D. injection D as <- _. reflexivity.
Qed.

Lemma dec_typed_all j : T j.
Proof.
  induction j using json_ind'; apply dec_typed_step; intros l' Q; try discriminate Q; injection Q as <-; assumption.
Qed.

Theorem dec_typed j t old v e : ty_ok t = true -> typed t old = true -> dec j t old = DOk v e -> typed t v = true.
Proof. apply dec_typed_all. Qed.

(** Top level objects *)
Theorem dec_obj_typed j n fs old v e : flat_ok fs -> (forall p m t, has_path fs p m t -> ty_ok t = true) ->
  typed (GStruct n fs) old = true -> dec j (GStruct n fs) old = DOk v e -> typed (GStruct n fs) v = true.
Proof.
  intros F FT TO D. destruct j; try (injection D as <- _; exact TO).
  rewrite dec_struct_obj in D. eapply dec_struct_typed; [exact F| |exact TO|exact D].
  intros k x p m t o w e' Hin HP To De. eapply dec_typed; eauto.
Qed.

End Typed.
