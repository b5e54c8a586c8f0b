(** Lemmas for PropRead: decoding into a zero variable and [means]. *)
From Verif Require Import GoStr GoStrFacts JsonStr StrSpec StrSpecFacts JsonSpec JsonSpecFacts JsonStrFacts Json JsonFacts Float FloatFacts Consts Enums GoTypes Schema GoVal GoValFacts
  Base64 Base64Facts B64Spec B64SpecFacts NumSpec NumSpecFacts Codec CodecSpec CodecFacts StructFacts CodecRound TypedFacts ReadSpec ReadMeaning.

(** Keys that stay different when case is ignored, at all levels. *)
Definition fold_keys (fs : list (fmeta * gty)) : list string := map (fun f => fold_key (fst (fst f))) (flat_fields fs).
(** No two field names of the type are equal under folding. *)
Fixpoint fold_ok (t : gty) : bool :=
  match t with
  | GPtr t' | GSlice t' | GMap _ _ t' => fold_ok t'
  | GStruct _ fs => nodupb (fold_keys fs) && forallb (fun ft => fold_ok (snd ft)) fs
  | _ => true
  end.
Lemma ext_fold_ok k : fold_ok (ext_ty k) = true.
Proof.
  unfold ext_ty. destruct (alookup k ext_types) as [t|] eqn:E; [|reflexivity]. apply alookup_Some_In in E.
  assert (X : forallb (fun kv => fold_ok (snd kv)) ext_types = true) by (vm_compute; reflexivity). rewrite forallb_forall in X. exact (X _ E).
Qed.

(** ** Struct members *)
Lemma fold_inj fs k p t k' p' t' : NoDup (fold_keys fs) -> In (k, p, t) (flat_fields fs) -> In (k', p', t') (flat_fields fs) -> fold_key k = fold_key k' ->
  k = k' /\ p = p' /\ t = t'.
Proof.
  intros N H H' E. assert (X := NoDup_map_eq (fun f : string * fpath * gty => fold_key (fst (fst f))) _ _ _ N H H' E). now inversion X.
Qed.
Lemma find_field_fold k fl p t : find_field k fl = Some (p, t) -> exists k', In (k', p, t) fl /\ fold_key k' = fold_key k.
Proof.
  unfold find_field. destruct (find _ fl) as [[[k1 p1] t1]|] eqn:E1.
  - intros Q. injection Q as <- <-. apply find_some in E1 as [E1 E2]. cbn in E2. apply String.eqb_eq in E2. subst. eauto.
  - destruct (find (fun f => String.eqb (fold_key (fst (fst f))) (fold_key k)) fl) as [[[k1 p1] t1]|] eqn:E2; [|discriminate].
    intros Q. injection Q as <- <-. apply find_some in E2 as [E2 E3]. cbn in E3. apply String.eqb_eq in E3. eauto.
Qed.
Lemma find_field_None k fl k' p t : find_field k fl = None -> In (k', p, t) fl -> fold_key k' <> fold_key k.
Proof.
  unfold find_field. destruct (find _ fl) as [[[k1 p1] t1]|] eqn:E1; [discriminate|].
  destruct (find (fun f => String.eqb (fold_key (fst (fst f))) (fold_key k)) fl) as [[[k1 p1] t1]|] eqn:E2; [discriminate|].
  intros _ H E. assert (X := find_none _ _ E2 _ H). cbn in X. rewrite E, String.eqb_refl in X. discriminate.
Qed.
Lemma find_field_is fs k k' p t : NoDup (fold_keys fs) -> In (k', p, t) (flat_fields fs) -> fold_key k' = fold_key k -> find_field k (flat_fields fs) = Some (p, t).
Proof.
  intros N H E. destruct (find_field k (flat_fields fs)) as [[p1 t1]|] eqn:F; [|now apply (find_field_None _ _ _ _ _ F) in H].
  apply find_field_fold in F as (k1 & H1 & E1). destruct (fold_inj _ _ _ _ _ _ _ N H H1 ltac:(congruence)) as (_ & -> & ->). reflexivity.
Qed.
Lemma named_cons k k0 x ms : named k ((k0, x) :: ms) = if String.eqb (fold_key k0) (fold_key k) then (k0, x) :: named k ms else named k ms.
Proof. reflexivity. Qed.

Lemma dec_struct_named (f : json -> gty -> gval -> dres gval) fs : flat_ok fs -> NoDup (fold_keys fs) -> forall ms cur v, shape fs cur ->
  dec_struct f (flat_fields fs) ms cur = DOk v false ->
  shape fs v /\ (forall p m t, has_path fs p m t -> fm_key m = "" -> get_path p v = get_path p cur) /\
  (forall k p t, In (k, p, t) (flat_fields fs) -> named k ms = [] -> get_path p v = get_path p cur) /\
  (forall k p t kx, In (k, p, t) (flat_fields fs) -> named k ms = [kx] -> f (snd kx) t (get_path p cur) = DOk (get_path p v) false).
Proof.
  intros F ND. induction ms as [|[k0 x] ms IH]; intros cur v S D; cbn [dec_struct] in D.
  - injection D as <-. split; [exact S|]. split; [reflexivity|]. split; [reflexivity|]. intros k p t kx _ Q. discriminate Q.
  - fold (dec_struct f (flat_fields fs)) in D. destruct (find_field k0 (flat_fields fs)) as [[p0 t0]|] eqn:E.
    + apply dbind_inv in D as (w & e1 & e2 & D1 & D2 & Q). destruct e1, e2; try discriminate Q. clear Q.
      destruct (find_field_fold _ _ _ _ E) as (k1 & H1 & E1). destruct (proj1 (flat_fields_In _ _ _ _) H1) as (m1 & HP1 & K1 & N1).
      destruct (IH _ _ (shape_set _ _ _ _ _ w F S HP1) D2) as (Sv & A1 & A2 & A3). split; [exact Sv|].
      assert (OTH : forall p m t, has_path fs p m t -> fm_key m <> k1 -> get_path p (set_path p0 w cur) = get_path p cur).
      { intros p m t HP Nk. apply (get_set_other _ _ _ _ _ _ _ _ _ F S HP1 HP). intros ->. destruct (has_path_inj _ _ _ _ _ _ F HP1 HP) as [-> _]. congruence. }
      split; [|split].
      * intros p m t HP Km. rewrite (A1 p m t HP Km). apply (OTH p m t HP). congruence.
      * intros k p t H Q. rewrite named_cons in Q. destruct (String.eqb_spec (fold_key k0) (fold_key k)) as [Ek|Ek]; [discriminate Q|].
        rewrite (A2 k p t H Q). destruct (proj1 (flat_fields_In _ _ _ _) H) as (m & HP & Km & _). apply (OTH p m t HP). intros Q'. congruence.
      * intros k p t kx H Q. rewrite named_cons in Q. destruct (String.eqb_spec (fold_key k0) (fold_key k)) as [Ek|Ek].
        -- injection Q as <- Q. cbn [snd]. destruct (fold_inj _ _ _ _ _ _ _ ND H H1 ltac:(congruence)) as (-> & -> & ->).
           rewrite (A2 _ _ _ H1 Q). now rewrite (get_set_same _ _ _ _ _ w S HP1).
        -- assert (X := A3 k p t kx H Q). destruct (proj1 (flat_fields_In _ _ _ _) H) as (m & HP & Km & _). rewrite (OTH p m t HP) in X; [exact X|]. intros Q'. congruence.
    + destruct (IH _ _ S D) as (Sv & A1 & A2 & A3). split; [exact Sv|]. split; [exact A1|].
      assert (NM : forall k p t, In (k, p, t) (flat_fields fs) -> named k ((k0, x) :: ms) = named k ms).
      { intros k p t H. rewrite named_cons. destruct (String.eqb_spec (fold_key k0) (fold_key k)) as [Ek|Ek]; [|reflexivity]. now apply (find_field_None _ _ _ _ _ E) in H; rewrite Ek in H. }
      split; intros k p t; intros; match goal with H : In (k, p, t) _ |- _ => assert (Z := NM k p t H) end; rewrite Z in *; eauto.
Qed.

(** ** Lists, maps, extensions *)
Lemma dec_list_nth (f : json -> gval -> dres gval) z l : forall vs, dec_list f z l [] = DOk vs false ->
  length l = length vs /\ forall i x v, nth_error l i = Some x -> nth_error vs i = Some v -> f x z = DOk v false.
Proof.
  induction l as [|x l IH]; intros vs D; cbn [dec_list] in D.
  - injection D as <-. split; [reflexivity|]. intros [|i]; discriminate.
  - apply dbind_inv in D as (v & e1 & e2 & D1 & D2 & Q). apply dbind_inv in D2 as (ws & e3 & e4 & D2 & D3 & Q'). injection D3 as <- <-.
    destruct e1; [discriminate Q|]. destruct e2; [discriminate Q|]. destruct e3; [discriminate Q'|]. fold (dec_list f z) in D2. cbn [tl] in D2. destruct (IH _ D2) as [L H]. split; [cbn; now rewrite L|].
    intros [|i] y w; cbn [nth_error]; [intros A B; injection A as <-; injection B as <-; exact D1|apply H].
Qed.
Lemma dec_list_of (f : json -> gval -> dres gval) z l : forall vs, length l = length vs ->
  (forall i x v, nth_error l i = Some x -> nth_error vs i = Some v -> f x z = DOk v false) -> dec_list f z l [] = DOk vs false.
Proof.
  induction l as [|x l IH]; intros [|v vs] L H; try discriminate L; [reflexivity|]. cbn [dec_list]. rewrite (H 0%nat x v eq_refl eq_refl). cbn [dbind].
  fold (dec_list f z). cbn [tl]. rewrite (IH vs); [reflexivity|now injection L|]. intros i. exact (H (S i)).
Qed.

Lemma final_cons k x k0 x0 ms : final_member k ((k0, x0) :: ms) x -> (k = k0 /\ x = x0 /\ ~ In k (map fst ms)) \/ final_member k ms x.
Proof. intros ([|y a] & b & E & N); cbn in E; [injection E as -> -> ->; left; auto|right; injection E as _ ->; now exists a, b]. Qed.
Lemma final_In k x ms : final_member k ms x -> In k (map fst ms).
Proof. intros (a & b & -> & _). rewrite map_app. apply in_or_app. right. now left. Qed.

Lemma dec_mems_final (f : json -> dres gval) ms : forall acc m, msorted acc = true -> dec_mems f ms acc = DOk m false ->
  msorted m = true /\ (forall k, In k (akeys m) <-> In k (akeys ms) \/ In k (akeys acc)) /\
  (forall k, ~ In k (akeys ms) -> alookup k m = alookup k acc) /\
  (forall k x v, final_member k ms x -> alookup k m = Some v -> f x = DOk v false).
Proof.
  induction ms as [|[k0 x0] ms IH]; intros acc m S D; cbn [dec_mems] in D.
  - injection D as <-. split; [exact S|]. split; [intros k; cbn; tauto|]. split; [reflexivity|]. intros k x v H. now apply final_In in H.
  - apply dbind_inv in D as (w & e1 & e2 & D1 & D2 & Q). destruct e1, e2; try discriminate Q. clear Q. fold (dec_mems f) in D2.
    destruct (IH _ _ (msorted_minsert k0 w acc S) D2) as (Sm & K & L & M). split; [exact Sm|]. split; [|split].
    + intros k. rewrite K, akeys_minsert. unfold akeys. cbn [map fst In]. split; [intros [H'|[H'|H']]|intros [[H'|H']|H']]; try subst; auto 6.
    + intros k N. cbn [akeys map fst] in N. rewrite L by (intros H; apply N; now right). rewrite alookup_minsert by exact S.
      destruct (String.eqb_spec k k0) as [->|]; [exfalso; apply N; now left|reflexivity].
    + intros k x v H A. apply final_cons in H as [(-> & -> & N)|H]; [|eauto]. rewrite L in A by exact N. rewrite alookup_minsert, String.eqb_refl in A by exact S. congruence.
Qed.
Lemma dec_mems_of (f : json -> dres gval) ms : forall acc m, msorted acc = true -> msorted m = true -> NoDup (akeys ms) ->
  (forall k, In k (akeys m) <-> In k (akeys ms) \/ In k (akeys acc)) ->
  (forall k, ~ In k (akeys ms) -> alookup k m = alookup k acc) ->
  (forall k x v, In (k, x) ms -> alookup k m = Some v -> f x = DOk v false) -> dec_mems f ms acc = DOk m false.
Proof.
  induction ms as [|[k0 x0] ms IH]; intros acc m S Sm N K L H; cbn [dec_mems].
  - f_equal. apply msorted_ext; [exact S|exact Sm|]. intros k. symmetry. apply L. intros [].
  - cbn [akeys map fst] in N. inversion N as [|? ? N1 N2]; subst. destruct (alookup k0 m) as [w|] eqn:A.
    2:{ apply alookup_None in A. exfalso. apply A. apply K. left. now left. }
    rewrite (H k0 x0 w (or_introl eq_refl) A). cbn [dbind]. fold (dec_mems f).
    rewrite (IH (minsert k0 w acc) m (msorted_minsert _ _ _ S) Sm N2); [reflexivity|..].
    + intros k. rewrite K, akeys_minsert. unfold akeys. cbn [map fst In]. split; [intros [[H'|H']|H']|intros [H'|[H'|H']]]; try subst; auto 6.
    + intros k Nk. rewrite alookup_minsert by exact S. destruct (String.eqb_spec k k0) as [->|Ne]; [exact A|]. apply L. intros [Q|Q]; [cbn in Q; congruence|contradiction].
    + intros k x v Hin. apply H. now right.
Qed.

Section E.
Variable rnd : bool -> N -> Z -> option flt.
Notation dec := (dec rnd).
Notation means := (means rnd).

Lemma dec_fresh_inv j k v : dec j (ext_ty k) (fresh (ext_ty k)) = DOk v false -> dec j (ext_ty k) (zero (ext_ty k)) = DOk v false.
Proof.
  destruct (ext_ty_shape k) as [(n & fs & ->)| ->]; [auto|].
  unfold ty_CustomObject. destruct j; cbn; auto; discriminate.
Qed.

Lemma dec_ext_final ms : forall acc m, msorted acc = true -> dec_ext dec ms acc = DOk m false ->
  msorted m = true /\ (forall k, In k (akeys m) <-> In k (akeys ms) \/ In k (akeys acc)) /\
  (forall k, ~ In k (akeys ms) -> alookup k m = alookup k acc) /\
  (forall k x, final_member k ms x -> exists v, alookup k m = Some (VDyn (GPtr (ext_ty k)) (VPtr v)) /\ dec x (ext_ty k) (zero (ext_ty k)) = DOk v false).
Proof.
  induction ms as [|[k0 x0] ms IH]; intros acc m S D; cbn [dec_ext] in D.
  - injection D as <-. split; [exact S|]. split; [intros k; cbn; tauto|]. split; [reflexivity|]. intros k x H. now apply final_In in H.
  - fold (dec_ext dec) in D. destruct (mem_str k0 (map fst ms)) eqn:M.
    + apply mem_str_In in M. destruct (IH _ _ S D) as (Sm & K & L & F). split; [exact Sm|]. split; [|split].
      * intros k. rewrite K. cbn [akeys map fst]. unfold akeys. split; [intuition|]. intros [[<-|H]|H]; auto.
      * intros k N. apply L. intros H. apply N. now right.
      * intros k x H. apply final_cons in H as [(-> & _ & N)|H]; [contradiction|eauto].
    + destruct (dec x0 (ext_ty k0) (fresh (ext_ty k0))) as [w [|]| |] eqn:Dx; try discriminate D. apply dec_fresh_inv in Dx.
      destruct (IH _ _ (msorted_minsert k0 _ acc S) D) as (Sm & K & L & F). split; [exact Sm|]. split; [|split].
      * intros k. rewrite K, akeys_minsert. unfold akeys. cbn [map fst In]. split; [intros [H'|[H'|H']]|intros [[H'|H']|H']]; try subst; auto 6.
      * intros k N. cbn [akeys map fst] in N. rewrite L by (intros H; apply N; now right). rewrite alookup_minsert by exact S.
        destruct (String.eqb_spec k k0) as [->|]; [exfalso; apply N; now left|reflexivity].
      * intros k x H. apply final_cons in H as [(-> & -> & N)|H]; [|eauto]. exists w. rewrite L by exact N. rewrite alookup_minsert, String.eqb_refl by exact S. auto.
Qed.
Lemma dec_ext_of ms : forall acc m, msorted acc = true -> msorted m = true -> NoDup (akeys ms) ->
  (forall k, In k (akeys m) <-> In k (akeys ms) \/ In k (akeys acc)) ->
  (forall k, ~ In k (akeys ms) -> alookup k m = alookup k acc) ->
  (forall k x, In (k, x) ms -> exists v, alookup k m = Some (VDyn (GPtr (ext_ty k)) (VPtr v)) /\ dec x (ext_ty k) (zero (ext_ty k)) = DOk v false) -> dec_ext dec ms acc = DOk m false.
Proof.
  induction ms as [|[k0 x0] ms IH]; intros acc m S Sm N K L H; cbn [dec_ext].
  - f_equal. apply msorted_ext; [exact S|exact Sm|]. intros k. symmetry. apply L. intros [].
  - fold (dec_ext dec). cbn [akeys map fst] in N. inversion N as [|? ? N1 N2]; subst. destruct (H k0 x0 (or_introl eq_refl)) as (w & A & Dw).
    destruct (mem_str k0 (map fst ms)) eqn:M; [now apply mem_str_In in M|]. apply dec_fresh in Dw. rewrite Dw.
    rewrite (IH (minsert k0 (VDyn (GPtr (ext_ty k0)) (VPtr w)) acc) m (msorted_minsert _ _ _ S) Sm N2); [reflexivity|..].
    + intros k. rewrite K, akeys_minsert. unfold akeys. cbn [map fst In]. split; [intros [[H'|H']|H']|intros [H'|[H'|H']]]; try subst; auto 6.
    + intros k Nk. rewrite alookup_minsert by exact S. destruct (String.eqb_spec k k0) as [->|Ne]; [exact A|]. apply L. intros [Q|Q]; [cbn in Q; congruence|contradiction].
    + intros k x Hin. apply H. now right.
Qed.

(** ** Reading gives what the text means *)
Lemma struct_sound n fs ms v : flat_ok fs -> NoDup (fold_keys fs) ->
  (forall k x p m t w, In (k, x) ms -> has_path fs p m t -> dec x t (zero t) = DOk w false -> means t x w) ->
  dec (JObj ms) (GStruct n fs) (zero (GStruct n fs)) = DOk v false -> means (GStruct n fs) (JObj ms) v.
Proof.
  intros F ND H D. rewrite dec_struct_obj in D. destruct (dec_struct_named dec fs F ND ms _ _ (shape_zero n fs F) D) as (S & A1 & A2 & A3).
  constructor; [exact S|..].
  - intros p m t HP K. rewrite (A1 p m t HP K). eapply zero_path; eauto.
  - intros k p t Hin Q. rewrite (A2 k p t Hin Q). apply flat_fields_In in Hin as (m & HP & _). eapply zero_path; eauto.
  - intros k p t kx Hin Q. assert (X := A3 k p t kx Hin Q). apply flat_fields_In in Hin as (m & HP & _). rewrite (zero_path n fs p m t F HP) in X.
    assert (I : In kx ms). { assert (I : In kx (named k ms)) by (rewrite Q; now left). now apply filter_In in I. }
    destruct kx as [k' x]. eapply H; eauto.
Qed.

(** The claim proved by induction on the JSON value. *)
Definition sound_at j := json_okb j = true -> forall t v, ty_ok t = true -> fold_ok t = true -> dec j t (zero t) = DOk v false -> means t j v.

Lemma sound_step j : (forall l, j = JArr l -> Forall sound_at l) -> (forall l, j = JObj l -> Forall (fun kv => sound_at (snd kv)) l) -> sound_at j.
Proof.
  intros HA HO O t. assert (OA : forall l, j = JArr l -> forall x, In x l -> json_okb x = true).
  { intros l -> x Hx. cbn [json_okb] in O. rewrite forallb_forall in O. auto. }
  assert (OO : forall l, j = JObj l -> forall k x, In (k, x) l -> json_okb x = true).
  { intros l -> k x Hx. cbn [json_okb] in O. rewrite forallb_forall in O. specialize (O _ Hx). cbn in O. now apply andb_true_iff in O. }
  induction t using gty_ind'; intros v OK FO D.
  - destruct j; cbn in D; try discriminate D; [injection D as <-; now apply (me_null rnd (GString n))|]. destruct (unq raw) eqn:U; [|discriminate D]. injection D as <-. apply unq_exact in U. now constructor.
  - destruct j; cbn in D; try discriminate D; [injection D as <-; now apply (me_null rnd (GInt n))|]. destruct (parse_int lexeme) eqn:U; [|discriminate D]. injection D as <-.
    cbn [json_okb] in O. apply (parse_int_exact _ _ O) in U as [U R]. now constructor.
  - destruct j; cbn in D; try discriminate D; [injection D as <-; now apply (me_null rnd GBool)|]. injection D as <-. constructor.
  - destruct j; cbn in D; try discriminate D; [injection D as <-; now apply (me_null rnd GFloat)|]. destruct (parse_float rnd lexeme) eqn:U; [|discriminate D]. injection D as <-.
    cbn [json_okb] in O. apply (parse_float_exact _ _ _ O) in U as (neg & m & e & U & R). econstructor; eauto.
  - rewrite dec_enum in D. apply (enum_exact _ _ _ O) in D as [[-> ->]|[(m & H & ->)|(H & T & ->)]]; [now apply (me_null rnd (GEnum n))|now constructor|now constructor].
  - rewrite dec_time in D. apply (time_exact _ _ O) in D as (raw & t & -> & T & ->). now constructor.
  - rewrite dec_bin in D. destruct j as [|b|l|raw|l|ms]; cbn [bin_unmarshal] in D; try discriminate D.
    + injection D as <-. now apply (me_null rnd GBinary).
    + destruct (unq raw) as [s|] eqn:U; [|discriminate D]. destruct (b64_decode s) as [b|] eqn:B; [|discriminate D]. injection D as <-.
      apply decode_exact in B as (spare & B). apply unq_exact in U. econstructor; eauto.
    + destruct (dec_bytes l) as [b e| |] eqn:B; try discriminate D. destruct e; [discriminate D|]. injection D as <-. apply me_bin_arr. apply dec_bytes_exact; [exact O|exact B].
  - rewrite dec_ptr in D. cbn [ty_ok fold_ok] in OK, FO. apply andb_true_iff in OK as [_ OK]. cbn [zero] in D.
    destruct j as [|b|l|raw|l|ms]; [injection D as <-; now apply (me_null rnd (GPtr t))|..];
      (apply dbind_inv in D as (w & e1 & e2 & D1 & D2 & Q); injection D2 as <- <-; destruct e1; [discriminate Q|]; constructor; [discriminate|]; eapply IHt; eauto).
  - cbn [ty_ok fold_ok] in OK, FO. destruct j as [|b|l|raw|l|ms]; try discriminate D.
    + injection D as <-. now apply (me_null rnd (GSlice t)).
    + destruct t; try discriminate D. cbn in D. destruct (unq raw) as [s|] eqn:U; [|discriminate D]. destruct (b64_decode s) as [b|] eqn:B; [|discriminate D]. injection D as <-.
      apply decode_exact in B as (spare & B). apply unq_exact in U. eapply me_slice_bytes; eauto.
    + rewrite dec_slice_arr in D. cbn [zero old_list] in D. apply dbind_inv in D as (vs & e1 & e2 & D1 & D2 & Q). injection D2 as <- <-. destruct e1; [discriminate Q|].
      apply dec_list_nth in D1 as [L H]. constructor; [exact L|]. intros i x v Hx Hv. specialize (HA l eq_refl). rewrite Forall_forall in HA.
      assert (I := nth_error_In _ _ Hx). apply (HA x I (OA l eq_refl x I)); [exact OK|exact FO|]. eapply H; eauto.
  - cbn [ty_ok fold_ok] in OK, FO. destruct j as [|b|l|raw|l|ms]; try discriminate D.
    + injection D as <-. now apply (me_null rnd (GMap n k t)).
    + rewrite dec_map_obj in D. cbn [zero old_map] in D. apply dbind_inv in D as (m & e1 & e2 & D1 & D2 & Q). injection D2 as <- <-. destruct e1; [discriminate Q|].
      apply dec_mems_final in D1 as (S & K & _ & H); [|reflexivity]. constructor; [exact S|intros k'; rewrite K; cbn; tauto|].
      intros k' x v Hx Hv. specialize (HO ms eq_refl). rewrite Forall_forall in HO. assert (I : In (k', x) ms) by (destruct Hx as (a & b & -> & _); apply in_or_app; right; now left).
      apply (HO _ I (OO ms eq_refl k' x I)); [exact OK|exact FO|]. eapply H; eauto.
  - rewrite dec_iface in D. destruct j as [|b|l|raw|l|ms]; cbn [dec_any] in D.
    + injection D as <-. now apply (me_null rnd GIface).
    + injection D as <-. constructor.
    + destruct (parse_float rnd l) eqn:U; [|discriminate D]. injection D as <-. cbn [json_okb] in O. apply (parse_float_exact _ _ _ O) in U as (neg & m & e & U & R). econstructor; eauto.
    + destruct (unq raw) eqn:U; [|discriminate D]. injection D as <-. apply unq_exact in U. now constructor.
    + apply dbind_inv in D as (vs & e1 & e2 & D1 & D2 & Q). injection D2 as <- <-. destruct e1; [discriminate Q|]. constructor.
      apply dec_list_nth in D1 as [L H]. constructor; [exact L|]. intros i x v Hx Hv. specialize (HA l eq_refl). rewrite Forall_forall in HA.
      assert (I := nth_error_In _ _ Hx). apply (HA x I (OA l eq_refl x I)); [reflexivity|reflexivity|]. rewrite dec_iface. eapply H; eauto.
    + apply dbind_inv in D as (m & e1 & e2 & D1 & D2 & Q). injection D2 as <- <-. destruct e1; [discriminate Q|]. constructor.
      apply dec_mems_final in D1 as (S & K & _ & H); [|reflexivity]. constructor; [exact S|intros k'; rewrite K; cbn; tauto|].
      intros k' x v Hx Hv. specialize (HO ms eq_refl). rewrite Forall_forall in HO. assert (I : In (k', x) ms) by (destruct Hx as (a & b & -> & _); apply in_or_app; right; now left).
      apply (HO _ I (OO ms eq_refl k' x I)); [reflexivity|reflexivity|]. rewrite dec_iface. eapply H; eauto.
  - destruct (ty_ok_flat _ _ OK) as (F & FT & _). cbn [fold_ok] in FO. apply andb_true_iff in FO as [FO1 FO2]. destruct j as [|b|l|raw|l|ms]; try discriminate D.
    + injection D as <-. now apply (me_null rnd (GStruct n fs)).
    + apply struct_sound; [exact F|now apply nodupb_NoDup| |exact D]. intros k x p m t w I HP Dx. specialize (HO ms eq_refl). rewrite Forall_forall in HO.
      destruct (has_path_plain _ _ _ _ (fun m t H => proj1 (FT m t H)) HP) as [_ Hin']. destruct (FT _ _ Hin') as (_ & _ & Tt). rewrite forallb_forall in FO2.
      apply (HO _ I (OO ms eq_refl k x I)); [exact Tt|exact (FO2 _ Hin')|exact Dx].
  - destruct j as [|b|l|raw|l|ms]; try discriminate D.
    + injection D as <-. constructor.
    + rewrite dec_ext_obj in D. apply dbind_inv in D as (m & e1 & e2 & D1 & D2 & Q). injection D2 as <- <-. destruct e1; [discriminate Q|].
      apply dec_ext_final in D1 as (S & K & _ & H); [|reflexivity].
      assert (LM : forall k ms, In k (akeys ms) -> exists x, final_member k ms x).
      { clear. intros k. induction ms as [|[k0 x0] ms IH]; intros I; [destruct I|]. destruct (mem_str k (map fst ms)) eqn:M.
        - apply mem_str_In in M. destruct (IH M) as (x & a & b & -> & N). exists x, ((k0, x0) :: a), b. auto.
        - assert (N : ~ In k (map fst ms)) by (intros I'; apply mem_str_In in I'; congruence). destruct I as [<-|I]; [|contradiction]. exists x0, [], ms. auto. }
      assert (K' : forall k, In k (akeys m) <-> In k (akeys ms)) by (intros k; rewrite K; cbn; tauto).
      constructor; [exact S|exact K'|..].
      * intros k w A. assert (I : In k (akeys m)) by (apply alookup_Some_In in A; now apply in_map with (f := fst) in A). apply K' in I.
        destruct (LM k ms I) as (x & Fx). destruct (H k x Fx) as (v & A' & _). exists v. congruence.
      * intros k x v Fx A. destruct (H k x Fx) as (v' & A' & Dx). assert (v' = v) by congruence. subst v'.
        specialize (HO ms eq_refl). rewrite Forall_forall in HO. assert (I : In (k, x) ms) by (destruct Fx as (a & b & -> & _); apply in_or_app; right; now left).
        apply (HO _ I (OO ms eq_refl k x I)); [apply ext_ty_ok|apply ext_fold_ok|exact Dx].
  - rewrite dec_raw in D. injection D as <-. constructor.
Qed.

Lemma sound_all j : sound_at j.
Proof. induction j using json_ind'; apply sound_step; intros l' Q; try discriminate Q; injection Q as <-; assumption. Qed.

(** ** What the text means is read *)
Lemma fold_nodup ms : NoDup (map (fun kx : string * json => fold_key (fst kx)) ms) -> NoDup (akeys ms).
Proof. intros H. apply NoDup_map_inv with (f := fold_key). unfold akeys. now rewrite map_map. Qed.
Lemma final_of_nodup k x ms : NoDup (akeys ms) -> In (k, x) ms -> final_member k ms x.
Proof.
  intros N I. apply in_split in I as (a & b & ->). exists a, b. split; [reflexivity|]. unfold akeys in N. rewrite map_app in N. cbn [map fst] in N. apply NoDup_remove_2 in N.
  intros H. apply N. apply in_or_app. now right.
Qed.
Lemma named_single k x k' ms : NoDup (map (fun kx : string * json => fold_key (fst kx)) ms) -> In (k, x) ms -> fold_key k = fold_key k' -> named k' ms = [(k, x)].
Proof.
  induction ms as [|[k0 x0] ms IH]; intros N I E; [destruct I|]. cbn [map fst] in N. inversion N as [|? ? N1 N2]; subst. rewrite named_cons. destruct I as [Q|I].
  - injection Q as -> ->. rewrite <- E, String.eqb_refl. f_equal. destruct (named k' ms) as [|[k1 x1] l] eqn:Q; [reflexivity|exfalso].
    assert (I : In (k1, x1) (named k' ms)) by (rewrite Q; now left). apply filter_In in I as [I E']. cbn [fst] in E'. apply String.eqb_eq in E'. apply N1. rewrite E, <- E'.
    now apply in_map with (f := fun kx : string * json => fold_key (fst kx)) in I.
  - destruct (String.eqb_spec (fold_key k0) (fold_key k')) as [E'|_]; [exfalso|auto]. apply N1. rewrite E', <- E. now apply in_map with (f := fun kx : string * json => fold_key (fst kx)) in I.
Qed.
Lemma named_none k ms : ~ In (fold_key k) (map (fun kx : string * json => fold_key (fst kx)) ms) -> named k ms = [].
Proof.
  intros N. destruct (named k ms) as [|[k1 x1] l] eqn:Q; [reflexivity|exfalso]. assert (I : In (k1, x1) (named k ms)) by (rewrite Q; now left).
  apply filter_In in I as [I E']. cbn [fst] in E'. apply String.eqb_eq in E'. apply N. rewrite <- E'. now apply in_map with (f := fun kx : string * json => fold_key (fst kx)) in I.
Qed.

(** Members with distinct names up to case, into a zero struct. *)
Lemma dec_struct_of (f : json -> gty -> gval -> dres gval) fs tgt : flat_ok fs -> NoDup (fold_keys fs) -> shape fs tgt ->
  forall ms cur, shape fs cur -> NoDup (map (fun kx : string * json => fold_key (fst kx)) ms) ->
  (forall k x k' p t, In (k, x) ms -> In (k', p, t) (flat_fields fs) -> fold_key k' = fold_key k -> f x t (get_path p cur) = DOk (get_path p tgt) false) ->
  (forall p m t, has_path fs p m t -> fm_key m = "" \/ ~ In (fold_key (fm_key m)) (map (fun kx : string * json => fold_key (fst kx)) ms) -> get_path p tgt = get_path p cur) ->
  dec_struct f (flat_fields fs) ms cur = DOk tgt false.
Proof.
  intros F ND ST. induction ms as [|[k x] ms IH]; intros cur SC N HM HA; cbn [dec_struct].
  - f_equal. symmetry. eapply shape_ext; eauto.
  - fold (dec_struct f (flat_fields fs)). cbn [map fst] in N. inversion N as [|? ? N1 N2]; subst.
    destruct (find_field k (flat_fields fs)) as [[p t]|] eqn:E.
    + destruct (find_field_fold _ _ _ _ E) as (k1 & H1 & E1). rewrite (HM k x k1 p t (or_introl eq_refl) H1 E1). cbn [dbind].
      destruct (proj1 (flat_fields_In _ _ _ _) H1) as (m1 & HP1 & K1 & Ne1).
      rewrite (IH (set_path p (get_path p tgt) cur)); [reflexivity|eapply shape_set; eauto|exact N2|..].
      * intros k' x' k2 p2 t2 I H2 E2. destruct (proj1 (flat_fields_In _ _ _ _) H2) as (m2 & HP2 & K2 & _).
        rewrite (get_set_other _ _ _ _ _ _ _ _ _ F SC HP1 HP2); [exact (HM k' x' k2 p2 t2 (or_intror I) H2 E2)|].
        intros ->. destruct (has_path_inj _ _ _ _ _ _ F HP1 HP2) as [-> _]. apply N1. rewrite <- E1. replace k1 with k2 by congruence. rewrite E2.
        now apply in_map with (f := fun kx : string * json => fold_key (fst kx)) in I.
      * intros p2 m2 t2 HP2 C. destruct (fpath_dec p2 p) as [->|Np]; [now rewrite (get_set_same _ _ _ _ _ _ SC HP1)|].
        rewrite (get_set_other _ _ _ _ _ _ _ _ _ F SC HP1 HP2 Np). apply (HA p2 m2 t2 HP2). destruct C as [C|C]; [now left|].
        destruct (String.eqb_spec (fm_key m2) "") as [Z|NZ]; [now left|right]. cbn [map fst]. intros [Q|Q]; [|contradiction]. apply Np.
        assert (I2 : In (fm_key m2, p2, t2) (flat_fields fs)) by (apply flat_fields_In; exists m2; auto).
        now destruct (fold_inj _ _ _ _ _ _ _ ND I2 H1 ltac:(congruence)) as (_ & -> & _).
    + rewrite (IH cur); [reflexivity|exact SC|exact N2|..].
      * intros k' x' k2 p2 t2 I. apply HM. now right.
      * intros p2 m2 t2 HP2 C. apply (HA p2 m2 t2 HP2). destruct C as [C|C]; [now left|]. destruct (String.eqb_spec (fm_key m2) "") as [Z|NZ]; [now left|right].
        cbn [map fst]. intros [Q|Q]; [|contradiction]. assert (I2 : In (fm_key m2, p2, t2) (flat_fields fs)) by (apply flat_fields_In; exists m2; auto).
        apply (find_field_None _ _ _ _ _ E) in I2. congruence.
Qed.

Lemma struct_complete n fs ms v : flat_ok fs -> NoDup (fold_keys fs) -> NoDup (map (fun kx : string * json => fold_key (fst kx)) ms) -> shape fs v ->
  (forall p m t, has_path fs p m t -> fm_key m = "" -> get_path p v = zero t) ->
  (forall k p t, In (k, p, t) (flat_fields fs) -> named k ms = [] -> get_path p v = zero t) ->
  (forall k p t kx, In (k, p, t) (flat_fields fs) -> named k ms = [kx] -> dec (snd kx) t (zero t) = DOk (get_path p v) false) ->
  dec (JObj ms) (GStruct n fs) (zero (GStruct n fs)) = DOk v false.
Proof.
  intros F ND N S A1 A2 A3. rewrite dec_struct_obj. apply dec_struct_of; [exact F|exact ND|exact S|apply shape_zero; exact F|exact N|..].
  - intros k x k' p t I H E. destruct (proj1 (flat_fields_In _ _ _ _) H) as (m & HP & _). rewrite (zero_path n fs p m t F HP).
    exact (A3 k' p t (k, x) H (named_single k x k' ms N I (eq_sym E))).
  - intros p m t HP C. rewrite (zero_path n fs p m t F HP). destruct (String.eqb_spec (fm_key m) "") as [Z|NZ]; [eauto|]. destruct C as [C|C]; [contradiction|].
    apply (A2 (fm_key m) p t); [apply flat_fields_In; exists m; auto|now apply named_none].
Qed.

Lemma complete_aux t j v : means t j v -> ty_ok t = true -> fold_ok t = true -> json_okb j = true -> plain_names j -> dec j t (zero t) = DOk v false.
Proof.
  induction 1; intros OK FO O P.
  - destruct t; try contradiction; try reflexivity. rewrite dec_enum. apply enum_exact; [reflexivity|]. left. auto.
  - cbn. apply unq_exact in H. now rewrite H.
  - cbn. cbn [json_okb] in O. now rewrite (proj2 (parse_int_exact l z O) (conj H H0)).
  - reflexivity.
  - cbn. cbn [json_okb] in O. rewrite (proj2 (parse_float_exact rnd l f O)); eauto.
  - rewrite dec_enum. apply enum_exact; [exact O|]. right. left. eauto.
  - rewrite dec_enum. apply enum_exact; [exact O|]. right. right. auto.
  - rewrite dec_time. apply time_exact; [exact O|]. eauto.
  - cbn. apply unq_exact in H. rewrite H. now rewrite (proj2 (decode_exact s b)) by eauto.
  - cbn. cbn [json_okb] in O. apply (dec_bytes_exact _ O) in H. now rewrite H.
  - rewrite dec_ptr. cbn [ty_ok fold_ok] in OK, FO. apply andb_true_iff in OK as [_ OK]. cbn [zero]. rewrite IHmeans by assumption. now destruct j.
  - rewrite dec_slice_arr. cbn [zero old_list]. cbn [ty_ok fold_ok json_okb] in OK, FO, O. inversion P as [| | | |l' Hl|]; subst. rewrite forallb_forall in O.
    rewrite (dec_list_of _ _ l vs); [reflexivity|exact H|]. intros i x v Hx Hv. assert (I := nth_error_In _ _ Hx). eapply H1; eauto.
  - cbn. apply unq_exact in H. rewrite H. now rewrite (proj2 (decode_exact s b)) by eauto.
  - rewrite dec_map_obj. cbn [zero old_map]. cbn [ty_ok fold_ok json_okb] in OK, FO, O. inversion P as [| | | | |ms' N Hm]; subst. rewrite forallb_forall in O.
    assert (N' := fold_nodup _ N).
    rewrite (dec_mems_of _ ms [] m); [reflexivity|reflexivity|exact H|exact N'|..].
    + intros k. rewrite H0. cbn. tauto.
    + intros k Nk. cbn [alookup]. apply alookup_None. now rewrite H0.
    + intros k x v I A. assert (Ox := O _ I). cbn in Ox. apply andb_true_iff in Ox as [_ Ox]. apply (H2 k x v (final_of_nodup k x ms N' I) A); eauto.
  - reflexivity.
  - rewrite dec_iface. cbn [dec_any]. cbn [json_okb] in O. rewrite (proj2 (parse_float_exact rnd l f O)); eauto.
  - rewrite dec_iface. cbn [dec_any]. apply unq_exact in H. now rewrite H.
  - specialize (IHmeans eq_refl eq_refl O P). rewrite dec_slice_arr in IHmeans. rewrite dec_iface. cbn [dec_any].
    apply dbind_inv in IHmeans as (vs & e1 & e2 & D1 & D2 & Q). injection D2 as <- <-. destruct e1; [discriminate Q|]. cbn [zero old_list] in D1.
    assert (X : dec_list (fun x _ => dec_any rnd x) VNil l [] = DOk vs false).
    { revert D1. generalize (@nil gval). clear. revert vs. induction l as [|x l IH]; intros vs old D; cbn [dec_list] in *; [exact D|].
      rewrite dec_iface in D. apply dbind_inv in D as (v & e1 & e2 & D1 & D2 & Q). apply dbind_inv in D2 as (ws & e3 & e4 & D2 & D3 & Q'). injection D3 as <- <-.
      destruct e1; [discriminate Q|]. destruct e2; [discriminate Q|]. destruct e3; [discriminate Q'|]. rewrite D1. cbn [dbind]. fold (dec_list (fun x (_ : gval) => dec_any rnd x) VNil). 
      fold (dec_list (fun x o => dec x GIface o) VNil) in D2. rewrite (IH _ _ D2). reflexivity. }
    rewrite X. reflexivity.
  - specialize (IHmeans eq_refl eq_refl O P). rewrite dec_map_obj in IHmeans. rewrite dec_iface. cbn [dec_any].
    apply dbind_inv in IHmeans as (m & e1 & e2 & D1 & D2 & Q). injection D2 as <- <-. destruct e1; [discriminate Q|]. cbn [zero old_map] in D1.
    assert (X : dec_mems (dec_any rnd) ms [] = DOk m false).
    { revert D1. generalize (@nil (string * gval)). clear. revert m. induction ms as [|[k x] ms IH]; intros m acc D; cbn [dec_mems] in *; [exact D|].
      rewrite dec_iface in D. apply dbind_inv in D as (v & e1 & e2 & D1 & D2 & Q). destruct e1; [discriminate Q|]. destruct e2; [discriminate Q|]. rewrite D1. cbn [dbind].
      fold (dec_mems (dec_any rnd)). fold (dec_mems (fun x => dec x GIface VNil)) in D2. rewrite (IH _ _ D2). reflexivity. }
    rewrite X. reflexivity.
  - reflexivity.
  - rewrite dec_ext_obj. cbn [json_okb] in O. inversion P as [| | | | |ms' N Hm]; subst. rewrite forallb_forall in O. assert (N' := fold_nodup _ N).
    rewrite (dec_ext_of ms [] m); [reflexivity|reflexivity|exact H|exact N'|..].
    + intros k. rewrite H0. cbn. tauto.
    + intros k Nk. cbn [alookup]. apply alookup_None. now rewrite H0.
    + intros k x I. assert (Ox := O _ I). cbn in Ox. apply andb_true_iff in Ox as [_ Ox]. destruct (alookup k m) as [w|] eqn:A.
      * destruct (H1 k w A) as (v & ->). exists v. split; [reflexivity|]. apply (H3 k x v (final_of_nodup k x ms N' I) A); [apply ext_ty_ok|apply ext_fold_ok|exact Ox|eauto].
      * apply alookup_None in A. exfalso. apply A, H0. now apply in_map with (f := fst) in I.
  - destruct (ty_ok_flat _ _ OK) as (F & FT & _). cbn [fold_ok] in FO. apply andb_true_iff in FO as [FO1 FO2]. inversion P as [| | | | |ms' N Hm]; subst. cbn [json_okb] in O. rewrite forallb_forall in O, FO2.
    apply struct_complete; [exact F|now apply nodupb_NoDup|exact N|exact H|exact H0|exact H1|].
    intros k p t kx Hin Q. assert (I : In kx ms). { assert (I : In kx (named k ms)) by (rewrite Q; now left). now apply filter_In in I. }
    assert (Ox := O _ I). destruct kx as [k' x]. cbn in Ox. apply andb_true_iff in Ox as [_ Ox].
    destruct (proj1 (flat_fields_In _ _ _ _) Hin) as (m & HP & _). destruct (has_path_plain _ _ _ _ (fun m t H => proj1 (FT m t H)) HP) as [_ Hin']. destruct (FT _ _ Hin') as (_ & _ & Tt).
    eapply H3; eauto. exact (FO2 _ Hin').
  - apply dec_raw.
Qed.
End E.
