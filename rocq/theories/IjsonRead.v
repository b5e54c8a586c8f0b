(** What is read from a JSON text has names that are apart (for C81). *)
From Verif Require Import GoStr GoStrFacts JsonStr JsonStrFacts Json JsonFacts Float FloatFacts Consts Enums
  GoTypes Schema GoVal GoValFacts Time Base64 Codec CodecSpec CodecFacts StructFacts CodecRound ObjFacts TypedFacts SettleFacts SettleRead
  DataTypes Ident Collection CollectionSpec FromJson FromJsonSpec FromJsonFacts IndepFacts IjsonSpec.
From Verif Require PropDepth.

Section Read.
Variable rnd : bool -> N -> Z -> option flt.
Hypothesis ST : settled rnd.
Notation dec := (dec rnd).
(** A value whose text is I-JSON. *)
Definition fits (v : gval) : Prop := plain_value rnd v = true /\ names_apart v = true.
(** A map whose text is I-JSON. *)
Definition fits_map (l : list (string * gval)) : Prop := msorted l = true /\ Forall (fun kv => utf8b (fst kv) = true /\ fits (snd kv)) l.

Lemma fits_VSlice l : fits (VSlice l) <-> Forall fits l.
Proof.
  unfold fits. cbn [plain_value names_apart]. rewrite !forallb_forall, Forall_forall. split; [intros [A B] x I; auto|]. intros H. split; intros x I; now apply H.
Qed.
Lemma fits_VStruct l : fits (VStruct l) <-> Forall (fun kv => fits (snd kv)) l.
Proof.
  unfold fits. cbn [plain_value names_apart]. rewrite !forallb_forall, Forall_forall. split; [intros [A B] x I; auto|]. intros H. split; intros x I; now apply H.
Qed.
Lemma fits_VMap l : fits (VMap l) <-> fits_map l.
Proof.
  unfold fits_map, fits. cbn [plain_value names_apart]. rewrite andb_true_iff, !forallb_forall, Forall_forall. split.
  - intros [A [S B]]. split; [exact S|]. intros x I. specialize (A x I). specialize (B x I). apply andb_true_iff in B as [B1 B2]. auto.
  - intros [S H]. split; [intros x I; now apply H|]. split; [exact S|]. intros x I. destruct (H x I) as (U & _ & N). now rewrite U, N.
Qed.
Lemma fits_atom v : match v with VStr _ | VBool _ | VEnum _ | VTime _ | VBin _ | VNil => True | _ => False end -> fits v.
Proof. destruct v; intros []; now split. Qed.
Lemma minsert_fits k x l : fits_map l -> utf8b k = true -> fits x -> fits_map (minsert k x l).
Proof.
  intros [S H] U F. split; [now apply msorted_minsert|]. apply Forall_forall. intros [k' y] I. apply In_minsert in I as [[-> ->]|I]; [now split|].
  rewrite Forall_forall in H. exact (H _ I).
Qed.
Lemma fits_map_nil : fits_map [].
Proof. split; [reflexivity|constructor]. Qed.
Lemma old_map_fits v : fits v -> fits_map (old_map v).
Proof. destruct v; intros H; try apply fits_map_nil. now apply fits_VMap. Qed.

Lemma zero_fits t : fits (zero t).
Proof.
  induction t using gty_ind'; try now split.
  - split; [|reflexivity]. cbn [zero plain_value is_f64]. rewrite (proj1 ST). reflexivity.
  - rewrite zero_struct. apply fits_VStruct. rewrite Forall_forall in *. intros kv I. apply in_map_iff in I as (ft & <- & I). cbn [snd]. exact (H _ I).
Qed.
Lemma get_field_fits n v : fits v -> fits (get_field n v).
Proof.
  intros H. unfold get_field. destruct v; try now apply fits_atom. destruct (alookup n l) as [x|] eqn:E; [|now apply fits_atom].
  apply alookup_Some_In in E. apply fits_VStruct in H. rewrite Forall_forall in H. exact (H _ E).
Qed.
Lemma set_field_fits n x v : fits v -> fits x -> fits (set_field n x v).
Proof.
  intros H X. unfold set_field. destruct v; try exact H. apply fits_VStruct in H. apply fits_VStruct. induction H as [|[k y] l Hy Hl IH]; cbn [areplace]; [constructor|].
  destruct (String.eqb n k); constructor; auto.
Qed.
Lemma get_path_fits p v : fits v -> fits (get_path p v).
Proof. intros H. destruct p as [[b|] n]; cbn [get_path]; auto using get_field_fits. Qed.
Lemma set_path_fits p x v : fits v -> fits x -> fits (set_path p x v).
Proof. intros H X. destruct p as [[b|] n]; cbn [set_path]; auto using set_field_fits, get_field_fits. Qed.

Lemma dec_any_fits j : json_okb j = true -> forall v, dec_any rnd j = DOk v false -> fits v.
Proof.
  induction j using json_ind'; intros J v D; cbn [dec_any json_okb] in J, D.
  - injection D as <-. now apply fits_atom.
  - injection D as <-. now split.
  - destruct (parse_float rnd l) eqn:E; [|discriminate]. injection D as <-. split; [exact (parse_float_f64 rnd ST _ _ E)|reflexivity].
  - destruct (unq r) eqn:E; [|discriminate]. injection D as <-. now split.
  - apply dbind_ok in D as (vs & D1 & D2). injection D2 as <-. assert (X : fits (VSlice vs)); [|exact X]. apply fits_VSlice.
    revert vs D1. generalize (@nil gval). induction H as [|x l Hx Hl IH]; intros old vs D1; cbn [dec_list] in D1.
    + injection D1 as <-. constructor.
    + cbn [forallb] in J. apply andb_true_iff in J as [J1 J2]. apply dbind_ok in D1 as (w & D1 & D3). apply dbind_ok in D3 as (ws & D3 & D4). injection D4 as <-.
      constructor; [exact (Hx J1 _ D1)|]. exact (IH J2 _ _ D3).
  - apply dbind_ok in D as (vs & D1 & D2). injection D2 as <-. assert (X : fits (VMap vs)); [|exact X]. apply fits_VMap.
    assert (G : forall acc vs, fits_map acc -> dec_mems (dec_any rnd) l acc = DOk vs false -> fits_map vs); [|eapply G; [apply fits_map_nil|exact D1]].
    clear D1 vs. induction H as [|[k x] l Hx Hl IH]; intros acc vs A D1; cbn [dec_mems] in D1.
    + injection D1 as <-. exact A.
    + cbn [forallb fst snd] in J. rewrite !andb_true_iff in J. destruct J as [[J0 J1] J2]. apply dbind_ok in D1 as (w & D1 & D3). refine (IH J2 _ _ _ D3).
      apply minsert_fits; auto.
Qed.

Lemma flat_tags n fs k p t : tags_apart (GStruct n fs) = true -> In (k, p, t) (flat_fields fs) -> tags_apart t = true.
Proof.
  intros T I. cbn [tags_apart] in T. apply andb_true_iff in T as [_ T]. rewrite forallb_forall in T. apply flat_fields_In in I as (m & HP & _).
  destruct HP as [m t I _|mb nb fsb m t I _ I'].
  - specialize (T _ I). now apply andb_true_iff in T.
  - specialize (T _ I). apply andb_true_iff in T as [_ T]. cbn [snd tags_apart] in T. apply andb_true_iff in T as [_ T]. rewrite forallb_forall in T. specialize (T _ I'). now apply andb_true_iff in T.
Qed.
Lemma dec_struct_fits (f : json -> gty -> gval -> dres gval) fl : forall ms cur v,
  (forall k x k' p t old v, In (k, x) ms -> In (k', p, t) fl -> fits old -> f x t old = DOk v false -> fits v) ->
  fits cur -> dec_struct f fl ms cur = DOk v false -> fits v.
Proof.
  induction ms as [|[k x] ms IH]; intros cur v H T D; cbn [dec_struct] in D.
  - injection D as <-. exact T.
  - fold (dec_struct f fl) in D. assert (H' := fun k x k' p t old v Hin => H k x k' p t old v (or_intror Hin)).
    destruct (find_field k fl) as [[p t]|] eqn:E; [|eapply IH; eauto].
    apply dbind_ok in D as (w & D1 & D2). destruct (find_field_In _ _ _ _ E) as [k' Hk]. eapply IH; [exact H'| |exact D2].
    apply set_path_fits; [exact T|]. eapply H; [now left|exact Hk| |exact D1]. now apply get_path_fits.
Qed.
Lemma ext_tags k : tags_apart (ext_ty k) = true.
Proof.
  unfold ext_ty. destruct (alookup k ext_types) as [t|] eqn:E; [|reflexivity]. apply alookup_Some_In in E.
  assert (X : forallb (fun kv => tags_apart (snd kv)) ext_types = true) by (vm_compute; reflexivity). rewrite forallb_forall in X. exact (X _ E).
Qed.
Lemma fresh_fits k : fits (fresh (ext_ty k)).
Proof.
  destruct (ext_ty_shape k) as [(n & fs & E)|E]; [assert (X := zero_fits (ext_ty k)); rewrite E in *; exact X|rewrite E; apply fits_VMap, fits_map_nil].
Qed.

(** The claim proved by induction on the JSON value. *)
Definition F j := json_okb j = true -> forall t old v, tags_apart t = true -> fits old -> dec j t old = DOk v false -> fits v.
Lemma dec_fits_step j : (forall l, j = JArr l -> Forall F l) -> (forall l, j = JObj l -> Forall (fun kv => F (snd kv)) l) -> F j.
Proof.
  intros HA HO J t. induction t using gty_ind'; intros old v U TO D.
  - destruct j; cbn in D; try discriminate; try (injection D as <-; exact TO). destruct (unq raw) eqn:E; [|discriminate]. injection D as <-. now split.
  - destruct j; cbn in D; try discriminate; try (injection D as <-; exact TO). destruct (parse_int lexeme) as [z|] eqn:E; [|discriminate]. injection D as <-.
    split; [exact (parse_int_ok _ _ E)|reflexivity].
  - destruct j; cbn in D; try discriminate; try (injection D as <-; exact TO); injection D as <-; now split.
  - destruct j; cbn in D; try discriminate; try (injection D as <-; exact TO). destruct (parse_float rnd lexeme) eqn:E; [|discriminate]. injection D as <-.
    split; [exact (parse_float_f64 rnd ST _ _ E)|reflexivity].
  - rewrite dec_enum in D. apply enum_wfr with (rnd := rnd) in D. destruct v; try discriminate D. now split.
  - rewrite dec_time in D. unfold time_unmarshal in D. destruct (ts_unmarshal (print j)); try discriminate. injection D as <-. now split.
  - rewrite dec_bin in D. apply bin_wfr with (rnd := rnd) in D. destruct v; try discriminate D; now split.
  - rewrite dec_ptr in D. cbn [tags_apart] in U.
    assert (TO' : fits (match old with VPtr v => v | _ => zero t end)) by (destruct old; try apply zero_fits; exact TO).
    destruct j; try (injection D as <-; now split); apply dbind_ok in D as (w & D1 & D2); injection D2 as <-; exact (IHt _ _ U TO' D1).
  - cbn [tags_apart] in U. destruct j; try discriminate D; try (injection D as <-; exact TO || now split).
    + destruct t; try discriminate D. cbn in D. destruct (unq raw) as [s|]; [|discriminate].
      destruct (b64_decode s); [|discriminate]. injection D as <-. apply fits_VSlice. apply Forall_forall. intros x Hx.
      apply in_map_iff in Hx as (c & <- & _). now split.
    + rewrite dec_slice_arr in D. apply dbind_ok in D as (vs & D1 & D2). injection D2 as <-. apply fits_VSlice.
      assert (TL : Forall fits (old_list old)) by (destruct old; try constructor; now apply fits_VSlice).
      specialize (HA l eq_refl). clear HO TO IHt. cbn [json_okb] in J. revert vs D1 TL. generalize (old_list old). clear old.
      induction HA as [|x l Hx Hl IH]; intros ol vs D1 TL; cbn [dec_list] in D1.
      * injection D1 as <-. constructor.
      * cbn [forallb] in J. apply andb_true_iff in J as [J1 J2]. apply dbind_ok in D1 as (w & D1 & D3). apply dbind_ok in D3 as (ws & D3 & D4). injection D4 as <-.
        fold (dec_list (fun x o => dec x t o) (zero t)) in D3. constructor.
        -- eapply (Hx J1); [exact U| |exact D1]. destruct ol; [apply zero_fits|]. now inversion TL.
        -- eapply IH; [exact J2|exact D3|]. destruct ol; [constructor|]. now inversion TL.
  - cbn [tags_apart] in U. destruct j; try discriminate D; try (injection D as <-; exact TO || now split).
    rewrite dec_map_obj in D. apply dbind_ok in D as (vs & D1 & D2). injection D2 as <-. apply fits_VMap.
    assert (TL := old_map_fits old TO).
    specialize (HO l eq_refl). clear HA TO IHt. cbn [json_okb] in J. revert vs D1 TL. generalize (old_map old). clear old.
    induction HO as [|[k' x] l Hx Hl IH]; intros acc vs D1 TL; cbn [dec_mems] in D1.
    + injection D1 as <-. exact TL.
    + cbn [forallb fst snd] in J. rewrite !andb_true_iff in J. destruct J as [[J0 J1] J2]. apply dbind_ok in D1 as (w & D1 & D3). fold (dec_mems (fun x => dec x t (zero t))) in D3. eapply IH; [exact J2|exact D3|].
      apply minsert_fits; auto. eapply (Hx J1); [exact U|apply zero_fits|exact D1].
  - rewrite dec_iface in D. eapply dec_any_fits; eauto.
  - destruct j; try discriminate D; try (injection D as <-; exact TO).
    rewrite dec_struct_obj in D. eapply dec_struct_fits; [|exact TO|exact D].
    intros k x k' p t o w Hin Hf To De. specialize (HO l eq_refl). rewrite Forall_forall in HO.
    eapply (HO _ Hin); [| |exact To|exact De].
    + cbn [json_okb] in J. rewrite forallb_forall in J. specialize (J _ Hin). now apply andb_true_iff in J.
    + eapply flat_tags; eauto.
  - destruct j; try (discriminate D); try (injection D as <-; now split).
    rewrite dec_ext_obj in D. apply dbind_ok in D as (vs & D1 & D2). injection D2 as <-. apply fits_VMap.
    specialize (HO l eq_refl). clear HA TO. cbn [json_okb] in J.
    assert (G : forall acc vs, dec_ext dec l acc = DOk vs false -> fits_map acc -> fits_map vs); [|eapply G; [exact D1|apply fits_map_nil]].
    clear D1 vs. induction HO as [|[k x] l Hx Hl IH]; intros acc vs D1 TL; cbn [dec_ext] in D1.
    + injection D1 as <-. exact TL.
    + cbn [forallb fst snd] in J. rewrite !andb_true_iff in J. destruct J as [[J0 J1] J2]. fold (dec_ext dec) in D1. destruct (mem_str k (map fst l)); [eapply IH; eauto|].
      destruct (dec x (ext_ty k) (fresh (ext_ty k))) as [w [|]| |] eqn:Dx; try discriminate. eapply IH; [exact J2|exact D1|].
      apply minsert_fits; auto. assert (W : fits w) by (eapply (Hx J1); [apply ext_tags|apply fresh_fits|exact Dx]).
      destruct W as [W1 W2]. split; [exact W1|]. cbn [names_apart tags_apart]. now rewrite ext_tags, W2.
  - discriminate U.
Qed.
Lemma dec_fits j : F j.
Proof.
  induction j using json_ind'; apply dec_fits_step; intros l' Q; try discriminate Q; injection Q as <-; assumption.
Qed.
Lemma unmarshal_fits j t old v : json_okb j = true -> tags_apart t = true -> fits old -> unmarshal_res (dec j t old) = Ok v -> fits v.
Proof.
  intros J T O U. destruct (dec j t old) as [w [|]| |] eqn:D; try discriminate. injection U as <-. exact (dec_fits j J t old w T O D).
Qed.

(** ** Documents *)
Variable cf : config.
(** An object whose text is I-JSON. *)
Definition ob_fits (o : gobj) : Prop := tags_apart (fst o) = true /\ fits (snd o).
Hypothesis HF : forall typ h j o, alookup typ (cf_handlers cf) = Some (Some h) -> h j = Ok (Some o) -> ob_fits o.
Lemma builtin_tags : forallb (fun kv => tags_apart (snd kv)) builtin_types = true.
Proof. vm_compute. reflexivity. Qed.
Lemma start_fits typ j o : start cf typ j = Ok (Some o) -> ob_fits o.
Proof.
  unfold start. intros E. assert (B : (match alookup typ builtin_types with
      | Some t => Ok (Some (t, zero t))
      | None => if cf_drop cf then Ok None else Ok (Some (ty_CustomObject, VMap []))
      end) = Ok (Some o) -> ob_fits o).
  { destruct (alookup typ builtin_types) as [t|] eqn:A.
    - intros Q. injection Q as <-. apply alookup_Some_In in A. assert (X := builtin_tags). rewrite forallb_forall in X. split; [exact (X _ A)|apply zero_fits].
    - destruct (cf_drop cf); [discriminate|]. intros Q. injection Q as <-. split; [reflexivity|]. apply fits_VMap, fits_map_nil. }
  destruct (alookup typ (cf_handlers cf)) as [[h|]|] eqn:A; auto. destruct (h j) as [[o'|]| |] eqn:Hj; try discriminate. cbn [bind] in E. injection E as <-. eapply HF; eauto.
Qed.
Lemma filter_sorted {A} (f : string * A -> bool) l : msorted l = true -> msorted (filter f l) = true.
Proof.
  induction l as [|[k x] l IH]; [reflexivity|]. intros S. assert (S' := S). apply msorted_cons in S' as [S1 S2]. cbn [filter]. destruct (f (k, x)); [|now apply IH].
  apply msorted_cons. split; [|now apply IH]. intros k' I. apply in_map_iff in I as (y & <- & I). apply filter_In in I as [I _]. apply S1. now apply in_map.
Qed.
Lemma filter_out_fits t l : fits_map l -> fits_map (filter_out t l).
Proof.
  intros H. destruct t; try exact H. destruct H as [S H]. split; [now apply filter_sorted|]. apply Forall_forall. intros x I. apply filter_In in I as [I _].
  rewrite Forall_forall in H. auto.
Qed.
Lemma add_props_fits t l v : fits_map l -> fits v -> fits (add_props t l v).
Proof.
  intros L V. unfold add_props. destruct l; [exact V|]. destruct (props_path t); [|exact V]. apply set_path_fits; [exact V|].
  assert (X : fits (VMap (p :: l))) by now apply fits_VMap. exact X.
Qed.
Lemma read_fits j p o p' : json_okb j = true -> fits p -> read rnd cf j p = Ok (o, p') -> fits p' /\ (forall ob, o = Some ob -> ob_fits ob).
Proof.
  intros J P. unfold read. destruct (unmarshal_res (dec j peak_ty p)) as [pk| |] eqn:U; try discriminate. cbn [bind].
  assert (PK : fits pk) by (eapply unmarshal_fits; [exact J| |exact P|exact U]; reflexivity).
  destruct (map_get "type" pk) as [tv|]; [|intros Q; injection Q as <- <-; split; [exact PK|discriminate]].
  destruct (as_string tv) as [typ| |]; try discriminate. cbn [bind].
  destruct (start cf typ j) as [[[t v]|]| |] eqn:St; try discriminate; cbn [bind]; [|intros Q; injection Q as <- <-; split; [exact PK|discriminate]].
  apply start_fits in St as [T V]. cbn [fst snd] in *.
  unfold read_finish. destruct (unmarshal_res (dec j t v)) as [v1| |] eqn:U1; try discriminate. cbn [bind].
  assert (V1 : fits v1) by (eapply unmarshal_fits; eauto).
  set (p1 := if cf_drop cf then old_map pk else filter_out t (old_map pk)). set (v2 := if cf_drop cf then v1 else add_props t p1 v1).
  assert (P1 : fits_map p1) by (unfold p1; destruct (cf_drop cf); [|apply filter_out_fits]; now apply old_map_fits).
  assert (V2 : fits v2) by (unfold v2; destruct (cf_drop cf); [exact V1|now apply add_props_fits]).
  destruct (obj_id (t, v2)) as [id| |]; try discriminate. cbn [bind].
  destruct (obj_type (t, v2)) as [ty| |]; try discriminate. cbn [bind].
  destruct (has_valid_identifier id ty); try discriminate. intros Q. injection Q as <- <-. split; [now apply fits_VMap|]. intros ob Q. injection Q as <-. now split.
Qed.
Lemma read_all_fits js : forall p outs, forallb json_okb js = true -> fits p -> read_all rnd cf js p = Ok outs -> forall ob, In (Some ob) outs -> ob_fits ob.
Proof.
  induction js as [|j js IH]; intros p outs J P; cbn [read_all]; [intros Q; injection Q as <-; intros ob []|].
  cbn [forallb] in J. apply andb_true_iff in J as [J1 J2].
  destruct (read rnd cf j p) as [[o p']| |] eqn:E; try discriminate. cbn [bind fst snd]. destruct (read_fits _ _ _ _ J1 P E) as [P' O].
  destruct (read_all rnd cf js p') as [os| |] eqn:E2; try discriminate. intros Q. injection Q as <-. intros ob [->|I]; [now apply O|]. exact (IH _ _ J2 P' E2 _ I).
Qed.

Lemma all_fits s c l ob : from_json rnd cf s = Ok c -> all_objects c l -> In (Some ob) l -> ob_fits ob.
Proof.
  intros E A I. destruct (document_dec rnd s) as [(js & D)|N]; [|rewrite from_json_no_document in E by exact N; discriminate].
  rewrite (from_json_read _ _ _ _ D) in E. destruct (read_all rnd cf js VNil) as [outs| |] eqn:R; try discriminate. injection E as <-.
  unfold collect in A. destruct (run (new_coll (cf_nosort cf)) (calls_of outs)) as [c oks] eqn:Rn. cbn [fst] in A.
  destruct (PropDepth.reached _ _ _ _ _ _ Rn A I) as (x & Ix & <-). unfold calls_of in Ix. apply in_flat_map in Ix as (o & Io & Ix).
  destruct o as [ob'|]; [|destruct Ix]. destruct (obj_id ob'), (obj_type ob'); try destruct Ix; subst; try easy. cbn [snd].
  exact (read_all_fits js VNil outs (document_ok _ _ D) (fits_atom VNil Logic.I) R _ Io).
Qed.
End Read.
