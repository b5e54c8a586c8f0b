(** What is read from a JSON text is a well formed value (for C74). *)
From Verif Require Import GoStr GoStrFacts JsonStr JsonStrFacts Json JsonFacts Float FloatFacts Consts Enums
  GoTypes Schema GoVal GoValFacts Time Base64 Codec CodecSpec CodecFacts StructFacts CodecRound ObjFacts TypedFacts SettleFacts.

(** All times have a year from 0 to 9999 (in UTC) and no extension is null. *)
Fixpoint years (v : gval) : bool :=
  match v with
  | VTime x => year_ok x
  | VDyn _ (VPtr VNil) => false
  | VPtr w | VDyn _ w => years w
  | VSlice l => forallb years l
  | VMap l | VStruct l => forallb (fun kv => years (snd kv)) l
  | _ => true
  end.

Section Read.
Variable rnd : bool -> N -> Z -> option flt.

(** [wf] without these conditions. *)
Fixpoint wfr (t : gty) (v : gval) {struct v} : bool :=
  match v with
  | VNil => match t with GPtr _ | GSlice _ | GMap _ _ _ | GExt | GIface | GBinary => true | _ => false end
  | VStr s => match t with GString _ => utf8b s | _ => false end
  | VInt z => match t with GInt _ => int64_ok z && match int_to_float rnd z with Some _ => true | None => false end | _ => false end
  | VBool _ => match t with GBool => true | _ => false end
  | VFloat f => match t with GFloat => is_f64 rnd f | _ => false end
  | VEnum _ => match t with GEnum _ => true | _ => false end
  | VTime x => match t with GTime => true | _ => false end
  | VBin _ => match t with GBinary => true | _ => false end
  | VPtr w => match t with
              | GPtr t' => match w with VNil | VPtr _ | VDyn _ _ | VRaw _ => false | _ => true end && wfr t' w
              | _ => false
              end
  | VSlice l => match t with GSlice t' => forallb (wfr t') l | _ => false end
  | VMap l => match t with
              | GMap _ _ t' => msorted l && forallb (fun kv => utf8b (fst kv) && wfr t' (snd kv)) l
              | GExt => msorted l && forallb (fun kv => utf8b (fst kv) &&
                          match snd kv with
                          | VDyn t' (VPtr w) => gty_eqb t' (GPtr (ext_ty (fst kv))) && wfr (ext_ty (fst kv)) w
                          | _ => false
                          end) l
              | _ => false
              end
  | VDyn t' w => match t with GIface => wfr t' w | _ => false end
  | VStruct vs => match t with GStruct _ fs => forallb (fun ft => utf8b (fm_key (fst ft))) fs && wf_fields wfr fs vs | _ => false end
  | VRaw _ => false
  end.

Lemma ext_set k w : wfr (ext_ty k) w = true -> w <> VNil -> match w with VNil | VPtr _ | VDyn _ _ | VRaw _ => false | _ => true end = true.
Proof. destruct (ext_ty_shape k) as [(n & fs & ->)| ->]; destruct w; intros W N; try discriminate W; try reflexivity; contradiction. Qed.
Lemma wfr_wf v : (forall t, wfr t v = true -> years v = true -> wf rnd t v = true) /\
  match v with
  | VDyn _ (VPtr w) => forall t, wfr t w = true -> years w = true -> wf rnd t w = true
  | VPtr w => forall t, wfr t w = true -> years w = true -> wf rnd t w = true
  | _ => True
  end.
Proof.
  induction v using gval_ind'; (split; [intros t0 W Y; cbn [wfr years wf] in *; try assumption|try exact I]).
  - destruct t0; try discriminate. exact Y.
  - destruct t0; try discriminate. apply andb_true_iff in W as [-> W]. now apply IHv.
  - apply IHv.
  - destruct t0; try discriminate. rewrite forallb_forall in *. rewrite Forall_forall in H. intros x I. apply H; auto.
  - rewrite forallb_forall in Y. rewrite Forall_forall in H. destruct t0; try discriminate; apply andb_true_iff in W as [-> W]; rewrite forallb_forall in W; cbn [andb]; apply forallb_forall; intros kv I; specialize (W _ I); apply andb_true_iff in W as [-> W]; cbn [andb].
    + apply H; auto.
    + specialize (Y _ I). assert (X := proj2 (H _ I)). destruct (snd kv) as [| | | | | | | | | | | |t' w|]; try discriminate. destruct w as [| | | | | | | |w| | | | |]; try discriminate. apply andb_true_iff in W as [W1 W2]. rewrite W1.
      apply gty_eqb_eq in W1. subst t'. cbn [wf]. cbn [years] in Y. assert (N : w <> VNil) by (intros ->; discriminate Y). rewrite (ext_set _ _ W2 N), (X _ W2); [reflexivity|]. destruct w; try exact Y. contradiction.
  - destruct t0; try discriminate. apply andb_true_iff in W as [-> W]. cbn [andb]. revert fields W. induction H as [|[k x] l Hx Hl IH]; intros [|[m t] fs] W; cbn [wf_fields] in *; try discriminate; [reflexivity|].
    rewrite !andb_true_iff in W. destruct W as [[-> W2] W3]. cbn [forallb snd] in Y, Hx. apply andb_true_iff in Y as [Y1 Y2]. rewrite (proj1 Hx _ W2 Y1). cbn [andb]. now apply IH.
  - destruct t0; try discriminate. apply IHv; [exact W|]. destruct v; try exact Y. destruct v; try exact Y. discriminate Y.
  - destruct v; try exact I. exact (proj2 IHv).
Qed.

(** Numbers settle and integers do not overflow. *)
Hypothesis ST : settled rnd.
Hypothesis IN : forall z, int64_ok z = true -> int_to_float rnd z <> None.

Lemma wfr_struct n fs x : wfr (GStruct n fs) x = true -> exists vs, x = VStruct vs /\ forallb (fun ft => utf8b (fm_key (fst ft))) fs = true /\ wf_fields wfr fs vs = true.
Proof. destruct x; cbn [wfr]; intros H; try discriminate. apply andb_true_iff in H as [A B]. eauto. Qed.
Lemma wfr_path n fs v p m t : flat_ok fs -> wfr (GStruct n fs) v = true -> has_path fs p m t -> wfr t (get_path p v) = true.
Proof.
  intros (N & _ & E) W H. destruct (wfr_struct _ _ _ W) as (vs & -> & _ & WF).
  destruct H as [m t Hin Em|mb nb fsb m t Hin Em Hin'].
  - destruct (combine_ex _ vs _ (wf_fields_len _ _ _ WF) Hin) as ([nm x] & Hc).
    cbn [get_path]. rewrite (combine_get _ _ _ _ _ _ _ N WF Hc).
    now destruct (wf_fields_combine _ _ _ WF _ _ _ _ Hc).
  - destruct (combine_ex _ vs _ (wf_fields_len _ _ _ WF) Hin) as ([nm x] & Hc).
    cbn [get_path]. rewrite (combine_get _ _ _ _ _ _ _ N WF Hc).
    destruct (wf_fields_combine _ _ _ WF _ _ _ _ Hc) as [_ Wx]. destruct (wfr_struct _ _ _ Wx) as (vs' & -> & _ & WF').
    destruct (E _ _ Hin Em) as (n' & fs' & Q & N'). injection Q as <- <-.
    destruct (combine_ex _ vs' _ (wf_fields_len _ _ _ WF') Hin') as ([nm' x'] & Hc').
    rewrite (combine_get _ _ _ _ _ _ _ N' WF' Hc').
    now destruct (wf_fields_combine _ _ _ WF' _ _ _ _ Hc').
Qed.
Lemma wfr_set_field n fs v m t x : NoDup (names fs) -> wfr (GStruct n fs) v = true -> In (m, t) fs -> wfr t x = true ->
  wfr (GStruct n fs) (set_field (fm_name m) x v) = true.
Proof.
  intros N W Hin Tx. destruct (wfr_struct _ _ _ W) as (vs & -> & U & WF). cbn [set_field wfr]. rewrite U. cbn [andb]. eapply wf_fields_areplace; eauto.
Qed.
Lemma wfr_set_path n fs v p m t x : flat_ok fs -> wfr (GStruct n fs) v = true -> has_path fs p m t -> wfr t x = true ->
  wfr (GStruct n fs) (set_path p x v) = true.
Proof.
  intros (N & K & E) W H Tx. destruct H as [m t Hin Em|mb nb fsb m t Hin Em Hin']; cbn [set_path].
  - eapply wfr_set_field; eauto.
  - eapply wfr_set_field; [exact N|exact W|exact Hin|]. destruct (E _ _ Hin Em) as (n' & fs' & Q & N'). injection Q as <- <-.
    eapply wfr_set_field; [exact N'| |exact Hin'|exact Tx].
    destruct (wfr_struct _ _ _ W) as (vs & -> & _ & WF).
    destruct (combine_ex _ vs _ (wf_fields_len _ _ _ WF) Hin) as ([nm y] & Hc).
    rewrite (combine_get _ _ _ _ _ _ _ N WF Hc). now destruct (wf_fields_combine _ _ _ WF _ _ _ _ Hc).
Qed.

(** Types whose field names are UTF-8. *)
Fixpoint utf8_ty (t : gty) : bool :=
  match t with
  | GPtr t' | GSlice t' | GMap _ _ t' => utf8_ty t'
  | GStruct _ fs => forallb (fun ft => utf8b (fm_key (fst ft)) && utf8_ty (snd ft)) fs
  | GRaw => false
  | _ => true
  end.
Lemma wfr_zero t : utf8_ty t = true -> wfr t (zero t) = true.
Proof.
  induction t using gty_ind'; intros U; try reflexivity; try discriminate.
  - cbn [zero wfr]. assert (X := IN 0 eq_refl). destruct (int_to_float rnd 0); [reflexivity|contradiction].
  - exact (zero_f64 rnd ST).
  - rewrite zero_struct. cbn [wfr utf8_ty] in *. rewrite forallb_forall in U. apply andb_true_iff. split.
    + apply forallb_forall. intros ft I. specialize (U _ I). now apply andb_true_iff in U.
    + induction H as [|[m t] fs Ht Hf IH]; [reflexivity|]. cbn [map fst snd wf_fields]. rewrite String.eqb_refl. cbn [fst snd andb] in *.
      assert (U1 := U _ (or_introl eq_refl)). cbn [fst snd] in U1. apply andb_true_iff in U1 as [_ U1]. rewrite (Ht U1). apply IH. intros x I. apply U. now right.
Qed.
Lemma ext_utf8 k : utf8_ty (ext_ty k) = true.
Proof.
  unfold ext_ty. destruct (alookup k ext_types) as [t|] eqn:E; [|reflexivity]. apply alookup_Some_In in E.
  assert (X : forallb (fun kt => utf8_ty (snd kt)) ext_types = true) by (vm_compute; reflexivity). rewrite forallb_forall in X. exact (X _ E).
Qed.
Lemma wfr_fresh k : wfr (ext_ty k) (fresh (ext_ty k)) = true.
Proof. destruct (ext_ty_shape k) as [(n & fs & E)|E]; [assert (X := wfr_zero _ (ext_utf8 k)); rewrite E in *; exact X|rewrite E; reflexivity]. Qed.

Notation dec := (dec rnd).
Lemma dbind_ok {A B} (x : dres A) (f : A -> dres B) b : dbind x f = DOk b false -> exists a, x = DOk a false /\ f a = DOk b false.
Proof. intros D. apply dbind_inv in D as (a & e1 & e2 & -> & F & E). destruct e1, e2; try discriminate. eauto. Qed.

Lemma dec_struct_wfr (f : json -> gty -> gval -> dres gval) n fs : flat_ok fs -> forall ms cur v,
  (forall k x p m t old v, In (k, x) ms -> has_path fs p m t -> wfr t old = true -> f x t old = DOk v false -> wfr t v = true) ->
  wfr (GStruct n fs) cur = true -> dec_struct f (flat_fields fs) ms cur = DOk v false -> wfr (GStruct n fs) v = true.
Proof.
  intros F. induction ms as [|[k x] ms IH]; intros cur v H T D; cbn [dec_struct] in D.
  - injection D as <-. exact T.
  - fold (dec_struct f (flat_fields fs)) in D. assert (H' := fun k x p m t old v Hin => H k x p m t old v (or_intror Hin)).
    destruct (find_field k (flat_fields fs)) as [[p t]|] eqn:E; [|eapply IH; eauto].
    apply dbind_ok in D as (w & D1 & D2). destruct (find_field_In _ _ _ _ E) as [k' Hk].
    apply flat_fields_In in Hk as (m & HP & _). eapply IH; [exact H'| |exact D2].
    eapply wfr_set_path; eauto. eapply H; [now left|exact HP| |exact D1]. eapply wfr_path; eauto.
Qed.

Lemma parse_float_f64 l f : parse_float rnd l = Some f -> is_f64 rnd f = true.
Proof. unfold parse_float. destruct (dec_of_lexeme l) as [[[n m] e]|]; [|discriminate]. apply (proj2 ST). Qed.
Lemma unq_utf8b raw s : unq raw = Some s -> utf8b s = true.
Proof. intros U. apply utf8b_spec. exact (unq_utf8 _ _ U). Qed.

Lemma dec_any_wfr j : json_okb j = true -> forall v, dec_any rnd j = DOk v false -> wfr GIface v = true.
Proof.
  induction j using json_ind'; intros J v D; cbn [dec_any json_okb] in J, D.
  - injection D as <-. reflexivity.
  - injection D as <-. reflexivity.
  - destruct (parse_float rnd l) eqn:E; [|discriminate]. injection D as <-. exact (parse_float_f64 _ _ E).
  - destruct (unq r) eqn:E; [|discriminate]. injection D as <-. exact (unq_utf8b _ _ E).
  - apply dbind_ok in D as (vs & D1 & D2). injection D2 as <-. cbn [wfr].
    revert vs D1. generalize (@nil gval). induction H as [|x l Hx Hl IH]; intros old vs D1; cbn [dec_list] in D1.
    + injection D1 as <-. reflexivity.
    + cbn [forallb] in J. apply andb_true_iff in J as [J1 J2]. apply dbind_ok in D1 as (w & D1 & D3). apply dbind_ok in D3 as (ws & D3 & D4). injection D4 as <-.
      cbn [forallb]. rewrite (Hx J1 _ D1). eapply IH; eauto.
  - apply dbind_ok in D as (vs & D1 & D2). injection D2 as <-. cbn [wfr].
    assert (G : forall acc vs, msorted acc && forallb (fun kv => utf8b (fst kv) && wfr GIface (snd kv)) acc = true ->
       dec_mems (dec_any rnd) l acc = DOk vs false -> msorted vs && forallb (fun kv => utf8b (fst kv) && wfr GIface (snd kv)) vs = true); [|eapply G; [|exact D1]; reflexivity].
    clear D1 vs. induction H as [|[k x] l Hx Hl IH]; intros acc vs A D1; cbn [dec_mems] in D1.
    + injection D1 as <-. exact A.
    + cbn [forallb fst snd] in J. rewrite !andb_true_iff in J. destruct J as [[J0 J1] J2]. apply dbind_ok in D1 as (w & D1 & D3). eapply IH; [exact J2| |exact D3].
      apply andb_true_iff in A as [A1 A2]. apply minsert_forall; auto. cbn [fst snd]. rewrite J0. exact (Hx J1 _ D1).
Qed.

(** The claim proved by induction on the JSON value. *)
Definition T j := json_okb j = true -> forall t old v, ty_ok t = true -> utf8_ty t = true -> wfr t old = true -> dec j t old = DOk v false -> wfr t v = true.

Lemma enum_wfr name j v : enum_unmarshal name j = DOk v false -> wfr (GEnum name) v = true.
Proof.
  assert (X : forall s, wfr (GEnum name) (enum_or_zero name s) = true) by (intros s; unfold enum_or_zero; destruct (enum_find name s); reflexivity).
  unfold enum_unmarshal. destruct (String.eqb name "ExtensionType").
  - destruct j; try discriminate; [|destruct (unq raw); [|discriminate]]; intros Q; injection Q as <-; apply X.
  - destruct (mem_str name _); [|destruct (String.length (print j) <? 3)%nat; [intros Q; injection Q as <-; reflexivity|]];
      (destruct (inner_slice (print j)); try discriminate; intros Q; injection Q as <-; apply X).
Qed.
Lemma bin_wfr j v : bin_unmarshal j = DOk v false -> wfr GBinary v = true.
Proof.
  destruct j; cbn [bin_unmarshal]; try discriminate.
  - intros Q. injection Q as <-. reflexivity.
  - destruct (unq raw); [|discriminate]. destruct (b64_decode s); [|discriminate]. intros Q. injection Q as <-. reflexivity.
  - destruct (dec_bytes l) as [s [|]| |]; try discriminate. intros Q. injection Q as <-. reflexivity.
Qed.
Lemma parse_int_ok l z : parse_int l = Some z -> int64_ok z = true.
Proof.
  unfold parse_int. destruct (lex_num l) as [[[[neg ip] fp] [eneg ep]]|]; [|discriminate]. destruct fp; [|discriminate]. destruct ep; [|discriminate].
  destruct (int64_ok _) eqn:E; [|discriminate]. intros Q. injection Q as <-. exact E.
Qed.

(** A pointer that is set points to a value. *)
Lemma dec_set j t old v : (forall t', t <> GPtr t' /\ t <> GSlice t') -> t <> GIface -> t <> GExt -> t <> GRaw -> t <> GBinary -> j <> JNull ->
  wfr t v = true -> dec j t old = DOk v false -> match v with VNil | VPtr _ | VDyn _ _ | VRaw _ => false | _ => true end = true.
Proof.
  intros N1 N2 N3 N4 N5 J W D. destruct v; try reflexivity; try (destruct t; discriminate W || contradiction).
  - destruct t; try discriminate W; try contradiction; try (destruct (N1 t); contradiction).
    destruct j; try contradiction; try discriminate D. rewrite dec_map_obj in D. apply dbind_ok in D as (m & _ & D). discriminate D.
  - destruct t; try discriminate W. destruct (N1 t). contradiction.
Qed.

Lemma dec_wfr_step j : (forall l, j = JArr l -> Forall T l) -> (forall l, j = JObj l -> Forall (fun kv => T (snd kv)) l) -> T j.
Proof.
  intros HA HO J t. induction t using gty_ind'; intros old v OK U TO D.
  - destruct j; cbn in D; try discriminate; try (injection D as <-; exact TO). destruct (unq raw) eqn:E; [|discriminate]. injection D as <-. exact (unq_utf8b _ _ E).
  - destruct j; cbn in D; try discriminate; try (injection D as <-; exact TO). destruct (parse_int lexeme) as [z|] eqn:E; [|discriminate]. injection D as <-.
    cbn [wfr]. assert (X := parse_int_ok _ _ E). rewrite X. assert (Y := IN _ X). destruct (int_to_float rnd z); [reflexivity|contradiction].
  - destruct j; cbn in D; try discriminate; try (injection D as <-; exact TO || reflexivity).
  - destruct j; cbn in D; try discriminate; try (injection D as <-; exact TO). destruct (parse_float rnd lexeme) eqn:E; [|discriminate]. injection D as <-. exact (parse_float_f64 _ _ E).
  - rewrite dec_enum in D. eapply enum_wfr; eauto.
  - rewrite dec_time in D. unfold time_unmarshal in D. destruct (ts_unmarshal (print j)); try discriminate. injection D as <-. reflexivity.
  - rewrite dec_bin in D. eapply bin_wfr; eauto.
  - rewrite dec_ptr in D. cbn [ty_ok utf8_ty] in OK, U. apply andb_true_iff in OK as [OK1 OK].
    assert (TO' : wfr t (match old with VPtr v => v | _ => zero t end) = true).
    { destruct old; try now apply wfr_zero. cbn [wfr] in TO. now apply andb_true_iff in TO. }
    assert (D' : j = JNull /\ v = VNil \/ j <> JNull /\ exists w, dec j t (match old with VPtr v => v | _ => zero t end) = DOk w false /\ v = VPtr w).
    { destruct j; try (injection D as <-; left; now split); right; (split; [discriminate|]); apply dbind_ok in D as (w & D1 & D2); injection D2 as <-; eauto. }
    destruct D' as [[_ ->]|(Nj & w & D1 & ->)]; [reflexivity|]. cbn [wfr]. assert (Ww := IHt _ _ OK U TO' D1). rewrite Ww, andb_true_r.
    eapply dec_set; [| | | | |exact Nj|exact Ww|exact D1]; try (intros ->; discriminate OK1). intros t'. split; intros ->; discriminate OK1.
  - cbn [ty_ok utf8_ty] in OK, U. destruct j; try discriminate D; try (injection D as <-; exact TO || reflexivity).
    + destruct t; try discriminate D. cbn in D. destruct (unq raw) as [s|]; [|discriminate].
      destruct (b64_decode s); [|discriminate]. injection D as <-. cbn [wfr]. apply forallb_forall. intros x Hx.
      apply in_map_iff in Hx as (c & <- & _). reflexivity.
    + rewrite dec_slice_arr in D. apply dbind_ok in D as (vs & D1 & D2). injection D2 as <-. cbn [wfr].
      assert (TL : forallb (wfr t) (old_list old) = true) by (destruct old; try reflexivity; exact TO).
      specialize (HA l eq_refl). clear HO TO IHt. cbn [json_okb] in J. revert vs D1 TL. generalize (old_list old). clear old.
      induction HA as [|x l Hx Hl IH]; intros ol vs D1 TL; cbn [dec_list] in D1.
      * injection D1 as <-. reflexivity.
      * cbn [forallb] in J. apply andb_true_iff in J as [J1 J2]. apply dbind_ok in D1 as (w & D1 & D3). apply dbind_ok in D3 as (ws & D3 & D4). injection D4 as <-.
        cbn [forallb]. fold (dec_list (fun x o => dec x t o) (zero t)) in D3. apply andb_true_iff. split.
        -- eapply (Hx J1); [exact OK|exact U| |exact D1]. destruct ol; [now apply wfr_zero|]. cbn in TL. now apply andb_true_iff in TL.
        -- eapply IH; [exact J2|exact D3|]. destruct ol; [reflexivity|]. cbn in TL. now apply andb_true_iff in TL.
  - cbn [ty_ok utf8_ty] in OK, U. destruct j; try discriminate D; try (injection D as <-; exact TO || reflexivity).
    rewrite dec_map_obj in D. apply dbind_ok in D as (vs & D1 & D2). injection D2 as <-. cbn [wfr].
    assert (TL : msorted (old_map old) && forallb (fun kv => utf8b (fst kv) && wfr t (snd kv)) (old_map old) = true) by (destruct old; try reflexivity; exact TO).
    specialize (HO l eq_refl). clear HA TO IHt. cbn [json_okb] in J. revert vs D1 TL. generalize (old_map old). clear old.
    induction HO as [|[k' x] l Hx Hl IH]; intros acc vs D1 TL; cbn [dec_mems] in D1.
    + injection D1 as <-. exact TL.
    + cbn [forallb fst snd] in J. rewrite !andb_true_iff in J. destruct J as [[J0 J1] J2]. apply dbind_ok in D1 as (w & D1 & D3). fold (dec_mems (fun x => dec x t (zero t))) in D3. eapply IH; [exact J2|exact D3|].
      apply andb_true_iff in TL as [A1 A2]. apply minsert_forall; auto. cbn [fst snd]. rewrite J0. eapply (Hx J1); [exact OK|exact U|now apply wfr_zero|exact D1].
  - rewrite dec_iface in D. eapply dec_any_wfr; eauto.
  - destruct (ty_ok_flat _ _ OK) as (F & FT & _). destruct j; try discriminate D; try (injection D as <-; exact TO).
    rewrite dec_struct_obj in D. eapply dec_struct_wfr; [exact F| |exact TO|exact D].
    intros k x p m t o w Hin HP To De. specialize (HO l eq_refl). rewrite Forall_forall in HO.
    destruct (has_path_plain _ _ _ _ (fun m t H => proj1 (FT m t H)) HP) as [_ Hin'].
    eapply (HO _ Hin); [| | |exact To|exact De].
    + cbn [json_okb] in J. rewrite forallb_forall in J. specialize (J _ Hin). now apply andb_true_iff in J.
    + now destruct (FT _ _ Hin') as (_ & _ & Tt).
    + cbn [utf8_ty] in U. rewrite forallb_forall in U. specialize (U _ Hin'). now apply andb_true_iff in U.
  - destruct j; try (discriminate D); try (injection D as <-; reflexivity).
    rewrite dec_ext_obj in D. apply dbind_ok in D as (vs & D1 & D2). injection D2 as <-. cbn [wfr].
    specialize (HO l eq_refl). clear HA TO. cbn [json_okb] in J.
    set (P := fun kv : string * gval => utf8b (fst kv) && match snd kv with
                          | VDyn t' (VPtr w) => gty_eqb t' (GPtr (ext_ty (fst kv))) && wfr (ext_ty (fst kv)) w
                          | _ => false
                          end).
    assert (G : forall acc vs, dec_ext dec l acc = DOk vs false -> msorted acc && forallb P acc = true -> msorted vs && forallb P vs = true); [|eapply G; [exact D1|reflexivity]].
    clear D1 vs. induction HO as [|[k x] l Hx Hl IH]; intros acc vs D1 TL; cbn [dec_ext] in D1.
    + injection D1 as <-. exact TL.
    + cbn [forallb fst snd] in J. rewrite !andb_true_iff in J. destruct J as [[J0 J1] J2]. fold (dec_ext dec) in D1. destruct (mem_str k (map fst l)); [eapply IH; eauto|].
      destruct (dec x (ext_ty k) (fresh (ext_ty k))) as [w [|]| |] eqn:Dx; try discriminate. eapply IH; [exact J2|exact D1|].
      apply andb_true_iff in TL as [A1 A2]. apply minsert_forall; auto. unfold P. cbn [fst snd wfr]. rewrite J0, gty_eqb_refl. cbn [andb].
      eapply (Hx J1); [apply ext_ty_ok|apply ext_utf8|apply wfr_fresh|exact Dx].
  - discriminate U.
Qed.

Lemma dec_wfr_all j : T j.
Proof.
  induction j using json_ind'; apply dec_wfr_step; intros l' Q; try discriminate Q; injection Q as <-; assumption.
Qed.

Theorem dec_obj_wfr j n fs old v : json_okb j = true -> flat_ok fs -> (forall p m t, has_path fs p m t -> ty_ok t = true /\ utf8_ty t = true) ->
  wfr (GStruct n fs) old = true -> dec j (GStruct n fs) old = DOk v false -> wfr (GStruct n fs) v = true.
Proof.
  intros J F FT TO D. destruct j; try discriminate D; try (injection D as <-; exact TO).
  rewrite dec_struct_obj in D. eapply dec_struct_wfr; [exact F| |exact TO|exact D].
  intros k x p m t o w Hin HP To De. destruct (FT _ _ _ HP) as [A B]. cbn [json_okb] in J. rewrite forallb_forall in J. specialize (J _ Hin). apply andb_true_iff in J as [_ J].
  exact (dec_wfr_all x J t o w A B To De).
Qed.
End Read.
Lemma path_utf8 n fs p m t : utf8_ty (GStruct n fs) = true -> has_path fs p m t -> utf8_ty t = true.
Proof.
  intros U H. cbn [utf8_ty] in U. rewrite forallb_forall in U. destruct H as [m t Hin _|mb nb fsb m t Hin _ Hin'].
  - specialize (U _ Hin). now apply andb_true_iff in U.
  - specialize (U _ Hin). apply andb_true_iff in U as [_ U]. cbn [snd utf8_ty] in U. rewrite forallb_forall in U. specialize (U _ Hin'). now apply andb_true_iff in U.
Qed.
