(** Lemmas for PropNames: what encoding/json writes for a Go type has the shape
    of the type. *)
From Verif Require Import GoStr JsonStr Json Float Consts Enums GoTypes Schema GoVal Time Base64 Codec CodecSpec Stix21
  GoStrFacts GoValFacts CodecFacts StructFacts CodecRound ObjFacts StoreFacts.
Local Open Scope string_scope.

(** The name of a Go struct in the tables. *)
Definition record_names : list (string * string) :=
  [("ExternalReference", "external-reference"); ("GranularMarking", "granular-marking"); ("KillChainPhase", "kill-chain-phase");
   ("STIXCyberObservableObject", "observable"); ("EmailMIME", "mime-part"); ("RegistryValue", "windows-registry-value");
   ("X509v3Extension", "x509-v3-extensions"); ("AltDataStream", "alternate-data-stream"); ("WindowsPESection", "windows-pe-section");
   ("WindowsPEOptionalHeader", "windows-pe-optional-header"); ("ArchiveFileExtension", "archive-ext"); ("NTFSFileExtension", "ntfs-ext");
   ("PDFExtension", "pdf-ext"); ("RasterImageExtension", "raster-image-ext"); ("WindowsPEBinaryExtension", "windows-pebinary-ext");
   ("HTTPRequestExtension", "http-request-ext"); ("ICMPExtension", "icmp-ext"); ("SocketExtension", "socket-ext"); ("TCPExtension", "tcp-ext");
   ("WindowsProcessExtension", "windows-process-ext"); ("WindowsServiceExtension", "windows-service-ext"); ("UNIXAccountExtension", "unix-account-ext")].
Definition record_name (n : string) : string := match alookup n record_names with Some r => r | None => "" end.

Fixpoint shape_of (t : gty) : Stix21.shape :=
  match t with
  | GString _ | GEnum _ => Str
  | GTime => Time
  | GBinary => Bin
  | GInt _ => Int
  | GFloat => Num
  | GBool => Bool
  | GPtr t' => shape_of t'
  | GSlice t' => ListOf (shape_of t')
  | GMap _ _ t' => MapOf (shape_of t')
  | GExt => MapOf Any
  | GIface | GRaw => Any
  | GStruct n _ => Rec (record_name n)
  end.
Fixpoint shape_eqb (a b : Stix21.shape) : bool :=
  match a, b with
  | Str, Str | Time, Time | Bin, Bin | Int, Int | Num, Num | Bool, Bool | Any, Any => true
  | ListOf x, ListOf y | MapOf x, MapOf y => shape_eqb x y
  | Rec x, Rec y => String.eqb x y
  | _, _ => false
  end.
Lemma shape_eqb_eq a : forall b, shape_eqb a b = true -> a = b.
Proof.
  induction a; intros b E; destruct b; try discriminate E; try reflexivity; cbn [shape_eqb] in E.
  - f_equal. now apply IHa.
  - f_equal. now apply IHa.
  - f_equal. now apply String.eqb_eq.
Qed.

(** Every field is a row; a field that may be left out is no required row;
    the required rows are fields that are not left out. *)
Definition row_for (rows : list row) (m : fmeta) (s : Stix21.shape) (always : bool) : bool :=
  existsb (fun r : row => let '(k, s', b) := r in String.eqb k (fm_key m) && shape_eqb s' s && Bool.eqb b always) rows.
Definition plain_field_ok (rows : list row) (m : fmeta) (t : gty) : bool :=
  is_empty (fm_key m) ||
  row_for rows m (shape_of t) (negb (fm_omit m) || match t with GStruct _ _ => true | _ => false end).
Definition rows_covered (rows : list row) (fs : list (fmeta * gty)) (always : fmeta -> gty -> bool) : bool :=
  forallb (fun r : row => let '(k, _, b) := r in negb b ||
    existsb (fun ft : fmeta * gty => String.eqb (fm_key (fst ft)) k && always (fst ft) (snd ft)) fs) rows &&
  forallb (fun r : row => negb (is_empty (fst (fst r)))) rows.
Definition always_plain (m : fmeta) (t : gty) : bool := negb (fm_omit m) || match t with GStruct _ _ => true | _ => false end.

Fixpoint ty_shaped (t : gty) : bool :=
  match t with
  | GPtr t' => match t' with GTime | GStruct _ _ => true | _ => false end && ty_shaped t'
  | GSlice t' | GMap _ _ t' => ty_shaped t'
  | GStruct n fs =>
      match alookup (record_name n) stix_records with
      | Some rows => rows_covered rows fs always_plain &&
          forallb (fun ft : fmeta * gty => plain_field_ok rows (fst ft) (snd ft) && (is_empty (fm_key (fst ft)) || ty_shaped (snd ft))) fs &&
          nodupb (filter (fun k => negb (is_empty k)) (map (fun ft => fm_key (fst ft)) fs))
      | None => false
      end
  | _ => true
  end.

Lemma enc_list_In (f : gval -> res json) l : forall js, enc_list f l = Ok js -> forall j, In j js -> exists x, In x l /\ f x = Ok j.
Proof.
  induction l as [|x l IH]; intros js E j H; cbn [enc_list] in E.
  - injection E as <-. destruct H.
  - apply bind_ok in E as (j0 & E1 & E). apply bind_ok in E as (js' & E2 & E). injection E as <-. destruct H as [<-|H].
    + exists x. split; [now left|exact E1].
    + destruct (IH _ E2 _ H) as (y & Hy & Ey). exists y. split; [now right|exact Ey].
Qed.
Lemma enc_mems_In (f : gval -> res json) l : forall js, enc_mems f l = Ok js -> forall k j, In (k, j) js -> exists x, In (k, x) l /\ f x = Ok j.
Proof.
  induction l as [|[k0 x] l IH]; intros js E k j H; cbn [enc_mems] in E.
  - injection E as <-. destruct H.
  - apply bind_ok in E as (j0 & E1 & E). apply bind_ok in E as (js' & E2 & E). injection E as <-. destruct H as [H|H].
    + injection H as <- <-. exists x. split; [now left|exact E1].
    + destruct (IH _ E2 _ _ H) as (y & Hy & Ey). exists y. split; [now right|exact Ey].
Qed.

Lemma row_for_In rows m s b : row_for rows m s b = true -> In (fm_key m, s, b) rows.
Proof.
  unfold row_for. intros H. apply existsb_exists in H as ([[k s'] b'] & Hin & E). rewrite !andb_true_iff in E. destruct E as [[E1 E2] E3].
  apply String.eqb_eq in E1. apply shape_eqb_eq in E2. apply Bool.eqb_prop in E3. now subst.
Qed.
Lemma rows_covered_In rows fs al : rows_covered rows fs al = true -> forall k s, In (k, s, true) rows ->
  k <> "" /\ exists m t, In (m, t) fs /\ fm_key m = k /\ al m t = true.
Proof.
  unfold rows_covered. intros H k s Hin. apply andb_true_iff in H as [H1 H2]. rewrite forallb_forall in H1, H2.
  specialize (H1 _ Hin). specialize (H2 _ Hin). cbn [fst] in H2. cbn beta iota in H1. split.
  - intros ->. discriminate.
  - cbn [negb orb] in H1. apply existsb_exists in H1 as ([m t] & H & E). apply andb_true_iff in E as [E1 E2]. apply String.eqb_eq in E1.
    cbn [fst snd] in *. eauto.
Qed.

Lemma nil_may_null t : ty_shaped t = true -> storable t VNil = true -> may_null (shape_of t) = true.
Proof.
  destruct t; cbn [storable]; intros T H; try discriminate; try reflexivity. cbn [ty_shaped shape_of] in *.
  destruct t; try discriminate; reflexivity.
Qed.
Lemma or_null t v j : ty_shaped t = true -> storable t v = true -> enc t v = Ok j -> (v <> VNil -> conforms (shape_of t) j) ->
  (j = JNull /\ v = VNil /\ may_null (shape_of t) = true) \/ conforms (shape_of t) j.
Proof.
  intros T S E H. destruct v; try (right; apply H; discriminate). left. cbn [enc] in E. injection E as <-. split; [reflexivity|]. split; [reflexivity|].
  now apply nil_may_null.
Qed.

Lemma enc_conforms v : forall t j, ty_shaped t = true -> storable t v = true -> enc t v = Ok j -> v <> VNil -> conforms (shape_of t) j.
Proof.
  induction v using gval_ind'; intros t0 jo T S E NN; cbn [storable] in S; cbn [enc] in E.
  - destruct t0; try discriminate. injection E as <-. constructor.
  - destruct t0; try discriminate. injection E as <-. constructor.
  - destruct t0; try discriminate. injection E as <-. constructor.
  - destruct t0; try discriminate. destruct (fmt_float f); [|discriminate]. injection E as <-. constructor.
  - destruct t0; try discriminate. injection E as <-. constructor.
  - destruct t0; try discriminate. injection E as <-. constructor.
  - destruct t0; try discriminate. injection E as <-. constructor.
  - contradiction (NN eq_refl).
  - destruct t0; try discriminate. cbn [ty_shaped] in T. apply andb_true_iff in T as [T1 T2]. cbn [shape_of].
    eapply IHv; eauto. intros ->. destruct t0; discriminate.
  - destruct t0; try discriminate. apply bind_ok in E as (js & E1 & E). injection E as <-. cbn [ty_shaped shape_of] in *. constructor.
    intros x Hx. destruct (enc_list_In _ _ _ E1 _ Hx) as (y & Hy & Ey). rewrite forallb_forall in S. specialize (S _ Hy).
    rewrite Forall_forall in H. destruct (or_null _ _ _ T S Ey (H _ Hy _ _ T S Ey)) as [(-> & _ & Q)|Q]; auto.
  - destruct t0; try discriminate.
    + apply bind_ok in E as (js & E1 & E). injection E as <-. cbn [ty_shaped shape_of] in *. constructor.
      intros k x Hx. destruct (enc_mems_In _ _ _ E1 _ _ Hx) as (y & Hy & Ey). apply andb_true_iff in S as [_ S].
      rewrite forallb_forall in S. specialize (S _ Hy). cbn [snd] in S.
      rewrite Forall_forall in H. destruct (or_null _ _ _ T S Ey (H _ Hy _ _ T S Ey)) as [(-> & _ & Q)|Q]; auto.
    + apply bind_ok in E as (js & E1 & E). injection E as <-. cbn [shape_of]. constructor. intros k x Hx. right. constructor.
  - destruct t0; try discriminate. apply bind_ok in E as (js & E1 & E). injection E as <-. cbn [ty_shaped] in T.
    destruct (alookup (record_name name) stix_records) as [rows|] eqn:Er; [|discriminate].
    rewrite !andb_true_iff in T. destruct T as [[T1 T2] T3]. rewrite forallb_forall in T2. cbn [shape_of].
    apply nodupb_NoDup in T3. assert (ND := enc_fields_nodup _ _ _ _ E1 T3).
    apply (c_rec _ rows _ (alookup_Some_In _ _ _ Er) ND).
    + intros k x Hx. destruct (enc_fields_In _ _ _ _ E1 _ _ Hx) as (m & t & n & v & H1 & -> & H3 & H4 & H5).
      assert (Hf := in_combine_l _ _ _ _ H1). specialize (T2 _ Hf). cbn [fst snd] in T2. apply andb_true_iff in T2 as [T2 T4].
      replace (is_empty (fm_key m)) with false in T4 by (symmetry; apply not_true_is_false; intros Z; apply is_empty_true in Z; contradiction).
      unfold plain_field_ok in T2.
      replace (is_empty (fm_key m)) with false in T2 by (symmetry; apply not_true_is_false; intros Z; apply is_empty_true in Z; contradiction).
      cbn [orb] in T2, T4. apply row_for_In in T2. do 2 eexists. split; [exact T2|].
      destruct (wf_fields_combine _ _ _ S _ _ _ _ H1) as [_ St].
      assert (Hv := in_combine_r _ _ _ _ H1). rewrite Forall_forall in H. specialize (H _ Hv _ _ T4 St H5). cbn [snd] in H.
      destruct (or_null _ _ _ T4 St H5 H) as [(-> & -> & Q)|Q]; [left|now right]. split; [reflexivity|]. split; [exact Q|].
      cbn [is_empty_val] in H4. rewrite andb_true_r in H4. now rewrite H4.
    + intros k s Hk. destruct (rows_covered_In _ _ _ T1 _ _ Hk) as (Nk & m & t & Hf & <- & Al).
      destruct (combine_ex _ l _ (wf_fields_len _ _ _ S) Hf) as ([n x] & Hc). eapply enc_fields_keys; [exact E1|exact Hc|exact Nk|].
      unfold always_plain in Al. destruct (fm_omit m); [|reflexivity]. cbn [negb orb andb] in *. destruct t; try discriminate.
      destruct (wf_fields_combine _ _ _ S _ _ _ _ Hc) as [_ St]. destruct (st_struct _ _ _ St) as (us & -> & _). reflexivity.
  - destruct t0; try discriminate. constructor.
  - destruct t0; try discriminate. constructor.
Qed.

(** The fields of an object, own and in the embedded base struct. *)
Definition flat_ft (fs : list (fmeta * gty)) : list (fmeta * gty) :=
  flat_map (fun ft : fmeta * gty => if fm_embed (fst ft) then match snd ft with GStruct _ fs' => fs' | _ => [] end else [ft]) fs.
Lemma flat_ft_path fs p m t : has_path fs p m t -> In (m, t) (flat_ft fs).
Proof.
  intros H. apply in_flat_map. destruct H as [m t Hin Em|mb nb fsb m t Hin Em Hin'].
  - exists (m, t). split; [exact Hin|]. cbn [fst]. rewrite Em. now left.
  - exists (mb, GStruct nb fsb). split; [exact Hin|]. cbn [fst snd]. now rewrite Em.
Qed.
Lemma path_flat_ft fs m t : In (m, t) (flat_ft fs) -> exists p, has_path fs p m t.
Proof.
  intros H. apply in_flat_map in H as ([mb tb] & Hin & H). cbn [fst snd] in H. destruct (fm_embed mb) eqn:Em.
  - destruct tb; try destruct H. eexists. eapply hp_base; eauto.
  - destruct H as [H|[]]. injection H as <- <-. eexists. now apply hp_own.
Qed.

Definition always_helper (m : fmeta) (t : gty) : bool := negb (fm_omit m) || match t with GBool => true | _ => false end.
Definition obj_shaped (rows : list row) (t : gty) : bool :=
  match t with
  | GStruct n fs =>
      let al := if mem_str n helper_types then always_helper else always_plain in
      rows_covered rows (flat_ft fs) al &&
      forallb (fun ft : fmeta * gty => is_empty (fm_key (fst ft)) ||
                 row_for rows (fst ft) (shape_of (snd ft)) (al (fst ft) (snd ft)) && ty_shaped (snd ft)) (flat_ft fs)
  | _ => false
  end.
Lemma obj_shaped_check : forallb (fun nt => match alookup (fst nt) stix_objects with Some rows => obj_shaped rows (snd nt) | None => false end) builtin_types = true.
Proof. vm_compute. reflexivity. Qed.
Lemma names_check : forallb (fun nr => mem_str (fst nr) (map fst builtin_types)) stix_objects && nodupb (map fst stix_objects) = true.
Proof. vm_compute. reflexivity. Qed.
Lemma ext_check : forallb (fun nt => ty_shaped (snd nt) && match snd nt with GStruct n _ => String.eqb (record_name n) (fst nt) | _ => false end) ext_types = true.
Proof. vm_compute. reflexivity. Qed.
