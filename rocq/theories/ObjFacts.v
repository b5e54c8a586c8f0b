(** Encoding and decoding of top level objects. *)
From Verif Require Import GoStr GoStrFacts JsonStr JsonStrFacts Json JsonFacts Float FloatFacts Consts Enums
  GoTypes Schema GoVal GoValFacts Time TimeFacts Codec CodecSpec CodecFacts StructFacts CodecRound.

Notation gmap := (list (string * (gty * gval))).
Definition ins (m : gmap) (kv : string * (gty * gval)) : gmap := minsert (fst kv) (snd kv) m.
Notation cfield := ((fmeta * gty) * (string * gval))%type.

Definition c_writes (c : cfield) : gmap :=
  let '((m, t), (_, x)) := c in if written m x then [(fm_key m, (t, x))] else [].
Definition c_missing (c : cfield) : bool := let '((m, t), (_, x)) := c in missing m x.

Definition props_in (v : gval) : list (string * gval) :=
  match get_field "toplevelProperties" v with VPtr (VMap l) => l | _ => [] end.
Definition pw (l : list (string * gval)) : gmap := map (fun kv => (fst kv, (GIface, snd kv))) l.

Lemma put_field_spec fm t x m :
  (missing fm x = true /\ exists e, put_field fm t x m = Err e) \/
  (missing fm x = false /\ put_field fm t x m = Ok (fold_left ins (c_writes ((fm, t), ("", x))) m)).
Proof.
  unfold put_field, missing, c_writes, written. destruct (is_empty (fm_key fm)); [right; now split|]. cbn [negb andb].
  destruct x; cbn [is_bool_val negb orb andb]; try (right; now split);
    (match goal with |- context [is_zero ?x] => destruct (is_zero x) end; destruct (fm_omit fm); cbn [negb andb];
     [right; now split|left; split; [reflexivity|eauto]|right; now split|right; now split]).
Qed.

Lemma c_writes_name fm t n n' x : c_writes ((fm, t), (n, x)) = c_writes ((fm, t), (n', x)).
Proof. reflexivity. Qed.

Lemma put_fields_spec fs : forall vs m,
  (existsb c_missing (combine fs vs) = true /\ exists e, put_fields fs vs m = Err e) \/
  (existsb c_missing (combine fs vs) = false /\ put_fields fs vs m = Ok (fold_left ins (flat_map c_writes (combine fs vs)) m)).
Proof.
  induction fs as [|[fm t] fs IH]; intros [|[n x] vs] m; cbn [combine put_fields existsb flat_map]; try (right; now split).
  destruct (put_field_spec fm t x m) as [[M [e E]]|[M E]]; cbn [c_missing]; rewrite M, E; cbn [bind orb].
  - left. split; [reflexivity|eauto].
  - rewrite fold_left_app. apply IH.
Qed.

Lemma put_all_fold l : forall m, put_all l m = fold_left ins (pw l) m.
Proof. induction l as [|[k x] l IH]; intros m; [reflexivity|]. apply IH. Qed.

Lemma overlay_spec n v m : overlay n v m =
  fold_left ins (pw (if mem_str n (base_structs ++ ["MarkingDefinition"; "LanguageContent"]) then props_in v else [])) m.
Proof.
  unfold overlay, props_in. destruct (mem_str n _); [|reflexivity].
  destruct (get_field "toplevelProperties" v); try reflexivity. destruct g; try reflexivity. apply put_all_fold.
Qed.

(** A field of a top level object: a base struct stands for its fields and its
    extended properties. *)
Definition t_writes (c : cfield) : gmap :=
  let '((m, t), (_, x)) := c in
  if fm_embed m then
    match t, x with
    | GStruct n fs, VStruct vs => flat_map c_writes (combine fs vs) ++ pw (props_in x)
    | _, _ => []
    end
  else c_writes c.
Definition t_missing (c : cfield) : bool :=
  let '((m, t), (_, x)) := c in
  if fm_embed m then
    match t, x with GStruct n fs, VStruct vs => existsb c_missing (combine fs vs) | _, _ => true end
  else c_missing c.

Lemma obj_ok_facts n fs : obj_ok (GStruct n fs) = true ->
  mem_str n base_structs = false /\ flat_ok fs /\
  (forall m t, In (m, t) fs -> fm_embed m = mem_str (fm_name m) base_structs /\ utf8b (fm_key m) = true /\ ty_ok t = true /\
     (fm_embed m = true -> fm_key m = "" /\ exists fs', t = GStruct (fm_name m) fs')) /\
  match filter (fun ft : fmeta * gty => fm_embed (fst ft)) fs with
      | [] => true
      | [_] => negb (mem_str n ["MarkingDefinition"; "LanguageContent"])
      | _ => false
      end = true.
Proof.
  cbn [obj_ok]. rewrite !andb_true_iff. intros [[[[H0 H1] H2] H3] H4].
  assert (F : forall m t, In (m, t) fs -> fm_embed m = mem_str (fm_name m) base_structs /\ utf8b (fm_key m) = true /\ ty_ok t = true /\
     (fm_embed m = true -> fm_key m = "" /\ exists fs', t = GStruct (fm_name m) fs')).
  { intros m t Hin. rewrite forallb_forall in H4. specialize (H4 _ Hin). cbn beta iota in H4.
    rewrite !andb_true_iff, Bool.eqb_true_iff in H4. destruct H4 as [[[A B] C] D].
    split; [exact A|]. split; [exact B|]. split; [exact C|]. intros Em. rewrite Em in D. apply andb_true_iff in D as [D1 D2]. split.
    - now apply is_empty_true.
    - destruct t; try discriminate. apply String.eqb_eq in D2. subst. eauto. }
  split; [now apply negb_true_iff|]. split; [|split; [exact F|exact H1]].
  split; [now apply nodupb_NoDup|]. split; [now apply nodupb_NoDup|].
  intros m t Hin Em. destruct (F _ _ Hin) as (_ & _ & T & G). destruct (G Em) as (_ & fs' & ->).
  exists (fm_name m), fs'. split; [reflexivity|]. now destruct (ty_ok_flat _ _ T) as [[N _] _].
Qed.

Lemma mem_app_l s a b : mem_str s a = true -> mem_str s (a ++ b) = true.
Proof. intros H. apply mem_str_In. apply mem_str_In in H. apply in_or_app. now left. Qed.

Lemma fields_to_map_spec (f : gty -> gval -> bool) fs : 
  (forall m t, In (m, t) fs -> fm_embed m = mem_str (fm_name m) base_structs /\
     (fm_embed m = true -> exists fs', t = GStruct (fm_name m) fs')) ->
  (forall n fs' x, f (GStruct n fs') x = true -> exists vs', x = VStruct vs') ->
  forall vs m, wf_fields f fs vs = true ->
  (existsb t_missing (combine fs vs) = true /\ exists e, fields_to_map fs vs m = Err e) \/
  (existsb t_missing (combine fs vs) = false /\ fields_to_map fs vs m = Ok (fold_left ins (flat_map t_writes (combine fs vs)) m)).
Proof.
  intros HF HV. induction fs as [|[fm t] fs IH]; intros [|[n x] vs] m W; cbn [wf_fields] in W; try discriminate;
    cbn [combine fields_to_map existsb flat_map]; [right; now split|].
  rewrite !andb_true_iff in W. destruct W as [[W1 W2] W3].
  destruct (HF fm t (or_introl eq_refl)) as [E1 E2].
  specialize (IH (fun m t H => HF m t (or_intror H))).
  rewrite <- E1. cbn [t_missing t_writes]. destruct (fm_embed fm) eqn:Em.
  - destruct (E2 eq_refl) as [fs' ->]. destruct (HV _ _ _ W2) as [vs' ->].
    cbn [base_to_map]. destruct (put_fields_spec fs' vs' m) as [[M [e E]]|[M E]]; rewrite M, E; cbn [bind orb].
    + left. split; [reflexivity|eauto].
    + rewrite overlay_spec. rewrite mem_app_l by congruence.
      rewrite fold_left_app, fold_left_app. apply IH. exact W3.
  - destruct (put_field_spec fm t x m) as [[M [e E]]|[M E]]; cbn [c_missing]; rewrite M, E; cbn [bind orb].
    + left. split; [reflexivity|eauto].
    + rewrite fold_left_app. apply IH. exact W3.
Qed.

Definition writes (t : gty) (v : gval) : gmap :=
  match t, v with
  | GStruct n fs, VStruct vs =>
      flat_map t_writes (combine fs vs) ++
      pw (if mem_str n (base_structs ++ ["MarkingDefinition"; "LanguageContent"]) then props_in v else [])
  | _, _ => []
  end.
Definition any_missing (t : gty) (v : gval) : bool :=
  match t, v with GStruct n fs, VStruct vs => existsb t_missing (combine fs vs) | _, _ => true end.

(** * The map built from the writes *)
Lemma msorted_fold l : forall m : gmap, msorted m = true -> msorted (fold_left ins l m) = true.
Proof. induction l as [|[k e] l IH]; intros m H; [exact H|]. cbn. apply IH. now apply msorted_minsert. Qed.
Lemma alookup_fold l : forall m k, msorted m = true ->
  alookup k (fold_left ins l m) = match alookup k (rev l) with Some e => Some e | None => alookup k m end.
Proof.
  induction l as [|[k' e] l IH]; intros m k H; [reflexivity|]. cbn [fold_left rev].
  rewrite IH by now apply msorted_minsert. unfold ins. cbn [fst snd]. rewrite alookup_minsert by exact H.
  clear. induction (rev l) as [|[k2 e2] r IH]; cbn [app alookup]; [now destruct (String.eqb k k')|].
  destruct (String.eqb k k2); [reflexivity|]. exact IH.
Qed.
Lemma In_fold l k e : In (k, e) (fold_left ins l []) -> alookup k (rev l) = Some e.
Proof.
  intros H. assert (S : msorted (fold_left ins l []) = true) by now apply msorted_fold.
  assert (A := alookup_In k e _ (msorted_nodup _ S) H). rewrite alookup_fold in A by reflexivity.
  destruct (alookup k (rev l)); [exact A|discriminate].
Qed.
Lemma keys_fold l k : In k (akeys (fold_left ins l [])) <-> In k (akeys l).
Proof.
  split; intros H.
  - destruct (alookup k (fold_left ins l [])) as [e|] eqn:E; [|apply alookup_None in E; contradiction].
    rewrite alookup_fold in E by reflexivity. destruct (alookup k (rev l)) as [e'|] eqn:E'; [|discriminate].
    apply alookup_Some_In in E'. apply in_rev in E'. exact (in_map fst _ _ E').
  - destruct (alookup k (fold_left ins l [])) as [e|] eqn:E.
    + apply alookup_Some_In in E. exact (in_map fst _ _ E).
    + exfalso. rewrite alookup_fold in E by reflexivity. destruct (alookup k (rev l)) as [e'|] eqn:E'; [discriminate|].
      apply alookup_None in E'. apply E'. unfold akeys. rewrite map_rev. apply in_rev. now rewrite rev_involutive.
Qed.

(** * Extended properties are a field like the others *)
Definition props_ok (t : gty) : bool :=
  match t with
  | GStruct n fs =>
      match props_path t with
      | Some (Some b, f) =>
          existsb (fun ft : fmeta * gty => let (m, t') := ft in
            String.eqb (fm_name m) b && fm_embed m &&
            match t' with
            | GStruct _ fs' => existsb (fun ft' : fmeta * gty => String.eqb (fm_name (fst ft')) f && is_empty (fm_key (fst ft')) &&
                                          gty_eqb (snd ft') (GPtr ty_CustomObject)) fs'
            | _ => false
            end) fs
      | Some (None, f) => existsb (fun ft : fmeta * gty => String.eqb (fm_name (fst ft)) f && negb (fm_embed (fst ft)) && is_empty (fm_key (fst ft)) &&
                                          gty_eqb (snd ft) (GPtr ty_CustomObject)) fs
      | None => true
      end
  | _ => false
  end.

Lemma props_ok_path n fs p : props_ok (GStruct n fs) = true -> props_path (GStruct n fs) = Some p ->
  exists m, has_path fs p m (GPtr ty_CustomObject) /\ fm_key m = "".
Proof.
  unfold props_ok. intros H E. rewrite E in H. destruct p as [[b|] f].
  - apply existsb_exists in H as ([m t'] & Hin & H). rewrite !andb_true_iff in H. destruct H as [[H1 H2] H3].
    apply String.eqb_eq in H1. destruct t'; try discriminate. apply existsb_exists in H3 as ([m' t''] & Hin' & H3).
    cbn [fst snd] in H3. rewrite !andb_true_iff in H3. destruct H3 as [[H3 H4] H5]. apply String.eqb_eq in H3. apply gty_eqb_eq in H5.
    apply is_empty_true in H4. subst. exists m'. split; [econstructor; eauto|exact H4].
  - apply existsb_exists in H as ([m t'] & Hin & H). cbn [fst snd] in H. rewrite !andb_true_iff in H. destruct H as [[[H1 H2] H3] H4].
    apply String.eqb_eq in H1. apply gty_eqb_eq in H4. apply is_empty_true in H3. apply negb_true_iff in H2. subst.
    exists m. split; [now constructor|exact H3].
Qed.

Lemma enc_no_panic v : forall t, enc t v <> Panic.
Proof.
  induction v using gval_ind'; intros t0; cbn [enc]; try discriminate; try (destruct t0; discriminate).
  - destruct (fmt_float f); discriminate.
  - destruct t0; try discriminate; apply IHv.
  - destruct t0; try discriminate. intros E. assert (G : enc_list (enc t0) l <> Panic).
    { clear E. induction H as [|x l Hx Hl IH]; cbn [enc_list]; [discriminate|]. specialize (Hx t0).
      destruct (enc t0 x); try discriminate; try contradiction. cbn [bind]. fold (enc_list (enc t0)).
      destruct (enc_list (enc t0) l); try discriminate. contradiction. }
    destruct (enc_list (enc t0) l); try discriminate. contradiction.
  - assert (G : forall t', enc_mems (enc t') l <> Panic).
    { intros t'. induction H as [|[k x] l Hx Hl IH]; cbn [enc_mems]; [discriminate|]. specialize (Hx t'). cbn [snd] in Hx.
      destruct (enc t' x); try discriminate; try contradiction. cbn [bind]. fold (enc_mems (enc t')).
      destruct (enc_mems (enc t') l); try discriminate. contradiction. }
    destruct t0; try discriminate; intros E.
    + specialize (G t0). destruct (enc_mems (enc t0) l); try discriminate. contradiction.
    + specialize (G GIface). destruct (enc_mems (enc GIface) l); try discriminate. contradiction.
  - destruct t0; try discriminate. assert (G : enc_fields enc fields l <> Panic).
    { revert fields. induction H as [|[k x] l Hx Hl IH]; intros [|[m t] fs]; cbn [enc_fields]; try discriminate.
      fold (enc_fields enc). destruct (is_empty (fm_key m)); [apply IH|]. destruct (fm_omit m && is_empty_val x); [apply IH|].
      specialize (Hx t). cbn [snd] in Hx. destruct (enc t x); try discriminate; try contradiction. cbn [bind].
      specialize (IH fs). destruct (enc_fields enc fs l); try discriminate. contradiction. }
    destruct (enc_fields enc fields l); try discriminate. contradiction.
  - apply IHv.
Qed.
Lemma enc_map_no_panic m : enc_map m <> Panic.
Proof.
  induction m as [|[k [t v]] m IH]; cbn [enc_map]; [discriminate|]. assert (P := enc_no_panic v t).
  destruct (enc t v); try discriminate; try contradiction. cbn [bind]. destruct (enc_map m); try discriminate. contradiction.
Qed.

Lemma enc_map_In m : forall js, enc_map m = Ok js -> forall k x, In (k, x) js -> exists t v, In (k, (t, v)) m /\ enc t v = Ok x.
Proof.
  induction m as [|[k0 [t0 v0]] m IH]; intros js E k x Hin; cbn [enc_map] in E; [injection E as <-; destruct Hin|].
  apply bind_ok in E as (j & E1 & E). apply bind_ok in E as (js' & E2 & E). injection E as <-.
  destruct Hin as [Q|Hin]; [injection Q as <- <-; exists t0, v0; split; [now left|exact E1]|].
  destruct (IH _ E2 _ _ Hin) as (t & v & H1 & H2). exists t, v. split; [now right|exact H2].
Qed.
Lemma enc_map_keys m : forall js, enc_map m = Ok js -> akeys js = akeys m.
Proof.
  induction m as [|[k0 [t0 v0]] m IH]; intros js E; cbn [enc_map] in E; [injection E as <-; reflexivity|].
  apply bind_ok in E as (j & E1 & E). apply bind_ok in E as (js' & E2 & E). injection E as <-.
  cbn. unfold akeys in IH. now rewrite (IH _ E2).
Qed.
Lemma enc_map_ok m : (forall k t v, In (k, (t, v)) m -> exists j, enc t v = Ok j) <-> exists js, enc_map m = Ok js.
Proof.
  induction m as [|[k0 [t0 v0]] m IH]; cbn [enc_map]; [split; [eauto|intros _ ? ? ? []]|]. split.
  - intros H. destruct (H k0 t0 v0 (or_introl eq_refl)) as [j E]. rewrite E. cbn [bind].
    destruct (proj1 IH (fun k t v Hin => H k t v (or_intror Hin))) as [js E']. rewrite E'. cbn. eauto.
  - intros [js E] k t v Hin. apply bind_ok in E as (j & E1 & E). apply bind_ok in E as (js' & E2 & E).
    destruct Hin as [Q|Hin]; [injection Q as <- <- <-; eauto|]. eapply (proj2 IH); eauto.
Qed.

(** * Objects whose values satisfy a predicate on values *)
Section Gen.
Variable wfp : gty -> gval -> bool.
Hypothesis g_wf_struct : forall n fs x, wfp (GStruct n fs) x = true -> exists vs, x = VStruct vs /\ wf_fields wfp fs vs = true.

Lemma g_value_to_map_spec t v : obj_ok t = true -> wfp t v = true ->
  (any_missing t v = true /\ exists e, value_to_map t v = Err e) \/
  (any_missing t v = false /\ value_to_map t v = Ok (fold_left ins (writes t v) [])).
Proof.
  intros O W. destruct t; try discriminate O. destruct (g_wf_struct _ _ _ W) as (vs & -> & WF).
  destruct (obj_ok_facts _ _ O) as (N0 & F & FT & X). cbn [value_to_map any_missing writes].
  destruct (fields_to_map_spec wfp fields) with (vs := vs) (m := @nil (string * (gty * gval))) as [[M [e E]]|[M E]];
    [| |exact WF| |]; try rewrite M, E; cbn [bind].
  - intros m t Hin. destruct (FT m t Hin) as (A & _ & _ & B). split; [exact A|]. intros Em. destruct (B Em) as [_ B']. exact B'.
  - intros n fs' x Hx. destruct (g_wf_struct _ _ _ Hx) as (vs' & -> & _). eauto.
  - left. split; [reflexivity|eauto].
  - right. split; [reflexivity|]. now rewrite overlay_spec, fold_left_app.
Qed.

(** * Fields by path *)
Lemma g_wf_shape n fs v : flat_ok fs -> wfp (GStruct n fs) v = true -> shape fs v.
Proof.
  intros (N & _ & E) W. destruct (g_wf_struct _ _ _ W) as (vs & -> & WF).
  exists vs. split; [reflexivity|]. split; [symmetry; eapply wf_fields_In; eauto|].
  intros m n' fs' Hin Em. destruct (combine_ex _ vs _ (wf_fields_len _ _ _ WF) Hin) as ([nm x] & Hc).
  destruct (wf_fields_combine _ _ _ WF _ _ _ _ Hc) as [-> Wx]. destruct (g_wf_struct _ _ _ Wx) as (vs' & -> & WF').
  exists vs'. split; [|symmetry; eapply wf_fields_In; eauto].
  apply alookup_In; [rewrite <- (wf_fields_In _ _ _ WF); exact N|eapply in_combine_r; eauto].
Qed.

Lemma g_wf_path n fs v p m t : flat_ok fs -> wfp (GStruct n fs) v = true -> has_path fs p m t -> wfp t (get_path p v) = true.
Proof.
  intros (N & _ & E) W H. destruct (g_wf_struct _ _ _ W) as (vs & -> & WF).
  destruct H as [m t Hin Em|mb nb fsb m t Hin Em Hin'].
  - destruct (combine_ex _ vs _ (wf_fields_len _ _ _ WF) Hin) as ([nm x] & Hc).
    cbn [get_path]. rewrite (combine_get _ _ _ _ _ _ _ N WF Hc).
    now destruct (wf_fields_combine _ _ _ WF _ _ _ _ Hc).
  - destruct (combine_ex _ vs _ (wf_fields_len _ _ _ WF) Hin) as ([nm x] & Hc).
    cbn [get_path]. rewrite (combine_get _ _ _ _ _ _ _ N WF Hc).
    destruct (wf_fields_combine _ _ _ WF _ _ _ _ Hc) as [_ Wx]. destruct (g_wf_struct _ _ _ Wx) as (vs' & -> & WF').
    destruct (E _ _ Hin Em) as (n' & fs' & Q & N'). injection Q as <- <-.
    destruct (combine_ex _ vs' _ (wf_fields_len _ _ _ WF') Hin') as ([nm' x'] & Hc').
    rewrite (combine_get _ _ _ _ _ _ _ N' WF' Hc').
    now destruct (wf_fields_combine _ _ _ WF' _ _ _ _ Hc').
Qed.

(** Membership in a flat map over the fields, by path. *)
Lemma g_fields_by_path n fs v (P : fmeta -> gty -> gval -> Prop) : flat_ok fs -> wfp (GStruct n fs) v = true ->
  (exists p m t, has_path fs p m t /\ P m t (get_path p v)) <->
  exists vs, v = VStruct vs /\ exists m t nm x, In ((m, t), (nm, x)) (combine fs vs) /\
    ((fm_embed m = false /\ P m t x) \/
     (fm_embed m = true /\ exists nb fsb vsb m' t' nm' x', t = GStruct nb fsb /\ x = VStruct vsb /\
        In ((m', t'), (nm', x')) (combine fsb vsb) /\ P m' t' x')).
Proof.
  intros F W. assert (F' := F). destruct F' as (N & _ & E). destruct (g_wf_struct _ _ _ W) as (vs & -> & WF). split.
  - intros (p & m & t & H & HP). exists vs. split; [reflexivity|].
    destruct H as [m t Hin Em|mb nb fsb m t Hin Em Hin'].
    + destruct (combine_ex _ vs _ (wf_fields_len _ _ _ WF) Hin) as ([nm x] & Hc).
      cbn [get_path] in HP. rewrite (combine_get _ _ _ _ _ _ _ N WF Hc) in HP.
      exists m, t, nm, x. split; [exact Hc|]. left. now split.
    + destruct (combine_ex _ vs _ (wf_fields_len _ _ _ WF) Hin) as ([nm x] & Hc).
      cbn [get_path] in HP. rewrite (combine_get _ _ _ _ _ _ _ N WF Hc) in HP.
      destruct (wf_fields_combine _ _ _ WF _ _ _ _ Hc) as [_ Wx]. destruct (g_wf_struct _ _ _ Wx) as (vs' & -> & WF').
      destruct (E _ _ Hin Em) as (n' & fs' & Q & N'). injection Q as <- <-.
      destruct (combine_ex _ vs' _ (wf_fields_len _ _ _ WF') Hin') as ([nm' x'] & Hc').
      rewrite (combine_get _ _ _ _ _ _ _ N' WF' Hc') in HP.
      exists mb, (GStruct nb fsb), nm, (VStruct vs'). split; [exact Hc|]. right. split; [exact Em|].
      exists nb, fsb, vs', m, t, nm', x'. auto.
  - intros (vs' & Q & m & t & nm & x & Hc & C). injection Q as <-.
    assert (Hin := in_combine_l _ _ _ _ Hc).
    destruct C as [[Em HP]|[Em (nb & fsb & vsb & m' & t' & nm' & x' & -> & -> & Hc' & HP)]].
    + exists (None, fm_name m), m, t. split; [now constructor|]. cbn [get_path].
      now rewrite (combine_get _ _ _ _ _ _ _ N WF Hc).
    + destruct (wf_fields_combine _ _ _ WF _ _ _ _ Hc) as [_ Wx]. destruct (g_wf_struct _ _ _ Wx) as (vs' & Q & WF'). injection Q as <-.
      destruct (E _ _ Hin Em) as (n' & fs' & Q & N'). injection Q as <- <-.
      exists (Some (fm_name m), fm_name m'), m', t'. split; [econstructor; eauto; eapply in_combine_l; eauto|].
      cbn [get_path]. rewrite (combine_get _ _ _ _ _ _ _ N WF Hc). now rewrite (combine_get _ _ _ _ _ _ _ N' WF' Hc').
Qed.

Lemma g_missing_by_path n fs v : obj_ok (GStruct n fs) = true -> wfp (GStruct n fs) v = true ->
  any_missing (GStruct n fs) v = true <-> exists p m t, has_path fs p m t /\ missing m (get_path p v) = true.
Proof.
  intros O W. destruct (obj_ok_facts _ _ O) as (N0 & F & FT & X).
  rewrite (g_fields_by_path n fs v (fun m t x => missing m x = true) F W).
  destruct (g_wf_struct _ _ _ W) as (vs & -> & WF). cbn [any_missing]. rewrite existsb_exists. split.
  - intros ([[m t] [nm x]] & Hc & M). exists vs. split; [reflexivity|]. exists m, t, nm, x. split; [exact Hc|].
    cbn [t_missing] in M. destruct (fm_embed m) eqn:Em; [right; split; [reflexivity|]|left; now split].
    destruct (FT _ _ (in_combine_l _ _ _ _ Hc)) as (_ & _ & _ & G). destruct (G Em) as (_ & fs' & ->).
    destruct (wf_fields_combine _ _ _ WF _ _ _ _ Hc) as [_ Wx]. destruct (g_wf_struct _ _ _ Wx) as (vs' & -> & WF').
    apply existsb_exists in M as ([[m' t'] [nm' x']] & Hc' & M). repeat eexists; eauto.
  - intros (vs' & Q & m & t & nm & x & Hc & C). injection Q as <-. exists ((m, t), (nm, x)). split; [exact Hc|]. cbn [t_missing].
    destruct C as [[Em M]|[Em (nb & fsb & vsb & m' & t' & nm' & x' & -> & -> & Hc' & M)]]; rewrite Em.
    + exact M.
    + apply existsb_exists. exists ((m', t'), (nm', x')). split; [exact Hc'|exact M].
Qed.

Lemma c_writes_In fs vs k t x : In (k, (t, x)) (flat_map c_writes (combine fs vs)) <->
  exists m nm, In ((m, t), (nm, x)) (combine fs vs) /\ k = fm_key m /\ written m x = true.
Proof.
  rewrite in_flat_map. split.
  - intros ([[m t'] [nm x']] & Hc & H). cbn [c_writes] in H. destruct (written m x') eqn:Wr; [|destruct H].
    destruct H as [Q|[]]. injection Q as <- <- <-. eauto.
  - intros (m & nm & Hc & -> & Wr). exists ((m, t), (nm, x)). split; [exact Hc|]. cbn [c_writes]. rewrite Wr. now left.
Qed.

Lemma find_filter {A} (f : A -> bool) l : find f l = match filter f l with x :: _ => Some x | [] => None end.
Proof. induction l as [|a l IH]; [reflexivity|]. cbn. destruct (f a); [reflexivity|exact IH]. Qed.

Lemma g_writes_In n fs v k t x : obj_ok (GStruct n fs) = true -> wfp (GStruct n fs) v = true ->
  In (k, (t, x)) (writes (GStruct n fs) v) <->
  (exists p m, has_path fs p m t /\ x = get_path p v /\ k = fm_key m /\ written m x = true) \/
  (t = GIface /\ In (k, x) (props_of (GStruct n fs) v)).
Proof.
  intros O W. destruct (obj_ok_facts _ _ O) as (N0 & F & FT & X).
  assert (FP := g_fields_by_path n fs v (fun m t0 x0 => t0 = t /\ x0 = x /\ k = fm_key m /\ written m x = true) F W).
  destruct (g_wf_struct _ _ _ W) as (vs & -> & WF). assert (N := proj1 F).
  assert (A : (exists p m, has_path fs p m t /\ x = get_path p (VStruct vs) /\ k = fm_key m /\ written m x = true) <->
              exists p m t0, has_path fs p m t0 /\ t0 = t /\ get_path p (VStruct vs) = x /\ k = fm_key m /\ written m x = true).
  { split.
    - intros (p & m & H1 & H2 & H3). exists p, m, t. repeat split; auto; tauto.
    - intros (p & m & t0 & H1 & -> & H2 & H3). exists p, m. repeat split; auto; tauto. }
  rewrite A, FP. clear A FP. cbn [writes]. rewrite in_app_iff, in_flat_map.
  assert (PW : forall l, In (k, (t, x)) (pw l) <-> t = GIface /\ In (k, x) l).
  { intros l. unfold pw. rewrite in_map_iff. split.
    - intros ([k' x'] & Q & Hin). injection Q as <- <- <-. now split.
    - intros [-> Hin]. exists (k, x). now split. }
  assert (OWN : In (k, (t, x)) (pw (if mem_str n (base_structs ++ ["MarkingDefinition"; "LanguageContent"]) then props_in (VStruct vs) else [])) <->
                t = GIface /\ mem_str n ["MarkingDefinition"; "LanguageContent"] = true /\ In (k, x) (props_in (VStruct vs))).
  { rewrite PW. destruct (mem_str n (base_structs ++ _)) eqn:M.
    - assert (M2 : mem_str n ["MarkingDefinition"; "LanguageContent"] = true).
      { apply mem_str_In in M. apply in_app_or in M as [M|M]; [apply mem_str_In in M; congruence|now apply mem_str_In]. }
      tauto.
    - assert (M2 : mem_str n ["MarkingDefinition"; "LanguageContent"] = false).
      { apply not_true_is_false. intros C. apply mem_str_In in C. apply not_true_iff_false in M. apply M. apply mem_str_In. apply in_or_app. now right. }
      rewrite M2. cbn. intuition congruence. }
  rewrite OWN. unfold props_of, props_path. rewrite find_filter.
  assert (EMB : forall m t0 nm x0, In ((m, t0), (nm, x0)) (combine fs vs) -> fm_embed m = true ->
     exists fsb vsb, t0 = GStruct (fm_name m) fsb /\ x0 = VStruct vsb /\ get_field (fm_name m) (VStruct vs) = x0).
  { intros m t0 nm x0 Hc Em. destruct (FT _ _ (in_combine_l _ _ _ _ Hc)) as (_ & _ & _ & G). destruct (G Em) as (_ & fsb & ->).
    destruct (wf_fields_combine _ _ _ WF _ _ _ _ Hc) as [_ Wx]. destruct (g_wf_struct _ _ _ Wx) as (vsb & -> & _).
    exists fsb, vsb. repeat split. eapply combine_get; eauto. }
  split.
  - intros [([[m t0] [nm x0]] & Hc & Hw)|(-> & M & Hp)].
    + cbn [t_writes] in Hw. destruct (fm_embed m) eqn:Em.
      * destruct (EMB _ _ _ _ Hc Em) as (fsb & vsb & -> & -> & Gf). apply in_app_or in Hw as [Hw|Hw].
        -- left. apply c_writes_In in Hw as (m' & nm' & Hc' & Hk & Wr). exists vs. split; [reflexivity|].
           exists m, (GStruct (fm_name m) fsb), nm, (VStruct vsb). split; [exact Hc|]. right. split; [exact Em|].
           exists (fm_name m), fsb, vsb, m', t, nm', x. auto 10.
        -- right. apply PW in Hw as [-> Hw]. split; [reflexivity|].
           assert (Hf : In (m, GStruct (fm_name m) fsb) (filter (fun ft : fmeta * gty => fm_embed (fst ft)) fs)).
           { apply filter_In. split; [eapply in_combine_l; eauto|exact Em]. }
           destruct (filter _ fs) as [|[m1 t1] [|? ?]] eqn:Ff; [destruct Hf| |discriminate].
           destruct Hf as [Q|[]]. injection Q as -> ->.
           cbn [get_path]. rewrite Gf. unfold props_in in Hw. exact Hw.
      * left. cbn [c_writes] in Hw. destruct (written m x0) eqn:Wr; [|destruct Hw]. destruct Hw as [Q|[]]. injection Q as <- <- <-.
        exists vs. split; [reflexivity|]. exists m, t0, nm, x0. split; [exact Hc|]. left. auto 10.
    + right. split; [reflexivity|]. destruct (filter _ fs) as [|[m1 t1] [|? ?]] eqn:Ff; [|rewrite M in X; discriminate|discriminate].
      rewrite M. cbn [get_path]. unfold props_in in Hp. exact Hp.
  - intros [(vs' & Q & m & t0 & nm & x0 & Hc & C)|[-> Hp]].
    + injection Q as <-. left. exists ((m, t0), (nm, x0)). split; [exact Hc|]. cbn [t_writes].
      destruct C as [[Em (-> & -> & -> & Wr)]|[Em (nb & fsb & vsb & m' & t' & nm' & x' & -> & -> & Hc' & (-> & -> & -> & Wr))]]; rewrite Em.
      * cbn [c_writes]. rewrite Wr. now left.
      * apply in_or_app. left. apply c_writes_In. eauto.
    + destruct (filter _ fs) as [|[m1 t1] r] eqn:Ff.
      * destruct (mem_str n ["MarkingDefinition"; "LanguageContent"]) eqn:M; [|destruct Hp].
        right. repeat split. cbn [get_path] in Hp. unfold props_in. exact Hp.
      * left. assert (Hf : In (m1, t1) (filter (fun ft : fmeta * gty => fm_embed (fst ft)) fs)) by (rewrite Ff; now left).
        apply filter_In in Hf as [Hin Em]. cbn in Em.
        destruct (combine_ex _ vs _ (wf_fields_len _ _ _ WF) Hin) as ([nm x0] & Hc).
        destruct (EMB _ _ _ _ Hc Em) as (fsb & vsb & -> & -> & Gf).
        exists ((m1, GStruct (fm_name m1) fsb), (nm, VStruct vsb)). split; [exact Hc|]. cbn [t_writes]. rewrite Em.
        apply in_or_app. right. apply PW. split; [reflexivity|]. cbn [get_path] in Hp. rewrite Gf in Hp. exact Hp.
Qed.

(** The values of the extended properties, and of what is written. *)
Hypothesis g_custom : forall l, wfp (GPtr ty_CustomObject) (VPtr (VMap l)) = true -> msorted l = true /\ forall k x, In (k, x) l -> wfp GIface x = true.
Lemma g_props_wf n fs v : obj_ok (GStruct n fs) = true -> props_ok (GStruct n fs) = true -> wfp (GStruct n fs) v = true ->
  msorted (props_of (GStruct n fs) v) = true /\
  forall k x, In (k, x) (props_of (GStruct n fs) v) -> wfp GIface x = true.
Proof.
  intros O P W. destruct (obj_ok_facts _ _ O) as (N0 & F & FT & X). unfold props_of.
  destruct (props_path (GStruct n fs)) as [p|] eqn:E; [|split; [reflexivity|intros ? ? []]].
  destruct (props_ok_path _ _ _ P E) as (m & HP & _).
  assert (Wp := g_wf_path _ _ _ _ _ _ F W HP).
  destruct (get_path p v); try (split; [reflexivity|intros ? ? []]).
  destruct g; try (split; [reflexivity|intros ? ? []]). exact (g_custom _ Wp).
Qed.
Lemma g_writes_wf n fs v k t x : obj_ok (GStruct n fs) = true -> props_ok (GStruct n fs) = true -> wfp (GStruct n fs) v = true ->
  In (k, (t, x)) (writes (GStruct n fs) v) -> wfp t x = true.
Proof.
  intros O P W H. destruct (obj_ok_facts _ _ O) as (N0 & F & FT & X). apply g_writes_In in H; [|exact O|exact W].
  destruct H as [(p & m & HP & -> & -> & Wr)|[-> Hp]].
  - eapply g_wf_path; eauto.
  - eapply g_props_wf; eauto.
Qed.

(** * What is written *)
Definition apart (t : gty) (l : list (string * gval)) : Prop := forall k, In k (akeys l) -> ~ In k (own_keys t).

Lemma own_keys_In n fs k : In k (own_keys (GStruct n fs)) <-> exists p m t, has_path fs p m t /\ fm_key m = k /\ k <> "".
Proof.
  cbn [own_keys]. rewrite in_map_iff. split.
  - intros ([[k' p] t] & <- & Hin). apply flat_fields_In in Hin as (m & A & B & C). cbn [fst]. eauto 6.
  - intros (p & m & t & A & B & C). exists (k, p, t). split; [reflexivity|]. apply flat_fields_In. exists m. now subst.
Qed.

Lemma g_writes_fun n fs v k e e' : obj_ok (GStruct n fs) = true -> props_ok (GStruct n fs) = true -> wfp (GStruct n fs) v = true ->
  apart (GStruct n fs) (props_of (GStruct n fs) v) ->
  In (k, e) (writes (GStruct n fs) v) -> In (k, e') (writes (GStruct n fs) v) -> e = e'.
Proof.
  intros O P W A H H'. destruct (obj_ok_facts _ _ O) as (N0 & F & FT & X). destruct e as [t x], e' as [t' x'].
  apply g_writes_In in H; [|exact O|exact W]. apply g_writes_In in H'; [|exact O|exact W].
  assert (NE : forall m y, written m y = true -> fm_key m <> "").
  { intros m y Wr Z. unfold written in Wr. rewrite Z in Wr. discriminate. }
  destruct H as [(p & m & HP & -> & -> & Wr)|[-> Hp]], H' as [(p' & m' & HP' & -> & Hk & Wr')|[-> Hp']].
  - assert (NE1 := NE _ _ Wr). assert (NE2 := NE _ _ Wr').
    assert (Q : (p, t) = (p', t')).
    { eapply flat_key_inj; [exact F|apply flat_fields_In; exists m; auto|apply flat_fields_In; exists m'; rewrite Hk; auto]. }
    injection Q as -> ->. reflexivity.
  - exfalso. eapply A; [exact (in_map fst _ _ Hp')|]. apply own_keys_In. exists p, m, t. repeat split; eauto.
  - exfalso. eapply A; [exact (in_map fst _ _ Hp)|]. subst k. apply own_keys_In. exists p', m', t'. repeat split; eauto.
  - f_equal. destruct (g_props_wf _ _ _ O P W) as [S _]. apply msorted_nodup in S.
    apply (alookup_In _ _ _ S) in Hp. apply (alookup_In _ _ _ S) in Hp'. congruence.
Qed.

Lemma enc_map_lookup m : forall js k, enc_map m = Ok js ->
  alookup k js = match alookup k m with Some (t, v) => match enc t v with Ok j => Some j | _ => None end | None => None end.
Proof.
  induction m as [|[k0 [t0 v0]] m IH]; intros js k E; cbn [enc_map] in E; [injection E as <-; reflexivity|].
  apply bind_ok in E as (j & E1 & E). apply bind_ok in E as (js' & E2 & E). injection E as <-. cbn [alookup].
  destruct (String.eqb k k0); [now rewrite E1|auto].
Qed.

Lemma lookup_In_some {A} k (l : list (string * A)) : In k (akeys l) -> exists e, alookup k l = Some e.
Proof. intros H. destruct (alookup k l) eqn:E; [eauto|]. apply alookup_None in E. contradiction. Qed.

Theorem g_enc_obj_members n fs v j : obj_ok (GStruct n fs) = true -> props_ok (GStruct n fs) = true -> wfp (GStruct n fs) v = true ->
  apart (GStruct n fs) (props_of (GStruct n fs) v) ->
  enc_obj (GStruct n fs) v = Ok j ->
  exists ms, j = JObj ms /\ msorted ms = true /\
    (forall p m t, has_path fs p m t -> fm_key m <> "" ->
       match alookup (fm_key m) ms with
       | Some jx => enc t (get_path p v) = Ok jx /\ (is_bool_val (get_path p v) = true \/ is_zero (get_path p v) = false)
       | None => is_bool_val (get_path p v) = false /\ is_zero (get_path p v) = true /\ fm_omit m = true
       end) /\
    (forall k x, In (k, x) (props_of (GStruct n fs) v) -> exists jx, alookup k ms = Some jx /\ enc GIface x = Ok jx) /\
    (forall k, In k (akeys ms) -> In k (own_keys (GStruct n fs)) \/ In k (akeys (props_of (GStruct n fs) v))).
Proof.
  intros O P W A E. destruct (obj_ok_facts _ _ O) as (N0 & F & FT & X). unfold enc_obj in E.
  destruct (g_value_to_map_spec _ _ O W) as [[M [e E']]|[M E']]; rewrite E' in E; cbn [bind] in E; [discriminate|].
  apply bind_ok in E as (js & EM & E). injection E as <-. exists js. split; [reflexivity|].
  set (ws := writes (GStruct n fs) v) in *. assert (K := enc_map_keys _ _ EM).
  assert (S : msorted (fold_left ins ws []) = true) by now apply msorted_fold.
  assert (WL : forall k t x, In (k, (t, x)) ws -> exists jx, alookup k js = Some jx /\ enc t x = Ok jx).
  { intros k t x Hin. assert (Hk : In k (akeys js)) by (rewrite K; apply keys_fold; exact (in_map fst _ _ Hin)).
    destruct (lookup_In_some _ _ Hk) as [jx Hj]. exists jx. split; [exact Hj|].
    rewrite (enc_map_lookup _ _ _ EM) in Hj. destruct (alookup k (fold_left ins ws [])) as [[t' x']|] eqn:Hl; [|discriminate].
    apply alookup_Some_In in Hl. apply In_fold in Hl. apply alookup_Some_In in Hl. apply in_rev in Hl.
    assert (Q := g_writes_fun _ _ _ _ _ _ O P W A Hl Hin). injection Q as -> ->. destruct (enc t x); congruence. }
  split; [rewrite (msorted_keys _ _ K); exact S|]. split; [|split].
  - intros p m t HP NE. assert (Wp := g_writes_In _ _ _ (fm_key m) t (get_path p v) O W). fold ws in Wp.
    destruct (written m (get_path p v)) eqn:Wr.
    + destruct (WL (fm_key m) t (get_path p v)) as (jx & -> & Ex); [apply Wp; left; eauto 6|]. split; [exact Ex|].
      unfold written in Wr. apply andb_true_iff in Wr as [_ Wr]. apply orb_true_iff in Wr as [Wr|Wr]; [now left|right; now apply negb_true_iff].
    + destruct (alookup (fm_key m) js) as [jx|] eqn:L.
      * exfalso. apply alookup_Some_In in L. assert (Hk := in_map fst _ _ L). change (In (fm_key m) (akeys js)) in Hk.
        rewrite K in Hk. apply (proj1 (keys_fold _ _)) in Hk. apply in_map_iff in Hk as ([k' [t' x']] & Q & Hin). cbn [fst] in Q. subst k'.
        apply g_writes_In in Hin; [|exact O|exact W]. destruct Hin as [(p' & m' & HP' & -> & Q & Wr')|[-> Hp]].
        -- assert (Q2 : (p, t) = (p', t')).
           { eapply flat_key_inj; [exact F|apply flat_fields_In; exists m; auto|apply flat_fields_In; exists m'; rewrite Q; repeat split; auto; congruence]. }
           injection Q2 as <- <-. destruct (has_path_inj _ _ _ _ _ _ F HP HP') as [<- _]. congruence.
        -- eapply A; [exact (in_map fst _ _ Hp)|]. apply own_keys_In. exists p, m, t. repeat split; auto.
      * unfold written in Wr. destruct (is_empty (fm_key m)) eqn:Ek; [apply is_empty_true in Ek; contradiction|]. cbn [negb andb] in Wr.
        apply orb_false_iff in Wr as [B Z]. apply negb_false_iff in Z. split; [exact B|]. split; [exact Z|].
        destruct (fm_omit m) eqn:Om; [reflexivity|]. exfalso. apply not_true_iff_false in M. apply M.
        apply g_missing_by_path; [exact O|exact W|]. exists p, m, t. split; [exact HP|]. unfold missing. now rewrite Ek, B, Z, Om.
  - intros k x Hin. apply WL. apply g_writes_In; [exact O|exact W|]. right. now split.
  - intros k Hk. rewrite K in Hk. apply (proj1 (keys_fold _ _)) in Hk. apply in_map_iff in Hk as ([k' [t' x']] & Q & Hin). cbn [fst] in Q. subst k'.
    apply g_writes_In in Hin; [|exact O|exact W]. destruct Hin as [(p' & m' & HP' & -> & -> & Wr')|[-> Hp]].
    + left. apply own_keys_In. exists p', m', t'. repeat split; auto. intros Z. unfold written in Wr'. rewrite Z in Wr'. discriminate.
    + right. exact (in_map fst _ _ Hp).
Qed.

Hypothesis g_zero_fin : forall t v, wfp t v = true -> is_zero v = true -> fin t v = true.
Hypothesis g_enc_ok_iff : forall v t, wfp t v = true -> ((exists j, enc t v = Ok j) <-> fin t v = true).
Theorem g_enc_obj_fails n fs v : obj_ok (GStruct n fs) = true -> props_ok (GStruct n fs) = true -> wfp (GStruct n fs) v = true ->
  apart (GStruct n fs) (props_of (GStruct n fs) v) ->
  enc_obj (GStruct n fs) v <> Panic /\
  ((exists e, enc_obj (GStruct n fs) v = Err e) <->
   (exists p m t, has_path fs p m t /\ fm_key m <> "" /\
      ((fm_omit m = false /\ is_zero (get_path p v) = true /\ is_bool_val (get_path p v) = false) \/
       fin t (get_path p v) = false)) \/
   (exists k x, In (k, x) (props_of (GStruct n fs) v) /\ fin GIface x = false)).
Proof.
  intros O P W A. destruct (obj_ok_facts _ _ O) as (N0 & F & FT & X). unfold enc_obj.
  destruct (g_value_to_map_spec _ _ O W) as [[M [e E']]|[M E']]; rewrite E'; cbn [bind].
  - split; [discriminate|]. split; [intros _; left|eauto]. apply g_missing_by_path in M as (p & m & t & HP & Mi); [|exact O|exact W].
    exists p, m, t. split; [exact HP|]. unfold missing in Mi. rewrite !andb_true_iff, !negb_true_iff in Mi. destruct Mi as [[[M1 M2] M3] M4].
    split; [intros Z; rewrite Z in M1; discriminate|]. left. auto.
  - set (ws := writes (GStruct n fs) v) in *.
    assert (NP := enc_map_no_panic (fold_left ins ws [])).
    assert (OKI := enc_map_ok (fold_left ins ws [])).
    assert (IW : forall k e, In (k, e) (fold_left ins ws []) <-> In (k, e) ws).
    { intros k e. split.
      - intros Hin. apply In_fold in Hin. apply alookup_Some_In in Hin. now apply in_rev in Hin.
      - intros Hin. assert (Hk : In k (akeys (fold_left ins ws []))) by (apply keys_fold; exact (in_map fst _ _ Hin)).
        destruct (lookup_In_some _ _ Hk) as [e' He]. apply alookup_Some_In in He. assert (He' := He).
        apply In_fold in He'. apply alookup_Some_In in He'. apply in_rev in He'.
        now rewrite (g_writes_fun _ _ _ _ _ _ O P W A Hin He'). }
    split; [destruct (enc_map (fold_left ins ws [])); cbn; congruence|].
    split.
    + intros [e E]. destruct (enc_map (fold_left ins ws [])) as [js|e'|] eqn:EM; [discriminate| |contradiction].
      (* some written value does not encode *)
      assert (X1 : exists k t x, In (k, (t, x)) ws /\ fin t x = false).
      { assert (ND : ~ (forall k t x, In (k, (t, x)) ws -> fin t x = true)).
        { intros C. destruct (proj1 OKI) as [js Ejs]; [|congruence]. intros k t x Hin. apply IW in Hin.
          apply g_enc_ok_iff; [eapply g_writes_wf; eauto|eauto]. }
        destruct (existsb (fun kv => negb (fin (fst (snd kv)) (snd (snd kv)))) ws) eqn:EX.
        - apply existsb_exists in EX as ([k [t x]] & Hin & Hx). apply negb_true_iff in Hx. eauto.
        - exfalso. apply ND. intros k t x Hin. destruct (fin t x) eqn:Fx; [reflexivity|]. exfalso. apply not_true_iff_false in EX. apply EX.
          apply existsb_exists. exists (k, (t, x)). split; [exact Hin|]. cbn. now rewrite Fx. }
      destruct X1 as (k & t & x & Hin & Fx). apply g_writes_In in Hin; [|exact O|exact W].
      destruct Hin as [(p & m & HP & -> & -> & Wr)|[-> Hp]]; [left|right; eauto].
      exists p, m, t. split; [exact HP|]. split; [intros Z; unfold written in Wr; rewrite Z in Wr; discriminate|now right].
    + intros C. assert (NF : exists k t x, In (k, (t, x)) ws /\ fin t x = false).
      { destruct C as [(p & m & t & HP & NE & [(Om & Z & B)|Fx])|(k & x & Hin & Fx)].
        - exfalso. apply not_true_iff_false in M. apply M. apply g_missing_by_path; [exact O|exact W|]. exists p, m, t. split; [exact HP|].
          unfold missing. rewrite B, Z, Om. destruct (is_empty (fm_key m)) eqn:Ek; [apply is_empty_true in Ek; contradiction|reflexivity].
        - exists (fm_key m), t, (get_path p v). split; [|exact Fx]. apply g_writes_In; [exact O|exact W|]. left. exists p, m. repeat split; auto.
          unfold written. destruct (is_empty (fm_key m)) eqn:Ek; [apply is_empty_true in Ek; contradiction|].
          destruct (is_zero (get_path p v)) eqn:Z; [|apply orb_true_r].
          rewrite (g_zero_fin t (get_path p v)) in Fx; [discriminate|eapply g_wf_path; eauto|exact Z].
        - exists k, GIface, x. split; [|exact Fx]. apply g_writes_In; [exact O|exact W|]. right. now split. }
      destruct NF as (k & t & x & Hin & Fx). destruct (enc_map (fold_left ins ws [])) as [js|e'|] eqn:EM; [|cbn; eauto|contradiction].
      exfalso. assert (H := proj2 OKI (ex_intro _ js eq_refl) k t x (proj2 (IW _ _) Hin)).
      apply g_enc_ok_iff in H; [congruence|]. eapply g_writes_wf; eauto.
Qed.
End Gen.

Section Obj.
Variable rnd : bool -> N -> Z -> option flt.

Lemma wf_struct n fs x : wf rnd (GStruct n fs) x = true -> exists vs, x = VStruct vs /\ wf_fields (wf rnd) fs vs = true.
Proof. destruct x; cbn [wf]; intros H; try discriminate. apply andb_true_iff in H as [_ H]. eauto. Qed.
Lemma wf_custom l : wf rnd (GPtr ty_CustomObject) (VPtr (VMap l)) = true -> msorted l = true /\ forall k x, In (k, x) l -> wf rnd GIface x = true.
Proof.
  cbn [wf ty_CustomObject]. rewrite !andb_true_iff. intros [_ [Wp1 Wp2]]. split; [exact Wp1|].
  intros k x Hin. rewrite forallb_forall in Wp2. specialize (Wp2 _ Hin). cbn in Wp2. now apply andb_true_iff in Wp2.
Qed.
Definition value_to_map_spec := g_value_to_map_spec (wf rnd) wf_struct.
Definition wf_shape := g_wf_shape (wf rnd) wf_struct.
Definition wf_path := g_wf_path (wf rnd) wf_struct.
Definition fields_by_path := g_fields_by_path (wf rnd) wf_struct.
Definition missing_by_path := g_missing_by_path (wf rnd) wf_struct.
Definition writes_In := g_writes_In (wf rnd) wf_struct.
Definition writes_fun := g_writes_fun (wf rnd) wf_struct wf_custom.
Definition enc_obj_members := g_enc_obj_members (wf rnd) wf_struct wf_custom.

(** * Norm of objects, by path *)
Lemma norm_flds_keys g fs : forall vs (f : gty -> gval -> bool), wf_fields f fs vs = true -> akeys (norm_flds g fs vs) = names fs.
Proof.
  induction fs as [|[m0 t0] fs IH]; intros [|[n0 v0] vs] f H; cbn [wf_fields] in H; try discriminate; [reflexivity|].
  rewrite !andb_true_iff in H. destruct H as [[H1 H2] H3]. apply String.eqb_eq in H1 as ->. cbn. unfold akeys in IH.
  now rewrite (IH vs f H3).
Qed.
Lemma norm_flds_In g fs : forall vs m t nm x, In ((m, t), (nm, x)) (combine fs vs) -> In (nm, g m t x) (norm_flds g fs vs).
Proof.
  induction fs as [|[m0 t0] fs IH]; intros [|[n0 v0] vs] m t n v H; try destruct H.
  - injection H as -> -> -> ->. now left.
  - right. now apply IH.
Qed.
Lemma norm_flds_get g fs vs (f : gty -> gval -> bool) m t nm x : NoDup (names fs) -> wf_fields f fs vs = true ->
  In ((m, t), (nm, x)) (combine fs vs) -> alookup (fm_name m) (norm_flds g fs vs) = Some (g m t x).
Proof.
  intros N W H. destruct (wf_fields_combine _ _ _ W _ _ _ _ H) as [-> _].
  apply alookup_In; [now rewrite (norm_flds_keys g _ _ _ W)|]. now apply norm_flds_In.
Qed.

Lemma norm_obj_shape n fs v : obj_ok (GStruct n fs) = true -> wf rnd (GStruct n fs) v = true -> shape fs (norm_obj rnd (GStruct n fs) v).
Proof.
  intros O W. destruct (obj_ok_facts _ _ O) as (N0 & F & FT & X). destruct (wf_struct _ _ _ W) as (vs & -> & WF).
  cbn [norm_obj]. eexists. split; [reflexivity|]. split; [eapply norm_flds_keys; eauto|].
  intros m n' fs' Hin Em. destruct (combine_ex _ vs _ (wf_fields_len _ _ _ WF) Hin) as ([nm x] & Hc).
  rewrite (norm_flds_get _ _ _ _ _ _ _ _ (proj1 F) WF Hc). rewrite Em.
  destruct (wf_fields_combine _ _ _ WF _ _ _ _ Hc) as [_ Wx]. destruct (wf_struct _ _ _ Wx) as (vs' & -> & WF').
  eexists. split; [reflexivity|]. eapply norm_flds_keys; eauto.
Qed.
Lemma norm_obj_path n fs v p m t : obj_ok (GStruct n fs) = true -> wf rnd (GStruct n fs) v = true -> has_path fs p m t ->
  get_path p (norm_obj rnd (GStruct n fs) v) = norm_field rnd m t (get_path p v).
Proof.
  intros O W H. destruct (obj_ok_facts _ _ O) as (N0 & F & FT & X). destruct (wf_struct _ _ _ W) as (vs & -> & WF).
  destruct F as (N & _ & E). destruct H as [m t Hin Em|mb nb fsb m t Hin Em Hin'].
  - destruct (combine_ex _ vs _ (wf_fields_len _ _ _ WF) Hin) as ([nm x] & Hc).
    cbn [get_path]. rewrite (combine_get _ _ _ _ _ _ _ N WF Hc). cbn [norm_obj get_field].
    rewrite (norm_flds_get _ _ _ _ _ _ _ _ N WF Hc). now rewrite Em.
  - destruct (combine_ex _ vs _ (wf_fields_len _ _ _ WF) Hin) as ([nm x] & Hc).
    cbn [get_path]. rewrite (combine_get _ _ _ _ _ _ _ N WF Hc). cbn [norm_obj get_field].
    rewrite (norm_flds_get _ _ _ _ _ _ _ _ N WF Hc). rewrite Em.
    destruct (wf_fields_combine _ _ _ WF _ _ _ _ Hc) as [_ Wx]. destruct (wf_struct _ _ _ Wx) as (vs' & -> & WF').
    destruct (E _ _ Hin Em) as (n' & fs' & Q' & N'). injection Q' as <- <-.
    destruct (combine_ex _ vs' _ (wf_fields_len _ _ _ WF') Hin') as ([nm' x'] & Hc').
    rewrite (combine_get _ _ _ _ _ _ _ N' WF' Hc'). cbn.
    now rewrite (norm_flds_get _ _ _ _ _ _ _ _ N' WF' Hc').
Qed.

(** * Encoding of the map *)

(** Extended properties whose names belong to no property of the type, not even
    up to case. *)
Definition props_free (fs : list (fmeta * gty)) (l : list (string * gval)) : Prop :=
  forall k x, In (k, x) l -> find_field k (flat_fields fs) = None.

Lemma has_path_ok n fs p m t : obj_ok (GStruct n fs) = true -> has_path fs p m t -> ty_ok t = true /\ utf8b (fm_key m) = true.
Proof.
  intros O H. destruct (obj_ok_facts _ _ O) as (N0 & F & FT & X). destruct H as [m t Hin Em|mb nb fsb m t Hin Em Hin'].
  - destruct (FT _ _ Hin) as (_ & A & B & _). now split.
  - destruct (FT _ _ Hin) as (_ & _ & B & _). destruct (ty_ok_flat _ _ B) as (_ & C & _). destruct (C _ _ Hin') as (_ & D & G). now split.
Qed.

Theorem obj_roundtrip n fs v j : obj_ok (GStruct n fs) = true -> wf rnd (GStruct n fs) v = true ->
  props_free fs (props_of (GStruct n fs) v) ->
  enc_obj (GStruct n fs) v = Ok j ->
  dec rnd j (GStruct n fs) (zero (GStruct n fs)) = DOk (norm_obj rnd (GStruct n fs) v) false.
Proof.
  intros O W PF E. destruct (obj_ok_facts _ _ O) as (N0 & F & FT & X). unfold enc_obj in E.
  destruct (value_to_map_spec _ _ O W) as [[M [e E']]|[M E']]; rewrite E' in E; cbn [bind] in E; [discriminate|].
  apply bind_ok in E as (js & EM & E). injection E as <-. rewrite dec_struct_obj.
  set (ws := writes (GStruct n fs) v) in *.
  assert (S : msorted (fold_left ins ws []) = true) by now apply msorted_fold.
  assert (K := enc_map_keys _ _ EM).
  assert (MI : forall p m t, has_path fs p m t -> missing m (get_path p v) = false).
  { intros p m t HP. apply not_true_is_false. intros C. apply not_true_iff_false in M. apply M.
    apply missing_by_path; [exact O|exact W|]. eauto. }
  apply dec_struct_to; [exact F|now apply norm_obj_shape|now apply shape_zero|rewrite K; now apply msorted_nodup| |].
  - intros k x Hin. destruct (enc_map_In _ _ EM _ _ Hin) as (t & w & Hm & Ex).
    apply In_fold in Hm. apply alookup_Some_In in Hm. apply in_rev in Hm.
    apply writes_In in Hm; [|exact O|exact W].
    destruct Hm as [(p & m & HP & -> & -> & Wr)|[-> Hp]]; [right|left; eapply PF; eauto].
    exists p, t. assert (Kne : fm_key m <> "").
    { unfold written in Wr. apply andb_true_iff in Wr as [Wr _]. intros Z. rewrite Z in Wr. discriminate. }
    split; [apply flat_fields_In; exists m; now repeat split|].
    rewrite (zero_path _ _ _ _ _ F HP), (norm_obj_path _ _ _ _ _ _ O W HP).
    rewrite (value_roundtrip rnd t (get_path p v) x); [|eapply has_path_ok; eauto|eapply wf_path; eauto|exact Ex].
    f_equal. unfold norm_field. unfold written in Wr. apply andb_true_iff in Wr as [W1 W2].
    apply negb_true_iff in W1. rewrite W1. destruct (is_zero (get_path p v)) eqn:Z; [|reflexivity].
    destruct (is_bool_val (get_path p v)) eqn:B; [|discriminate].
    assert (Wv := wf_path _ _ _ _ _ _ F W HP). destruct (get_path p v); try discriminate. destruct t; try discriminate.
    cbn in Z. destruct b; [discriminate|reflexivity].
  - intros p m t HP C. rewrite (norm_obj_path _ _ _ _ _ _ O W HP), (zero_path _ _ _ _ _ F HP).
    unfold norm_field. destruct (is_empty (fm_key m)) eqn:Ek; [reflexivity|].
    destruct (is_zero (get_path p v)) eqn:Z; [reflexivity|]. exfalso.
    destruct C as [C|C]; [rewrite C in Ek; discriminate|]. apply C. rewrite K. apply keys_fold.
    assert (Hw : In (fm_key m, (t, get_path p v)) ws).
    { apply writes_In; [exact O|exact W|]. left. exists p, m. repeat split; auto. unfold written. rewrite Ek, Z. cbn. apply orb_true_r. }
    exact (in_map fst _ _ Hw).
Qed.
Lemma props_wf n fs v : obj_ok (GStruct n fs) = true -> props_ok (GStruct n fs) = true -> wf rnd (GStruct n fs) v = true ->
  msorted (props_of (GStruct n fs) v) = true /\
  forall k x, In (k, x) (props_of (GStruct n fs) v) -> utf8b k = true /\ wf rnd GIface x = true.
Proof.
  intros O P W. destruct (obj_ok_facts _ _ O) as (N0 & F & FT & X). unfold props_of.
  destruct (props_path (GStruct n fs)) as [p|] eqn:E; [|split; [reflexivity|intros ? ? []]].
  destruct (props_ok_path _ _ _ P E) as (m & HP & _).
  assert (Wp := wf_path _ _ _ _ _ _ F W HP).
  destruct (get_path p v); try (split; [reflexivity|intros ? ? []]).
  destruct g; try (split; [reflexivity|intros ? ? []]). cbn [wf ty_CustomObject] in Wp.
  rewrite !andb_true_iff in Wp. destruct Wp as [_ [Wp1 Wp2]]. split; [exact Wp1|].
  intros k x Hin. rewrite forallb_forall in Wp2. specialize (Wp2 _ Hin). cbn in Wp2. now apply andb_true_iff in Wp2.
Qed.

Lemma writes_wf n fs v k t x : obj_ok (GStruct n fs) = true -> props_ok (GStruct n fs) = true -> wf rnd (GStruct n fs) v = true ->
  In (k, (t, x)) (writes (GStruct n fs) v) -> utf8b k = true /\ wf rnd t x = true.
Proof.
  intros O P W H. destruct (obj_ok_facts _ _ O) as (N0 & F & FT & X). apply writes_In in H; [|exact O|exact W].
  destruct H as [(p & m & HP & -> & -> & Wr)|[-> Hp]].
  - split; [eapply has_path_ok; eauto|eapply wf_path; eauto].
  - eapply props_wf; eauto.
Qed.

Lemma enc_obj_json_ok n fs v j : obj_ok (GStruct n fs) = true -> props_ok (GStruct n fs) = true -> wf rnd (GStruct n fs) v = true ->
  enc_obj (GStruct n fs) v = Ok j -> json_okb j = true.
Proof.
  intros O P W E. unfold enc_obj in E.
  destruct (value_to_map_spec _ _ O W) as [[M [e E']]|[M E']]; rewrite E' in E; cbn [bind] in E; [discriminate|].
  apply bind_ok in E as (js & EM & E). injection E as <-. cbn [json_okb]. apply forallb_forall. intros [k x] Hin.
  destruct (enc_map_In _ _ EM _ _ Hin) as (t & w & Hm & Ex).
  apply In_fold in Hm. apply alookup_Some_In in Hm. apply in_rev in Hm.
  destruct (writes_wf _ _ _ _ _ _ O P W Hm) as [U Ww]. cbn [fst snd]. rewrite U. cbn [andb]. eapply enc_json_ok; eauto.
Qed.
Lemma zero_fin t v : wf rnd t v = true -> is_zero v = true -> fin t v = true.
Proof.
  revert t. induction v using gval_ind'; intros t0 W Z; cbn [wf is_zero fin] in *; try reflexivity; try discriminate.
  - destruct f; [discriminate Z|discriminate Z|reflexivity].
  - destruct t0; try discriminate. apply andb_true_iff in W as [_ W]. revert fields W Z.
    induction H as [|[k x] l Hx Hl IH]; intros [|[m t] fs] W Z; cbn [wf_fields fin_fields forallb fst snd] in *; try discriminate; [reflexivity|].
    rewrite !andb_true_iff in W. destruct W as [[W1 W2] W3]. apply andb_true_iff in Z as [Z1 Z2].
    rewrite (Hx _ W2 Z1), orb_true_r. now apply IH.
Qed.

Definition enc_obj_fails := g_enc_obj_fails (wf rnd) wf_struct wf_custom zero_fin (enc_ok_iff rnd).

(** * Values that survive unchanged *)
Lemma zero_eq t v : wf rnd t v = true -> is_zero v = true -> v = zero t.
Proof.
  revert t. induction v using gval_ind'; intros t0 W Z; cbn [wf is_zero] in *; try discriminate.
  - destruct t0; try discriminate. apply is_empty_true in Z. now subst.
  - destruct t0; try discriminate. apply Z.eqb_eq in Z. now subst.
  - destruct t0; try discriminate. apply negb_true_iff in Z. now subst.
  - destruct t0; try discriminate. destruct f as [| |[|] m e]; try discriminate Z. cbn in Z. apply N.eqb_eq in Z. subst.
    cbn in W. apply andb_true_iff in W as [W _]. apply Z.eqb_eq in W. now subst.
  - destruct t0; try discriminate. apply N.eqb_eq in Z. now subst.
  - destruct t0; try discriminate. apply Z.eqb_eq in Z. now subst.
  - destruct t0; try discriminate; reflexivity.
  - destruct t0; try discriminate. apply andb_true_iff in W as [_ W]. cbn [zero]. f_equal. revert fields W Z.
    induction H as [|[k x] l Hx Hl IH]; intros [|[m t] fs] W Z; cbn [wf_fields forallb map fst snd] in *; try discriminate; [reflexivity|].
    rewrite !andb_true_iff in W. destruct W as [[W1 W2] W3]. apply andb_true_iff in Z as [Z1 Z2]. apply String.eqb_eq in W1. subst.
    rewrite (Hx _ W2 Z1). f_equal. now apply IH.
Qed.

Lemma view_json_like v : (json_like v = true -> view rnd GIface v = v) /\
  match v with
  | VSlice l => forallb json_like l = true -> map (view rnd GIface) l = l
  | VMap l => forallb (fun kv => json_like (snd kv)) l = true -> map (fun kv => (fst kv, view rnd GIface (snd kv))) l = l
  | _ => True
  end.
Proof.
  induction v using gval_ind'; (split; [intros J; cbn [json_like] in J; try discriminate|try exact I]).
  - reflexivity.
  - intros J. rewrite forallb_forall in J. rewrite <- (map_id l) at 2. apply map_ext_in. intros x Hx.
    rewrite Forall_forall in H. apply (proj1 (H _ Hx)). now apply J.
  - intros J. rewrite forallb_forall in J. rewrite <- (map_id l) at 2. apply map_ext_in. intros [k x] Hx.
    rewrite Forall_forall in H. cbn [fst snd]. f_equal. apply (proj1 (H _ Hx)). now apply (J (k, x)).
  - cbn [view]. destruct t; try discriminate.
    + destruct v; try (destruct name as [|c0 ?]; [discriminate|]; repeat (try discriminate; match goal with
        | J : context [match ?x with _ => _ end] |- _ => destruct x end); discriminate).
      assert (name = "string").
      { repeat (try discriminate; match goal with
        | J : (match ?x with _ => _ end) = true |- _ => destruct x end). reflexivity. }
      subst. reflexivity.
    + destruct v; try discriminate; reflexivity.
    + destruct v; try discriminate; reflexivity.
    + destruct t; try discriminate. destruct v; try discriminate. cbn [view]. f_equal. f_equal. now apply (proj2 IHv).
    + destruct name; try discriminate.
      assert (X : key = "string" /\ t = GIface /\ exists l, v = VMap l /\ forallb (fun kv => json_like (snd kv)) l = true).
      { repeat (try discriminate; match goal with
        | J : (match ?x with _ => _ end) = true |- _ => destruct x end). repeat split. eauto. }
      destruct X as (-> & -> & l & -> & Jl). cbn [view]. f_equal. f_equal. now apply (proj2 IHv).
Qed.

Lemma norm_canon v : forall t, wf rnd t v = true -> canon t v = true -> norm rnd t v = v.
Proof.
  assert (G : forall v, (forall t, wf rnd t v = true -> canon t v = true -> norm rnd t v = v) /\
    match v with
    | VDyn (GPtr t') (VPtr w) => wf rnd t' w = true -> canon t' w = true -> norm rnd t' w = w
    | VPtr w => forall t, wf rnd t w = true -> canon t w = true -> norm rnd t w = w
    | _ => True end); [|intros t; apply G].
  clear v. intros v. induction v using gval_ind'; (split; [intros t0 W C; cbn [wf canon norm] in *; try reflexivity|try exact I]).
  - destruct t0; try discriminate. unfold enum_norm. destruct (existsb _ _); [reflexivity|]. cbn in C. apply N.eqb_eq in C. now subst.
  - f_equal. unfold trunc_ms, ns_per_ms in *. apply Z.eqb_eq in C. rewrite C. lia.
  - destruct t0; try reflexivity. discriminate.
  - destruct t0; try discriminate. apply andb_true_iff in W as [_ W]. f_equal. now apply (proj1 IHv).
  - exact (proj1 IHv).
  - destruct t0; try discriminate. f_equal. rewrite <- (map_id l) at 2. apply map_ext_in. intros x Hx.
    rewrite Forall_forall in H. rewrite forallb_forall in W, C. apply (proj1 (H _ Hx)); auto.
  - destruct t0; try discriminate; apply andb_true_iff in W as [_ W]; f_equal; rewrite <- (map_id l) at 2; apply map_ext_in; intros [k x] Hx;
      rewrite Forall_forall in H; rewrite forallb_forall in W, C; specialize (W _ Hx); specialize (C _ Hx); cbn [fst snd] in *;
      apply andb_true_iff in W as [_ W]; f_equal.
    + apply (proj1 (H _ Hx)); auto.
    + destruct x; try reflexivity. destruct t; try reflexivity. destruct x; try reflexivity. f_equal. f_equal.
      apply andb_true_iff in W as [W _]. apply andb_true_iff in W as [_ W]. cbn [wf] in W. apply andb_true_iff in W as [_ W].
      apply (proj2 (H _ Hx)); auto.
  - destruct t0; try discriminate. apply andb_true_iff in W as [_ W]. f_equal. revert fields W C.
    induction H as [|[k x] l Hx Hl IH]; intros [|[m t] fs] W C; cbn [wf_fields canon_fields norm_fields] in *; try discriminate; [reflexivity|].
    rewrite !andb_true_iff in W. destruct W as [[W1 W2] W3]. apply andb_true_iff in C as [C1 C2]. rewrite (IH _ W3 C2). f_equal. f_equal.
    destruct (is_empty (fm_key m)); [symmetry; now apply zero_eq|].
    destruct (fm_omit m && blank_value x); [symmetry; now apply zero_eq|]. now apply Hx.
  - destruct t0; try discriminate. exact (proj1 (view_json_like (VDyn t v)) C).
  - destruct t; try exact I. destruct v; try exact I. intros W C. exact (proj2 IHv _ W C).
Qed.

Lemma norm_flds_id g (f : gty -> gval -> bool) fs : forall vs, wf_fields f fs vs = true ->
  (forall m t nm x, In ((m, t), (nm, x)) (combine fs vs) -> g m t x = x) -> norm_flds g fs vs = vs.
Proof.
  induction fs as [|[m0 t0] fs IH]; intros [|[n0 v0] vs] W H; cbn [wf_fields] in W; try discriminate; [reflexivity|].
  rewrite !andb_true_iff in W. destruct W as [[W1 W2] W3]. cbn [norm_flds]. rewrite (H m0 t0 n0 v0) by now left.
  f_equal. apply IH; [exact W3|]. intros m t nm x Hin. eapply H. right. exact Hin.
Qed.

Lemma norm_field_canon m t nm x : wf rnd t x = true -> canon_field (m, t) (nm, x) = true -> norm_field rnd m t x = x.
Proof.
  unfold canon_field, norm_field. cbn [fst snd]. intros W C. destruct (is_zero x) eqn:Z.
  - rewrite <- (zero_eq _ _ W Z). now destruct (is_empty (fm_key m)).
  - cbn [orb] in C. apply andb_true_iff in C as [C1 C2]. apply negb_true_iff in C1. rewrite C1. now apply norm_canon.
Qed.

Theorem norm_obj_canon n fs v : wf rnd (GStruct n fs) v = true -> canon_obj (GStruct n fs) v = true -> norm_obj rnd (GStruct n fs) v = v.
Proof.
  intros W C. destruct (wf_struct _ _ _ W) as (vs & -> & WF). cbn [norm_obj canon_obj] in *. f_equal.
  rewrite forallb_forall in C. eapply norm_flds_id; [exact WF|]. intros m t nm x Hin. specialize (C _ Hin). cbn [fst snd] in C.
  destruct (wf_fields_combine _ _ _ WF _ _ _ _ Hin) as [_ Wx]. destruct (fm_embed m).
  - destruct t; try discriminate. destruct (wf_struct _ _ _ Wx) as (vs' & -> & WF'). f_equal.
    rewrite forallb_forall in C. eapply norm_flds_id; [exact WF'|]. intros m' t' nm' x' Hin'. specialize (C _ Hin').
    destruct (wf_fields_combine _ _ _ WF' _ _ _ _ Hin') as [_ Wx']. eapply norm_field_canon; eauto.
  - eapply norm_field_canon; eauto.
Qed.

(** * All built-in types *)
Lemma builtin_check : forallb (fun kv => let t := snd kv in
    match t with GStruct _ _ => true | _ => false end &&
    if mem_str (ty_name t) helper_types then obj_ok t && props_ok t
    else ty_ok t && match props_path t with None => true | _ => false end) builtin_types = true.
Proof. vm_compute. reflexivity. Qed.

Lemma builtin_cases name t : In (name, t) builtin_types ->
  exists n fs, t = GStruct n fs /\
    ((mem_str n helper_types = true /\ obj_ok t = true /\ props_ok t = true) \/
     (mem_str n helper_types = false /\ ty_ok t = true /\ props_path t = None)).
Proof.
  intros H. assert (X := builtin_check). rewrite forallb_forall in X. specialize (X _ H). cbn [snd] in X.
  destruct t; try discriminate. cbn [ty_name andb] in X. exists name0, fields. split; [reflexivity|].
  destruct (mem_str name0 helper_types); [left|right]; apply andb_true_iff in X as [X1 X2]; repeat split; auto.
  destruct (props_path (GStruct name0 fields)); [discriminate|reflexivity].
Qed.

Lemma free_name_find n fs k : free_name (GStruct n fs) k = true -> find_field k (flat_fields fs) = None.
Proof.
  unfold free_name, find_field. cbn [own_keys]. intros H. apply negb_true_iff in H.
  assert (N : forall f, In f (flat_fields fs) -> String.eqb (fold_key (fst (fst f))) (fold_key k) = false).
  { intros f Hin. apply not_true_is_false. intros E. apply not_true_iff_false in H. apply H. apply existsb_exists.
    exists (fst (fst f)). split; [|exact E]. now apply (in_map (fun f : string * fpath * gty => fst (fst f))). }
  destruct (find (fun f => String.eqb (fst (fst f)) k) (flat_fields fs)) as [[[k1 p1] t1]|] eqn:E.
  { apply find_some in E as [Hin E]. apply String.eqb_eq in E. specialize (N _ Hin). rewrite E, String.eqb_refl in N. discriminate. }
  destruct (find (fun f => String.eqb (fold_key (fst (fst f))) (fold_key k)) (flat_fields fs)) as [[[k1 p1] t1]|] eqn:E2; [|reflexivity].
  apply find_some in E2 as [Hin E2]. rewrite (N _ Hin) in E2. discriminate.
Qed.

Lemma marshal_json_ok name t v j : In (name, t) builtin_types -> wf rnd t v = true -> marshal t v = Ok j -> json_okb j = true.
Proof.
  intros H W E. destruct (builtin_cases _ _ H) as (n & fs & -> & [(M & O & P)|(M & O & P)]); unfold marshal in E; cbn [ty_name] in E; rewrite M in E.
  - eapply enc_obj_json_ok; eauto.
  - eapply enc_json_ok; eauto.
Qed.

Lemma marshal_roundtrip name t v j : In (name, t) builtin_types -> wf rnd t v = true ->
  (forall k, In k (akeys (props_of t v)) -> free_name t k = true) ->
  marshal t v = Ok j -> dec rnd j t (zero t) = DOk (norm_top rnd t v) false.
Proof.
  intros H W PF E. destruct (builtin_cases _ _ H) as (n & fs & -> & [(M & O & P)|(M & O & P)]); unfold marshal, norm_top in *; cbn [ty_name] in *; rewrite M in *.
  - apply obj_roundtrip; auto. intros k x Hin. eapply free_name_find. apply PF. exact (in_map fst _ _ Hin).
  - now apply value_roundtrip.
Qed.

Theorem marshal_roundtrip_bytes name t v s : In (name, t) builtin_types -> wf rnd t v = true ->
  (forall k, In k (akeys (props_of t v)) -> free_name t k = true) ->
  marshal_bytes t v = Ok s -> unmarshal rnd s t (zero t) = Ok (norm_top rnd t v).
Proof.
  intros H W PF E. apply bind_ok in E as (j & E & E'). injection E' as <-. unfold unmarshal.
  rewrite parse_print by (eapply marshal_json_ok; eauto). now rewrite (marshal_roundtrip _ _ _ _ H W PF E).
Qed.

Theorem norm_top_canon name t v : In (name, t) builtin_types -> wf rnd t v = true -> canon_top t v = true -> norm_top rnd t v = v.
Proof.
  intros H W C. destruct (builtin_cases _ _ H) as (n & fs & -> & [(M & O & P)|(M & O & P)]); unfold canon_top, norm_top in *; cbn [ty_name] in *; rewrite M in *.
  - now apply norm_obj_canon.
  - now apply norm_canon.
Qed.

End Obj.
