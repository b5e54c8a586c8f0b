(** Facts on options. *)
From Verif Require Import GoStr GoStrFacts Json Float Consts GoTypes Schema OptTable GoVal GoValFacts Codec CodecSpec CodecFacts
  StructFacts CodecRound ObjFacts TypedFacts FromJson IndepFacts Options.
From Coq Require Import Permutation.

Definition all_paths (fs : list (fmeta * gty)) : list fpath :=
  flat_map (fun ft : fmeta * gty => let (m, t) := ft in
    if fm_embed m then match t with GStruct _ fs' => map (fun ft' : fmeta * gty => (Some (fm_name m), fm_name (fst ft'))) fs' | _ => [] end
    else [(None, fm_name m)]) fs.
Lemma has_path_all fs p m t : has_path fs p m t -> In p (all_paths fs) /\ snd p = fm_name m.
Proof.
  intros H. split; [|now destruct H]. unfold all_paths. apply in_flat_map.
  destruct H as [m t Hin Em|mb nb fsb m t Hin Em Hin']; eexists; (split; [exact Hin|]); cbv beta iota; rewrite Em; [now left|].
  apply in_map_iff. exists (m, t). now split.
Qed.

Definition ext_named (fs : list (fmeta * gty)) : bool :=
  forallb (fun ft : fmeta * gty => match snd ft with GExt => String.eqb (fm_name (fst ft)) "Extensions" | _ => true end) fs.
Lemma opt_types_check : forallb (fun kv => match snd kv with
    | GStruct _ fs =>
        nodupb (map snd (all_paths fs)) &&
        forallb (fun ft : fmeta * gty => Bool.eqb (fm_embed (fst ft)) (mem_str (fm_name (fst ft)) ext_bases)) fs &&
        ext_named fs && forallb (fun ft : fmeta * gty => match snd ft with GStruct _ fs' => ext_named fs' | _ => true end) fs
    | _ => false end) builtin_types = true.
Proof. vm_compute. reflexivity. Qed.
Lemma opt_rows_check : forallb (fun r => negb (mem_str (or_field r) ("Type" :: "ID" :: "Extensions" :: ext_bases))) option_table = true.
Proof. vm_compute. reflexivity. Qed.

Lemma row_field r : In r option_table -> or_field r <> "Type" /\ or_field r <> "ID" /\ or_field r <> "Extensions" /\ ~ In (or_field r) ext_bases.
Proof.
  intros H. assert (X := opt_rows_check). rewrite forallb_forall in X. specialize (X _ H). apply negb_true_iff in X.
  assert (Y : ~ In (or_field r) ("Type" :: "ID" :: "Extensions" :: ext_bases)).
  { intros Q. apply mem_str_In in Q. congruence. }
  repeat split; intros Q; apply Y; [left; congruence|right; left; congruence|right; right; left; congruence|right; right; right; exact Q].
Qed.

Record opt_struct (fs : list (fmeta * gty)) : Prop := {
  os_flat : flat_ok fs;
  os_uniq : forall p m t p' m' t', has_path fs p m t -> has_path fs p' m' t' -> fm_name m = fm_name m' -> p = p' /\ m = m' /\ t = t';
  os_embed : forall m t, In (m, t) fs -> fm_embed m = true <-> In (fm_name m) ext_bases;
  os_ext : forall p m, has_path fs p m GExt -> fm_name m = "Extensions" }.
Lemma builtin_opt name t : In (name, t) builtin_types -> exists n fs, t = GStruct n fs /\ opt_struct fs.
Proof.
  intros H. destruct (builtin_read _ _ H) as (n & fs & -> & _ & _ & _ & _ & _ & _ & F & _). exists n, fs. split; [reflexivity|].
  assert (X := opt_types_check). rewrite forallb_forall in X. specialize (X _ H). cbn [snd] in X.
  rewrite !andb_true_iff in X. destruct X as [[[X1 X2] X3] X4]. constructor.
  - exact F.
  - intros p m t p' m' t' H1 H2 E. destruct (has_path_all _ _ _ _ H1) as [I1 S1]. destruct (has_path_all _ _ _ _ H2) as [I2 S2].
    assert (p = p') as -> by (eapply (NoDup_map_eq snd); [exact (nodupb_NoDup _ X1)|exact I1|exact I2|congruence]).
    split; [reflexivity|]. eapply has_path_inj; eauto.
  - intros m t Hin. rewrite forallb_forall in X2. specialize (X2 _ Hin). cbn [fst] in X2. apply eqb_prop in X2.
    rewrite X2. apply mem_str_In.
  - intros p m HP. unfold ext_named in *. rewrite forallb_forall in X3, X4. remember GExt as t eqn:Q. destruct HP as [m t Hin Em|mb nb fsb m t Hin Em Hin']; subst t.
    + specialize (X3 _ Hin). cbn [fst snd] in X3. now apply String.eqb_eq.
    + specialize (X4 _ Hin). cbn [fst snd] in X4. rewrite forallb_forall in X4. specialize (X4 _ Hin'). cbn [fst snd] in X4. now apply String.eqb_eq.
Qed.

Lemma own_field_In fs f t : own_field fs f = Some t -> exists m, In (m, t) fs /\ fm_name m = f.
Proof.
  unfold own_field. destruct (find _ fs) as [[m t']|] eqn:E; [|discriminate]. intros Q. injection Q as ->.
  apply find_some in E as [Hin E]. cbn [fst] in E. apply String.eqb_eq in E. eauto.
Qed.
Lemma field_by_name_path fs f p t : opt_struct fs -> ~ In f ext_bases -> field_by_name fs f = Some (p, t) ->
  exists m, has_path fs p m t /\ fm_name m = f.
Proof.
  intros O N. unfold field_by_name. destruct (own_field fs f) as [t0|] eqn:E.
  - intros Q. injection Q as <- <-. destruct (own_field_In _ _ _ E) as (m & Hin & <-). exists m. split; [|reflexivity].
    constructor; [exact Hin|]. destruct (fm_embed m) eqn:Em; [|reflexivity]. exfalso. apply N. now apply (os_embed _ O _ _ Hin).
  - match goal with |- context[flat_map ?g fs] => set (F := g) end. intros Q.
    assert (Hin : In (p, t) (flat_map F fs)).
    { destruct (flat_map F fs) as [|y [|z l]]; try discriminate. injection Q as ->. now left. }
    apply in_flat_map in Hin as ([m0 t0] & Hin & H). subst F. cbv beta iota in H.
    destruct (fm_embed m0) eqn:Em; [|destruct H]. destruct t0; try destruct H.
    destruct (own_field fields f) as [t'|] eqn:E'; [|destruct H].
    destruct H as [H|[]]. injection H as <- <-. destruct (own_field_In _ _ _ E') as (m & Hin' & <-). exists m. split; [|reflexivity].
    econstructor; eauto.
Qed.

Lemma base_field_path fs f : opt_struct fs -> forall bs r, (forall b, In b bs -> In b ext_bases) -> base_field bs fs f = Ok (Some r) ->
  exists m, has_path fs (fst r) m (snd r) /\ fm_name m = f.
Proof.
  intros O. induction bs as [|b bs IH]; intros r Hb E; cbn [base_field] in E; [discriminate|].
  assert (Hb' : forall b, In b bs -> In b ext_bases) by (intros; apply Hb; now right).
  destruct (own_field fs b) as [tb|] eqn:Eb; [|now apply IH].
  destruct tb; try discriminate. destruct (own_field fields f) as [t|] eqn:Ef; [|now apply IH].
  destruct (exported f); [|now apply IH]. injection E as <-. destruct (own_field_In _ _ _ Eb) as (mb & Hin & <-).
  destruct (own_field_In _ _ _ Ef) as (m & Hin' & <-). exists m. split; [|reflexivity]. cbn [fst snd]. econstructor; eauto.
  apply (os_embed _ O _ _ Hin). apply Hb. now left.
Qed.
Lemma get_base_path fs f p t : opt_struct fs -> ~ In f ext_bases -> get_field_from_base fs f = Ok (p, t) ->
  exists m, has_path fs p m t /\ fm_name m = f.
Proof.
  intros O N E. unfold get_field_from_base in E. destruct (base_field base_structs_opt fs f) as [[r|]|e|] eqn:B; cbn [bind] in E; try discriminate.
  - injection E as ->. eapply base_field_path in B; [exact B|exact O|]. intros b [<-|[<-|[]]]; [now left|right; now left].
  - destruct (field_by_name fs f) as [x|] eqn:F; [|discriminate]. destruct (exported f); [|discriminate]. injection E as ->.
    eapply field_by_name_path; eauto.
Qed.
Lemma ext_fold_path fs bs b fs' acc : fold_left (fun acc b => match own_field fs b with Some (GStruct _ fs') => Some (b, fs') | _ => acc end) bs acc = Some (b, fs') ->
  acc = Some (b, fs') \/ (In b bs /\ exists n, own_field fs b = Some (GStruct n fs')).
Proof.
  revert acc. induction bs as [|b0 bs IH]; intros acc E; cbn [fold_left] in E; [now left|].
  apply IH in E as [E|[Hb E]]; [|right; split; [now right|exact E]].
  destruct (own_field fs b0) as [[]|] eqn:Eb; try (now left). injection E as <- <-. right. split; [now left|eauto].
Qed.
Lemma find_ext_path fs p t : opt_struct fs -> find_extension_field fs = Some (p, t) -> exists m, has_path fs p m t /\ fm_name m = "Extensions".
Proof.
  intros O. unfold find_extension_field. destruct (fold_left _ ext_bases None) as [[b fs']|] eqn:E.
  - apply ext_fold_path in E as [E|(Hb & n & E)]; [discriminate|]. destruct (own_field fs' "Extensions") as [t'|] eqn:Ef; [|discriminate].
    intros Q. injection Q as <- <-. destruct (own_field_In _ _ _ E) as (mb & Hin & <-). destruct (own_field_In _ _ _ Ef) as (m & Hin' & <-).
    exists m. split; [|reflexivity]. econstructor; eauto. now apply (os_embed _ O _ _ Hin).
  - intros Q. apply field_by_name_path in Q; [exact Q|exact O|]. intros [X|[X|[X|[]]]]; discriminate.
Qed.

(** An object as options see it. *)
Definition opt_inv (fs : list (fmeta * gty)) (v : gval) : Prop :=
  shape fs v /\ forall p m, has_path fs p m GExt -> msorted (old_map (get_path p v)) = true.
Lemma typed_shape n fs v : flat_ok fs -> typed (GStruct n fs) v = true -> shape fs v.
Proof.
  intros (N & _ & E) W. destruct (typed_struct _ _ _ W) as (vs & -> & WF).
  exists vs. split; [reflexivity|]. split; [symmetry; eapply wf_fields_In; eauto|].
  intros m n' fs' Hin Em. destruct (combine_ex _ vs _ (wf_fields_len _ _ _ WF) Hin) as ([nm x] & Hc).
  destruct (wf_fields_combine _ _ _ WF _ _ _ _ Hc) as [-> Wx]. destruct (typed_struct _ _ _ Wx) as (vs' & -> & WF').
  exists vs'. split; [|symmetry; eapply wf_fields_In; eauto].
  apply alookup_In; [rewrite <- (wf_fields_In _ _ _ WF); exact N|eapply in_combine_r; eauto].
Qed.
Lemma typed_inv n fs v : flat_ok fs -> typed (GStruct n fs) v = true -> opt_inv fs v.
Proof.
  intros F T. split; [eapply typed_shape; eauto|]. intros p m HP. assert (X := typed_path _ _ _ _ _ _ F T HP).
  destruct (get_path p v); try reflexivity. cbn [typed] in X. now apply andb_true_iff in X as [X _].
Qed.

(** What a successful option does. *)
Inductive effect (fs : list (fmeta * gty)) : stix_option -> gval -> gval -> Prop :=
| ef_nil v : effect fs ONil v v
| ef_field r x p m ft v : has_path fs p m ft -> fm_name m = or_field r -> kind_of ft = Some (or_kind r) -> assignable (or_ty r) ft = true ->
    effect fs (OField r x) v (set_path p x v)
| ef_ext n x p m v : has_path fs p m GExt -> fm_name m = "Extensions" ->
    effect fs (OExt n x) v (set_path p (VMap (minsert n x (old_map (get_path p v)))) v).

Definition table_option (o : stix_option) : Prop := match o with OField r _ => In r option_table | _ => True end.
Lemma kind_eqb_eq a b : kind_eqb a b = true -> a = b.
Proof. now destruct a, b. Qed.
Lemma effect_of n fs o v v' : opt_struct fs -> table_option o -> apply_opt (GStruct n fs) o v = (v', Ok tt) -> effect fs o v v'.
Proof.
  intros O T E. destruct o as [|r x|nm x]; cbn [apply_opt] in E.
  - injection E as <-. constructor.
  - cbn in T. destruct (row_field _ T) as (_ & _ & _ & N). unfold set_field_opt in E.
    destruct (get_field_from_base fs (or_field r)) as [[p ft]| |] eqn:G; try discriminate.
    destruct (kind_of ft) as [k|] eqn:K; [|discriminate]. destruct (kind_eqb (or_kind r) k) eqn:Ek; [|discriminate].
    apply kind_eqb_eq in Ek. subst k. destruct (assignable (or_ty r) ft) eqn:A; [|discriminate]. injection E as <-.
    destruct (get_base_path _ _ _ _ O N G) as (m & HP & Hm). econstructor; eauto.
  - unfold set_extension in E. destruct (find_extension_field fs) as [[p t]|] eqn:F; [|discriminate].
    destruct t; try discriminate. injection E as <-. destruct (find_ext_path _ _ _ O F) as (m & HP & Hm). econstructor; eauto.
Qed.

(** Whether an option succeeds depends on the type only. *)
Lemma apply_opt_stable t o v w : snd (apply_opt t o v) = snd (apply_opt t o w).
Proof.
  destruct o as [|r x|nm x]; cbn [apply_opt]; [reflexivity| |].
  - unfold set_field_opt. destruct t; try reflexivity. destruct (get_field_from_base fields (or_field r)) as [[p ft]| |]; try reflexivity.
    destruct (match kind_of ft with Some k' => kind_eqb (or_kind r) k' | None => false end); [|reflexivity]. now destruct (assignable (or_ty r) ft).
  - unfold set_extension. destruct t; try reflexivity. destruct (find_extension_field fields) as [[p ft]|]; [|reflexivity]. now destruct ft.
Qed.
Lemma apply_opt_fail t o v v' r : apply_opt t o v = (v', r) -> r <> Ok tt -> v' = v.
Proof.
  intros E N. destruct o as [|rr x|nm x]; cbn [apply_opt] in E.
  - congruence.
  - unfold set_field_opt in E. destruct t; try congruence. destruct (get_field_from_base fields (or_field rr)) as [[p ft]| |]; try congruence.
    destruct (match kind_of ft with Some k' => kind_eqb (or_kind rr) k' | None => false end); [|congruence]. destruct (assignable (or_ty rr) ft); congruence.
  - unfold set_extension in E. destruct t; try congruence. destruct (find_extension_field fields) as [[p ft]|]; [|congruence]. destruct ft; congruence.
Qed.
Lemma apply_opts_fail t : forall os v v', apply_opts t os v = (v', Ok tt) -> Forall (fun o => forall w, snd (apply_opt t o w) = Ok tt) os.
Proof.
  induction os as [|o os IH]; intros v v' E; [constructor|]. cbn [apply_opts] in E. destruct (apply_opt t o v) as [v1 r] eqn:E1.
  destruct r as [[]| |]; try discriminate. constructor; [|eapply IH; eauto]. intros w. rewrite (apply_opt_stable t o w v), E1. reflexivity.
Qed.

Lemma effect_shape fs o v v' : opt_struct fs -> opt_inv fs v -> effect fs o v v' -> shape fs v'.
Proof. intros O [S _] E. destruct E; try exact S; eapply shape_set; eauto using os_flat. Qed.
(** Every field after a successful option. *)
Definition target (o : stix_option) : option string :=
  match o with ONil => None | OField r _ => Some (or_field r) | OExt _ _ => Some "Extensions" end.
Lemma effect_other fs o v v' p m t : opt_struct fs -> opt_inv fs v -> effect fs o v v' -> has_path fs p m t -> Some (fm_name m) <> target o ->
  get_path p v' = get_path p v.
Proof.
  intros O [S _] E HP N. destruct E as [v|r x p0 m0 ft v H0 N0|n x p0 m0 v H0 N0]; [reflexivity| |]; cbn [target] in N;
  (eapply get_set_other; [exact (os_flat _ O)|exact S|exact H0|exact HP|]; intros ->;
   destruct (has_path_inj _ _ _ _ _ _ (os_flat _ O) HP H0) as [-> _]; congruence).
Qed.
Definition new_value (o : stix_option) (old : gval) : gval :=
  match o with ONil => old | OField _ x => x | OExt n x => VMap (minsert n x (old_map old)) end.
Lemma effect_same fs o v v' p m t : opt_struct fs -> opt_inv fs v -> effect fs o v v' -> has_path fs p m t -> Some (fm_name m) = target o ->
  get_path p v' = new_value o (get_path p v).
Proof.
  intros O [S _] E HP N. destruct E as [v|r x p0 m0 ft v H0 N0|n x p0 m0 v H0 N0]; [reflexivity| |]; cbn [target new_value] in *; injection N as N;
  (destruct (os_uniq _ O _ _ _ _ _ _ HP H0 ltac:(congruence)) as (-> & -> & ->); eapply get_set_same; eauto).
Qed.
Lemma option_eq_dec (a b : option string) : {a = b} + {a <> b}.
Proof. repeat decide equality. Qed.
Lemma effect_inv fs o v v' : opt_struct fs -> table_option o -> opt_inv fs v -> effect fs o v v' -> opt_inv fs v'.
Proof.
  intros O T I E. split; [eapply effect_shape; eauto|]. intros p m HP. assert (Hm := os_ext _ O _ _ HP).
  assert (X := proj2 I _ _ HP). destruct (option_eq_dec (Some (fm_name m)) (target o)) as [Q|Q].
  - rewrite (effect_same _ _ _ _ _ _ _ O I E HP Q). destruct o as [|r x|n x]; cbn [new_value target] in *; [discriminate| |now apply msorted_minsert].
    exfalso. injection Q as Q. destruct (row_field _ T) as (_ & _ & N & _). congruence.
  - now rewrite (effect_other _ _ _ _ _ _ _ O I E HP Q).
Qed.

(** Equality of objects by their fields. *)
Lemma effect_ext fs v v' : opt_struct fs -> opt_inv fs v -> opt_inv fs v' -> (forall p m t, has_path fs p m t -> get_path p v = get_path p v') -> v = v'.
Proof. intros O [S _] [S' _] H. eapply shape_ext; eauto using os_flat. Qed.

Lemma apply_opt_ok n fs o v : opt_struct fs -> table_option o -> opt_inv fs v -> snd (apply_opt (GStruct n fs) o v) = Ok tt ->
  exists v', apply_opt (GStruct n fs) o v = (v', Ok tt) /\ effect fs o v v' /\ opt_inv fs v'.
Proof.
  intros O T I E. destruct (apply_opt (GStruct n fs) o v) as [v' r] eqn:A. cbn [snd] in E. subst r. exists v'.
  assert (X := effect_of _ _ _ _ _ O T A). split; [reflexivity|]. split; [exact X|]. eapply effect_inv; eauto.
Qed.

(** Two options do not touch the same property. *)
Definition differ (a b : stix_option) : Prop :=
  match a, b with
  | OField r _, OField r' _ => or_field r <> or_field r'
  | OExt n _, OExt n' _ => n <> n'
  | _, _ => True
  end.
Lemma differ_sym a b : differ a b -> differ b a.
Proof. destruct a, b; cbn; auto. Qed.
Lemma minsert_comm {A} n (x : A) n' x' l : n <> n' -> msorted l = true -> minsert n x (minsert n' x' l) = minsert n' x' (minsert n x l).
Proof.
  intros N S. apply msorted_ext; try (now repeat apply msorted_minsert). intros k. rewrite !alookup_minsert by (try apply msorted_minsert; assumption).
  destruct (String.eqb_spec k n) as [->|]; [|reflexivity]. destruct (String.eqb_spec n n'); [contradiction|reflexivity].
Qed.
Lemma minsert_twice {A} n (x : A) x' l : msorted l = true -> minsert n x' (minsert n x l) = minsert n x' l.
Proof.
  intros S. apply msorted_ext; try (now repeat apply msorted_minsert). intros k. rewrite !alookup_minsert by (try apply msorted_minsert; assumption).
  now destruct (String.eqb k n).
Qed.

Lemma swap_two n fs a b v va vb w w' : opt_struct fs -> table_option a -> table_option b -> differ a b -> opt_inv fs v ->
  apply_opt (GStruct n fs) a v = (va, Ok tt) -> apply_opt (GStruct n fs) b va = (w, Ok tt) ->
  apply_opt (GStruct n fs) b v = (vb, Ok tt) -> apply_opt (GStruct n fs) a vb = (w', Ok tt) -> w = w'.
Proof.
  intros O Ta Tb D I A1 B1 B2 A2. apply effect_of in A1, B1, B2, A2; try assumption.
  assert (Ia := effect_inv _ _ _ _ O Ta I A1). assert (Ib := effect_inv _ _ _ _ O Tb I B2).
  eapply effect_ext; [exact O|eapply effect_inv; [exact O|exact Tb|exact Ia|exact B1]|eapply effect_inv; [exact O|exact Ta|exact Ib|exact A2]|].
  intros p m t HP.
  destruct (option_eq_dec (Some (fm_name m)) (target a)) as [Qa|Qa]; destruct (option_eq_dec (Some (fm_name m)) (target b)) as [Qb|Qb].
  - rewrite (effect_same _ _ _ _ _ _ _ O Ia B1 HP Qb), (effect_same _ _ _ _ _ _ _ O I A1 HP Qa),
      (effect_same _ _ _ _ _ _ _ O Ib A2 HP Qa), (effect_same _ _ _ _ _ _ _ O I B2 HP Qb).
    destruct a as [|ra xa|na xa], b as [|rb xb|nb xb]; cbn [target differ new_value] in *; try discriminate; try congruence.
    + injection Qa as Qa. injection Qb as Qb. destruct (row_field _ Ta) as (_ & _ & N & _). congruence.
    + injection Qa as Qa. injection Qb as Qb. destruct (row_field _ Tb) as (_ & _ & N & _). congruence.
    + f_equal. cbn [old_map]. apply minsert_comm; [congruence|]. inversion A1 as [| |? ? p0 m0 ? H0 N0]; subst.
      destruct (os_uniq _ O _ _ _ _ _ _ HP H0 ltac:(congruence)) as (-> & -> & ->). exact (proj2 I _ _ H0).
  - rewrite (effect_other _ _ _ _ _ _ _ O Ia B1 HP Qb), (effect_same _ _ _ _ _ _ _ O I A1 HP Qa),
      (effect_same _ _ _ _ _ _ _ O Ib A2 HP Qa), (effect_other _ _ _ _ _ _ _ O I B2 HP Qb). reflexivity.
  - rewrite (effect_same _ _ _ _ _ _ _ O Ia B1 HP Qb), (effect_other _ _ _ _ _ _ _ O I A1 HP Qa),
      (effect_other _ _ _ _ _ _ _ O Ib A2 HP Qa), (effect_same _ _ _ _ _ _ _ O I B2 HP Qb). reflexivity.
  - rewrite (effect_other _ _ _ _ _ _ _ O Ia B1 HP Qb), (effect_other _ _ _ _ _ _ _ O I A1 HP Qa),
      (effect_other _ _ _ _ _ _ _ O Ib A2 HP Qa), (effect_other _ _ _ _ _ _ _ O I B2 HP Qb). reflexivity.
Qed.

Lemma apply_opts_cons t o os v : apply_opts t (o :: os) v = match apply_opt t o v with (v', Ok _) => apply_opts t os v' | r => r end.
Proof. reflexivity. Qed.
Lemma apply_opts_app t l1 : forall l2 v, apply_opts t (l1 ++ l2) v = match apply_opts t l1 v with (v', Ok _) => apply_opts t l2 v' | r => r end.
Proof.
  induction l1 as [|o l1 IH]; intros l2 v; [reflexivity|]. cbn [app]. rewrite !apply_opts_cons. destruct (apply_opt t o v) as [v' [[]| |]]; [apply IH|reflexivity|reflexivity].
Qed.
Lemma apply_opts_inv n fs os : opt_struct fs -> Forall table_option os -> forall v v' r, opt_inv fs v -> apply_opts (GStruct n fs) os v = (v', r) -> opt_inv fs v'.
Proof.
  intros O T. induction T as [|o os To T IH]; intros v v' r I E; [injection E as <- _; exact I|].
  rewrite apply_opts_cons in E. destruct (apply_opt (GStruct n fs) o v) as [v1 r1] eqn:E1.
  destruct r1 as [[]| |].
  - eapply IH; [|exact E]. eapply effect_inv; eauto. eapply effect_of; eauto.
  - injection E as <- _. apply apply_opt_fail in E1; [|discriminate]. now subst.
  - injection E as <- _. apply apply_opt_fail in E1; [|discriminate]. now subst.
Qed.
Lemma apply_opts_keep n fs os p m t : opt_struct fs -> Forall table_option os -> has_path fs p m t ->
  Forall (fun o => Some (fm_name m) <> target o) os -> forall v v' r, opt_inv fs v ->
  apply_opts (GStruct n fs) os v = (v', r) -> get_path p v' = get_path p v.
Proof.
  intros O T HP. induction T as [|o os To T IH]; intros K v v' r I E; [injection E as <- _; reflexivity|].
  inversion K as [|? ? K1 K2]; subst. rewrite apply_opts_cons in E. destruct (apply_opt (GStruct n fs) o v) as [v1 r1] eqn:E1.
  destruct r1 as [[]| |].
  - assert (X := effect_of _ _ _ _ _ O To E1). rewrite (IH K2 _ _ _ (effect_inv _ _ _ _ O To I X) E). eapply effect_other; eauto.
  - injection E as <- _. apply apply_opt_fail in E1; [|discriminate]. now subst.
  - injection E as <- _. apply apply_opt_fail in E1; [|discriminate]. now subst.
Qed.
Lemma apply_opts_stable t os : forall v w, snd (apply_opts t os v) = snd (apply_opts t os w).
Proof.
  induction os as [|o os IH]; intros v w; [reflexivity|]. rewrite !apply_opts_cons. assert (S := apply_opt_stable t o v w).
  destruct (apply_opt t o v) as [v1 r1], (apply_opt t o w) as [w1 r2]. cbn [snd] in S. subst r2. destruct r1 as [[]| |]; [apply IH|reflexivity|reflexivity].
Qed.
Lemma apply_opts_all t os : forall v, Forall (fun o => forall w, snd (apply_opt t o w) = Ok tt) os -> snd (apply_opts t os v) = Ok tt.
Proof.
  induction os as [|o os IH]; intros v F; [reflexivity|]. inversion F as [|? ? F1 F2]; subst. rewrite apply_opts_cons. specialize (F1 v).
  destruct (apply_opt t o v) as [v1 r1]. cbn [snd] in F1. subst r1. now apply IH.
Qed.

Lemma swap_opts n fs a b os v v' : opt_struct fs -> table_option a -> table_option b -> Forall table_option os -> differ a b -> opt_inv fs v ->
  apply_opts (GStruct n fs) (a :: b :: os) v = (v', Ok tt) -> apply_opts (GStruct n fs) (b :: a :: os) v = (v', Ok tt).
Proof.
  intros O Ta Tb To D I E. assert (F := apply_opts_fail _ _ _ _ E). inversion F as [|? ? Fa F2]; subst. inversion F2 as [|? ? Fb F3]; subst.
  rewrite !apply_opts_cons in E. rewrite !apply_opts_cons.
  destruct (apply_opt_ok _ _ _ _ O Ta I (Fa v)) as (va & Ea & _ & Ia). rewrite Ea, apply_opts_cons in E.
  destruct (apply_opt_ok _ _ _ _ O Tb Ia (Fb va)) as (w & Ew & _ & Iw). rewrite Ew in E.
  destruct (apply_opt_ok _ _ _ _ O Tb I (Fb v)) as (vb & Eb & _ & Ib). rewrite Eb, apply_opts_cons.
  destruct (apply_opt_ok _ _ _ _ O Ta Ib (Fa vb)) as (w' & Ew' & _ & _). rewrite Ew'.
  now rewrite (swap_two _ _ _ _ _ _ _ _ _ O Ta Tb D I Ea Ew Eb Ew') in E.
Qed.

Lemma perm_opts n fs os os' : opt_struct fs -> Permutation os os' -> Forall table_option os -> ForallOrdPairs differ os -> forall v v', opt_inv fs v ->
  apply_opts (GStruct n fs) os v = (v', Ok tt) -> apply_opts (GStruct n fs) os' v = (v', Ok tt).
Proof.
  intros O P. induction P as [|o l l' P IH|a b l|l1 l2 l3 P1 IH1 P2 IH2]; intros T D v v' I E.
  - exact E.
  - rewrite apply_opts_cons in *. inversion T as [|? ? T1 T2]; subst. inversion D as [|? ? D1 D2]; subst.
    destruct (apply_opt (GStruct n fs) o v) as [v1 r1] eqn:E1. destruct r1 as [[]| |]; try discriminate.
    apply (IH T2 D2); [|exact E]. eapply effect_inv; eauto. eapply effect_of; eauto.
  - inversion T as [|? ? T1 T2]; subst. inversion T2; subst. inversion D as [|? ? D1 D2]; subst. inversion D1; subst.
    apply swap_opts; auto.
  - apply IH2; [eapply Permutation_Forall; eauto| |exact I|].
    + revert D. clear - P1. induction P1 as [|o l l' P IH|a b l|l1 l2 l3 P1 IH1 P2 IH2]; intros D; auto.
      * inversion D; subst. constructor; [eapply Permutation_Forall; eauto|auto].
      * inversion D as [|? ? D1 D2]; subst. inversion D1; subst. inversion D2; subst. constructor; [constructor; auto using differ_sym|]. constructor; auto.
    + now apply IH1.
Qed.

(** An option that a later one overrides. *)
Definition overrides (a b : stix_option) : Prop :=
  match a, b with
  | OField r _, OField r' _ => or_field r = or_field r'
  | OExt n _, OExt n' _ => n = n'
  | _, _ => False
  end.
Lemma differ_dec a b : overrides a b \/ differ a b.
Proof.
  destruct a as [|r x|n x], b as [|r' x'|n' x']; cbn; auto.
  - destruct (String.eqb_spec (or_field r) (or_field r')); auto.
  - destruct (String.eqb_spec n n'); auto.
Qed.
Lemma override_two n fs a b v va w w' : opt_struct fs -> table_option a -> table_option b -> overrides a b -> opt_inv fs v ->
  apply_opt (GStruct n fs) a v = (va, Ok tt) -> apply_opt (GStruct n fs) b va = (w, Ok tt) ->
  apply_opt (GStruct n fs) b v = (w', Ok tt) -> w = w'.
Proof.
  intros O Ta Tb D I A1 B1 B2. apply effect_of in A1, B1, B2; try assumption.
  assert (Ia := effect_inv _ _ _ _ O Ta I A1).
  eapply effect_ext; [exact O|eapply effect_inv; [exact O|exact Tb|exact Ia|exact B1]|eapply effect_inv; [exact O|exact Tb|exact I|exact B2]|].
  intros p m t HP.
  assert (TT : target a = target b) by (destruct a, b; cbn in *; congruence || contradiction).
  destruct (option_eq_dec (Some (fm_name m)) (target b)) as [Qb|Qb].
  - rewrite (effect_same _ _ _ _ _ _ _ O Ia B1 HP Qb), (effect_same _ _ _ _ _ _ _ O I B2 HP Qb), (effect_same _ _ _ _ _ _ _ O I A1 HP ltac:(congruence)).
    destruct a as [|ra xa|na xa], b as [|rb xb|nb xb]; cbn [target overrides new_value] in *; try contradiction; [reflexivity|].
    subst nb. f_equal. cbn [old_map]. apply minsert_twice. inversion A1 as [| |? ? p0 m0 ? H0 N0]; subst.
    destruct (os_uniq _ O _ _ _ _ _ _ HP H0 ltac:(congruence)) as (-> & -> & ->). exact (proj2 I _ _ H0).
  - rewrite (effect_other _ _ _ _ _ _ _ O Ia B1 HP Qb), (effect_other _ _ _ _ _ _ _ O I B2 HP Qb), (effect_other _ _ _ _ _ _ _ O I A1 HP ltac:(congruence)). reflexivity.
Qed.
Lemma override_opts n fs a b l2 : opt_struct fs -> table_option a -> table_option b -> overrides a b -> forall l1 v v', Forall table_option l1 -> opt_inv fs v ->
  Forall table_option l2 -> apply_opts (GStruct n fs) (a :: l1 ++ b :: l2) v = (v', Ok tt) -> apply_opts (GStruct n fs) (l1 ++ b :: l2) v = (v', Ok tt).
Proof.
  intros O Ta Tb Ov l1 v v' Tl I T2. revert v v' I. induction Tl as [|o l1 To Tl IH]; intros v v' I E.
  - cbn [app] in *. assert (F := apply_opts_fail _ _ _ _ E). inversion F as [|? ? Fa F2]; subst. inversion F2 as [|? ? Fb F3]; subst.
    rewrite !apply_opts_cons in *. destruct (apply_opt_ok _ _ _ _ O Ta I (Fa v)) as (va & Ea & _ & Ia). rewrite Ea in E.
    rewrite apply_opts_cons in E. destruct (apply_opt_ok _ _ _ _ O Tb Ia (Fb va)) as (w & Ew & _ & Iw). rewrite Ew in E.
    destruct (apply_opt_ok _ _ _ _ O Tb I (Fb v)) as (vb & Eb & _ & Ib). rewrite Eb.
    now rewrite (override_two _ _ _ _ _ _ _ _ O Ta Tb Ov I Ea Ew Eb) in E.
  - cbn [app] in *. assert (TF : Forall table_option (l1 ++ b :: l2)) by (apply Forall_app; split; [exact Tl|constructor; assumption]).
    destruct (differ_dec a o) as [Oo|D].
    + assert (F := apply_opts_fail _ _ _ _ E). inversion F as [|? ? Fa F2]; subst. inversion F2 as [|? ? Fb F3]; subst.
      rewrite !apply_opts_cons in *. destruct (apply_opt_ok _ _ _ _ O Ta I (Fa v)) as (va & Ea & _ & Ia). rewrite Ea in E.
      rewrite apply_opts_cons in E. destruct (apply_opt_ok _ _ _ _ O To Ia (Fb va)) as (w & Ew & _ & Iw). rewrite Ew in E.
      destruct (apply_opt_ok _ _ _ _ O To I (Fb v)) as (vb & Eb & _ & Ib). rewrite Eb.
      now rewrite (override_two _ _ _ _ _ _ _ _ O Ta To Oo I Ea Ew Eb) in E.
    + apply swap_opts in E; try assumption. rewrite apply_opts_cons in E. rewrite apply_opts_cons.
      destruct (apply_opt (GStruct n fs) o v) as [v1 r1] eqn:E1. destruct r1 as [[]| |]; try discriminate.
      apply IH; [|exact E]. eapply effect_inv; [exact O|exact To|exact I|]. eapply effect_of; eauto.
Qed.
