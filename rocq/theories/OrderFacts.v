(** The order of members does not matter (for C71). *)
From Coq Require Import Permutation.
From Verif Require Import GoStr GoStrFacts JsonStr StrSpec StrSpecFacts JsonSpec JsonSpecFacts Json JsonFacts Float Consts Enums GoTypes Schema GoVal GoValFacts TimeSpec NumSpec B64Spec Codec CodecSpec CodecFacts StructFacts CodecRound ObjFacts TypedFacts
  Ident Collection CollectionSpec FromJson FromJsonSpec FromJsonFacts ReadFacts IndepFacts ParseFacts BundleFacts FromJsonProps ReadSpec ReadMeaning ReadExact DocSpec DocFacts PropRead OrderSpec.

Notation kx := (fun m : string * json * json => (fst (fst m), snd (fst m))).
Notation ky := (fun m : string * json * json => (fst (fst m), snd m)).

Lemma reordered_sym j j' : reordered j j' -> reordered j' j.
Proof.
  induction 1 as [j|l H IH|l ms ms' P P' H IH].
  - constructor.
  - assert (X := ro_arr (map (fun xy => (snd xy, fst xy)) l)). rewrite !map_map in X. cbn [fst snd] in X. apply X.
    intros x y I. apply in_map_iff in I as ([a b] & Q & I). injection Q as <- <-. now apply IH.
  - apply (ro_obj (map (fun m => (fst (fst m), snd m, snd (fst m))) l)); rewrite ?map_map; cbn [fst snd]; [exact P'|exact P|].
    intros k x y I. apply in_map_iff in I as ([[k' a] b] & Q & I). injection Q as <- <- <-. eapply IH; eauto.
Qed.

Lemma reordered_plain j j' : reordered j j' -> plain_names j -> plain_names j'.
Proof.
  induction 1 as [j|l H IH|l ms ms' P P' H IH]; intros N; [exact N| |].
  - inversion N as [| | | |l' Hl|]; subst. constructor. intros y I. apply in_map_iff in I as ([a b] & <- & I). apply (IH a b I). apply Hl. apply (in_map fst _ _ I).
  - inversion N as [| | | | |ms0 ND Hm]; subst. constructor.
    + apply (Permutation_NoDup (l := map (fun kx => fold_key (fst kx)) ms)); [|exact ND]. rewrite P, P', !map_map. reflexivity.
    + intros k y I. apply (Permutation_in _ P') in I. apply in_map_iff in I as ([[k' a] b] & Q & I). cbn in Q. injection Q as -> ->. apply (IH _ _ _ I).
      apply (Hm k). apply (Permutation_in (l := map kx l)); [now symmetry|]. exact (in_map kx _ _ I).
Qed.
Lemma reordered_ok j j' : reordered j j' -> json_okb j = true -> json_okb j' = true.
Proof.
  induction 1 as [j|l H IH|l ms ms' P P' H IH]; intros N; [exact N| |]; cbn [json_okb] in *; rewrite forallb_forall in *.
  - intros y I. apply in_map_iff in I as ([a b] & <- & I). apply (IH a b I). apply N. apply (in_map fst _ _ I).
  - intros [k y] I. apply (Permutation_in _ P') in I. apply in_map_iff in I as ([[k' a] b] & Q & I). cbn in Q. injection Q as -> ->.
    assert (X : In (k, a) ms) by (apply (Permutation_in (l := map kx l)); [now symmetry|exact (in_map kx _ _ I)]). apply N in X. cbn [fst snd] in *.
    apply andb_true_iff in X as [-> X]. cbn [andb]. eapply IH; eauto.
Qed.

(** Inversion by the form of the first value. *)
Lemma reordered_obj ms j' : reordered (JObj ms) j' -> exists ms' l, j' = JObj ms' /\ Permutation ms (map kx l) /\ Permutation ms' (map ky l) /\
  (forall k x y, In (k, x, y) l -> reordered x y).
Proof.
  intros R. inversion R as [j|l H|l ms0 ms' P P' H]; subst.
  - exists ms, (map (fun m => (fst m, snd m, snd m)) ms). rewrite !map_map. cbn [fst snd].
    assert (E : map (fun m : string * json => (fst m, snd m)) ms = ms) by (rewrite <- (map_id ms) at 2; apply map_ext; now intros []). rewrite E.
    split; [reflexivity|]. split; [reflexivity|]. split; [reflexivity|]. intros k x y I. apply in_map_iff in I as ([a b] & Q & I). injection Q as <- <- <-. constructor.
  - exists ms', l. auto.
Qed.
Lemma reordered_arr l j' : reordered (JArr l) j' -> exists l', j' = JArr l' /\ length l' = length l /\
  forall i x y, nth_error l i = Some x -> nth_error l' i = Some y -> reordered x y.
Proof.
  intros R. inversion R as [j|l0 H|]; subst.
  - exists l. split; [reflexivity|]. split; [reflexivity|]. intros i x y A B. rewrite A in B. injection B as <-. constructor.
  - exists (map snd l0). split; [reflexivity|]. split; [now rewrite !map_length|]. intros i x y A B. rewrite nth_error_map in A, B.
    destruct (nth_error l0 i) as [[a b]|] eqn:E; try discriminate. injection A as <-. injection B as <-. apply H. exact (nth_error_In _ _ E).
Qed.
Lemma reordered_atom j j' : reordered j j' -> match j with JArr _ | JObj _ => True | _ => j' = j end.
Proof. intros [j0| |]; [now destruct j0|exact I|exact I]. Qed.

(** The members in the other order. *)
Section Members.
Variables (l : list (string * json * json)) (ms ms' : list (string * json)).
Hypothesis P : Permutation ms (map kx l).
Hypothesis P' : Permutation ms' (map ky l).
Hypothesis ND : NoDup (map (fun m => fold_key (fst m)) ms).
Hypothesis R : forall k x y, In (k, x, y) l -> reordered x y.

Lemma ro_keys k : In k (akeys ms) <-> In k (akeys ms').
Proof.
  unfold akeys. assert (E : Permutation (map fst ms) (map fst ms')) by (rewrite P, P', !map_map; reflexivity).
  split; apply Permutation_in; [exact E|now symmetry].
Qed.
Lemma nd_l : NoDup (map (fun m : string * json * json => fst (fst m)) l).
Proof.
  apply (NoDup_map_inv fold_key). rewrite map_map. apply (Permutation_NoDup (l := map (fun kx => fold_key (fst kx)) ms)); [|exact ND]. rewrite P, map_map. reflexivity.
Qed.
Lemma ro_pair k y : In (k, y) ms' -> exists x, In (k, x) ms /\ reordered x y.
Proof.
  intros I. apply (Permutation_in _ P') in I. apply in_map_iff in I as ([[k' a] b] & Q & I). cbn in Q. injection Q as -> ->. exists a. split; [|eauto].
  apply (Permutation_in (l := map kx l)); [now symmetry|exact (in_map kx _ _ I)].
Qed.
Lemma nd_ms : NoDup (akeys ms).
Proof. now apply fold_nodup. Qed.
Lemma nd_ms' : NoDup (akeys ms').
Proof. unfold akeys. apply (Permutation_NoDup (l := map fst (map ky l))); [now rewrite P'|]. rewrite map_map. exact nd_l. Qed.

Lemma nodup_val {A} (m : list (string * A)) k x y : NoDup (akeys m) -> In (k, x) m -> In (k, y) m -> x = y.
Proof. intros N I J. assert (X := NoDup_map_eq fst _ _ _ N I J eq_refl). congruence. Qed.
Lemma final_in (m : list (string * json)) k x : NoDup (akeys m) -> (final_member k m x <-> In (k, x) m).
Proof.
  intros N. split; [intros (a & b & -> & _); apply in_or_app; right; now left|]. intros I. apply in_split in I as (a & b & ->). exists a, b. split; [reflexivity|].
  unfold akeys in N. rewrite map_app in N. cbn [map fst] in N. apply NoDup_remove_2 in N. intros J. apply N. apply in_or_app. now right.
Qed.
Lemma ro_final k y : final_member k ms' y -> exists x, final_member k ms x /\ reordered x y.
Proof.
  intros F. apply (final_in _ _ _ nd_ms') in F. destruct (ro_pair _ _ F) as (x & I & Rx). exists x. split; [|exact Rx]. now apply (final_in _ _ _ nd_ms).
Qed.
Lemma ro_named k : exists l0, Permutation (named k ms) (map kx l0) /\ Permutation (named k ms') (map ky l0) /\ incl l0 l.
Proof.
  set (f := fun m : string * json * json => String.eqb (fold_key (fst (fst m))) (fold_key k)). exists (filter f l).
  assert (F : forall g : string * json * json -> json, filter (fun kx => String.eqb (fold_key (fst kx)) (fold_key k)) (map (fun m => (fst (fst m), g m)) l) = map (fun m => (fst (fst m), g m)) (filter f l)).
  { intros g. clear. induction l as [|m l0 IH]; [reflexivity|]. cbn [map filter fst]. rewrite IH. change (f m) with (String.eqb (fold_key (fst (fst m))) (fold_key k)). now destruct (String.eqb _ _). }
  assert (G : forall a b : list (string * json), Permutation a b -> Permutation (named k a) (named k b)).
  { unfold named. induction 1; cbn [filter]; repeat (destruct (String.eqb _ _)); eauto using Permutation. }
  split; [|split].
  - rewrite <- (F (fun m => snd (fst m))). now apply G.
  - rewrite <- (F snd). now apply G.
  - intros m I. now apply filter_In in I.
Qed.
Lemma ro_none k : named k ms' = [] -> named k ms = [].
Proof.
  intros E. destruct (ro_named k) as (l0 & A & B & _). rewrite E in B. apply Permutation_nil in B. destruct l0; [|discriminate]. symmetry in A. now apply Permutation_nil in A.
Qed.
Lemma ro_one k m' : named k ms' = [m'] -> exists m, named k ms = [m] /\ reordered (snd m) (snd m').
Proof.
  intros E. destruct (ro_named k) as (l0 & A & B & C). rewrite E in B. apply Permutation_length_1_inv in B. destruct l0 as [|[[k0 a] b] [|]]; try discriminate.
  cbn in B. injection B as <-. symmetry in A. apply Permutation_length_1_inv in A. exists (k0, a). split; [exact A|]. cbn. apply (R k0). apply C. now left.
Qed.
Lemma ro_last k : match last_member k ms, last_member k ms' with
                  | Some x, Some y => reordered x y
                  | None, None => True
                  | _, _ => False
                  end.
Proof.
  assert (L : forall (m : list (string * json)), NoDup (akeys m) -> match last_member k m with Some x => In (k, x) m | None => ~ In k (akeys m) end).
  { clear. induction m as [|[k' x] m IH]; intros N; [intros []|]. inversion N as [|? ? N1 N2]; subst. specialize (IH N2). cbn [last_member]. destruct (last_member k m); [now right|].
    destruct (String.eqb_spec k k') as [->|]; [now left|]. cbn. intros [Q|]; [congruence|contradiction]. }
  assert (A := L _ nd_ms). assert (B := L _ nd_ms'). destruct (last_member k ms) as [x|], (last_member k ms') as [y|]; [| | |exact I].
  - destruct (ro_pair _ _ B) as (x' & I & Rx). now rewrite (nodup_val _ _ _ _ nd_ms A I).
  - apply B, ro_keys. exact (in_map fst _ _ A).
  - apply A, ro_keys. exact (in_map fst _ _ B).
Qed.
Lemma ro_fold k : match last_fold k ms, last_fold k ms' with
                  | Some x, Some y => reordered x y
                  | None, None => True
                  | _, _ => False
                  end.
Proof.
  assert (L : forall (m : list (string * json)), match last_fold k m with Some x => exists k', fold_key k' = k /\ In (k', x) m | None => forall k', In k' (akeys m) -> fold_key k' <> k end).
  { clear. induction m as [|[k' x] m IH]; [intros k' []|]. cbn [last_fold]. destruct (last_fold k m); [destruct IH as (k1 & E & I); exists k1; split; [exact E|now right]|].
    destruct (String.eqb_spec k (fold_key k')) as [->|N]; [exists k'; split; [reflexivity|now left]|]. intros k1 [<-|I]; [cbn; congruence|now apply IH]. }
  assert (A := L ms). assert (B := L ms'). destruct (last_fold k ms) as [x|], (last_fold k ms') as [y|]; [| | |exact I].
  - destruct A as (k1 & E1 & I1), B as (k2 & E2 & I2). destruct (ro_pair _ _ I2) as (x' & I & Rx).
    assert (X := NoDup_map_eq _ _ _ _ ND I1 I). cbn [fst] in X. rewrite E1, E2 in X. specialize (X eq_refl). injection X as _ <-. exact Rx.
  - destruct A as (k1 & E1 & I1). apply (B k1); [|exact E1]. apply ro_keys. exact (in_map fst _ _ I1).
  - destruct B as (k1 & E1 & I1). apply (A k1); [|exact E1]. apply ro_keys. exact (in_map fst _ _ I1).
Qed.
End Members.

(** ** The meaning of a JSON value *)
(** No part of the value is kept as JSON text. *)
Fixpoint raw_free (t : gty) : bool :=
  match t with
  | GPtr t' | GSlice t' | GMap _ _ t' => raw_free t'
  | GStruct _ fs => forallb (fun ft => raw_free (snd ft)) fs
  | GRaw => false
  | _ => true
  end.
Lemma ext_raw_free k : raw_free (ext_ty k) = true.
Proof.
  unfold ext_ty. destruct (alookup k ext_types) as [t|] eqn:E; [|reflexivity]. apply alookup_Some_In in E.
  assert (X : forallb (fun kv => raw_free (snd kv)) ext_types = true) by (vm_compute; reflexivity). rewrite forallb_forall in X. exact (X _ E).
Qed.
Lemma builtin_raw_free name t : In (name, t) builtin_types -> raw_free t = true.
Proof.
  intros H. assert (X : forallb (fun kv => raw_free (snd kv)) builtin_types = true) by (vm_compute; reflexivity). rewrite forallb_forall in X. exact (X _ H).
Qed.
Lemma path_raw_free n fs p m t : raw_free (GStruct n fs) = true -> has_path fs p m t -> raw_free t = true.
Proof.
  cbn [raw_free]. intros X HP. rewrite forallb_forall in X. destruct HP as [m t Hin _|mb nb fsb m t Hin _ Hin'].
  - exact (X _ Hin).
  - specialize (X _ Hin). cbn [snd raw_free] in X. rewrite forallb_forall in X. exact (X _ Hin').
Qed.

Section Order.
Variable rnd : bool -> N -> Z -> option flt.

Lemma print_obj_long ms : String.length (print (JObj ms)) <> 1%nat.
Proof. cbn [print]. rewrite !slength_app. cbn [String.length]. lia. Qed.
Lemma print_arr_long l : String.length (print (JArr l)) <> 1%nat.
Proof. cbn [print]. rewrite !slength_app. cbn [String.length]. lia. Qed.

Lemma means_reordered t j v : means rnd t j v -> raw_free t = true -> plain_names j -> forall j', reordered j j' -> means rnd t j' v.
Proof.
  induction 1 as [t Ht|n raw s Hs|n l z Hz Hr|b|l neg m e f Hn Hf|name j n Hn|name j Hn He|raw t Ht|raw s b spare Hs Hb|l b F|t j v Nj M IH|t l vs L H IH|name raw s b spare Hs Hb
    |n kt t ms m S K H IH|b|l neg m e f Hn Hf|raw s Hs|l v M IH|ms v M IH| |ms m S K D H IH|n fs ms v Sh Hk H0 H IH|j];
    intros RF PN j' R; try (apply reordered_atom in R; subst j'; econstructor; eassumption).
  - destruct Hn as (raw & s & -> & Hn). apply reordered_atom in R. subst j'. constructor. exists raw, s. auto.
  - assert (Q := reordered_atom _ _ R). destruct j as [|b|l|raw|l|ms]; try (subst j'; now apply me_enum_other).
    + apply reordered_arr in R as (l' & -> & _). apply me_enum_other; [intros n (raw & s & X & _); discriminate|]. destruct He as [A B]. split; [|intros _; apply print_arr_long].
      intros E. destruct (A E) as (raw & s & X & _). discriminate.
    + apply reordered_obj in R as (ms' & l & -> & _). apply me_enum_other; [intros n (raw & s & X & _); discriminate|]. destruct He as [A B]. split; [|intros _; apply print_obj_long].
      intros E. destruct (A E) as (raw & s & X & _). discriminate.
  - apply reordered_arr in R as (l' & -> & L & Hi). apply me_bin_arr. assert (E : l' = l); [|now subst].
    clear PN. revert l' L Hi. induction F as [|x c l cs Hx F IHF]; intros l' L Hi; destruct l' as [|y l']; try discriminate; [reflexivity|]. f_equal.
    + assert (Rxy : reordered x y) by (apply (Hi 0%nat); reflexivity). apply reordered_atom in Rxy. inversion Hx; subst; exact Rxy.
    + apply IHF; [now injection L|]. intros i. exact (Hi (S i)).
  - apply me_ptr; [|now apply IH]. intros ->. apply reordered_sym, reordered_atom in R. congruence.
  - apply reordered_arr in R as (l' & -> & L' & Hi). apply me_slice; [congruence|]. intros i y w Hy Hw.
    destruct (nth_error l i) as [x|] eqn:Hx. 2: { apply nth_error_None in Hx. assert (X : (i < length l')%nat) by (apply nth_error_Some; congruence). lia. }
    apply (IH i x w Hx Hw); [exact RF| |now apply (Hi i)]. inversion PN as [| | | |l0 Hl|]; subst. apply Hl. exact (nth_error_In _ _ Hx).
  - inversion PN as [| | | | |ms0 ND Hm]; subst. apply reordered_obj in R as (ms' & l & -> & P & P' & Hr).
    apply me_map; [exact S|intros k; rewrite K; exact (ro_keys _ _ _ P P' k)|]. intros k y w F A. destruct (ro_final _ _ _ P P' ND Hr _ _ F) as (x & Fx & Rx).
    apply (IH k x w Fx A RF); [|exact Rx]. apply final_in in Fx; [eauto|now apply fold_nodup].
  - assert (Q := reordered_arr _ _ R). destruct Q as (l' & -> & _). constructor. now apply IH.
  - assert (Q := reordered_obj _ _ R). destruct Q as (ms' & l & -> & _). constructor. now apply IH.
  - inversion PN as [| | | | |ms0 ND Hm]; subst. apply reordered_obj in R as (ms' & l & -> & P & P' & Hr).
    apply me_ext; [exact S|intros k; rewrite K; exact (ro_keys _ _ _ P P' k)|exact D|]. intros k y w F A. destruct (ro_final _ _ _ P P' ND Hr _ _ F) as (x & Fx & Rx).
    apply (IH k x w Fx A); [apply ext_raw_free| |exact Rx]. apply final_in in Fx; [eauto|now apply fold_nodup].
  - inversion PN as [| | | | |ms0 ND Hm]; subst. apply reordered_obj in R as (ms' & l & -> & P & P' & Hr).
    apply me_struct; [exact Sh|exact Hk| |].
    + intros k p t Hin E. apply (H0 _ _ _ Hin). exact (ro_none _ _ _ P P' k E).
    + intros k p t m' Hin E. destruct (ro_one _ _ _ P P' Hr k m' E) as (m & Em & Rm). apply (IH _ _ _ _ Hin Em); [| |exact Rm].
      * destruct (proj1 (flat_fields_In _ _ _ _) Hin) as (fm & HP & _). exact (path_raw_free _ _ _ _ _ RF HP).
      * assert (I : In m (named k ms)) by (rewrite Em; now left). apply filter_In in I as [I _]. destruct m as [k0 x0]. exact (Hm _ _ I).
  - discriminate RF.
Qed.

Lemma dec_reordered t j j' v : ty_ok t = true -> fold_ok t = true -> raw_free t = true -> json_okb j = true -> plain_names j -> reordered j j' ->
  dec rnd j t (zero t) = DOk v false -> dec rnd j' t (zero t) = DOk v false.
Proof.
  intros A B C O P R D. apply complete_aux; [|exact A|exact B|now apply (reordered_ok j)|now apply (reordered_plain j)].
  apply (means_reordered t j); [|exact C|exact P|exact R]. now apply sound_all.
Qed.
Lemma generic_reordered j j' v : json_okb j = true -> plain_names j -> reordered j j' -> generic rnd j = Ok v -> generic rnd j' = Ok v.
Proof.
  intros O P R G. assert (O' := reordered_ok _ _ R O). unfold generic in *. apply (unmarshal_dec rnd _ _ _ _ O) in G. apply (unmarshal_dec rnd _ _ _ _ O').
  exact (dec_reordered GIface j j' v eq_refl eq_refl eq_refl O P R G).
Qed.
Lemma builtin_reordered name t j j' v : In (name, t) builtin_types -> json_okb j = true -> plain_names j -> reordered j j' ->
  unmarshal rnd (print j) t (zero t) = Ok v -> unmarshal rnd (print j') t (zero t) = Ok v.
Proof.
  intros H O P R G. assert (O' := reordered_ok _ _ R O). apply (unmarshal_dec rnd _ _ _ _ O) in G. apply (unmarshal_dec rnd _ _ _ _ O').
  apply (builtin_complete rnd name); [exact H|exact O'|now apply (reordered_plain j)|]. apply (means_reordered t j); [|now apply (builtin_raw_free name)|exact P|exact R].
  now apply (builtin_sound rnd name).
Qed.
Lemma custom_reordered ms ms' v : json_okb (JObj ms) = true -> plain_names (JObj ms) -> reordered (JObj ms) (JObj ms') ->
  unmarshal rnd (print (JObj ms)) ty_CustomObject (VMap []) = Ok v -> unmarshal rnd (print (JObj ms')) ty_CustomObject (VMap []) = Ok v.
Proof.
  intros O P R G. assert (O' := reordered_ok _ _ R O). apply (unmarshal_dec rnd _ _ _ _ O) in G. apply (unmarshal_dec rnd _ _ _ _ O').
  unfold ty_CustomObject in *. rewrite dec_map_obj in *. exact (dec_reordered ty_CustomObject (JObj ms) (JObj ms') v eq_refl eq_refl eq_refl O P R G).
Qed.

Section Walks.
Variable cf : config.
Hypothesis NoP : forall typ, parser_of cf typ = None.

Lemma overridden_reordered M ms ms' M1 : json_okb (JObj ms) = true -> plain_names (JObj ms) -> reordered (JObj ms) (JObj ms') ->
  overridden rnd M ms M1 -> overridden rnd M ms' M1.
Proof.
  intros O PN R [A B]. inversion PN as [| | | | |ms0 ND Hm]; subst. apply reordered_obj in R as (ms1 & l & Q & P & P' & Hr). injection Q as <-.
  assert (G : forall k x y, In (k, x) ms -> reordered x y -> forall w, generic rnd x = Ok w -> generic rnd y = Ok w).
  { intros k x y I Rx w. apply generic_reordered; [|eauto|exact Rx]. cbn [json_okb] in O. rewrite forallb_forall in O. apply O in I. cbn in I. now apply andb_true_iff in I. }
  split.
  - intros k y I. destruct (ro_pair _ _ _ P P' Hr _ _ I) as (x & Ix & Rx). destruct (A _ _ Ix) as (w & W). exists w. eapply G; eauto.
  - intros k. specialize (B k). assert (L := ro_last _ _ _ P P' ND Hr k). destruct (last_member k ms) as [x|] eqn:E, (last_member k ms') as [y|]; try contradiction; [|exact B].
    destruct B as (w & W & Mk). exists w. split; [|exact Mk]. apply (G k x); [|exact L|exact W].
    revert E. clear. induction ms as [|[k' x'] ms IH]; [discriminate|]. cbn [last_member]. destruct (last_member k ms); [intros Q; injection Q as ->; right; auto|].
    destruct (String.eqb_spec k k') as [->|]; [|discriminate]. intros Q. injection Q as ->. now left.
Qed.

Lemma receiver_reordered typ j j' o : receiver cf typ j o -> receiver cf typ j' o.
Proof. intros [h o' P _|t A B|A B C]; [rewrite NoP in P; discriminate|now apply rc_builtin|now apply rc_custom]. Qed.
Lemma receiver_unmarshal typ ms ms' t v0 v : json_okb (JObj ms) = true -> plain_names (JObj ms) -> reordered (JObj ms) (JObj ms') -> receiver cf typ (JObj ms) (t, v0) ->
  unmarshal rnd (print (JObj ms)) t v0 = Ok v -> unmarshal rnd (print (JObj ms')) t v0 = Ok v.
Proof.
  intros O P R C. inversion C as [h o' P' _|t' A B|A B D]; subst; [rewrite NoP in P'; discriminate| |].
  - now apply (builtin_reordered typ).
  - now apply custom_reordered.
Qed.

Lemma step_reordered M j j' o M' : json_okb j = true -> plain_names j -> reordered j j' -> step rnd cf M j o M' -> step rnd cf M j' o M'.
Proof.
  intros O P R St. destruct St as [|ms M1 Ov T|ms M1 typ Ov T A B C|ms M1 typ t v0 v Ov T Rc U D|ms M1 typ t v0 v l M2 Ov T Rc U D F L].
  - apply reordered_atom in R. subst. constructor.
  - assert (X := reordered_obj _ _ R). destruct X as (ms' & _ & -> & _). apply step_untyped; [now apply (overridden_reordered M ms)|exact T].
  - assert (X := reordered_obj _ _ R). destruct X as (ms' & _ & -> & _). apply (step_dropped _ _ _ _ _ typ); try assumption. now apply (overridden_reordered M ms).
  - assert (X := reordered_obj _ _ R). destruct X as (ms' & _ & -> & _). apply (step_plain _ _ _ _ _ typ t v0); try assumption.
    + now apply (overridden_reordered M ms).
    + now apply (receiver_reordered _ (JObj ms)).
    + now apply (receiver_unmarshal typ ms).
  - assert (X := reordered_obj _ _ R). destruct X as (ms' & _ & -> & _). apply (step_object _ _ _ _ M1 typ t v0); try assumption.
    + now apply (overridden_reordered M ms).
    + now apply (receiver_reordered _ (JObj ms)).
    + now apply (receiver_unmarshal typ ms).
Qed.
Lemma walk_reordered js js' : Forall2 reordered js js' -> Forall plain_names js -> forallb json_okb js = true -> forall M outs M',
  walk rnd cf M js outs M' -> walk rnd cf M js' outs M'.
Proof.
  induction 1 as [|j j' js js' R F IH]; intros P O M outs M' W; inversion W; subst; [constructor|].
  cbn [forallb] in O. apply andb_true_iff in O as [O1 O2]. inversion P; subst. econstructor; [eapply step_reordered; eauto|]. eauto.
Qed.

Lemma forall2_nth {A} (Q : A -> A -> Prop) (l l' : list A) : length l' = length l -> (forall i x y, nth_error l i = Some x -> nth_error l' i = Some y -> Q x y) -> Forall2 Q l l'.
Proof.
  revert l'. induction l as [|x l IH]; intros [|y l'] L H; try discriminate; constructor; [now apply (H 0%nat)|]. apply IH; [now injection L|]. intros i. exact (H (S i)).
Qed.
Lemma document_reordered j j' s s' js : json_text j s -> json_text j' s' -> plain_names j -> reordered j j' -> document js s ->
  exists js', document js' s' /\ Forall2 reordered js js' /\ Forall plain_names js.
Proof.
  intros T T' P R D. assert (U : forall j1, json_text j1 s -> j1 = j) by (intros j1 H; apply json_exact in H, T; congruence).
  destruct D as [js s H|s H|ms s H Hm]; apply U in H; subst j.
  - apply reordered_arr in R as (l' & -> & L & Hi). exists l'. split; [now apply doc_array|]. split; [now apply forall2_nth|].
    inversion P as [| | | |l0 Hl|]; subst. now apply Forall_forall.
  - apply reordered_atom in R. subst j'. exists []. split; [now apply doc_null|]. split; constructor.
  - inversion P as [| | | | |ms0 ND Hp]; subst. apply reordered_obj in R as (ms' & l & -> & Pm & Pm' & Hr).
    exists (match last_fold "objects" ms' with Some (JArr l) => l | _ => [] end). split.
    + apply doc_bundle; [exact T'|]. intros k y I. destruct (ro_pair _ _ _ Pm Pm' Hr _ _ I) as (x & Ix & Rx). destruct (Hm _ _ Ix) as (A & B & C).
      assert (S : null_or_string x -> null_or_string y) by (intros [-> |(raw & ->)]; apply reordered_atom in Rx; subst y; [now left|right; eauto]).
      split; [|split; auto]. intros E. destruct (A E) as [-> |(l1 & ->)]; [apply reordered_atom in Rx; subst y; now left|]. apply reordered_arr in Rx as (l2 & -> & _). right. eauto.
    + assert (X := ro_fold _ _ _ Pm Pm' ND Hr "objects"). assert (Y : forall x, last_fold "objects" ms = Some x -> exists k, In (k, x) ms).
      { clear. induction ms as [|[k x] ms IH]; [discriminate|]. intros x'. cbn [last_fold]. destruct (last_fold "objects" ms) as [y|].
        - intros Q. injection Q as <-. destruct (IH _ eq_refl) as (k' & I). exists k'. now right.
        - destruct (String.eqb _ _); [|discriminate]. intros Q. injection Q as <-. exists k. now left. }
      destruct (last_fold "objects" ms) as [x|], (last_fold "objects" ms') as [y|]; try contradiction; [|split; constructor].
      destruct (Y x eq_refl) as (k & I). apply Hp in I. assert (X' := reordered_atom _ _ X). destruct x as [|b|n|raw|l1|ms1]; try (subst y; split; constructor).
      * apply reordered_arr in X as (l2 & -> & L & Hi). split; [now apply forall2_nth|]. inversion I as [| | | |l0 Hl|]; subst. now apply Forall_forall.
      * apply reordered_obj in X as (ms2 & l2 & -> & _). split; constructor.
Qed.

Lemma from_json_reordered j j' s s' c : json_text j s -> json_text j' s' -> plain_names j -> reordered j j' -> from_json rnd cf s = Ok c -> from_json rnd cf s' = Ok c.
Proof.
  intros T T' P R E. apply from_json_walk in E as (js & outs & M & D & W & A & ->). destruct (document_reordered _ _ _ _ _ T T' P R D) as (js' & D' & F & PN).
  apply from_json_walk. exists js', outs, M. split; [exact D'|]. split; [|auto]. apply (walk_reordered js); auto. now apply (document_ok js s).
Qed.
End Walks.
End Order.
