(** Facts for C91 and C92. *)
From Verif Require Import GoStr GoStrFacts JsonStr StrSpec JsonSpec Json Float Consts GoTypes Schema GoVal Codec CodecSpec Ident
  Collection CollectionSpec CollectionFacts FromJson FromJsonSpec FromJsonFacts ReadFacts IndepFacts PropMerge JoinSpec.

Lemma run_ok {O} (h : list (string * string * O)) : forall c, snd (run c h) = map (fun x => has_valid_identifier (fst (fst x)) (snd (fst x))) h.
Proof.
  induction h as [|[[id t] o] h IH]; intros c; [reflexivity|]. rewrite run_cons. cbn [snd map fst]. rewrite IH. f_equal.
  unfold add. destruct (has_valid_identifier id t); reflexivity.
Qed.
Lemma log_app {O} (f : string * string * O -> bool) h1 h2 : log (h1 ++ h2) (map f (h1 ++ h2)) = log h1 (map f h1) ++ log h2 (map f h2).
Proof. unfold log. induction h1 as [|x h1 IH]; [reflexivity|]. cbn [app map combine]. now rewrite IH. Qed.
Lemma calls_app a b : calls_of (a ++ b) = (calls_of a ++ calls_of b)%list.
Proof. unfold calls_of. apply flat_map_app. Qed.
Lemma calls_unchanged outs : unchanged id_of type_of (calls_of outs).
Proof.
  intros id ty ob H. unfold calls_of in H. apply in_flat_map in H as ([o|] & _ & H); [|destruct H]. unfold id_of, type_of.
  destruct (obj_id o) as [i| |] eqn:Ei; [|destruct H|destruct H]. destruct (obj_type o) as [t| |] eqn:Et; [|destruct H|destruct H].
  destruct H as [Q|[]]. injection Q as <- <- <-. now rewrite Ei, Et.
Qed.

Lemma collect_joined ns a b : joined (collect ns a) (collect ns b) (collect ns (a ++ b)).
Proof.
  unfold collect.
  assert (R : forall l, run (new_coll ns) (calls_of l) = (fst (run (new_coll ns) (calls_of l)), map (fun x => has_valid_identifier (fst (fst x)) (snd (fst x))) (calls_of l))).
  { intros l. rewrite <- (run_ok (calls_of l) (new_coll ns)). now destruct (run (new_coll ns) (calls_of l)). }
  assert (Ra := R a). assert (Rb := R b). assert (Rc := R (a ++ b)).
  destruct (Inv_reach _ _ _ _ Ra) as [Ia Na], (Inv_reach _ _ _ _ Rb) as [Ib Nb], (Inv_reach _ _ _ _ Rc) as [Ic Nc].
  assert (L : log (calls_of (a ++ b)) (map (fun x => has_valid_identifier (fst (fst x)) (snd (fst x))) (calls_of (a ++ b))) =
    log (calls_of a) (map (fun x => has_valid_identifier (fst (fst x)) (snd (fst x))) (calls_of a)) ++
    log (calls_of b) (map (fun x => has_valid_identifier (fst (fst x)) (snd (fst x))) (calls_of b))) by (rewrite calls_app; apply log_app).
  split.
  - intros id. rewrite (get_Inv _ _ id Ia), (get_Inv _ _ id Ib), (get_Inv _ _ id Ic), L. apply latest_app.
  - intros Q os1 os2 os A1 A2 A. rewrite Nc in Q. subst ns.
    destruct (held_objects id_of type_of _ _ _ _ _ Ra (calls_unchanged a) A1) as (_ & _ & _ & F1).
    destruct (held_objects id_of type_of _ _ _ _ _ Rb (calls_unchanged b) A2) as (_ & _ & _ & F2).
    destruct (held_objects id_of type_of _ _ _ _ _ Rc (calls_unchanged (a ++ b)) A) as (_ & _ & _ & F).
    rewrite (F1 eq_refl), (F2 eq_refl), (F eq_refl), L. apply first_ids_app.
Qed.

Section J.
Variable rnd : bool -> N -> Z -> option flt.
Variable cf : config.
Notation read := (read rnd cf).
Notation read_all := (read_all rnd cf).

Lemma read_null p : read JNull p = Ok (None, VNil).
Proof. reflexivity. Qed.
Lemma read_all_null a b : forall p, read_all (a ++ JNull :: b) p = do oa <- read_all a p; do ob <- read_all b VNil; Ok (oa ++ None :: ob)%list.
Proof.
  induction a as [|j a IH]; intros p.
  - cbn [app FromJsonFacts.read_all bind]. rewrite read_null. reflexivity.
  - cbn [app FromJsonFacts.read_all]. destruct (read j p) as [[o p']| |]; [|reflexivity|reflexivity]. cbn [bind fst snd]. rewrite IH.
    destruct (read_all a p') as [oa| |]; [|reflexivity|reflexivity]. cbn [bind]. destruct (read_all b VNil); reflexivity.
Qed.
Lemma read_all_same b p q : old_map p = old_map q -> read_all b p = read_all b q.
Proof. intros E. destruct b as [|j b]; [reflexivity|]. cbn [FromJsonFacts.read_all]. now rewrite (read_same_old rnd cf j p q E). Qed.
Lemma read_all_clean a b : cf_drop cf = false -> Forall (clean cf) a -> forall p, old_map p = [] ->
  read_all (a ++ b) p = do oa <- read_all a p; do ob <- read_all b VNil; Ok (oa ++ ob)%list.
Proof.
  intros Dr. induction 1 as [|j a C _ IH]; intros p E.
  - cbn [app FromJsonFacts.read_all bind]. rewrite (read_all_same b p VNil) by exact E. destruct (read_all b VNil); reflexivity.
  - cbn [app FromJsonFacts.read_all]. destruct (read j p) as [[o p']| |] eqn:R; [|reflexivity|reflexivity]. cbn [bind fst snd].
    rewrite IH by (eapply read_clean; eauto). destruct (read_all a p') as [oa| |]; [|reflexivity|reflexivity]. cbn [bind]. destruct (read_all b VNil); reflexivity.
Qed.
Definition typed (js : list json) : Prop := forall ms, In (JObj ms) js -> member "type" (JObj ms) <> None.
Lemma read_all_drop b : cf_drop cf = true -> typed b -> forall p q, msorted (old_map p) = true -> msorted (old_map q) = true -> read_all b p = read_all b q.
Proof.
  intros Dr. induction b as [|j b IH]; intros T p q Sp Sq; [reflexivity|]. cbn [FromJsonFacts.read_all].
  assert (E : out1 (read j p) = out1 (read j q)) by (apply read_drop; auto; intros ms ->; apply T; now left).
  destruct (read j p) as [[o p']|e|] eqn:Rp, (read j q) as [[o' q']|e'|] eqn:Rq; cbn [out1 bind fst snd] in *; try discriminate; [|exact (f_equal (fun r => match r with Ok _ => Panic | Err x => Err x | Panic => Panic end) E)|reflexivity].
  injection E as <-. rewrite (IH (fun ms H => T ms (or_intror H)) p' q'); [reflexivity|exact (read_sorted _ _ _ _ _ _ Sp Rp)|exact (read_sorted _ _ _ _ _ _ Sq Rq)].
Qed.
Lemma read_all_app_drop a b : cf_drop cf = true -> typed b -> forall p, msorted (old_map p) = true ->
  read_all (a ++ b) p = do oa <- read_all a p; do ob <- read_all b VNil; Ok (oa ++ ob)%list.
Proof.
  intros Dr T. induction a as [|j a IH]; intros p S1.
  - cbn [app FromJsonFacts.read_all bind]. rewrite (read_all_drop b Dr T p VNil S1 eq_refl). destruct (read_all b VNil); reflexivity.
  - cbn [app FromJsonFacts.read_all]. destruct (read j p) as [[o p']| |] eqn:R; [|reflexivity|reflexivity]. cbn [bind fst snd].
    rewrite IH by (eapply read_sorted; eauto). destruct (read_all a p') as [oa| |]; [|reflexivity|reflexivity]. cbn [bind]. destruct (read_all b VNil); reflexivity.
Qed.

Lemma collect_none ns a b : collect ns (a ++ None :: b) = collect ns (a ++ b).
Proof. unfold collect. now rewrite !calls_app. Qed.
Lemma null_after_other a b s1 s2 s : document a s1 -> document b s2 -> document (a ++ JNull :: b) s ->
  one_after_other (from_json rnd cf s1) (from_json rnd cf s2) (from_json rnd cf s).
Proof.
  intros D1 D2 D. rewrite (from_json_read _ _ _ _ D1), (from_json_read _ _ _ _ D2), (from_json_read _ _ _ _ D), read_all_null.
  destruct (read_all a VNil) as [oa| |]; [|reflexivity|reflexivity]. destruct (read_all b VNil) as [ob| |]; [|reflexivity|reflexivity].
  cbn [bind one_after_other]. rewrite collect_none. eexists. split; [reflexivity|]. apply collect_joined.
Qed.
Lemma app_after_other a b s1 s2 s : document a s1 -> document b s2 -> document (a ++ b) s ->
  (cf_drop cf = false /\ Forall (clean cf) a) \/ (cf_drop cf = true /\ typed b) ->
  one_after_other (from_json rnd cf s1) (from_json rnd cf s2) (from_json rnd cf s).
Proof.
  intros D1 D2 D H. rewrite (from_json_read _ _ _ _ D1), (from_json_read _ _ _ _ D2), (from_json_read _ _ _ _ D).
  replace (read_all (a ++ b) VNil) with (do oa <- read_all a VNil; do ob <- read_all b VNil; Ok (oa ++ ob)%list) by (destruct H as [[Dr C]|[Dr C]]; symmetry; [now apply read_all_clean|now apply read_all_app_drop]).
  destruct (read_all a VNil) as [oa| |]; [|reflexivity|reflexivity]. destruct (read_all b VNil) as [ob| |]; [|reflexivity|reflexivity].
  cbn [bind one_after_other]. eexists. split; [reflexivity|]. apply collect_joined.
Qed.
Lemma composed_separated js : composed rnd cf (separated js) (read_all (separated js) VNil).
Proof.
  induction js as [|j js IH]; [constructor|]. unfold separated in *. cbn [flat_map app].
  apply (composed_cons _ _ _ _ _ (match read j VNil with Ok (_, p1) => p1 | _ => VNil end)); [reflexivity|].
  destruct (read j VNil) as [[o p1]| |]; [|exact I|exact I]. split; [reflexivity|].
  apply (composed_cons _ _ _ _ _ VNil); [reflexivity|]. rewrite read_null. split; [reflexivity|]. exact IH.
Qed.
End J.
