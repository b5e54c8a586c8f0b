(** Facts about sorted maps, struct fields and values. *)
From Verif Require Import GoStr GoStrFacts JsonStr JsonStrFacts Json Float GoTypes GoVal.
From Coq Require Import Permutation.

Section GvalInd.
  Variable P : gval -> Prop.
  Hypothesis Hstr : forall s, P (VStr s).
  Hypothesis Hint : forall z, P (VInt z).
  Hypothesis Hbool : forall b, P (VBool b).
  Hypothesis Hfloat : forall f, P (VFloat f).
  Hypothesis Henum : forall n, P (VEnum n).
  Hypothesis Htime : forall t, P (VTime t).
  Hypothesis Hbin : forall s, P (VBin s).
  Hypothesis Hnil : P VNil.
  Hypothesis Hptr : forall v, P v -> P (VPtr v).
  Hypothesis Hslice : forall l, Forall P l -> P (VSlice l).
  Hypothesis Hmap : forall l, Forall (fun kv => P (snd kv)) l -> P (VMap l).
  Hypothesis Hstruct : forall l, Forall (fun kv => P (snd kv)) l -> P (VStruct l).
  Hypothesis Hdyn : forall t v, P v -> P (VDyn t v).
  Hypothesis Hraw : forall j, P (VRaw j).
  Fixpoint gval_ind' (v : gval) : P v :=
    match v with
    | VStr s => Hstr s | VInt z => Hint z | VBool b => Hbool b | VFloat f => Hfloat f
    | VEnum n => Henum n | VTime t => Htime t | VBin s => Hbin s | VNil => Hnil
    | VPtr w => Hptr w (gval_ind' w)
    | VSlice l => Hslice l ((fix go l : Forall P l :=
        match l with [] => Forall_nil _ | x :: l' => Forall_cons x (gval_ind' x) (go l') end) l)
    | VMap l => Hmap l ((fix go l : Forall (fun kv => P (snd kv)) l :=
        match l with [] => Forall_nil _ | x :: l' => Forall_cons x (gval_ind' (snd x)) (go l') end) l)
    | VStruct l => Hstruct l ((fix go l : Forall (fun kv => P (snd kv)) l :=
        match l with [] => Forall_nil _ | x :: l' => Forall_cons x (gval_ind' (snd x)) (go l') end) l)
    | VDyn t w => Hdyn t w (gval_ind' w)
    | VRaw j => Hraw j
    end.
End GvalInd.

(** * Byte order *)
Lemma bt_inj a b : bt a = bt b -> a = b.
Proof. unfold bt. intros H. rewrite <- (ascii_N_embedding a), <- (ascii_N_embedding b). now rewrite H. Qed.

Lemma str_ltb_irrefl a : str_ltb a a = false.
Proof. induction a as [|x a IH]; [reflexivity|]. cbn [str_ltb]. now rewrite N.ltb_irrefl. Qed.
Lemma str_ltb_trans a : forall b c, str_ltb a b = true -> str_ltb b c = true -> str_ltb a c = true.
Proof.
  induction a as [|x a IH]; intros [|y b] [|z c] H1 H2; cbn [str_ltb] in *; try discriminate; auto.
  destruct (bt x <? bt y)%N eqn:E1, (bt y <? bt z)%N eqn:E2.
  - replace (bt x <? bt z)%N with true by (symmetry; apply N.ltb_lt; apply N.ltb_lt in E1, E2; lia). reflexivity.
  - destruct (bt z <? bt y)%N eqn:E3; [discriminate|].
    replace (bt x <? bt z)%N with true by (symmetry; apply N.ltb_lt; apply N.ltb_lt in E1; apply N.ltb_ge in E2, E3; lia). reflexivity.
  - destruct (bt y <? bt x)%N eqn:E3; [discriminate|].
    replace (bt x <? bt z)%N with true by (symmetry; apply N.ltb_lt; apply N.ltb_lt in E2; apply N.ltb_ge in E1, E3; lia). reflexivity.
  - destruct (bt y <? bt x)%N eqn:E3; [discriminate|]. destruct (bt z <? bt y)%N eqn:E4; [discriminate|].
    apply N.ltb_ge in E1, E2, E3, E4.
    replace (bt x <? bt z)%N with false by (symmetry; apply N.ltb_ge; lia).
    replace (bt z <? bt x)%N with false by (symmetry; apply N.ltb_ge; lia). eauto.
Qed.
Lemma str_ltb_total a : forall b, str_ltb a b = false -> a <> b -> str_ltb b a = true.
Proof.
  induction a as [|x a IH]; intros [|y b] H1 H2; cbn [str_ltb] in *; try discriminate; try congruence; auto.
  destruct (bt x <? bt y)%N eqn:E1; [discriminate|]. destruct (bt y <? bt x)%N eqn:E2; [reflexivity|].
  apply IH; [exact H1|]. intros ->. apply H2. f_equal. apply bt_inj.
  apply N.ltb_ge in E1, E2. lia.
Qed.
Lemma str_ltb_asym a b : str_ltb a b = true -> str_ltb b a = false.
Proof.
  intros H. destruct (str_ltb b a) eqn:E; [|reflexivity].
  assert (C := str_ltb_trans _ _ _ H E). now rewrite str_ltb_irrefl in C.
Qed.
Lemma str_ltb_neq a b : str_ltb a b = true -> String.eqb a b = false.
Proof. intros H. apply seqb_false. intros ->. now rewrite str_ltb_irrefl in H. Qed.

(** * Sorted maps *)
Section Sorted.
Context {A : Type}.
Implicit Types m : list (string * A).

Definition all_gt (k : string) m : Prop := forall k', In k' (akeys m) -> str_ltb k k' = true.

Lemma msorted_cons k (v : A) m : msorted ((k, v) :: m) = true <-> all_gt k m /\ msorted m = true.
Proof.
  revert k v. induction m as [|[k1 v1] m IH]; intros k v.
  - cbn. split; [intros _; split; [intros ? []|reflexivity]|reflexivity].
  - change (msorted ((k, v) :: (k1, v1) :: m)) with (str_ltb k k1 && msorted ((k1, v1) :: m)).
    rewrite andb_true_iff. split.
    + intros [H1 H2]. split; [|exact H2]. intros k' [<-|Hin]; [exact H1|].
      apply IH in H2 as [G _]. eapply str_ltb_trans; [exact H1|]. now apply G.
    + intros [G H2]. split; [|exact H2]. apply G. now left.
Qed.

Lemma akeys_minsert k (v : A) m : forall k', In k' (akeys (minsert k v m)) <-> k' = k \/ In k' (akeys m).
Proof.
  induction m as [|[k1 v1] m IH]; intros k'; cbn [minsert].
  - cbn. intuition congruence.
  - destruct (String.eqb_spec k k1) as [->|N].
    + cbn. intuition congruence.
    + destruct (str_ltb k k1).
      * cbn. intuition congruence.
      * cbn [akeys map fst In]. fold (akeys (minsert k v m)). rewrite IH. cbn. intuition congruence.
Qed.

Lemma msorted_minsert k (v : A) m : msorted m = true -> msorted (minsert k v m) = true.
Proof.
  induction m as [|[k1 v1] m IH]; intros H; cbn [minsert]; [reflexivity|].
  assert (H0 := H). apply msorted_cons in H0 as [G S].
  destruct (String.eqb_spec k k1) as [->|N].
  - apply msorted_cons. now split.
  - destruct (str_ltb k k1) eqn:E.
    + apply msorted_cons. split; [|exact H]. intros k' [<-|Hin]; [exact E|].
      eapply str_ltb_trans; [exact E|now apply G].
    + apply msorted_cons. split; [|now apply IH]. intros k' Hin. apply akeys_minsert in Hin as [->|Hin]; [|now apply G].
      apply str_ltb_total; assumption.
Qed.

Lemma alookup_minsert k (v : A) m k' : msorted m = true ->
  alookup k' (minsert k v m) = if String.eqb k' k then Some v else alookup k' m.
Proof.
  induction m as [|[k1 v1] m IH]; intros H; cbn [minsert].
  - cbn [alookup]. reflexivity.
  - apply msorted_cons in H as [G S].
    destruct (String.eqb_spec k k1) as [->|N].
    + cbn [alookup]. destruct (String.eqb k' k1); reflexivity.
    + destruct (str_ltb k k1).
      * cbn [alookup]. reflexivity.
      * cbn [alookup]. rewrite (IH S).
        destruct (String.eqb_spec k' k1) as [->|]; [|reflexivity].
        destruct (String.eqb_spec k1 k) as [->|]; [congruence|reflexivity].
Qed.

Lemma msorted_nodup m : msorted m = true -> NoDup (akeys m).
Proof.
  induction m as [|[k v] m IH]; intros H; [constructor|].
  apply msorted_cons in H as [G S]. cbn. constructor; [|now apply IH].
  intros Hin. apply G in Hin. now rewrite str_ltb_irrefl in Hin.
Qed.

(** Equal lookups make equal sorted maps. *)
Lemma msorted_ext m : forall m', msorted m = true -> msorted m' = true ->
  (forall k, alookup k m = alookup k m') -> m = m'.
Proof.
  induction m as [|[k v] m IH]; intros [|[k' v'] m'] S S' E.
  - reflexivity.
  - specialize (E k'). cbn in E. now rewrite eqb_refl in E.
  - specialize (E k). cbn in E. now rewrite eqb_refl in E.
  - apply msorted_cons in S as [G S]. apply msorted_cons in S' as [G' S'].
    assert (K : k = k').
    { destruct (String.eqb_spec k k') as [|N]; [assumption|exfalso].
      assert (A1 : str_ltb k' k = true).
      { apply G'. assert (F := E k). cbn in F. rewrite eqb_refl in F.
        replace (String.eqb k k') with false in F by (symmetry; now apply seqb_false).
        symmetry in F. apply alookup_Some_In in F. apply in_map with (f := fst) in F. exact F. }
      assert (A2 : str_ltb k k' = true).
      { apply G. assert (F := E k'). cbn in F. rewrite eqb_refl in F.
        replace (String.eqb k' k) with false in F by (symmetry; apply seqb_false; congruence).
        apply alookup_Some_In in F. apply in_map with (f := fst) in F. exact F. }
      apply str_ltb_asym in A1. congruence. }
    subst k'. assert (V := E k). cbn in V. rewrite eqb_refl in V. injection V as <-.
    f_equal. apply IH; [assumption..|]. intros x. specialize (E x). cbn in E.
    destruct (String.eqb_spec x k) as [e|]; [subst x|exact E].
    assert (N1 : alookup k m = None) by (apply alookup_None; intros Hin; apply G in Hin; now rewrite str_ltb_irrefl in Hin).
    assert (N2 : alookup k m' = None) by (apply alookup_None; intros Hin; apply G' in Hin; now rewrite str_ltb_irrefl in Hin).
    congruence.
Qed.

Lemma minsert_last k (v : A) m : (forall k', In k' (akeys m) -> str_ltb k' k = true) -> minsert k v m = m ++ [(k, v)].
Proof.
  induction m as [|[k1 v1] m IH]; intros H; cbn [minsert]; [reflexivity|].
  assert (L : str_ltb k1 k = true) by (apply H; now left).
  rewrite (proj2 (seqb_false k k1)) by (intros ->; now rewrite str_ltb_irrefl in L).
  rewrite (str_ltb_asym _ _ L). cbn. f_equal. apply IH. intros k' Hin. apply H. now right.
Qed.

Lemma msorted_app_lt m k (v : A) m' : msorted (m ++ (k, v) :: m') = true -> forall k', In k' (akeys m) -> str_ltb k' k = true.
Proof.
  induction m as [|[k1 v1] m IH]; intros H k' H0; [destruct H0|destruct H0 as [<-|H0]].
  - rewrite <- app_comm_cons in H. apply msorted_cons in H as [G _]. apply G.
    unfold akeys. rewrite map_app. apply in_or_app. right. now left.
  - rewrite <- app_comm_cons in H. apply msorted_cons in H as [_ H]. eapply IH; eauto.
Qed.

End Sorted.

Lemma msorted_keys {A B} (m : list (string * A)) : forall (m' : list (string * B)), akeys m = akeys m' -> msorted m = msorted m'.
Proof.
  induction m as [|[k v] m IH]; intros [|[k' v'] m'] H; try discriminate; [reflexivity|].
  cbn in H. injection H as <- H. cbn [msorted]. rewrite (IH m' H). f_equal.
  destruct m as [|[? ?] ?], m' as [|[? ?] ?]; try discriminate; [reflexivity|]. cbn in H. now injection H as -> _.
Qed.

(** * Struct fields *)
Lemma areplace_keys {A} k (v : A) m : akeys (areplace k v m) = akeys m.
Proof.
  induction m as [|[k' v'] m IH]; [reflexivity|]. cbn [areplace].
  destruct (String.eqb_spec k k') as [->|]; cbn; [reflexivity|]. unfold akeys in *. now rewrite IH.
Qed.
Lemma areplace_same {A} k (v : A) m : In k (akeys m) -> alookup k (areplace k v m) = Some v.
Proof.
  induction m as [|[k' v'] m IH]; intros H; [destruct H|destruct H as [<-|H]]; cbn [areplace].
  - cbn [fst]. rewrite eqb_refl. cbn. now rewrite eqb_refl.
  - destruct (String.eqb_spec k k') as [->|N]; cbn; [now rewrite eqb_refl|].
    rewrite (proj2 (seqb_false k k') N). now apply IH.
Qed.
Lemma areplace_other {A} k (v : A) m k' : k' <> k -> alookup k' (areplace k v m) = alookup k' m.
Proof.
  intros N. induction m as [|[k1 v1] m IH]; [reflexivity|]. cbn [areplace].
  destruct (String.eqb_spec k k1) as [->|]; cbn.
  - rewrite (proj2 (seqb_false k' k1) N). reflexivity.
  - now rewrite IH.
Qed.
Lemma assoc_ext {A} (m : list (string * A)) : forall m', akeys m = akeys m' -> NoDup (akeys m) ->
  (forall k, In k (akeys m) -> alookup k m = alookup k m') -> m = m'.
Proof.
  induction m as [|[k v] m IH]; intros [|[k' v'] m'] K N E; try discriminate; [reflexivity|].
  cbn in K. injection K as <- K. cbn in N. inversion N as [|? ? N1 N2]; subst.
  assert (V := E k (or_introl eq_refl)). cbn in V. rewrite eqb_refl in V. injection V as <-.
  f_equal. apply IH; [assumption..|]. intros k' Hin. specialize (E k' (or_intror Hin)). cbn in E.
  rewrite (proj2 (seqb_false k' k)) in E; [exact E|]. intros ->. contradiction.
Qed.
