(** Facts for C96. *)
From Coq Require Import Permutation.
From Verif Require Import GoStr GoStrFacts JsonStr StrSpec JsonSpec Json Float Consts GoTypes Schema GoVal Codec CodecSpec Ident
  Collection CollectionSpec CollectionFacts FromJson FromJsonSpec FromJsonFacts ReadFacts IndepFacts CollectFacts PropMerge JoinSpec JoinFacts ObjOrderSpec.

Section O.
Variable rnd : bool -> N -> Z -> option flt.
Variable cf : config.
Notation out1 := (out1).
Notation read := (read rnd cf).

Lemma apart_composed js : apart cf js -> composed rnd cf js (read_all rnd cf js VNil).
Proof.
  intros [[Dr C]|[[Dr T]|(l & ->)]].
  - destruct js as [|j js] using rev_ind; [constructor|]. apply Forall_app in C as [C _]. now apply composed_clean.
  - now apply composed_drop.
  - apply composed_separated.
Qed.

Definition alone_out (j : json) : option gobj := match out1 (read j VNil) with Ok o => o | _ => None end.
Lemma composed_map js outs : Forall2 (fun j o => acceptable o /\ out1 (read j VNil) = Ok o) js outs -> outs = map alone_out js.
Proof. induction 1 as [|j o js outs [_ E] F IH]; [reflexivity|]. cbn [map]. unfold alone_out at 1. now rewrite E, <- IH. Qed.

Lemma permuted_read js js' outs : apart cf js -> apart cf js' -> Permutation js js' -> read_all rnd cf js VNil = Ok outs ->
  read_all rnd cf js' VNil = Ok (map alone_out js') /\ outs = map alone_out js.
Proof.
  intros A A' P E. assert (C := apart_composed _ A). assert (C' := apart_composed _ A'). rewrite E in C. cbn [composed] in C.
  assert (X : forall j, In j js' -> exists o, out1 (read j VNil) = Ok o).
  { intros j H. apply (Permutation_in _ (Permutation_sym P)) in H. clear -C H. induction C as [|j0 o js outs [_ R] C IH]; [destruct H|]. destruct H as [->|H]; eauto. }
  split; [|now apply composed_map]. destruct (read_all rnd cf js' VNil) as [outs'|e|]; cbn [composed] in C'.
  - f_equal. now apply composed_map.
  - destruct C' as (j & H & R). destruct (X _ H). congruence.
  - destruct C' as (j & H & R). destruct (X _ H). congruence.
Qed.

(** Objects of different identifiers *)
Definition apart_ids (outs : list (option gobj)) : Prop :=
  forall a o1 b o2 c, outs = (a ++ Some o1 :: b ++ Some o2 :: c)%list -> obj_id o1 <> obj_id o2.
Lemma get_apart ns outs id ob : Forall acceptable outs -> apart_ids outs -> get (collect ns outs) id = Some ob <-> obj_id ob = Ok id /\ In (Some ob) outs.
Proof.
  intros A D. rewrite (collect_get ns outs id ob A). split.
  - intros (I & o1 & o2 & -> & _). split; [exact I|]. apply in_or_app. right. now left.
  - intros (I & H). split; [exact I|]. apply in_split in H as (o1 & o2 & ->). exists o1, o2. split; [reflexivity|]. intros ob' H Q.
    apply in_split in H as (b & c & ->). apply (D o1 ob b ob' c eq_refl). congruence.
Qed.
Lemma alone_out_collect j : json_okb j = true -> acceptable (alone_out j) -> (exists o, out1 (read j VNil) = Ok o) ->
  from_json rnd cf (alone j) = Ok (collect (cf_nosort cf) [alone_out j]).
Proof. intros O A (o & E). rewrite from_json_alone by exact O. unfold alone_out. now rewrite E. Qed.
Lemma get_single ns ob id : acceptable (Some ob) -> obj_id ob = Ok id -> get (collect ns [Some ob]) id = Some ob.
Proof. intros A I. apply collect_get; [now constructor|]. split; [exact I|]. exists [], []. split; [reflexivity|]. intros ob' []. Qed.

Lemma distinct_apart js : forallb json_okb js = true -> (forall j, In j js -> exists o, out1 (read j VNil) = Ok o) -> Forall acceptable (map alone_out js) ->
  distinct rnd cf js -> apart_ids (map alone_out js).
Proof.
  intros O X A D a o1 b o2 c E. apply map_eq_app in E as (a' & r & -> & <- & E). apply map_eq_cons in E as (j1 & r' & -> & E1 & E).
  apply map_eq_app in E as (b' & r2 & -> & <- & E). apply map_eq_cons in E as (j2 & c' & -> & E2 & <-). intros Q.
  rewrite Forall_forall in A. rewrite forallb_forall in O.
  assert (H1 : In j1 (a' ++ j1 :: b' ++ j2 :: c')) by (apply in_or_app; right; now left).
  assert (H2 : In j2 (a' ++ j1 :: b' ++ j2 :: c')) by (apply in_or_app; right; right; apply in_or_app; right; now left).
  assert (A1 : acceptable (Some o1)) by (rewrite <- E1; apply A; now apply in_map). assert (A2 : acceptable (Some o2)) by (rewrite <- E2; apply A; now apply in_map).
  assert (A1' := A1). destruct A1' as (id & ty & I & _).
  assert (F1 := alone_out_collect j1 (O _ H1)). rewrite E1 in F1. specialize (F1 A1 (X _ H1)).
  assert (F2 := alone_out_collect j2 (O _ H2)). rewrite E2 in F2. specialize (F2 A2 (X _ H2)).
  assert (Z := D a' j1 b' j2 c' _ _ id eq_refl F1 F2). rewrite (get_single _ _ _ A1 I) in Z. rewrite (get_single _ _ _ A2) in Z by congruence.
  specialize (Z ltac:(discriminate)). discriminate.
Qed.

Lemma apart_ids_perm l l' : Permutation l l' -> apart_ids l -> apart_ids l'.
Proof.
  intros P D a o1 b o2 c -> Q. assert (H1 : In (Some o1) l) by (apply (Permutation_in _ (Permutation_sym P)); apply in_or_app; right; now left).
  apply in_split in H1 as (x & y & ->).
  assert (P2 : Permutation (x ++ y) (a ++ b ++ Some o2 :: c)) by (eapply Permutation_app_inv; exact P).
  assert (H2 : In (Some o2) (x ++ y)) by (apply (Permutation_in _ (Permutation_sym P2)); apply in_or_app; right; apply in_or_app; right; now left).
  apply in_app_or in H2 as [H2|H2]; apply in_split in H2 as (u & w & ->).
  - apply (D u o2 w o1 y); [now rewrite <- app_assoc|now symmetry].
  - exact (D x o1 u o2 w eq_refl Q).
Qed.

Lemma order_of_objects js js' s s' c : document js s -> document js' s' -> apart cf js -> apart cf js' -> Permutation js js' -> from_json rnd cf s = Ok c ->
  exists c', from_json rnd cf s' = Ok c' /\ (distinct rnd cf js ->
    (forall id, get c' id = get c id) /\
    forall os os', all_objects c (map Some os) -> all_objects c' (map Some os') -> Permutation os os').
Proof.
  intros D D' A A' P E. rewrite (from_json_read _ _ _ _ D) in E. destruct (read_all rnd cf js VNil) as [outs| |] eqn:R; try discriminate. injection E as <-.
  destruct (permuted_read _ _ _ A A' P R) as [R' Eo]. rewrite (from_json_read _ _ _ _ D'), R'. eexists. split; [reflexivity|]. intros Ds.
  assert (AC := read_all_acceptable _ _ _ _ _ R). assert (AC' := read_all_acceptable _ _ _ _ _ R'). assert (C := apart_composed _ A). rewrite R in C. cbn [composed] in C.
  assert (DA : apart_ids outs).
  { rewrite Eo. apply distinct_apart; [exact (document_ok _ _ D)| |now rewrite <- Eo|exact Ds].
    clear -C. intros j H. induction C as [|j0 o js outs [_ R] C IH]; [destruct H|]. destruct H as [->|H]; eauto. }
  assert (Pm : Permutation outs (map alone_out js')) by (rewrite Eo; now apply Permutation_map). assert (DA' := apart_ids_perm _ _ Pm DA).
  assert (G : forall id, get (collect (cf_nosort cf) (map alone_out js')) id = get (collect (cf_nosort cf) outs) id).
  { intros id. destruct (get (collect _ outs) id) as [ob|] eqn:E.
    - apply (get_apart _ _ _ _ AC DA) in E as [I H]. apply (get_apart _ _ _ _ AC' DA'). split; [exact I|]. exact (Permutation_in _ Pm H).
    - destruct (get (collect _ (map _ _)) id) as [ob|] eqn:E'; [|reflexivity]. apply (get_apart _ _ _ _ AC' DA') in E' as [I H].
      assert (X : get (collect (cf_nosort cf) outs) id = Some ob) by (apply (get_apart _ _ _ _ AC DA); split; [exact I|]; exact (Permutation_in _ (Permutation_sym Pm) H)). congruence. }
  split; [exact G|]. intros os os' L L'. unfold collect in L, L'.
  destruct (run (new_coll (cf_nosort cf)) (calls_of outs)) as [c oks] eqn:Rn. destruct (run (new_coll (cf_nosort cf)) (calls_of (map alone_out js'))) as [c' oks'] eqn:Rn'. cbn [fst] in L, L'.
  destruct (held_objects id_of type_of _ _ _ _ _ Rn (calls_unchanged _) L) as (N & _ & I & _). destruct (held_objects id_of type_of _ _ _ _ _ Rn' (calls_unchanged _) L') as (N' & _ & I' & _).
  apply NoDup_Permutation; [exact (NoDup_map_inv _ _ N)|exact (NoDup_map_inv _ _ N')|]. intros ob. rewrite I, I'. unfold collect in G. rewrite Rn, Rn' in G. cbn [fst] in G. now rewrite G.
Qed.
End O.
