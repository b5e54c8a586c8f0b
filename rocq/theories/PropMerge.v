(** Copying and merging collections: C73. *)
From Coq Require Import Permutation.
From Verif Require Import GoStr GoStrFacts Uuid Ident IdentFacts Collection CollectionSpec CollectionFacts.

Section Merge.
Context {O : Type}.
Variables idof typeof : O -> string.
(** The calls that add the objects [os] one after the other. *)
Definition add_calls (os : list O) : list (string * string * O) := map (fun o => (idof o, typeof o, o)) os.
(** The objects of a history still report the identifier and type they had when
    they were added. *)
Definition unchanged (h : list (string * string * O)) : Prop := forall id typ o, In (id, typ, o) h -> idof o = id /\ typeof o = typ.

Lemma log_in (h : list (string * string * O)) oks x : In x (log h oks) -> In (c_id x, c_typ x, c_obj x) h.
Proof. unfold log. intros I. apply in_map_iff in I as ([[[i t] o] ok] & <- & I). cbn. exact (in_combine_l _ _ _ _ I). Qed.
Lemma latest_in l id (o : O) : latest l id = Some o -> exists x, In x l /\ c_ok x = true /\ c_id x = id /\ c_obj x = o.
Proof.
  induction l as [|x l IH]; [discriminate|]. cbn [latest]. destruct (latest l id) as [o'|].
  - intros Q. injection Q as <-. destruct (IH eq_refl) as (y & I & R). exists y. split; [now right|exact R].
  - destruct (c_ok x) eqn:K; [|discriminate]. cbn [andb]. destruct (String.eqb_spec (c_id x) id); [|discriminate]. intros Q. injection Q as <-. exists x. split; [now left|auto].
Qed.
Lemma latest_facts ns h c oks id o : run (new_coll ns) h = (c, oks) -> unchanged h -> latest (log h oks) id = Some o ->
  idof o = id /\ has_valid_identifier (idof o) (typeof o) = true.
Proof.
  intros H U L. apply Inv_reach in H as [I _]. apply latest_in in L as (x & Ix & K & <- & <-). destruct (U _ _ _ (log_in _ _ _ Ix)) as [A B].
  rewrite (inv_log _ _ I _ Ix) in K. split; [exact A|]. now rewrite A, B.
Qed.
Lemma latest_app a b id : latest (a ++ b) id = match latest b id with Some o => Some o | None => latest (O := O) a id end.
Proof. induction a as [|x a IH]; cbn [app latest]; [now destruct (latest b id)|]. rewrite IH. now destruct (latest b id). Qed.
Lemma filter_filter {A} (f g : A -> bool) l : filter f (filter g l) = filter (fun x => g x && f x) l.
Proof. induction l as [|x l IH]; [reflexivity|]. cbn. destruct (g x); cbn [andb filter]; now rewrite IH. Qed.
Lemma first_ids_app a b : first_ids (a ++ b) = first_ids a ++ filter (fun i => negb (mem_str i (first_ids a))) (first_ids (O := O) b).
Proof.
  induction a as [|x a IH]; cbn [app first_ids].
  - rewrite <- (app_nil_l (first_ids b)) at 1. f_equal. induction (first_ids b) as [|i l IH]; [reflexivity|]. cbn. now f_equal.
  - destruct (c_ok x); [|exact IH]. rewrite IH, filter_app, filter_filter. cbn [app]. f_equal. f_equal. apply filter_ext_in. intros i _.
    cbn [mem_str]. assert (Hm : mem_str i (filter (fun i0 => negb (String.eqb (c_id x) i0)) (first_ids a)) = negb (String.eqb (c_id x) i) && mem_str i (first_ids a)).
    { apply eq_true_iff_eq. rewrite andb_true_iff, !mem_str_In, filter_In. tauto. }
    change (mem_str i (c_id x :: ?l)) with (String.eqb i (c_id x) || mem_str i l). rewrite Hm, (String.eqb_sym i). destruct (String.eqb (c_id x) i), (mem_str i (first_ids a)); reflexivity.
Qed.

Lemma add_calls_run os : Forall (fun o => has_valid_identifier (idof o) (typeof o) = true) os -> forall c,
  snd (run c (add_calls os)) = map (fun _ => true) os.
Proof.
  induction 1 as [|o os V F IH]; intros c; [reflexivity|]. cbn [add_calls map]. rewrite run_cons. cbn [snd]. unfold add at 1. rewrite V. cbn [negb snd]. f_equal. apply IH.
Qed.
Lemma add_calls_log os : log (add_calls os) (map (fun _ => true) os) = map (fun o => Call (idof o) (typeof o) o true) os.
Proof. induction os as [|o os IH]; [reflexivity|]. cbn [add_calls map]. rewrite log_cons. f_equal. exact IH. Qed.
Lemma latest_calls os id : NoDup (map idof os) -> forall o, In o os -> idof o = id -> latest (map (fun o => Call (idof o) (typeof o) o true) os) id = Some o.
Proof.
  induction os as [|x os IH]; intros N o I E; [destruct I|]. inversion N as [|? ? N1 N2]; subst. cbn [map latest]. destruct I as [->|I].
  - replace (latest _ (idof o)) with (@None O); [cbn [c_ok c_id andb]; now rewrite String.eqb_refl|]. symmetry. apply latest_None. intros y Iy _ Q.
    apply in_map_iff in Iy as (z & <- & Iz). cbn in Q. apply N1. rewrite <- Q. now apply in_map.
  - now rewrite (IH N2 o I eq_refl).
Qed.
Lemma first_calls os : NoDup (map idof os) -> first_ids (map (fun o => Call (idof o) (typeof o) o true) os) = map idof os.
Proof.
  induction os as [|x os IH]; intros N; [reflexivity|]. inversion N as [|? ? N1 N2]; subst. cbn [map first_ids c_ok c_id]. rewrite (IH N2). f_equal. now apply filter_notin_id.
Qed.

Lemma held_objects ns h c oks os : run (new_coll ns) h = (c, oks) -> unchanged h -> all_objects c (map Some os) ->
  NoDup (map idof os) /\ (forall o, In o os -> has_valid_identifier (idof o) (typeof o) = true) /\ (forall o, In o os <-> get c (idof o) = Some o) /\
  (ns = false -> map idof os = first_ids (log h oks)).
Proof.
  intros H U A. assert (Pm := all_objects_perm _ _ _ _ _ H A). set (lg := log h oks) in *. assert (I := proj1 (Inv_reach _ _ _ _ H)). fold lg in I.
  set (f := fun x : option O => match x with Some o => idof o | None => ""%string end).
  assert (E : map f (map (latest lg) (first_ids lg)) = first_ids lg).
  { rewrite map_map. rewrite <- (map_id (first_ids lg)) at 2. apply map_ext_in. intros id Hi. apply first_ids_latest in Hi as (o & L). cbn. rewrite L. cbn. exact (proj1 (latest_facts _ _ _ _ _ _ H U L)). }
  assert (Pi : Permutation (map idof os) (first_ids lg)) by (rewrite <- E; rewrite <- (Permutation_map f Pm), map_map; reflexivity).
  assert (In_os : forall o, In o os <-> latest lg (idof o) = Some o).
  { intros o. split.
    - intros Io. assert (J : In (Some o) (map (latest lg) (first_ids lg))) by (apply (Permutation_in _ Pm); now apply in_map). apply in_map_iff in J as (id & L & _).
      now rewrite (proj1 (latest_facts _ _ _ _ _ _ H U L)).
    - intros L. assert (J : In (Some o) (map Some os)); [|apply in_map_iff in J as (o' & Q & J); now injection Q as <-].
      apply (Permutation_in _ (Permutation_sym Pm)). apply in_map_iff. exists (idof o). split; [exact L|]. apply first_ids_latest. eauto. }
  split; [apply (Permutation_NoDup (Permutation_sym Pi)); apply NoDup_first_ids|]. split; [|split].
  - intros o Io. apply In_os in Io. exact (proj2 (latest_facts _ _ _ _ _ _ H U Io)).
  - intros o. rewrite (get_Inv _ _ _ I). apply In_os.
  - intros ->. destruct (all_objects_sorted _ _ _ _ H A) as (os' & Q & F). assert (os' = os). { revert Q. clear. revert os'. induction os as [|o os IH]; intros [|o' os'] Q; try discriminate; [reflexivity|]. cbn in Q. injection Q as -> Q. f_equal. auto. }
    subst os'. fold lg in F. clear -F H U. induction F as [|i o is os L F IH]; [reflexivity|]. cbn [map]. f_equal; [|exact IH]. apply latest_Some in L. exact (proj1 (latest_facts _ _ _ _ _ _ H U L)).
Qed.
End Merge.

(** ** C73 *)
(** Adding everything AllObjects of one collection returns to another one merges
    them: every Add succeeds, Get prefers the object of the first, and the
    objects that are new come after the old ones, in their own order. *)
Theorem merge_collections : forall (O : Type) (idof typeof : O -> string) ns1 ns2 (h1 h2 : list (string * string * O)) c1 c2 oks1 oks2 os c oks,
  run (new_coll ns1) h1 = (c1, oks1) -> run (new_coll ns2) h2 = (c2, oks2) -> unchanged idof typeof h1 -> unchanged idof typeof h2 ->
  all_objects c1 (map Some os) -> run c2 (add_calls idof typeof os) = (c, oks) ->
  Forall (eq true) oks /\
  (forall id, get c id = match get c1 id with Some o => Some o | None => get c2 id end) /\
  (ns2 = false -> forall os2, all_objects c2 (map Some os2) -> exists os', all_objects c (map Some os') /\
     map idof os' = map idof os2 ++ filter (fun i => negb (mem_str i (map idof os2))) (map idof os)).
Proof.
  intros O idof typeof ns1 ns2 h1 h2 c1 c2 oks1 oks2 os c oks H1 H2 U1 U2 A R.
  destruct (held_objects idof typeof _ _ _ _ _ H1 U1 A) as (ND & V & G & _).
  assert (Ek : oks = map (fun _ => true) os). { rewrite <- (add_calls_run idof typeof os (proj2 (Forall_forall _ _) V) c2). now rewrite R. }
  destruct (Inv_reach _ _ _ _ H2) as [I2 N2]. destruct (Inv_run (add_calls idof typeof os) _ _ I2) as [I N]. rewrite R in I, N. cbn [fst snd] in I, N.
  rewrite Ek, add_calls_log in I. destruct (Inv_reach _ _ _ _ H1) as [I1 _]. split; [|split].
  - rewrite Ek. apply Forall_forall. intros b Ib. apply in_map_iff in Ib as (o & <- & _). reflexivity.
  - intros id. rewrite (get_Inv _ _ _ I), latest_app, <- (get_Inv _ _ id I2).
    replace (latest (map _ os) id) with (get c1 id); [reflexivity|]. destruct (get c1 id) as [o|] eqn:E.
    + assert (L := E). rewrite (get_Inv _ _ _ I1) in L. destruct (latest_facts _ _ _ _ _ _ _ _ H1 U1 L) as [Q _]. symmetry. apply latest_calls; [exact ND| |exact Q]. apply G. now rewrite Q.
    + symmetry. apply latest_None. intros x Ix _ Q. apply in_map_iff in Ix as (o & <- & Io). cbn in Q. apply G in Io. rewrite Q in Io. congruence.
  - intros -> os2 A2. destruct (held_objects idof typeof _ _ _ _ _ H2 U2 A2) as (_ & _ & _ & F2). specialize (F2 eq_refl).
    set (lg := log h2 oks2 ++ map (fun o => Call (idof o) (typeof o) o true) os) in *.
    assert (Ef : first_ids lg = map idof os2 ++ filter (fun i => negb (mem_str i (map idof os2))) (map idof os)) by (unfold lg; rewrite first_ids_app, first_calls, <- F2 by exact ND; reflexivity).
    assert (Rn : exists oks', run (new_coll false) (h2 ++ add_calls idof typeof os) = (c, oks') /\ log (h2 ++ add_calls idof typeof os) oks' = lg).
    { exists (oks2 ++ oks). split.
      - revert H2 R. generalize (new_coll (O := O) false). generalize oks2. clear. induction h2 as [|[[i t] o] h IH]; intros oks2 c0 H2 R.
        + cbn in H2. injection H2 as -> <-. exact R.
        + cbn [app]. rewrite run_cons in *. injection H2 as H2 H3. destruct oks2 as [|k oks2]; [discriminate|]. injection H3 as H3 H4.
          assert (X := IH (snd (run (fst (add c0 i t o)) h)) (fst (add c0 i t o))).
          specialize (X ltac:(now rewrite <- H2; destruct (run (fst (add c0 i t o)) h)) R). rewrite X. cbn [fst snd app]. rewrite H3, H4. reflexivity.
      - assert (LL : length h2 = length oks2). { assert (X := f_equal (fun r => length (snd r)) H2). cbn in X. rewrite <- X. generalize (new_coll (O := O) false). clear. induction h2 as [|[[i t] o] h IH]; intros c0; [reflexivity|]. rewrite run_cons. cbn [snd length]. f_equal. apply IH. }
        unfold lg. rewrite <- (add_calls_log idof typeof os), <- Ek. clear -LL. unfold log. revert oks2 LL. induction h2 as [|x h IH]; intros [|k oks2] LL; try discriminate; [reflexivity|]. cbn. f_equal. apply IH. now injection LL. }
    destruct Rn as (oks' & Rn & El). destruct (all_objects_total c) as (l & Al). destruct (all_objects_sorted _ _ _ _ Rn Al) as (os' & -> & F). exists os'. split; [exact Al|].
    rewrite El in F. rewrite <- Ef. clear -F H1 H2 U1 U2 El Rn G I1.
    assert (X : forall id o, latest lg id = Some o -> idof o = id).
    { intros id o L. apply latest_in in L as (x & Ix & _ & <- & <-). rewrite <- El in Ix. apply log_in in Ix. apply in_app_or in Ix as [Ix|Ix]; [exact (proj1 (U2 _ _ _ Ix))|].
      apply in_map_iff in Ix as (o & Q & _). injection Q as <- _ <-. reflexivity. }
    induction F as [|i o is os0 L F IH]; [reflexivity|]. cbn [map]. f_equal; [|exact IH]. apply latest_Some in L. now apply X.
Qed.
Print Assumptions merge_collections.

(** Into an empty collection this makes a copy: the same answers to Get and, for
    collections that keep the order, the same AllObjects. *)
Theorem copy_collection : forall (O : Type) (idof typeof : O -> string) ns1 ns2 (h : list (string * string * O)) c1 oks1 os c oks,
  run (new_coll ns1) h = (c1, oks1) -> unchanged idof typeof h ->
  all_objects c1 (map Some os) -> run (new_coll ns2) (add_calls idof typeof os) = (c, oks) ->
  Forall (eq true) oks /\ (forall id, get c id = get c1 id) /\ (ns2 = false -> all_objects c (map Some os)).
Proof.
  intros O idof typeof ns1 ns2 h c1 oks1 os c oks H U A R.
  destruct (merge_collections O idof typeof ns1 ns2 h [] c1 (new_coll ns2) oks1 [] os c oks H eq_refl U ltac:(intros ? ? ? []) A R) as (K & G & L).
  assert (G' : forall id, get c id = get c1 id).
  { intros id. rewrite G. destruct (get c1 id); [reflexivity|]. unfold get. destruct (split_dd id) as [|t [|u [|]]]; reflexivity. }
  split; [exact K|]. split; [exact G'|]. intros E. destruct (L E []) as (os' & A' & Q).
  { subst ns2. unfold all_objects. cbn. exists []. split; [|reflexivity]. exists [], []. repeat split; constructor. }
  cbn [map app] in Q. replace os with os'; [exact A'|].
  assert (F : filter (fun i => negb (mem_str i [])) (map idof os) = map idof os) by (clear; induction (map idof os) as [|i l IH]; [reflexivity|cbn in *; now f_equal]). rewrite F in Q.
  destruct (held_objects idof typeof _ _ _ _ _ H U A) as (_ & _ & G1 & _).
  assert (U2 : unchanged idof typeof (add_calls idof typeof os)) by (intros i t o I; apply in_map_iff in I as (o' & X & _); injection X as <- <- <-; auto).
  destruct (held_objects idof typeof _ _ _ _ _ R U2 A') as (_ & _ & G2 & _).
  assert (X : forall o, In o os -> forall o', In o' os' -> idof o' = idof o -> o' = o) by (intros o I o' I' Ei; apply G1 in I; apply G2 in I'; rewrite G', Ei, I in I'; congruence).
  clear -Q X. revert os Q X. induction os' as [|o' os' IH]; intros [|o os] Q X; try discriminate; [reflexivity|]. cbn [map] in Q. injection Q as Q1 Q2. f_equal.
  - apply X; [now left|now left|exact Q1].
  - apply IH; [exact Q2|]. intros a Ia b Ib. apply X; now right.
Qed.
Print Assumptions copy_collection.

(** The same for the typed view: [get_object] is what the typed accessors and
    GetAll are made of. *)
Theorem copy_typed_accessors : forall (O : Type) (idof typeof : O -> string) ns1 ns2 (h : list (string * string * O)) c1 oks1 os c oks is_T typ id,
  run (new_coll ns1) h = (c1, oks1) -> unchanged idof typeof h ->
  all_objects c1 (map Some os) -> run (new_coll ns2) (add_calls idof typeof os) = (c, oks) ->
  typed_get is_T c typ id = typed_get is_T c1 typ id.
Proof.
  intros O idof typeof ns1 ns2 h c1 oks1 os c oks is_T typ id H U A R. destruct (copy_collection _ _ _ _ _ _ _ _ _ _ _ H U A R) as (_ & G & _).
  unfold typed_get. replace (get_object c typ id) with (get_object c1 typ id); [reflexivity|].
  destruct (Inv_reach _ _ _ _ H) as [I1 _]. destruct (Inv_reach _ _ _ _ R) as [I _]. rewrite (inv_get _ _ I1), (inv_get _ _ I), <- (get_Inv _ _ _ I1), <- (get_Inv _ _ _ I).
  now rewrite G.
Qed.
Print Assumptions copy_typed_accessors.

(** Non-vacuity: two collections sharing an identifier; objects are (identifier,
    version). *)
Definition mid1 : string := "malware--30313233-3435-4637-b839-616263646566".
Definition mid2 : string := "malware--30313233-3435-4637-b839-616263646567".
Definition mid3 : string := "malware--30313233-3435-4637-b839-616263646568".
Definition mcall (id : string) (v : nat) : string * string * (string * nat) := (id, "malware"%string, (id, v)).
Example merge_ex : exists c1 c2 c oks,
  run (new_coll false) [mcall mid1 1; mcall mid2 1; mcall mid1 2] = (c1, [true; true; true]) /\
  run (new_coll false) [mcall mid3 7; mcall mid1 7] = (c2, [true; true]) /\
  unchanged fst (fun _ => "malware"%string) [mcall mid1 1; mcall mid2 1; mcall mid1 2] /\
  all_objects c1 (map Some [(mid1, 2%nat); (mid2, 1%nat)]) /\
  run c2 (add_calls fst (fun _ => "malware"%string) [(mid1, 2%nat); (mid2, 1%nat)]) = (c, oks) /\
  all_objects c (map Some [(mid3, 7%nat); (mid1, 2%nat); (mid2, 1%nat)]).
Proof.
  do 4 eexists. split; [vm_compute; reflexivity|]. split; [vm_compute; reflexivity|]. split; [|split; [vm_compute; reflexivity|split; vm_compute; reflexivity]].
  intros id t o [Q|[Q|[Q|[]]]]; injection Q as <- <- <-; auto.
Qed.
