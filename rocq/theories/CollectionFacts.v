(** The collection refines the log based specification. *)
From Verif Require Import GoStr GoStrFacts Uuid Ident IdentFacts Collection CollectionSpec.
From Coq Require Import Permutation.

Section Facts.
Context {O : Type}.
Implicit Types (c : coll O) (l : list (call O)) (o : O).

(* ------------------------------------------------- functional view of a log *)
Fixpoint latest l (id : string) : option O :=
  match l with
  | [] => None
  | x :: l' =>
      match latest l' id with
      | Some o => Some o
      | None => if c_ok x && String.eqb (c_id x) id then Some (c_obj x) else None
      end
  end.

Lemma latest_snoc l x id :
  latest (l ++ [x]) id =
  if c_ok x && String.eqb (c_id x) id then Some (c_obj x) else latest l id.
Proof.
  induction l as [|y l IH]; cbn [app latest].
  - reflexivity.
  - rewrite IH. destruct (c_ok x && String.eqb (c_id x) id); reflexivity.
Qed.

Lemma latest_None l id :
  latest l id = None <-> forall x, In x l -> c_ok x = true -> c_id x <> id.
Proof.
  induction l as [|y l IH]; cbn.
  - split; [intros _ x [] | reflexivity].
  - destruct (latest l id) as [o|] eqn:E.
    + split; [discriminate|]. intros H. exfalso.
      assert (Hx : Some o = None) by (apply IH; intros x Hx; apply H; now right). discriminate.
    + destruct (c_ok y && String.eqb (c_id y) id) eqn:Ey.
      * split; [discriminate|]. intros H. apply andb_true_iff in Ey as [H1 H2].
        apply seqb_true in H2. exfalso. exact (H y (or_introl eq_refl) H1 H2).
      * split; [intros _|reflexivity]. intros x [<-|Hx] Hok.
        -- intros Heq. rewrite Hok in Ey. cbn in Ey. apply seqb_false in Ey. congruence.
        -- now apply (proj1 IH).
Qed.

Lemma latest_Some l id o : latest l id = Some o <-> last_accepted l id o.
Proof.
  unfold last_accepted. induction l as [|y l IH]; cbn.
  - split; [discriminate|]. intros (l1 & t & l2 & H & _). destruct l1; discriminate.
  - destruct (latest l id) as [o'|] eqn:E.
    + split.
      * intros H. apply IH in H as (l1 & t & l2 & -> & H). exists (y :: l1), t, l2. now split.
      * intros (l1 & t & l2 & Hl & H). destruct l1 as [|y' l1].
        -- injection Hl as -> ->. apply (proj2 (latest_None l2 id)) in H. congruence.
        -- injection Hl as <- ->. apply IH. now exists l1, t, l2.
    + destruct (c_ok y && String.eqb (c_id y) id) eqn:Ey.
      * apply andb_true_iff in Ey as [H1 H2]. apply seqb_true in H2. split.
        -- intros H. injection H as <-. exists [], (c_typ y), l. split.
           ++ destruct y as [i t ob ok]; cbn in *; now subst.
           ++ now apply latest_None.
        -- intros (l1 & t & l2 & Hl & H). destruct l1 as [|y' l1].
           ++ injection Hl as -> ->. reflexivity.
           ++ injection Hl as <- ->. exfalso.
              rewrite latest_None in E. apply (E (Call id t o true)); cbn; auto.
              apply in_or_app. right. now left.
      * split; [discriminate|]. intros (l1 & t & l2 & Hl & H). destruct l1 as [|y' l1].
        -- injection Hl as -> ->. cbn in Ey. now rewrite eqb_refl in Ey.
        -- injection Hl as <- ->. exfalso.
           rewrite latest_None in E. apply (E (Call id t o true)); cbn; auto.
           apply in_or_app. right. now left.
Qed.

Lemma In_first_ids l id :
  In id (first_ids l) <-> exists x, In x l /\ c_ok x = true /\ c_id x = id.
Proof.
  induction l as [|y l IH]; cbn.
  - split; [intros [] | intros (x & [] & _)].
  - destruct (c_ok y) eqn:Ey.
    + cbn. rewrite filter_In, IH. split.
      * intros [H|[(x & Hx & H1 & H2) _]]; [exists y; auto | exists x; auto].
      * intros (x & [<-|Hx] & H1 & H2); [now left|].
        destruct (String.eqb (c_id y) id) eqn:Ei; [left; now apply seqb_true | right].
        split; [exists x; auto | reflexivity].
    + rewrite IH. split; intros (x & Hx & H1 & H2).
      * exists x; auto.
      * destruct Hx as [<-|Hx]; [congruence | exists x; auto].
Qed.

Lemma NoDup_filter' {A} (f : A -> bool) xs : NoDup xs -> NoDup (filter f xs).
Proof. apply NoDup_filter. Qed.

Lemma NoDup_first_ids l : NoDup (first_ids l).
Proof.
  induction l as [|y l IH]; cbn; [constructor|].
  destruct (c_ok y); [|exact IH]. constructor.
  - rewrite filter_In, eqb_refl. cbn. intros [_ H]; discriminate.
  - now apply NoDup_filter.
Qed.

Lemma first_ids_latest l id : In id (first_ids l) <-> exists o, latest l id = Some o.
Proof.
  rewrite In_first_ids. destruct (latest l id) as [o|] eqn:E.
  - split; [intros _; now exists o|]. intros _.
    apply latest_Some in E as (l1 & t & l2 & -> & _).
    exists (Call id t o true). split; [apply in_or_app; right; now left|]. auto.
  - rewrite latest_None in E. split; [|intros [o H]; discriminate].
    intros (x & H1 & H2 & H3). exfalso. exact (E x H1 H2 H3).
Qed.

Lemma filter_notin_id (id : string) xs :
  ~ In id xs -> filter (fun i => negb (String.eqb id i)) xs = xs.
Proof.
  induction xs as [|x xs IH]; intros H; [reflexivity|]. cbn.
  destruct (String.eqb id x) eqn:E.
  - apply seqb_true in E. exfalso. apply H. now left.
  - cbn. f_equal. apply IH. intros Hi. apply H. now right.
Qed.

Lemma first_ids_snoc l x :
  first_ids (l ++ [x]) =
  if c_ok x && negb (mem_str (c_id x) (first_ids l)) then first_ids l ++ [c_id x] else first_ids l.
Proof.
  induction l as [|y l IH]; cbn [app first_ids].
  - destruct (c_ok x); reflexivity.
  - rewrite IH. destruct (c_ok y) eqn:Ey.
    + destruct (c_ok x) eqn:Ex; cbn [andb]; [|reflexivity].
      cbn [mem_str]. rewrite (String.eqb_sym (c_id x) (c_id y)).
      destruct (String.eqb (c_id y) (c_id x)) eqn:Ei; cbn [orb].
      * destruct (negb (mem_str (c_id x) (first_ids l))) eqn:Em; cbn; [|reflexivity].
        rewrite filter_app. cbn. rewrite Ei. cbn. now rewrite app_nil_r.
      * assert (Hm : mem_str (c_id x) (filter (fun i => negb (String.eqb (c_id y) i)) (first_ids l))
                     = mem_str (c_id x) (first_ids l)).
        { apply eq_true_iff_eq. rewrite !mem_str_In, filter_In. rewrite Ei. cbn. tauto. }
        rewrite Hm. destruct (negb (mem_str (c_id x) (first_ids l))); cbn; [|reflexivity].
        rewrite filter_app. cbn. rewrite Ei. reflexivity.
    + reflexivity.
Qed.

(* ---------------------------------------------------------------- invariant *)
Definition log_ok l : Prop :=
  forall x, In x l -> c_ok x = has_valid_identifier (c_id x) (c_typ x).

Record Inv c l : Prop := {
  inv_log : log_ok l;
  inv_nodup : NoDup (akeys (objects c));
  inv_buckets : forall t b, In (t, b) (objects c) -> NoDup (akeys b) /\ b <> [];
  inv_get : forall t id,
    get_object c t id = if has_valid_identifier id t then latest l id else None;
  inv_order : order c = if no_sort c then [] else first_ids l
}.

Lemma Inv_new ns : Inv (new_coll ns) [].
Proof.
  constructor; cbn.
  - intros x [].
  - constructor.
  - intros t b [].
  - intros t id. unfold get_object; cbn. now destruct (has_valid_identifier id t).
  - now destruct ns.
Qed.

Lemma ainsert_nonempty {A} k (v : A) m : ainsert k v m <> [].
Proof. destruct m as [|[k' v'] m]; cbn; [discriminate|]. destruct (String.eqb k k'); discriminate. Qed.

Lemma In_ainsert {A} k (v : A) m k' v' :
  In (k', v') (ainsert k v m) -> (k' = k /\ v' = v) \/ In (k', v') m.
Proof.
  induction m as [|[k0 v0] m IH]; cbn.
  - intros [H|[]]. injection H as <- <-. now left.
  - destruct (String.eqb k k0) eqn:E; cbn.
    + intros [H|H]; [injection H as <- <-; now left | right; now right].
    + intros [H|H]; [right; now left|]. destruct (IH H) as [?|?]; [now left | right; now right].
Qed.

Lemma Inv_add c l id t o c' ok :
  Inv c l -> add c id t o = (c', ok) ->
  Inv c' (l ++ [Call id t o ok]) /\ no_sort c' = no_sort c /\ ok = has_valid_identifier id t.
Proof.
  intros I H. unfold add in H.
  destruct (has_valid_identifier id t) eqn:Ev; cbn in H.
  2:{ injection H as <- <-. split; [|split; reflexivity].
      destruct I as [I1 I2 I3 I4 I5]. constructor; try assumption.
      - intros x Hx. apply in_app_or in Hx as [Hx|[<-|[]]]; [now apply I1 | cbn; congruence].
      - intros t' id'. rewrite I4, latest_snoc. reflexivity.
      - rewrite I5, first_ids_snoc. reflexivity. }
  injection H as <- <-. split; [|split; reflexivity].
  set (bucket := match alookup t (objects c) with Some b => b | None => [] end) in *.
  assert (Hgo : forall id', alookup id' bucket = get_object c t id').
  { intros id'. unfold bucket, get_object. now destruct (alookup t (objects c)). }
  assert (Hb : NoDup (akeys bucket)).
  { unfold bucket. destruct (alookup t (objects c)) as [b|] eqn:Eb; [|constructor].
    apply alookup_Some_In in Eb. now apply (inv_buckets _ _ I) in Eb. }
  destruct I as [I1 I2 I3 I4 I5]. constructor; cbn [objects order no_sort].
  - intros x Hx. apply in_app_or in Hx as [Hx|[<-|[]]]; [now apply I1 | cbn; congruence].
  - now apply NoDup_ainsert.
  - intros t' b' Hin. apply In_ainsert in Hin as [[-> ->]|Hin].
    + split; [now apply NoDup_ainsert | apply ainsert_nonempty].
    + exact (I3 _ _ Hin).
  - intros t' id'. unfold get_object; cbn [objects]. rewrite alookup_ainsert, latest_snoc. cbn.
    rewrite String.eqb_sym. destruct (String.eqb t t') eqn:Et.
    + apply seqb_true in Et. subst t'. rewrite alookup_ainsert, Hgo, I4.
      rewrite String.eqb_sym. destruct (String.eqb id id') eqn:Ei.
      * apply seqb_true in Ei. subst id'. now rewrite Ev.
      * reflexivity.
    + fold (get_object c t' id'). rewrite I4.
      destruct (has_valid_identifier id' t') eqn:Ev'; [|reflexivity].
      destruct (String.eqb id id') eqn:Ei; [|reflexivity].
      apply seqb_true in Ei. subst id'. apply seqb_false in Et. exfalso. apply Et.
      eapply valid_id_unique_type; eassumption.
  - rewrite I5, first_ids_snoc. cbn. destruct (no_sort c); [reflexivity|]. cbn.
    rewrite Hgo, I4, Ev.
    assert (Hm : (match latest l id with Some _ => true | None => false end) = mem_str id (first_ids l)).
    { apply eq_true_iff_eq. rewrite mem_str_In, first_ids_latest.
      destruct (latest l id) as [o'|].
      - split; [intros _; now exists o' | reflexivity].
      - split; [discriminate | intros [o' H]; discriminate]. }
    rewrite Hm. now destruct (negb (mem_str id (first_ids l))).
Qed.

Lemma run_cons c id t o h :
  run c ((id, t, o) :: h) =
  (fst (run (fst (add c id t o)) h), snd (add c id t o) :: snd (run (fst (add c id t o)) h)).
Proof. cbn. destruct (add c id t o) as [c1 ok]. cbn. now destruct (run c1 h). Qed.

Lemma log_cons id t o (h : list (string * string * O)) ok oks :
  log ((id, t, o) :: h) (ok :: oks) = Call id t o ok :: log h oks.
Proof. reflexivity. Qed.

Lemma Inv_run h : forall c l, Inv c l ->
  Inv (fst (run c h)) (l ++ log h (snd (run c h))) /\ no_sort (fst (run c h)) = no_sort c.
Proof.
  induction h as [|[[id t] o] h IH]; intros c l I.
  - cbn. rewrite app_nil_r. auto.
  - rewrite run_cons. destruct (add c id t o) as [c1 ok] eqn:Ea. cbn [fst snd].
    destruct (Inv_add _ _ _ _ _ _ _ I Ea) as (I1 & Hn & _).
    destruct (IH _ _ I1) as [I2 Hn2]. rewrite log_cons.
    rewrite <- app_assoc in I2. cbn [app] in I2. split; [exact I2 | congruence].
Qed.

Lemma Inv_reach ns h c oks : run (new_coll ns) h = (c, oks) -> Inv c (log h oks) /\ no_sort c = ns.
Proof.
  intros H. destruct (Inv_run h _ _ (Inv_new ns)) as [I Hn]. rewrite H in I, Hn. cbn in I, Hn. auto.
Qed.

Lemma get_Inv c l id : Inv c l -> get c id = latest l id.
Proof.
  intros I. unfold get.
  assert (Hn : (forall t, has_valid_identifier id t = false) -> latest l id = None).
  { intros H. apply latest_None. intros x Hx Hok Hid.
    rewrite (inv_log _ _ I _ Hx), Hid, H in Hok. discriminate. }
  destruct (split_dd id) as [|t [|u [|? ?]]] eqn:Es.
  - symmetry. apply Hn. intros t. unfold has_valid_identifier. now rewrite Es.
  - symmetry. apply Hn. intros t'. unfold has_valid_identifier. now rewrite Es.
  - rewrite (inv_get _ _ I). destruct (has_valid_identifier id t) eqn:Ev; [reflexivity|].
    symmetry. apply Hn. intros t'. unfold has_valid_identifier in *. rewrite Es in *.
    destruct (String.eqb t t') eqn:Et; [|reflexivity]. apply seqb_true in Et. subst t'.
    rewrite eqb_refl in Ev. exact Ev.
  - symmetry. apply Hn. intros t'. unfold has_valid_identifier. now rewrite Es.
Qed.

(* ------------------------------------------------------------------- Get *)
Lemma get_spec ns h c oks id :
  run (new_coll ns) h = (c, oks) ->
  (forall o, get c id = Some o <-> last_accepted (log h oks) id o) /\
  (get c id = None <-> forall x, In x (log h oks) -> c_ok x = true -> c_id x <> id).
Proof.
  intros H. apply Inv_reach in H as [I _]. rewrite (get_Inv _ _ _ I). split.
  - intros o. apply latest_Some.
  - apply latest_None.
Qed.

(* ------------------------------------------------------------ map iteration *)
Lemma NoDup_akeys_pairs {A} (m : list (string * A)) : NoDup (akeys m) -> NoDup m.
Proof. apply NoDup_map_inv. Qed.

Definition opt_list {A} (o : option A) : list A := match o with Some a => [a] | None => [] end.

(** The pairs (identifier, object) the log demands for the identifiers [ids] *)
Definition pairs l (ids : list string) : list (string * O) :=
  flat_map (fun id => map (fun o => (id, o)) (opt_list (latest l id))) ids.

Lemma In_pairs l ids id o : In (id, o) (pairs l ids) <-> In id ids /\ latest l id = Some o.
Proof.
  unfold pairs. rewrite in_flat_map. split.
  - intros (i & Hi & H). destruct (latest l i) as [o'|] eqn:E; cbn in H; [|tauto].
    destruct H as [H|[]]. injection H as -> ->. auto.
  - intros [Hi H]. exists id. split; [exact Hi|]. rewrite H. now left.
Qed.

Lemma NoDup_pairs l ids : NoDup ids -> NoDup (pairs l ids).
Proof.
  unfold pairs. induction ids as [|i ids IH]; intros H; cbn; [constructor|].
  apply NoDup_cons_iff in H as [Hi Hn]. destruct (latest l i) as [o|]; cbn; [|auto].
  constructor; [|auto]. intros Hin.
  apply (In_pairs l ids) in Hin as [Hin _]. contradiction.
Qed.

Lemma pairs_first l ids :
  (forall id, In id ids -> In id (first_ids l)) ->
  map fst (pairs l ids) = ids /\
  map Some (map snd (pairs l ids)) = map (latest l) ids.
Proof.
  unfold pairs. induction ids as [|i ids IH]; intros H; [auto|].
  destruct (IH (fun id Hi => H id (or_intror Hi))) as [IH1 IH2].
  assert (Hi := H i (or_introl eq_refl)). apply first_ids_latest in Hi as [o Ho].
  cbn. rewrite Ho. cbn. now rewrite IH1, IH2.
Qed.

Definition flat_pairs (objs : list (string * list (string * O))) : list (string * O) :=
  concat (map snd objs).

Lemma iter_all_perm objs ls : iter_all objs ls -> Permutation ls (map snd (flat_pairs objs)).
Proof.
  intros (bs & lbs & Hb & Hf & ->).
  assert (H : Permutation (concat lbs) (map snd (flat_pairs bs))).
  { clear Hb. unfold flat_pairs. induction Hf as [|b lb bs lbs (es & He & ->) _ IH]; [constructor|].
    cbn. rewrite map_app. apply Permutation_app; [|exact IH].
    now apply Permutation_map. }
  rewrite H. apply Permutation_map. unfold flat_pairs.
  clear H Hf lbs. unfold map_iter in Hb. induction Hb; cbn; auto.
  - now apply Permutation_app_head.
  - rewrite !app_assoc. apply Permutation_app_tail, Permutation_app_comm.
  - etransitivity; eassumption.
Qed.

Lemma iter_all_exists objs : iter_all objs (map snd (flat_pairs objs)).
Proof.
  exists objs, (map (fun b => map snd (snd b)) objs). split; [apply Permutation_refl|]. split.
  - induction objs as [|b objs IH]; cbn; constructor; [|exact IH].
    exists (snd b). split; [apply Permutation_refl | reflexivity].
  - unfold flat_pairs. induction objs as [|b objs IH]; cbn; [reflexivity|].
    rewrite map_app. now rewrite <- IH.
Qed.

Lemma In_flat_pairs c l id o : Inv c l ->
  (In (id, o) (flat_pairs (objects c)) <-> latest l id = Some o).
Proof.
  intros I. unfold flat_pairs. rewrite in_concat. split.
  - intros (b & Hb & Hin). apply in_map_iff in Hb as ([t b'] & <- & Ht). cbn in Hin.
    assert (E1 := alookup_In _ _ _ (inv_nodup _ _ I) Ht).
    assert (E2 := alookup_In _ _ _ (proj1 (inv_buckets _ _ I _ _ Ht)) Hin).
    assert (G : get_object c t id = Some o) by (unfold get_object; now rewrite E1).
    rewrite (inv_get _ _ I) in G. now destruct (has_valid_identifier id t).
  - intros H. assert (H' := H). apply latest_Some in H as (l1 & t & l2 & El & _).
    assert (Hv : has_valid_identifier id t = true).
    { assert (Hin : In (Call id t o true) l) by (rewrite El; apply in_or_app; right; now left).
      apply (inv_log _ _ I) in Hin. cbn in Hin. congruence. }
    assert (G := inv_get _ _ I t id). rewrite Hv, H' in G. unfold get_object in G.
    destruct (alookup t (objects c)) as [b|] eqn:Eb; [|discriminate].
    apply alookup_Some_In in Eb, G. exists b. split; [|exact G].
    apply in_map_iff. now exists (t, b).
Qed.

Lemma NoDup_flat_pairs c l : Inv c l -> NoDup (akeys (flat_pairs (objects c))).
Proof.
  intros I. assert (H1 := inv_nodup _ _ I). assert (H2 := inv_buckets _ _ I).
  assert (H3 : forall t b id, In (t, b) (objects c) -> In id (akeys b) -> has_valid_identifier id t = true).
  { intros t b id Ht Hid. unfold akeys in Hid. apply in_map_iff in Hid as ([i o] & <- & Hin). cbn.
    assert (E1 := alookup_In _ _ _ (inv_nodup _ _ I) Ht).
    assert (E2 := alookup_In _ _ _ (proj1 (H2 _ _ Ht)) Hin).
    assert (G := inv_get _ _ I t i). unfold get_object in G. rewrite E1, E2 in G.
    now destruct (has_valid_identifier i t). }
  unfold flat_pairs. clear I. induction (objects c) as [|[t b] objs IH]; cbn; [constructor|].
  unfold akeys in *. rewrite map_app. cbn in H1. apply NoDup_cons_iff in H1 as [Ht Hn].
  assert (Hrest : NoDup (map fst (concat (map snd objs)))).
  { apply IH; [exact Hn | |].
    - intros t' b' Hin. apply (H2 t' b'). now right.
    - intros t' b' id' Hin. apply (H3 t' b'). now right. }
  assert (Hb : NoDup (map fst b)) by (apply (H2 t b); now left).
  assert (Hd : forall x, In x (map fst b) -> ~ In x (map fst (concat (map snd objs)))).
  { intros x Hx Hx2. apply in_map_iff in Hx2 as ([i o] & <- & Hin).
    apply in_concat in Hin as (b' & Hb' & Hin). apply in_map_iff in Hb' as ([t' b''] & <- & Ht').
    cbn in Hin.
    assert (V1 : has_valid_identifier i t = true) by (apply (H3 t b); [now left | exact Hx]).
    assert (V2 : has_valid_identifier i t' = true).
    { apply (H3 t' b''); [now right|]. apply in_map_iff. now exists (i, o). }
    assert (t = t') by (eapply valid_id_unique_type; eassumption). subst t'.
    apply Ht. apply in_map_iff. now exists (t, b''). }
  clear -Hb Hrest Hd. induction (map fst b) as [|x xs IH]; cbn; [exact Hrest|].
  apply NoDup_cons_iff in Hb as [Hx Hxs]. constructor.
  - intros Hin. apply in_app_or in Hin as [Hin|Hin]; [contradiction|].
    apply (Hd x); [now left | exact Hin].
  - apply IH; [exact Hxs|]. intros y Hy. apply Hd. now right.
Qed.

Lemma flat_pairs_perm c l : Inv c l -> Permutation (flat_pairs (objects c)) (pairs l (first_ids l)).
Proof.
  intros I. apply NoDup_Permutation.
  - eapply NoDup_akeys_pairs, NoDup_flat_pairs; eassumption.
  - apply NoDup_pairs, NoDup_first_ids.
  - intros [id o]. rewrite (In_flat_pairs _ _ _ _ I), In_pairs. split; [|tauto].
    intros H. split; [|exact H]. apply first_ids_latest. now exists o.
Qed.

Lemma Forall2_latest l ids os :
  map Some os = map (latest l) ids -> Forall2 (last_accepted l) ids os.
Proof.
  revert os. induction ids as [|i ids IH]; intros [|o os] H; try discriminate; constructor.
  - cbn in H. injection H as H _. now apply latest_Some.
  - cbn in H. injection H as _ H. now apply IH.
Qed.

(** AllObjects of a sorted collection. *)
Lemma all_objects_sorted h c oks ls :
  run (new_coll false) h = (c, oks) -> all_objects c ls ->
  exists os, ls = map Some os /\ Forall2 (last_accepted (log h oks)) (first_ids (log h oks)) os.
Proof.
  intros H Ha. apply Inv_reach in H as [I Hn].
  set (lg := log h oks) in *.
  assert (Ho := inv_order _ _ I). rewrite Hn in Ho.
  unfold all_objects in Ha. rewrite Hn, Ho in Ha. cbn [negb andb] in Ha.
  destruct (pairs_first lg (first_ids lg) (fun _ H => H)) as [P1 P2].
  destruct (negb (Nat.eqb (length (first_ids lg)) 0)) eqn:El.
  - subst ls. exists (map snd (pairs lg (first_ids lg))). split.
    + rewrite P2. apply map_ext. intros id. now apply get_Inv.
    + now apply Forall2_latest.
  - apply negb_false_iff, Nat.eqb_eq, length_zero_iff_nil in El.
    destruct Ha as (l' & Hit & ->). apply iter_all_perm in Hit.
    rewrite (flat_pairs_perm _ _ I), El in Hit. cbn in Hit.
    apply Permutation_sym, Permutation_nil in Hit. subst l'.
    exists []. rewrite El. split; [reflexivity | constructor].
Qed.

Lemma all_objects_total c : exists ls, all_objects c ls.
Proof.
  unfold all_objects. destruct (_ && _).
  - now eexists.
  - exists (map Some (map snd (flat_pairs (objects c)))). eexists. split; [apply iter_all_exists | reflexivity].
Qed.

(** AllObjects of any collection, as a multiset. *)
Lemma all_objects_perm ns h c oks ls :
  run (new_coll ns) h = (c, oks) -> all_objects c ls ->
  Permutation ls (map (latest (log h oks)) (first_ids (log h oks))).
Proof.
  intros H Ha. assert (H' := H). apply Inv_reach in H as [I Hn]. unfold all_objects in Ha.
  destruct (negb (no_sort c) && negb (Nat.eqb (length (order c)) 0)) eqn:E.
  - apply andb_true_iff in E as [E1 E2]. apply negb_true_iff in E1. subst ls.
    rewrite (inv_order _ _ I), E1.
    assert (M : forall ids, map (get c) ids = map (latest (log h oks)) ids)
      by (intros; apply map_ext; intros id; now apply get_Inv).
    rewrite M. apply Permutation_refl.
  - destruct Ha as (l' & Hit & ->). apply iter_all_perm in Hit.
    rewrite Hit, (flat_pairs_perm _ _ I).
    destruct (pairs_first (log h oks) (first_ids (log h oks)) (fun _ H => H)) as [_ P2].
    now rewrite P2.
Qed.

Lemma run_oks ns ns' h : snd (run (@new_coll O ns) h) = snd (run (new_coll ns') h).
Proof.
  assert (G : forall c1 c2, snd (run (O:=O) c1 h) = snd (run c2 h)).
  { induction h as [|[[id t] o] h IH]; intros c1 c2; [reflexivity|].
    rewrite !run_cons. cbn [snd]. f_equal; [|apply IH].
    unfold add. now destruct (negb (has_valid_identifier id t)). }
  apply G.
Qed.

Lemma all_objects_nosort h (l1 l2 : list (option O)) :
  all_objects (fst (run (@new_coll O true) h)) l1 ->
  all_objects (fst (run (new_coll false) h)) l2 -> Permutation l1 l2.
Proof.
  intros H1 H2.
  destruct (run (new_coll true) h) as [c1 oks1] eqn:E1.
  destruct (run (new_coll false) h) as [c2 oks2] eqn:E2. cbn in H1, H2.
  assert (oks1 = oks2) by (generalize (run_oks true false h); now rewrite E1, E2). subst oks2.
  rewrite (all_objects_perm _ _ _ _ _ E1 H1), (all_objects_perm _ _ _ _ _ E2 H2).
  apply Permutation_refl.
Qed.

(** Every order is possible on an unsorted collection as far as the objects of
    one type are concerned (so no order may be relied on). *)
Lemma all_objects_any_order c t b es :
  no_sort c = true -> objects c = [(t, b)] -> Permutation es b ->
  all_objects c (map Some (map snd es)).
Proof.
  intros Hn Ho Hp. unfold all_objects. rewrite Hn. cbn.
  exists (map snd es). split; [|reflexivity].
  exists [(t, b)], [map snd es]. rewrite Ho. split; [apply Permutation_refl|]. split.
  - constructor; [|constructor]. exists es. split; [exact Hp | reflexivity].
  - cbn. now rewrite app_nil_r.
Qed.

(* ------------------------------------------------------------------- Add *)
Lemma add_spec c id t o :
  (snd (add c id t o) = true <-> has_valid_identifier id t = true) /\
  (snd (add c id t o) = false -> fst (add c id t o) = c).
Proof.
  unfold add. destruct (has_valid_identifier id t); cbn; split; try tauto; discriminate.
Qed.

(* ---------------------------------------------------------------- GetAll *)
Definition accepted_type l (t : string) : Prop :=
  exists x, In x l /\ c_ok x = true /\ c_typ x = t.

Lemma bucket_exists c l t : Inv c l ->
  (alookup t (objects c) = None <-> ~ accepted_type l t).
Proof.
  intros I. split.
  - intros H (x & Hx & Hok & Ht).
    assert (Hv : has_valid_identifier (c_id x) t = true)
      by (rewrite <- Ht, <- (inv_log _ _ I _ Hx); exact Hok).
    assert (G := inv_get _ _ I t (c_id x)). unfold get_object in G. rewrite H, Hv in G.
    symmetry in G. rewrite latest_None in G. exact (G x Hx Hok eq_refl).
  - intros H. destruct (alookup t (objects c)) as [b|] eqn:Eb; [|reflexivity]. exfalso. apply H.
    apply alookup_Some_In in Eb as Hin. destruct (inv_buckets _ _ I _ _ Hin) as [Hnd Hne].
    destruct b as [|[i o] b]; [congruence|].
    assert (G := inv_get _ _ I t i). unfold get_object in G. rewrite Eb in G. cbn in G.
    rewrite eqb_refl in G. destruct (has_valid_identifier i t) eqn:Ev; [|discriminate].
    symmetry in G. apply latest_Some in G as (l1 & t' & l2 & El & _).
    assert (Hx : In (Call i t' o true) l) by (rewrite El; apply in_or_app; right; now left).
    assert (Hv := inv_log _ _ I _ Hx). cbn in Hv.
    assert (t' = t) by (eapply valid_id_unique_type; [symmetry; eassumption | eassumption]).
    subst t'. exists (Call i t o true). auto.
Qed.

Definition ids_of_type l (t : string) : list string :=
  filter (fun id => has_valid_identifier id t) (first_ids l).

Lemma bucket_perm c l t b : Inv c l -> alookup t (objects c) = Some b ->
  Permutation b (pairs l (ids_of_type l t)).
Proof.
  intros I Eb. apply alookup_Some_In in Eb as Hin.
  destruct (inv_buckets _ _ I _ _ Hin) as [Hnd _].
  apply NoDup_Permutation.
  - now apply NoDup_akeys_pairs.
  - apply NoDup_pairs, NoDup_filter, NoDup_first_ids.
  - intros [id o]. rewrite In_pairs. unfold ids_of_type. rewrite filter_In.
    assert (G := inv_get _ _ I t id). unfold get_object in G. rewrite Eb in G. split.
    + intros H. apply (alookup_In _ _ _ Hnd) in H. rewrite H in G.
      destruct (has_valid_identifier id t); [|discriminate]. symmetry in G.
      split; [split; [apply first_ids_latest; now exists o | reflexivity] | exact G].
    + intros [[_ Hv] Hl]. rewrite Hv, Hl in G. now apply alookup_Some_In.
Qed.

Lemma In_ids_of_type l t id : log_ok l ->
  (In id (ids_of_type l t) <-> exists x, In x l /\ c_ok x = true /\ c_id x = id /\ c_typ x = t).
Proof.
  intros L. unfold ids_of_type. rewrite filter_In, In_first_ids. split.
  - intros [(x & Hx & Hok & Hid) Hv]. exists x. repeat split; auto.
    assert (Hv' := L _ Hx). rewrite Hok, Hid in Hv'.
    eapply valid_id_unique_type; [symmetry; eassumption | eassumption].
  - intros (x & Hx & Hok & Hid & Ht). split; [now exists x|].
    assert (Hv' := L _ Hx). rewrite Hok, Hid, Ht in Hv'. now symmetry.
Qed.

Lemma get_all_spec ns h c oks t r :
  run (new_coll ns) h = (c, oks) -> get_all c t r ->
  (r = None <-> ~ accepted_type (log h oks) t) /\
  (forall os, r = Some os -> exists ids,
     NoDup ids /\
     (forall id, In id ids <-> exists x, In x (log h oks) /\ c_ok x = true /\ c_id x = id /\ c_typ x = t) /\
     Forall2 (last_accepted (log h oks)) ids os).
Proof.
  intros H Hg. apply Inv_reach in H as [I _]. unfold get_all in Hg. split.
  - rewrite <- (bucket_exists _ _ _ I). destruct (alookup t (objects c)) as [b|].
    + destruct Hg as (es & _ & ->). split; discriminate.
    + subst r. tauto.
  - intros os ->. destruct (alookup t (objects c)) as [b|] eqn:Eb; [|discriminate].
    destruct Hg as (es & Hp & E). injection E as ->. unfold map_iter in Hp.
    set (lg := log h oks) in *.
    assert (P : Permutation es (pairs lg (ids_of_type lg t)))
      by (rewrite Hp; now apply (bucket_perm c)).
    assert (F : forall id, In id (ids_of_type lg t) -> In id (first_ids lg))
      by (intros id Hi; apply filter_In in Hi; tauto).
    destruct (pairs_first lg (ids_of_type lg t) F) as [P1 P2].
    assert (Pids : Permutation (map fst es) (ids_of_type lg t)).
    { rewrite <- P1 at 1. now apply Permutation_map. }
    exists (map fst es). split; [|split].
    + eapply Permutation_NoDup; [symmetry; exact Pids|]. apply NoDup_filter, NoDup_first_ids.
    + intros id. rewrite <- (In_ids_of_type lg t id (inv_log _ _ I)).
      split; apply Permutation_in; [exact Pids | now symmetry].
    + assert (Fs : forall e, In e es -> latest lg (fst e) = Some (snd e)).
      { intros [i o] He. apply (Permutation_in _ P) in He. apply In_pairs in He. cbn. tauto. }
      clear -Fs. induction es as [|e es IH]; cbn; constructor.
      * apply latest_Some, Fs. now left.
      * apply IH. intros e' He'. apply Fs. now right.
Qed.

Lemma get_all_total c t : exists r, get_all c t r.
Proof.
  unfold get_all. destruct (alookup t (objects c)) as [b|]; [|now exists None].
  exists (Some (map snd b)). exists b. split; [apply Permutation_refl | reflexivity].
Qed.

(** GetAll over the different types makes up AllObjects *)
Lemma pairs_app l a b : pairs l (a ++ b) = pairs l a ++ pairs l b.
Proof. unfold pairs. apply flat_map_app. Qed.

Lemma get_all_partition ns h c oks ts rs ls :
  run (new_coll ns) h = (c, oks) ->
  NoDup ts -> (forall t, In t ts <-> accepted_type (log h oks) t) ->
  Forall2 (fun t r => get_all c t (Some r)) ts rs ->
  all_objects c ls -> Permutation ls (map Some (concat rs)).
Proof.
  intros H Hnd Hts Hf Ha. rewrite (all_objects_perm _ _ _ _ _ H Ha).
  apply Inv_reach in H as [I _]. set (lg := log h oks) in *.
  assert (R : Permutation (concat rs) (map snd (pairs lg (concat (map (ids_of_type lg) ts))))).
  { clear Hnd Hts. induction Hf as [|t r ts rs Hg _ IH]; [constructor|].
    cbn [concat map]. rewrite pairs_app, map_app. apply Permutation_app; [|exact IH].
    unfold get_all in Hg. destruct (alookup t (objects c)) as [b|] eqn:Eb; [|discriminate].
    destruct Hg as (es & Hp & E). injection E as ->. apply Permutation_map.
    unfold map_iter in Hp. rewrite Hp. now apply (bucket_perm c). }
  assert (Hids : Permutation (concat (map (ids_of_type lg) ts)) (first_ids lg)).
  { apply NoDup_Permutation.
    - assert (Hdis : forall t t' id, In id (ids_of_type lg t) -> In id (ids_of_type lg t') -> t = t').
      { intros t t' id H1 H2. apply filter_In in H1 as [_ H1], H2 as [_ H2].
        eapply valid_id_unique_type; eassumption. }
      clear Hts Hf R. induction ts as [|t ts IH]; cbn; [constructor|].
      apply NoDup_cons_iff in Hnd as [Hni Hnd].
      assert (Hn1 : NoDup (ids_of_type lg t)) by apply NoDup_filter, NoDup_first_ids.
      specialize (IH Hnd).
      assert (Hd : forall x, In x (ids_of_type lg t) -> ~ In x (concat (map (ids_of_type lg) ts))).
      { intros x Hx Hx2. apply in_concat in Hx2 as (ys & Hys & Hx2).
        apply in_map_iff in Hys as (t' & <- & Ht'). rewrite (Hdis _ _ _ Hx Hx2) in Hni. contradiction. }
      clear -Hn1 IH Hd. induction (ids_of_type lg t) as [|x xs IHx]; cbn; [exact IH|].
      apply NoDup_cons_iff in Hn1 as [Hx Hxs]. constructor.
      + intros Hin. apply in_app_or in Hin as [Hin|Hin]; [contradiction|].
        apply (Hd x); [now left | exact Hin].
      + apply IHx; [exact Hxs|]. intros y Hy. apply Hd. now right.
    - apply NoDup_first_ids.
    - intros id. split.
      + intros Hin. apply in_concat in Hin as (ys & Hys & Hin).
        apply in_map_iff in Hys as (t' & <- & Ht'). apply filter_In in Hin. tauto.
      + intros Hin. assert (Hin' := Hin). apply In_first_ids in Hin as (x & Hx & Hok & Hid).
        apply in_concat. exists (ids_of_type lg (c_typ x)). split.
        * apply in_map. apply Hts. exists x. auto.
        * apply (In_ids_of_type lg _ _ (inv_log _ _ I)). exists x. auto. }
  rewrite R.
  assert (P : Permutation (pairs lg (concat (map (ids_of_type lg) ts))) (pairs lg (first_ids lg)))
    by (unfold pairs; now apply Permutation_flat_map).
  rewrite P. destruct (pairs_first lg (first_ids lg) (fun _ H => H)) as [_ P2]. now rewrite P2.
Qed.

(* -------------------------------------------------------- typed accessors *)
Lemma typed_get_spec ns h c oks (is_T : O -> bool) t id :
  run (new_coll ns) h = (c, oks) -> type_name_ok t = true ->
  (forall x, In x (log h oks) -> c_ok x = true -> c_typ x = t -> is_T (c_obj x) = true) ->
  typed_get is_T c t id =
    Ok (if match split_dd id with [t'; _] => String.eqb t' t | _ => false end then get c id else None).
Proof.
  intros H Ht Hc. apply Inv_reach in H as [I _]. unfold typed_get.
  rewrite (inv_get _ _ I).
  assert (Hg := get_Inv _ _ id I). rewrite Hg. clear Hg.
  destruct (has_valid_identifier id t) eqn:Ev.
  - assert (Es : match split_dd id with [t'; _] => String.eqb t' t | _ => false end = true).
    { unfold has_valid_identifier in Ev. destruct (split_dd id) as [|a [|b [|? ?]]]; try discriminate.
      destruct (String.eqb a t); [reflexivity | discriminate]. }
    rewrite Es. destruct (latest (log h oks) id) as [o|] eqn:El; [|reflexivity].
    apply latest_Some in El as (l1 & t' & l2 & El & _).
    assert (Hx : In (Call id t' o true) (log h oks)) by (rewrite El; apply in_or_app; right; now left).
    assert (Hv := inv_log _ _ I _ Hx). cbn in Hv.
    assert (t' = t) by (eapply valid_id_unique_type; [symmetry; eassumption | eassumption]). subst t'.
    specialize (Hc _ Hx eq_refl eq_refl). cbn in Hc. now rewrite Hc.
  - destruct (match split_dd id with [t'; _] => String.eqb t' t | _ => false end) eqn:Es; [|reflexivity].
    assert (Hn : latest (log h oks) id = None); [|now rewrite Hn].
    apply latest_None. intros x Hx Hok Hid.
    assert (Hv := inv_log _ _ I _ Hx). rewrite Hok, Hid in Hv.
    assert (Et : c_typ x = t).
    { unfold has_valid_identifier in Hv. destruct (split_dd id) as [|a [|b [|? ?]]]; try discriminate.
      apply seqb_true in Es. subst a. destruct (String.eqb t (c_typ x)) eqn:E; [|discriminate].
      apply seqb_true in E. now symmetry. }
    rewrite Et, Ev in Hv. discriminate.
Qed.

Lemma typed_all_spec ns h c oks (is_T : O -> bool) t r :
  run (new_coll ns) h = (c, oks) ->
  (forall x, In x (log h oks) -> c_ok x = true -> c_typ x = t -> is_T (c_obj x) = true) ->
  typed_all is_T c t r ->
  exists os, r = Ok os /\
    ((exists os', get_all c t (Some os') /\ os = os') \/ (get_all c t None /\ os = [])).
Proof.
  intros H Hc Hr. apply Inv_reach in H as [I _].
  unfold typed_all in Hr. destruct Hr as (es & Hp & ->). exists (map snd es).
  assert (Hall : forallb is_T (map snd es) = true).
  { apply forallb_forall. intros o Ho. apply in_map_iff in Ho as ([i o'] & <- & Hin). cbn.
    destruct (alookup t (objects c)) as [b|] eqn:Eb.
    2:{ apply Permutation_sym, Permutation_nil in Hp. subst es. destruct Hin. }
    apply (Permutation_in _ Hp) in Hin.
    apply (Permutation_in _ (bucket_perm _ _ _ _ I Eb)) in Hin. apply In_pairs in Hin as [Hi Hl].
    apply latest_Some in Hl as (l1 & t' & l2 & El & _).
    assert (Hx : In (Call i t' o' true) (log h oks)) by (rewrite El; apply in_or_app; right; now left).
    assert (Hv := inv_log _ _ I _ Hx). cbn in Hv. apply filter_In in Hi as [_ Hi].
    assert (t' = t) by (eapply valid_id_unique_type; [symmetry; eassumption | eassumption]). subst t'.
    exact (Hc _ Hx eq_refl eq_refl). }
  rewrite Hall. split; [reflexivity|]. unfold get_all.
  destruct (alookup t (objects c)) as [b|] eqn:Eb.
  - left. exists (map snd es). split; [|reflexivity]. now exists es.
  - right. apply Permutation_sym, Permutation_nil in Hp. subst es. auto.
Qed.

(* ---------------------------------------------------------------- bundle *)
Lemma enc_all_ok (enc : O -> res string) os ds :
  enc_all enc (map Some os) = Ok ds <-> Forall2 (fun o d => enc o = Ok d) os ds.
Proof.
  revert ds. induction os as [|o os IH]; intros ds; cbn.
  - split; [intros H; injection H as <-; constructor | intros H; now inversion H].
  - destruct (enc o) as [d|e|] eqn:Eo; cbn.
    + destruct (enc_all enc (map Some os)) as [ds'|e|] eqn:Ea; cbn.
      * split.
        -- intros H. injection H as <-. constructor; [exact Eo|]. now apply IH.
        -- intros H. inversion H as [|? d2 ? ds2 H1 H2 E1 E2]; subst.
           apply IH in H2. congruence.
      * split; [discriminate|]. intros H. inversion H as [|? d2 ? ds2 H1 H2 E1 E2]; subst.
        apply IH in H2. congruence.
      * split; [discriminate|]. intros H. inversion H as [|? d2 ? ds2 H1 H2 E1 E2]; subst.
        apply IH in H2. congruence.
    + split; [discriminate|]. intros H. inversion H; congruence.
    + split; [discriminate|]. intros H. inversion H; congruence.
Qed.

Lemma to_bundle_spec (enc : O -> res string) rnd h c oks b :
  run (new_coll false) h = (c, oks) -> to_bundle enc rnd c b ->
  exists os, Forall2 (last_accepted (log h oks)) (first_ids (log h oks)) os /\
    (forall bu, b = Ok bu <->
       exists ds, Forall2 (fun o d => enc o = Ok d) os ds /\
                  bu = Bundle "bundle" (new_identifier rnd "bundle") ds).
Proof.
  intros H (l & Ha & ->). destruct (all_objects_sorted _ _ _ _ H Ha) as (os & -> & Hf).
  exists os. split; [exact Hf|]. intros bu. unfold new_bundle. split.
  - intros E. destruct (enc_all enc (map Some os)) as [ds|e|] eqn:Ed; cbn in E; try discriminate.
    injection E as <-. exists ds. split; [now apply enc_all_ok | reflexivity].
  - intros (ds & Hds & ->). apply enc_all_ok in Hds. rewrite Hds. reflexivity.
Qed.

Lemma enc_all_no_panic (enc : O -> res string) os :
  (forall o, In o os -> enc o <> Panic) -> enc_all enc (map Some os) <> Panic.
Proof.
  induction os as [|o os IH]; intros H; cbn; [discriminate|].
  destruct (enc o) as [d|e|] eqn:Eo; cbn; [|discriminate|].
  - destruct (enc_all enc (map Some os)) eqn:Ea; cbn; try discriminate.
    exfalso. apply IH; [|exact eq_refl]. intros o' Ho'. apply H. now right.
  - exfalso. exact (H o (or_introl eq_refl) Eo).
Qed.
End Facts.

(* ------------------------------------------------------ mutation of objects *)
(** The Add calls of an interleaving, with what the objects reported then. *)
Fixpoint adds (h : heap) (ops : list op) : list (string * string * nat) :=
  match ops with
  | [] => []
  | OpAdd r :: ops' => (fst (h r), snd (h r), r) :: adds h ops'
  | OpMutate r id typ :: ops' => adds (heap_set h r (id, typ)) ops'
  end.

Lemma run_ops_adds ops : forall h c, snd (run_ops h c ops) = fst (run c (adds h ops)).
Proof.
  induction ops as [|[r|r id typ] ops IH]; intros h c; cbn [run_ops adds].
  - reflexivity.
  - rewrite run_cons. cbn [fst]. apply IH.
  - apply IH.
Qed.
