(** Facts about goroutines that share a collection. *)
From Coq Require Import Lia Permutation Arith.
From Verif Require Import GoStr GoStrFacts Ident Collection Conc ConcSpec.

Section Facts.
Context {O : Type}.
Implicit Types (m : mem O) (p : prog O).

(** ** Code that runs alone *)
Inductive evals : mem O -> prog O -> mem O -> result O -> Prop :=
| ev_ret m r : evals m (Ret r) m r
| ev_step m p m1 p1 m2 r : step m p m1 p1 -> evals m1 p1 m2 r -> evals m p m2 r.

Lemma ev_inv m p m2 r : evals m p m2 r -> (p = Ret r /\ m2 = m) \/ (exists m1 p1, step m p m1 p1 /\ evals m1 p1 m2 r).
Proof. destruct 1; eauto 6. Qed.
Ltac ev0 := let H := fresh in let m1 := fresh in let p1 := fresh in let S1 := fresh in
  intros H; apply ev_inv in H as [[? ?]|(m1 & p1 & S1 & H)]; [discriminate|inversion S1; subst; eauto].
Lemma e_objects m k m2 r : evals m (RdObjects k) m2 r -> evals m (k (m_objects m)) m2 r. Proof. ev0. Qed.
Lemma e_order m k m2 r : evals m (RdOrder k) m2 r -> evals m (k (m_order m)) m2 r. Proof. ev0. Qed.
Lemma e_nosort m k m2 r : evals m (RdNoSort k) m2 r -> evals m (k (m_nosort m)) m2 r. Proof. ev0. Qed.
Lemma e_outer m a k m2 r : evals m (RdOuter a k) m2 r -> evals m (k (m_outer m a)) m2 r. Proof. ev0. Qed.
Lemma e_bucket m a k m2 r : evals m (RdBucket a k) m2 r -> evals m (k (m_bucket m a)) m2 r. Proof. ev0. Qed.
Lemma e_slot m a i k m2 r : evals m (RdSlot a i k) m2 r -> evals m (k (m_slot m a i)) m2 r. Proof. ev0. Qed.
Lemma e_wobjects m v p m2 r : evals m (WrObjects v p) m2 r -> evals (set_objects v m) p m2 r. Proof. ev0. Qed.
Lemma e_worder m v p m2 r : evals m (WrOrder v p) m2 r -> evals (set_order v m) p m2 r. Proof. ev0. Qed.
Lemma e_pouter m a t b p m2 r : evals m (PutOuter a t b p) m2 r -> evals (set_outer a (ainsert t b (m_outer m a)) m) p m2 r. Proof. ev0. Qed.
Lemma e_pbucket m a id o p m2 r : evals m (PutBucket a id o p) m2 r -> evals (set_bucket a (ainsert id o (m_bucket m a)) m) p m2 r. Proof. ev0. Qed.
Lemma e_wslot m a i s p m2 r : evals m (WrSlot a i s p) m2 r -> evals (set_slot a i s m) p m2 r. Proof. ev0. Qed.
Lemma e_nouter m k m2 r : evals m (NewOuter k) m2 r -> evals (set_outer (m_next m) [] (next m)) (k (m_next m)) m2 r. Proof. ev0. Qed.
Lemma e_nbucket m k m2 r : evals m (NewBucket k) m2 r -> evals (set_bucket (m_next m) [] (next m)) (k (m_next m)) m2 r. Proof. ev0. Qed.
Lemma e_narr m n k m2 r : evals m (NewArr n k) m2 r -> exists cap, n <= cap /\ evals (next m) (k (m_next m) cap) m2 r. Proof. ev0. Qed.
Lemma e_perm m ks k m2 r : evals m (Order ks k) m2 r -> exists ks', Permutation ks ks' /\ evals m (k ks') m2 r. Proof. ev0. Qed.
Ltac ev1 H := first [apply e_objects in H|apply e_order in H|apply e_nosort in H|apply e_outer in H|apply e_bucket in H|apply e_slot in H|apply e_wobjects in H|apply e_worder in H|apply e_pouter in H
  |apply e_pbucket in H|apply e_wslot in H|apply e_nouter in H|apply e_nbucket in H].
Lemma ev_ret_inv m r m2 r2 : evals m (Ret r) m2 r2 -> m2 = m /\ r2 = r.
Proof. intros H. apply ev_inv in H as [[E ->]|(m1 & p1 & S1 & _)]; [|inversion S1]. split; [reflexivity|congruence]. Qed.

(** ** Memory that holds a collection *)
Definition deref m (ob : list (string * nat)) : list (string * list (string * O)) := map (fun tb => (fst tb, m_bucket m (snd tb))) ob.
Record rep (m : mem O) (c : coll O) : Prop := {
  rp_sort : m_nosort m = no_sort c;
  rp_objs : match m_objects m with
            | None => objects c = []
            | Some a => a < m_next m /\ objects c = deref m (m_outer m a) /\ NoDup (map snd (m_outer m a)) /\ Forall (fun b => b < m_next m) (map snd (m_outer m a))
            end;
  rp_order : order c = map (m_slot m (s_arr (m_order m))) (seq 0 (s_len (m_order m)));
  rp_keys : NoDup (akeys (objects c)) /\ (forall t b, In (t, b) (objects c) -> NoDup (akeys b));
  rp_cap : s_len (m_order m) <= s_cap (m_order m) /\ (0 < s_cap (m_order m) -> s_arr (m_order m) < m_next m)
}.

Lemma rep_new ns : rep (new_mem ns) (new_coll ns).
Proof. constructor; cbn; auto; split; try constructor; try tauto; lia. Qed.

Lemma alookup_deref m t ob : alookup t (deref m ob) = match alookup t ob with Some b => Some (m_bucket m b) | None => None end.
Proof. induction ob as [|[t' b] ob IH]; cbn; [reflexivity|]. destruct (String.eqb t t'); auto. Qed.

(** c.objects[typ] *)
Lemma ev_bucket_addr m c typ k m2 r : rep m c -> evals m (rd_bucket_addr typ k) m2 r ->
  exists b, evals m (k b) m2 r /\ match b with Some a => alookup typ (objects c) = Some (m_bucket m a) /\ a < m_next m | None => alookup typ (objects c) = None end.
Proof.
  intros R H. unfold rd_bucket_addr in H. ev1 H. destruct R as [_ R _ _ _]. destruct (m_objects m) as [a|] eqn:E.
  - ev1 H. destruct R as (L & R & _ & F). exists (alookup typ (m_outer m a)). split; [exact H|]. rewrite R, alookup_deref. destruct (alookup typ (m_outer m a)) as [b|] eqn:Q; [|reflexivity]. split; [reflexivity|].
    rewrite Forall_forall in F. apply F. apply alookup_Some_In in Q. now apply (in_map snd) in Q.
  - exists None. split; [exact H|]. now rewrite R.
Qed.
Lemma ev_get_object m c typ id k m2 r : rep m c -> evals m (get_object_p typ id k) m2 r -> evals m (k (get_object c typ id)) m2 r.
Proof.
  intros R H. unfold get_object_p in H. apply (ev_bucket_addr _ _ _ _ _ _ R) in H as ([b|] & H & B); unfold get_object.
  - destruct B as (-> & _). now ev1 H.
  - now rewrite B.
Qed.
Lemma ev_get m c id k m2 r : rep m c -> evals m (get_p id k) m2 r -> evals m (k (get c id)) m2 r.
Proof. intros R H. unfold get_p in H. unfold get. destruct (split_dd id) as [|x [|y [|z l]]]; try exact H. exact (ev_get_object _ _ _ _ _ _ _ R H). Qed.
Lemma ev_get_each m c a m2 r : rep m c -> forall n i acc, evals m (get_each a i n acc) m2 r -> m2 = m /\ r = RObjs (acc ++ map (fun j => get c (m_slot m a j)) (seq i n)).
Proof.
  intros R. induction n as [|n IH]; intros i acc H; cbn [get_each] in H.
  - apply ev_ret_inv in H as [-> ->]. split; [reflexivity|]. cbn. now rewrite app_nil_r.
  - ev1 H. apply (ev_get _ _ _ _ _ _ R) in H. apply IH in H as [-> ->]. split; [reflexivity|]. cbn [seq map]. now rewrite <- app_assoc.
Qed.

(** Iterations *)
Definition entries {A} (mp : list (string * A)) (ks : list string) : list (string * A) := flat_map (fun k => match alookup k mp with Some v => [(k, v)] | None => [] end) ks.
Lemma ev_each_object m a k m2 r : forall ks acc, evals m (each_object a ks acc k) m2 r -> evals m (k (acc ++ map snd (entries (m_bucket m a) ks))) m2 r.
Proof.
  induction ks as [|id ks IH]; intros acc H; cbn [each_object] in H; [cbn; now rewrite app_nil_r|].
  ev1 H. apply IH in H. unfold entries in *. cbn [flat_map]. rewrite map_app. destruct (alookup id (m_bucket m a)); cbn; [now rewrite <- app_assoc in H|exact H].
Qed.
Lemma ev_range_bucket m a acc k m2 r : evals m (range_bucket a acc k) m2 r -> exists ks, Permutation (map fst (m_bucket m a)) ks /\ evals m (k (acc ++ map snd (entries (m_bucket m a) ks))) m2 r.
Proof. intros H. unfold range_bucket in H. ev1 H. apply e_perm in H as (ks & P & H). exists ks. split; [exact P|]. now apply ev_each_object in H. Qed.
Lemma ev_each_len m a p m2 r : forall ks, evals m (each_len a ks p) m2 r -> evals m p m2 r.
Proof. induction ks as [|t ks IH]; intros H; cbn [each_len] in H; [exact H|]. ev1 H. destruct (alookup t (m_outer m a)); [ev1 H|]; auto. Qed.

Lemma entries_self {A} (mp : list (string * A)) : NoDup (map fst mp) -> entries mp (map fst mp) = mp.
Proof.
  intros N. assert (forall l, (forall kv, In kv l -> alookup (fst kv) mp = Some (snd kv)) -> entries mp (map fst l) = l).
  { induction l as [|[k v] l IH]; intros X; cbn; [reflexivity|]. assert (Q := X (k, v) (or_introl eq_refl)). cbn in Q. rewrite Q. cbn. f_equal. apply IH. intros; apply X; now right. }
  apply H. intros [k v] I. cbn. now apply alookup_In.
Qed.
Lemma entries_perm {A} (mp : list (string * A)) ks : NoDup (map fst mp) -> Permutation (map fst mp) ks -> Permutation (entries mp ks) mp.
Proof. intros N P. rewrite <- (entries_self mp N) at 2. unfold entries. symmetry. now apply Permutation_flat_map. Qed.

Lemma fst_deref m ob : map fst (deref m ob) = map fst ob.
Proof. unfold deref. rewrite map_map. reflexivity. Qed.
Lemma bucket_keys m c t a : rep m c -> alookup t (objects c) = Some (m_bucket m a) -> NoDup (map fst (m_bucket m a)).
Proof. intros R H. apply alookup_Some_In in H. exact (proj2 (rp_keys _ _ R) _ _ H). Qed.
Lemma outer_keys m c a : rep m c -> m_objects m = Some a -> NoDup (map fst (m_outer m a)).
Proof. intros R E. destruct (rp_keys _ _ R) as [K _]. assert (X := rp_objs _ _ R). rewrite E in X. destruct X as (_ & X & _). rewrite X in K. unfold akeys in K. now rewrite fst_deref in K. Qed.

Lemma ev_each_bucket m a k m2 r : forall ks acc, evals m (each_bucket a ks acc k) m2 r ->
  exists ls, Forall2 (fun tb l => exists ks', Permutation (map fst (m_bucket m (snd tb))) ks' /\ l = map snd (entries (m_bucket m (snd tb)) ks')) (entries (m_outer m a) ks) ls /\ evals m (k (acc ++ concat ls)) m2 r.
Proof.
  induction ks as [|t ks IH]; intros acc H; cbn [each_bucket] in H.
  - exists []. cbn. rewrite app_nil_r. auto.
  - ev1 H. change (entries (m_outer m a) (t :: ks)) with ((match alookup t (m_outer m a) with Some v => [(t, v)] | None => [] end) ++ entries (m_outer m a) ks)%list. destruct (alookup t (m_outer m a)) as [b|] eqn:E.
    + apply ev_range_bucket in H as (ks' & P & H). apply IH in H as (ls & F & H). exists (map snd (entries (m_bucket m b) ks') :: ls). split; [|cbn [concat]; now rewrite app_assoc]. cbn [app]. constructor; [|exact F]. cbn [snd]. eauto.
    + apply IH in H as (ls & F & H). exists ls. auto.
Qed.

Lemma ev_buckets m c a k m2 r ks : rep m c -> m_objects m = Some a -> Permutation (map fst (m_outer m a)) ks -> evals m (each_bucket a ks [] k) m2 r ->
  exists l, iter_all (objects c) l /\ evals m (k l) m2 r.
Proof.
  intros R E P H. apply ev_each_bucket in H as (ls & F & H). exists (concat ls). split; [|exact H]. assert (X := rp_objs _ _ R). rewrite E in X. destruct X as (_ & X & _). rewrite X.
  exists (deref m (entries (m_outer m a) ks)), ls. split; [|split; [|reflexivity]].
  - unfold map_iter, deref. apply Permutation_map. apply entries_perm; [exact (outer_keys _ _ _ R E)|exact P].
  - assert (A : forall tb, In tb (entries (m_outer m a) ks) -> NoDup (map fst (m_bucket m (snd tb)))).
    { intros [t b] I. apply (Permutation_in _ (entries_perm _ _ (outer_keys _ _ _ R E) P)) in I. apply (proj2 (rp_keys _ _ R) t). rewrite X. unfold deref. now apply (in_map (fun tb => (fst tb, m_bucket m (snd tb)))) in I. }
    clear H. unfold deref. induction F as [|tb l es ls' (ks' & P' & ->) F IH]; cbn; constructor; [|apply IH; intros; apply A; now right].
    exists (entries (m_bucket m (snd tb)) ks'). split; [|reflexivity]. apply entries_perm; [|exact P']. apply A. now left.
Qed.

Lemma ev_unsorted m c m2 r : rep m c -> evals m all_unsorted m2 r -> m2 = m /\ exists l, iter_all (objects c) l /\ r = RObjs (map Some l).
Proof.
  intros R H. unfold all_unsorted in H. ev1 H. destruct (m_objects m) as [a|] eqn:E.
  - ev1 H. apply e_perm in H as (ks & _ & H). apply ev_each_len in H. ev1 H. rewrite E in H. ev1 H. apply e_perm in H as (ks' & P & H).
    apply (ev_buckets _ _ _ _ _ _ _ R E P) in H as (l & I & H). apply ev_ret_inv in H as [-> ->]. eauto.
  - ev1 H. rewrite E in H. apply ev_ret_inv in H as [-> ->]. split; [reflexivity|]. exists []. split; [|reflexivity]. assert (X := rp_objs _ _ R). rewrite E in X. rewrite X. exists [], []. repeat split; constructor.
Qed.
Lemma ev_all_objects m c m2 r : rep m c -> evals m all_objects_p m2 r -> m2 = m /\ exists l, all_objects c l /\ r = RObjs l.
Proof.
  intros R H. unfold all_objects_p in H. ev1 H. unfold all_objects. rewrite <- (rp_sort _ _ R). destruct (m_nosort m); cbn [negb andb].
  - destruct (ev_unsorted _ _ _ _ R H) as (-> & l & I & ->). eauto 6.
  - rewrite (rp_order _ _ R), map_length, seq_length. ev1 H. destruct (Nat.eqb (s_len (m_order m)) 0) eqn:E; cbn [negb].
    + destruct (ev_unsorted _ _ _ _ R H) as (-> & l & I & ->). eauto 6.
    + ev1 H. ev1 H. apply (ev_get_each _ _ _ _ _ R) in H as [-> ->]. split; [reflexivity|]. eexists. split; [reflexivity|]. cbn. now rewrite map_map.
Qed.
Lemma ev_get_all m c typ m2 r : rep m c -> evals m (get_all_p typ) m2 r -> m2 = m /\ exists x, get_all c typ x /\ r = RAll x.
Proof.
  intros R H. unfold get_all_p in H. apply (ev_bucket_addr _ _ _ _ _ _ R) in H as (b & H & B). unfold get_all. destruct b as [a|].
  - destruct B as [B _]. rewrite B. ev1 H. apply ev_range_bucket in H as (ks & P & H). apply ev_ret_inv in H as [-> ->]. split; [reflexivity|]. eexists. split; [|reflexivity].
    exists (entries (m_bucket m a) ks). split; [|reflexivity]. apply entries_perm; [exact (bucket_keys _ _ _ _ R B)|exact P].
  - rewrite B. apply ev_ret_inv in H as [-> ->]. eauto.
Qed.
Lemma ev_typed_all m c typ m2 r : rep m c -> evals m (typed_all_p typ) m2 r ->
  m2 = m /\ exists es, map_iter (match alookup typ (objects c) with Some b => b | None => [] end) es /\ r = RList (map snd es).
Proof.
  intros R H. unfold typed_all_p in H. apply (ev_bucket_addr _ _ _ _ _ _ R) in H as (b & H & _).
  assert (H' : evals m (rd_bucket_addr typ (fun b => match b with None => Ret (RList []) | Some a => range_bucket a [] (fun l => Ret (RList l)) end)) m2 r) by (destruct b; [ev1 H|]; exact H).
  clear H. rename H' into H. apply (ev_bucket_addr _ _ _ _ _ _ R) in H as ([a|] & H & B).
  - destruct B as [B _]. rewrite B. apply ev_range_bucket in H as (ks & P & H). apply ev_ret_inv in H as [-> ->]. split; [reflexivity|].
    exists (entries (m_bucket m a) ks). split; [|reflexivity]. apply entries_perm; [exact (bucket_keys _ _ _ _ R B)|exact P].
  - rewrite B. apply ev_ret_inv in H as [-> ->]. split; [reflexivity|]. exists []. split; [constructor|reflexivity].
Qed.

(** ** Add *)
Lemma upd_same {A} (f : nat -> A) a v : upd f a v a = v.
Proof. unfold upd. now rewrite Nat.eqb_refl. Qed.
Lemma upd_other {A} (f : nat -> A) a v x : a <> x -> upd f a v x = f x.
Proof. intros H. unfold upd. apply Nat.eqb_neq in H. now rewrite H. Qed.

Lemma ev_copy a a' p m2 r : a <> a' -> forall n i m, evals m (copy a a' i n p) m2 r ->
  exists sl, evals (Mem (m_objects m) (m_order m) (m_nosort m) (m_outer m) (m_bucket m) sl (m_next m)) p m2 r /\
    (forall x j, x <> a' -> sl x j = m_slot m x j) /\ (forall j, j < i -> sl a' j = m_slot m a' j) /\ (forall j, i <= j < i + n -> sl a' j = m_slot m a j).
Proof.
  intros N. induction n as [|n IH]; intros i m H; cbn [copy] in H.
  - exists (m_slot m). split; [destruct m; exact H|]. split; [reflexivity|]. split; [reflexivity|]. lia.
  - ev1 H. ev1 H. apply IH in H as (sl & H & A & B & C). cbn in H. exists sl. split; [exact H|]. cbn in A, B, C. split; [|split].
    + intros x j X. rewrite A by exact X. now rewrite upd_other by auto.
    + intros j L. rewrite B by lia. rewrite upd_same, upd_other by lia. reflexivity.
    + intros j L. destruct (Nat.eq_dec i j) as [<-|D]; [rewrite B by lia; now rewrite !upd_same|]. rewrite C by lia. now rewrite upd_other by auto.
Qed.

Lemma ev_append m c id m2 r : rep m c -> evals m (append_p id (Ret (RErr true))) m2 r -> r = RErr true /\ rep m2 (Coll (objects c) (order c ++ [id]) (no_sort c)).
Proof.
  intros R H. unfold append_p in H. ev1 H. destruct R as [R1 R2 R3 R4 [R5 R6]]. destruct (Nat.ltb_spec (s_len (m_order m)) (s_cap (m_order m))) as [L|L].
  - ev1 H. ev1 H. apply ev_ret_inv in H as [-> ->]. split; [reflexivity|]. constructor; cbn [m_objects m_order m_nosort m_outer m_bucket m_slot m_next s_arr s_len s_cap set_order set_slot objects order no_sort]; auto.
    + rewrite R3. rewrite seq_S, map_app. f_equal.
      * apply map_ext_in. intros j J. apply in_seq in J. rewrite upd_same, upd_other by lia. reflexivity.
      * cbn. now rewrite !upd_same.
  - apply e_narr in H as (cap & C & H).
    assert (D : s_arr (m_order m) <> m_next m \/ s_len (m_order m) = 0) by (destruct (Nat.eq_dec (s_cap (m_order m)) 0); [right; lia|left; assert (0 < s_cap (m_order m)) as Q by lia; specialize (R6 Q); lia]).
    assert (X : exists sl, evals (Mem (m_objects m) (m_order m) (m_nosort m) (m_outer m) (m_bucket m) sl (S (m_next m))) (WrSlot (m_next m) (s_len (m_order m)) id (WrOrder (Slice (m_next m) (S (s_len (m_order m))) cap) (Ret (RErr true)))) m2 r /\
      forall j, j < s_len (m_order m) -> sl (m_next m) j = m_slot m (s_arr (m_order m)) j).
    { destruct D as [D|D].
      - apply (ev_copy _ _ _ _ _ D) in H as (sl & H & _ & _ & B). cbn in H. exists sl. split; [exact H|]. intros j J. apply B. lia.
      - rewrite D in *. cbn [copy] in H. exists (m_slot m). split; [exact H|]. lia. }
    destruct X as (sl & X & B). ev1 X. ev1 X. apply ev_ret_inv in X as [-> ->]. split; [reflexivity|]. constructor; cbn [m_objects m_order m_nosort m_outer m_bucket m_slot m_next s_arr s_len s_cap set_order set_slot objects order no_sort]; auto.
    + destruct (m_objects m); [|exact R2]. destruct R2 as (U & V & W & Z). split; [lia|]. split; [exact V|]. split; [exact W|]. eapply Forall_impl; [|exact Z]. cbn. lia.
    + rewrite R3. rewrite seq_S, map_app. f_equal.
      * apply map_ext_in. intros j J. apply in_seq in J. rewrite upd_same, upd_other by lia. symmetry. apply B. lia.
      * cbn. now rewrite !upd_same.
Qed.

Lemma deref_cons m t b ob : deref m ((t, b) :: ob) = (t, m_bucket m b) :: deref m ob.
Proof. reflexivity. Qed.
Lemma deref_set m typ b v : forall ob, NoDup (map snd ob) -> alookup typ ob = Some b -> deref (set_bucket b v m) ob = ainsert typ v (deref m ob).
Proof.
  assert (Q : forall ob, ~ In b (map snd ob) -> deref (set_bucket b v m) ob = deref m ob).
  { induction ob as [|[t x] ob IH]; cbn [map snd In]; intros N; [reflexivity|]. rewrite !deref_cons, IH by tauto. cbn [m_bucket set_bucket]. rewrite upd_other by (intros ->; tauto). reflexivity. }
  induction ob as [|[t x] ob IH]; cbn [map snd alookup]; intros N E; [discriminate|]. inversion N; subst. rewrite !deref_cons. cbn [ainsert m_bucket set_bucket]. destruct (String.eqb typ t) eqn:T.
  - injection E as ->. apply String.eqb_eq in T. subst t. rewrite upd_same. f_equal. now apply Q.
  - rewrite IH by assumption. rewrite upd_other; [reflexivity|]. intros ->. apply alookup_Some_In in E. apply (in_map snd) in E. contradiction.
Qed.

Lemma ainsert_keys_nodup {A} t (b : list (string * A)) ob : (forall t b, In (t, b) ob -> NoDup (akeys b)) -> NoDup (akeys b) -> forall t' b', In (t', b') (ainsert t b ob) -> NoDup (akeys b').
Proof.
  intros H N t' b'. induction ob as [|[t0 b0] ob IH]; cbn.
  - intros [Q|[]]. congruence.
  - destruct (String.eqb t t0); cbn; intros [Q|Q]; [congruence|eapply H; right; exact Q|eapply H; left; exact Q|]. apply IH; [|exact Q]. intros; eapply H; right; eassumption.
Qed.

Lemma ev_add_tail m c a typ id o b m2 r : rep m c -> m_objects m = Some a -> alookup typ (m_outer m a) = Some b -> evals m (add_tail id o b) m2 r ->
  r = RErr true /\ rep m2 (Coll (ainsert typ (ainsert id o (m_bucket m b)) (objects c))
    (if negb (no_sort c) && negb (match alookup id (m_bucket m b) with Some _ => true | None => false end) then order c ++ [id] else order c) (no_sort c)).
Proof.
  intros R E L H. unfold add_tail in H. ev1 H. ev1 H. ev1 H. cbn [m_nosort set_bucket] in H. rewrite (rp_sort _ _ R) in H.
  assert (R' : rep (set_bucket b (ainsert id o (m_bucket m b)) m) (Coll (ainsert typ (ainsert id o (m_bucket m b)) (objects c)) (order c) (no_sort c))).
  { destruct R as [R1 R2 R3 [R4 R4'] R5]. rewrite E in R2. destruct R2 as (U & V & W & Z). constructor; cbn [m_objects m_order m_nosort m_outer m_bucket m_slot m_next s_arr s_len s_cap set_order set_slot objects order no_sort set_outer set_bucket set_objects next]; auto.
    - rewrite E. split; [exact U|]. split; [|auto]. rewrite V. symmetry. now apply deref_set.
    - split; [now apply NoDup_ainsert|]. apply ainsert_keys_nodup; [exact R4'|]. apply NoDup_ainsert. apply (R4' typ). apply alookup_Some_In. now rewrite V, alookup_deref, L. }
  destruct (negb (no_sort c) && _).
  - exact (ev_append _ _ _ _ _ R' H).
  - apply ev_ret_inv in H as [-> ->]. auto.
Qed.
Lemma ainsert_twice {A} t (x y : A) ob : ainsert t x (ainsert t y ob) = ainsert t x ob.
Proof. induction ob as [|[t' z] ob IH]; cbn; [now rewrite String.eqb_refl|]. destruct (String.eqb t t') eqn:E; cbn; [now rewrite String.eqb_refl|]. rewrite E. now rewrite IH. Qed.
Lemma deref_insert m t b : forall ob, deref m (ainsert t b ob) = ainsert t (m_bucket m b) (deref m ob).
Proof. induction ob as [|[t' x] ob IH]; [reflexivity|]. cbn [ainsert]. rewrite deref_cons. cbn [ainsert]. destruct (String.eqb t t'); rewrite deref_cons; [reflexivity|]. f_equal. exact IH. Qed.
Lemma snd_insert_new {A} t (b : A) : forall ob, alookup t ob = None -> map snd (ainsert t b ob) = map snd ob ++ [b].
Proof. induction ob as [|[t' x] ob IH]; cbn; [reflexivity|]. destruct (String.eqb t t'); cbn; [discriminate|]. intros. now rewrite IH. Qed.

Lemma ev_add_bucket m c a id typ o m2 r : rep m c -> m_objects m = Some a -> evals m (add_bucket id typ o) m2 r ->
  r = RErr true /\ rep m2 (fst (add c id typ o)) \/ has_valid_identifier id typ = false.
Proof.
  intros R E H. destruct (has_valid_identifier id typ) eqn:V; [left|now right]. unfold add. rewrite V. cbn [negb fst].
  unfold add_bucket, rd_bucket_addr in H. ev1 H. rewrite E in H. ev1 H. assert (X := rp_objs _ _ R). rewrite E in X. destruct X as (X1 & X2 & X3 & X4). rewrite X2 at 1. rewrite X2 at 2. rewrite !alookup_deref.
  destruct (alookup typ (m_outer m a)) as [b|] eqn:L.
  - exact (ev_add_tail _ _ _ _ _ _ _ _ _ R E L H).
  - ev1 H. ev1 H. cbn [m_objects set_bucket next] in H. rewrite E in H. ev1 H. cbn [m_outer set_bucket next] in H.
    match type of H with evals ?x _ _ _ => set (m' := x) in * end.
    assert (R' : rep m' (Coll (ainsert typ [] (objects c)) (order c) (no_sort c))).
    { destruct R as [R1 R2 R3 [R4 R4'] [R5 R6]]. constructor; unfold m' in *; cbn [m_objects m_order m_nosort m_outer m_bucket m_slot m_next s_arr s_len s_cap set_order set_slot objects order no_sort set_outer set_bucket set_objects next]; auto.
      - rewrite E. split; [lia|]. rewrite upd_same. split; [|split].
        + rewrite deref_insert. cbn [m_objects m_order m_nosort m_outer m_bucket m_slot m_next s_arr s_len s_cap set_order set_slot objects order no_sort set_outer set_bucket set_objects next]. rewrite upd_same. f_equal. rewrite X2. unfold deref. apply map_ext_in. intros [t b] I. cbn. f_equal. rewrite upd_other; [reflexivity|]. rewrite Forall_forall in X4. apply (in_map snd) in I. apply X4 in I. cbn in I. lia.
        + rewrite snd_insert_new by exact L. apply (Permutation_NoDup (Permutation_cons_append _ _)). constructor; [|exact X3]. intros I. rewrite Forall_forall in X4. apply X4 in I. lia.
        + rewrite snd_insert_new by exact L. apply Forall_app. split; [eapply Forall_impl; [|exact X4]; cbn; lia|]. constructor; [lia|constructor].
      - split; [now apply NoDup_ainsert|]. apply ainsert_keys_nodup; [exact R4'|constructor].
      - split; [exact R5|]. intros Q. apply R6 in Q. lia. }
    assert (L' : alookup typ (m_outer m' a) = Some (m_next m)) by (cbn; rewrite upd_same; apply alookup_ainsert_same).
    assert (B : m_bucket m' (m_next m) = []) by (cbn; apply upd_same).
    destruct (ev_add_tail _ _ _ _ _ _ _ _ _ R' E L' H) as [-> Y]. split; [reflexivity|]. cbn [objects order no_sort] in Y. rewrite ainsert_twice, B in Y. exact Y.
Qed.

Lemma ev_add m c id typ o m2 r : rep m c -> evals m (add_p id typ o) m2 r -> exists c' ok, add c id typ o = (c', ok) /\ r = RErr ok /\ rep m2 c'.
Proof.
  intros R H. unfold add_p in H. destruct (has_valid_identifier id typ) eqn:V; cbn [negb] in H.
  - assert (Q : exists c', add c id typ o = (c', true)) by (unfold add; rewrite V; cbn [negb]; eauto). destruct Q as (c' & Q).
    assert (r = RErr true /\ rep m2 (fst (add c id typ o))).
    { ev1 H. destruct (m_objects m) as [a|] eqn:E.
      - destruct (ev_add_bucket _ _ _ _ _ _ _ _ R E H) as [X|X]; [exact X|congruence].
      - ev1 H. ev1 H. match type of H with evals ?x _ _ _ => set (m' := x) in * end.
        assert (R' : rep m' c).
        { destruct R as [R1 R2 R3 R4 [R5 R6]]. rewrite E in R2. constructor; unfold m' in *; cbn [m_objects m_order m_nosort m_outer m_bucket m_slot m_next s_arr s_len s_cap set_order set_slot objects order no_sort set_outer set_bucket set_objects next]; auto.
          - split; [lia|]. rewrite upd_same. cbn. rewrite R2. split; [reflexivity|]. split; constructor.
          - split; [exact R5|]. intros X. apply R6 in X. lia. }
        destruct (ev_add_bucket m' c (m_next m) _ _ _ _ _ R' eq_refl H) as [X|X]; [exact X|congruence]. }
    rewrite Q in H0. exists c', true. tauto.
  - apply ev_ret_inv in H as [-> ->]. exists c, false. unfold add. rewrite V. auto.
Qed.

(** Every call that runs alone does what Collection.v says. *)
Lemma call_alone m c q m2 r : rep m c -> evals m (code q) m2 r -> exists c', alone c q r c' /\ rep m2 c'.
Proof.
  intros R H. destruct q as [id typ o|id| |typ|typ id|typ]; cbn [code] in H.
  - destruct (ev_add _ _ _ _ _ _ _ R H) as (c' & ok & A & -> & R'). exists c'. split; [now constructor|exact R'].
  - apply (ev_get _ _ _ _ _ _ R) in H. apply ev_ret_inv in H as [-> ->]. exists c. split; [constructor|exact R].
  - destruct (ev_all_objects _ _ _ _ R H) as (-> & l & A & ->). exists c. split; [now constructor|exact R].
  - destruct (ev_get_all _ _ _ _ _ R H) as (-> & l & A & ->). exists c. split; [now constructor|exact R].
  - apply (ev_get_object _ _ _ _ _ _ _ R) in H. apply ev_ret_inv in H as [-> ->]. exists c. split; [constructor|exact R].
  - destruct (ev_typed_all _ _ _ _ _ R H) as (-> & l & A & ->). exists c. split; [now constructor|exact R].
Qed.

(** ** Code that only reads *)
Inductive ro : prog O -> Prop :=
| ro_ret r : ro (Ret r)
| ro_objects k : (forall x, ro (k x)) -> ro (RdObjects k)
| ro_order k : (forall x, ro (k x)) -> ro (RdOrder k)
| ro_nosort k : (forall x, ro (k x)) -> ro (RdNoSort k)
| ro_outer a k : (forall x, ro (k x)) -> ro (RdOuter a k)
| ro_bucket a k : (forall x, ro (k x)) -> ro (RdBucket a k)
| ro_slot a i k : (forall x, ro (k x)) -> ro (RdSlot a i k)
| ro_perm ks k : (forall x, ro (k x)) -> ro (Order ks k).

Lemma ro_step m p m' p' : ro p -> step m p m' p' -> m' = m /\ ro p'.
Proof. intros R S. destruct R; inversion S; subst; auto. Qed.
Lemma ro_access p l w : ro p -> access p = Some (l, w) -> w = false.
Proof. intros R. destruct R; cbn; congruence. Qed.
Lemma ro_evals m p m2 r : evals m p m2 r -> ro p -> m2 = m.
Proof. induction 1 as [|m p m1 p1 m2 r S E IH]; intros R; [reflexivity|]. destruct (ro_step _ _ _ _ R S) as [-> R']. auto. Qed.

Lemma ro_addr typ k : (forall x, ro (k x)) -> ro (rd_bucket_addr typ k).
Proof. intros H. constructor. intros [a|]; [constructor; auto|auto]. Qed.
Lemma ro_get_object typ id k : (forall x, ro (k x)) -> ro (get_object_p typ id k).
Proof. intros H. apply ro_addr. intros [a|]; [constructor; auto|auto]. Qed.
Lemma ro_get id k : (forall x, ro (k x)) -> ro (get_p id k).
Proof. intros H. unfold get_p. destruct (split_dd id) as [|x [|y [|z l]]]; auto using ro_get_object. Qed.
Lemma ro_get_each a n : forall i acc, ro (get_each a i n acc).
Proof. induction n as [|n IH]; intros; cbn [get_each]; constructor. intros. apply ro_get. auto. Qed.
Lemma ro_each_object a ks k : (forall x, ro (k x)) -> forall acc, ro (each_object a ks acc k).
Proof. intros H. induction ks as [|id ks IH]; intros; cbn [each_object]; [auto|constructor; auto]. Qed.
Lemma ro_range a acc k : (forall x, ro (k x)) -> ro (range_bucket a acc k).
Proof. intros H. constructor. intros. constructor. intros. now apply ro_each_object. Qed.
Lemma ro_each_bucket a ks k : (forall x, ro (k x)) -> forall acc, ro (each_bucket a ks acc k).
Proof. intros H. induction ks as [|t ks IH]; intros; cbn [each_bucket]; [auto|]. constructor. intros m. destruct (alookup t m); [apply ro_range|]; auto. Qed.
Lemma ro_each_len a ks p : ro p -> ro (each_len a ks p).
Proof. intros H. induction ks as [|t ks IH]; cbn [each_len]; [auto|]. constructor. intros m. destruct (alookup t m); [constructor|]; auto. Qed.
Lemma ro_unsorted : ro all_unsorted.
Proof.
  assert (X : ro (RdObjects (fun x => match x with None => Ret (RObjs []) | Some a => RdOuter a (fun y => Order (map fst y) (fun ks => each_bucket a ks [] (fun l => Ret (@RObjs O (map Some l))))) end))).
  { constructor. intros [a|]; constructor. intros m. constructor. intros ks. apply ro_each_bucket. intros. constructor. }
  constructor. intros [a|]; [|exact X]. constructor. intros m. constructor. intros ks. now apply ro_each_len.
Qed.
Lemma code_ro q : reads q = true -> ro (code q).
Proof.
  destruct q as [id typ o|id| |typ|typ id|typ]; cbn [reads code]; intros H; [discriminate|..].
  - apply ro_get. constructor.
  - constructor. intros [|]; [apply ro_unsorted|]. constructor. intros s. destruct (Nat.eqb (s_len s) 0); [apply ro_unsorted|]. constructor. intros _. constructor. intros. apply ro_get_each.
  - apply ro_addr. intros [a|]; constructor. intros. apply ro_range. constructor.
  - apply ro_get_object. constructor.
  - assert (X : ro (rd_bucket_addr typ (fun b => match b with None => Ret (@RList O []) | Some a => range_bucket a [] (fun l => Ret (RList l)) end))).
    { apply ro_addr. intros [a|]; [apply ro_range|]; constructor. }
    apply ro_addr. intros [a|]; [constructor; intros _|]; exact X.
Qed.

(** ** Interleavings *)
Inductive one_by_one (k : coll O) : list (nat * call O * result O) -> coll O -> Prop :=
| ob_nil : one_by_one k [] k
| ob_cons d k1 i c r k2 : one_by_one k d k1 -> alone k1 c r k2 -> one_by_one k ((i, c, r) :: d) k2.
Definition idle (t : thread O) : Prop := t_now t = None.
Definition reading (m : mem O) (k : coll O) (t : thread O) : Prop :=
  match t_now t with
  | None => True
  | Some (q, p) => reads q = true /\ ro p /\ forall m2 r, evals m p m2 r -> alone k q r k
  end.
Definition calm (m : mem O) (ts : list (thread O)) (k : coll O) : Prop := rep m k /\ Forall (reading m k) ts.
Definition busy (m : mem O) (ts : list (thread O)) (k : coll O) : Prop :=
  exists i q p todo, nth_error ts i = Some (Thread (Some (q, p)) todo) /\ reads q = false /\ (forall j t, nth_error ts j = Some t -> j <> i -> idle t) /\
    forall m2 r, evals m p m2 r -> exists k', alone k q r k' /\ rep m2 k'.
Definition sinv (k0 : coll O) (s : state O) : Prop :=
  exists k, one_by_one k0 (st_done s) k /\ (calm (st_mem s) (st_threads s) k \/ busy (st_mem s) (st_threads s) k).

Lemma nth_set_same {A} i (x y : A) l : nth_error l i = Some y -> nth_error (set_nth i x l) i = Some x.
Proof. revert i. induction l as [|z l IH]; intros [|i] H; cbn in *; try discriminate; auto. Qed.
Lemma nth_set_other {A} i j (x : A) l : j <> i -> nth_error (set_nth i x l) j = nth_error l j.
Proof. revert i j. induction l as [|z l IH]; intros [|i] [|j] H; cbn; auto; try contradiction. Qed.
Lemma Forall_set_nth {A} (P : A -> Prop) i x l : Forall P l -> P x -> Forall P (set_nth i x l).
Proof. intros F H. revert i. induction F; intros [|i]; cbn; constructor; auto. Qed.
Lemma Forall_nth_in {A} (P : A -> Prop) i x l : Forall P l -> nth_error l i = Some x -> P x.
Proof. intros F H. rewrite Forall_forall in F. apply F. now apply nth_error_In in H. Qed.
Lemma running_in ts i q p todo : nth_error ts i = Some (Thread (Some (q, p)) todo) -> In q (running ts).
Proof. intros H. unfold running. apply in_flat_map. exists (Thread (Some (q, p)) todo). split; [now apply nth_error_In in H|now left]. Qed.
Lemma running_nil ts : running ts = [] -> Forall idle ts.
Proof. intros H. apply Forall_forall. intros t I. unfold idle. destruct (t_now t) as [[q p]|] eqn:E; [|reflexivity]. exfalso. assert (X : In q (running ts)) by (apply in_flat_map; exists t; rewrite E; split; [exact I|now left]). now rewrite H in X. Qed.
Lemma evals_alone_read m k q m2 r : rep m k -> reads q = true -> evals m (code q) m2 r -> alone k q r k.
Proof. intros R Q E. destruct (call_alone _ _ _ _ _ R E) as (k' & A & _). inversion A; subst; try exact A. discriminate. Qed.

Lemma sinv_begin k0 m ts d i q todo : sinv k0 (State m ts d) -> nth_error ts i = Some (Thread None (q :: todo)) ->
  (running ts = [] \/ reads q = true /\ forallb reads (running ts) = true) -> sinv k0 (State m (set_nth i (Thread (Some (q, code q)) todo) ts) d).
Proof.
  intros (k & D & I) N C. exists k. split; [exact D|]. cbn [st_mem st_threads] in *.
  assert (Y : calm m ts k).
  { destruct I as [I|(j & q' & p & todo' & N' & W & _)]; [exact I|]. exfalso. apply running_in in N'. destruct C as [C|[_ C]]; [now rewrite C in N'|]. rewrite forallb_forall in C. apply C in N'. congruence. }
  destruct Y as [R F]. destruct (reads q) eqn:Q.
  - left. split; [exact R|]. apply Forall_set_nth; [exact F|]. cbn. split; [exact Q|]. split; [now apply code_ro|]. intros m2 r E. exact (evals_alone_read _ _ _ _ _ R Q E).
  - right. destruct C as [C|[C _]]; [|discriminate]. exists i, q, (code q), todo. split; [eapply nth_set_same; exact N|]. split; [exact Q|]. split.
    + intros j t E J. rewrite nth_set_other in E by exact J. exact (Forall_nth_in _ _ _ _ (running_nil _ C) E).
    + intros m2 r E. exact (call_alone _ _ _ _ _ R E).
Qed.
Lemma sinv_step k0 m ts d i q p todo m' p' : sinv k0 (State m ts d) -> nth_error ts i = Some (Thread (Some (q, p)) todo) -> step m p m' p' ->
  sinv k0 (State m' (set_nth i (Thread (Some (q, p')) todo) ts) d).
Proof.
  intros (k & D & I) N S. exists k. split; [exact D|]. cbn [st_mem st_threads] in *. destruct I as [[R F]|(j & q' & p0 & todo' & N' & W & J & E)].
  - left. assert (X := Forall_nth_in _ _ _ _ F N). cbn in X. destruct X as (Q & P & E). destruct (ro_step _ _ _ _ P S) as [-> P']. split; [exact R|]. apply Forall_set_nth; [exact F|]. cbn. split; [exact Q|]. split; [exact P'|].
    intros m2 r V. apply (E m2). econstructor; eassumption.
  - right. destruct (Nat.eq_dec i j) as [<-|X]; [|exfalso; specialize (J _ _ N X); discriminate J]. rewrite N in N'. injection N' as <- <- <-.
    exists i, q, p', todo. split; [eapply nth_set_same; exact N|]. split; [exact W|]. split.
    + intros j t T X. rewrite nth_set_other in T by exact X. eapply J; eassumption.
    + intros m2 r V. apply (E m2). econstructor; eassumption.
Qed.
Lemma sinv_return k0 m ts d i q r todo : sinv k0 (State m ts d) -> nth_error ts i = Some (Thread (Some (q, Ret r)) todo) -> sinv k0 (State m (set_nth i (Thread None todo) ts) ((i, q, r) :: d)).
Proof.
  intros (k & D & I) N. unfold sinv. cbn [st_mem st_threads st_done] in *. destruct I as [[R F]|(j & q' & p0 & todo' & N' & W & J & E)].
  - assert (X := Forall_nth_in _ _ _ _ F N). cbn in X. destruct X as (Q & P & E). exists k. split; [econstructor; [exact D|]; apply (E m); constructor|]. left. split; [exact R|]. apply Forall_set_nth; [exact F|]. exact Logic.I.
  - destruct (Nat.eq_dec i j) as [<-|X]; [|exfalso; specialize (J _ _ N X); discriminate J]. rewrite N in N'. injection N' as <- <- <-.
    destruct (E m r) as (k' & A & R); [constructor|]. exists k'. split; [econstructor; eassumption|]. left. split; [exact R|].
    apply Forall_forall. intros t T. apply In_nth_error in T as (j & T). destruct (Nat.eq_dec j i) as [->|X].
    + rewrite (nth_set_same _ _ _ _ N) in T. injection T as <-. exact Logic.I.
    + rewrite nth_set_other in T by exact X. unfold reading. now rewrite (J _ _ T X).
Qed.

Definition locks (may : list (call O) -> call O -> bool) : Prop := forall l q, may l q = true -> l = [] \/ reads q = true /\ forallb reads l = true.
Lemma rw_locks : locks rw_mutex.
Proof. intros [|x l] q H; [now left|right]. apply andb_true_iff in H. exact H. Qed.
Lemma mutex_locks : locks mutex.
Proof. intros [|x l] q H; [now left|discriminate]. Qed.

Lemma sinv_start m k progs : rep m k -> sinv k (start m progs).
Proof. intros R. exists k. split; [constructor|]. left. split; [exact R|]. cbn. apply Forall_forall. intros t I. apply in_map_iff in I as (x & <- & _). exact Logic.I. Qed.
Lemma sinv_runs may m k progs s : locks may -> rep m k -> runs may (start m progs) s -> sinv k s.
Proof.
  intros L R H. remember (start m progs) as s0. induction H as [s|s s1 s2 H IH S]; [subst; now apply sinv_start|]. specialize (IH Heqs0).
  destruct S as [m1 ts d i c todo N M|m1 ts d i c p todo m' p' N M|m1 ts d i c r todo N].
  - apply sinv_begin; auto.
  - eapply sinv_step; eassumption.
  - eapply sinv_return; eassumption.
Qed.

(** Goroutines that only read need no lock. *)
Definition will_read (t : thread O) : Prop := forallb reads (t_todo t) = true /\ match t_now t with Some (q, _) => reads q = true | None => True end.
Lemma will_running ts : Forall will_read ts -> forallb reads (running ts) = true.
Proof. intros F. apply forallb_forall. intros q I. apply in_flat_map in I as (t & T & I). rewrite Forall_forall in F. specialize (F t T). destruct F as [_ F]. destruct (t_now t) as [[q' p]|]; [|destruct I]. destruct I as [<-|[]]. exact F. Qed.
Lemma sinv_reads may m k progs s : forallb (forallb reads) progs = true -> rep m k -> runs may (start m progs) s -> sinv k s /\ Forall will_read (st_threads s) /\ st_mem s = m.
Proof.
  intros L R H. remember (start m progs) as s0. induction H as [s|s s1 s2 H IH S].
  - subst. split; [now apply sinv_start|]. split; [|reflexivity]. cbn. apply Forall_forall. intros t I. apply in_map_iff in I as (x & <- & I). rewrite forallb_forall in L. split; [exact (L x I)|exact Logic.I].
  - specialize (IH Heqs0). destruct IH as (IH & W & M0). destruct S as [m1 ts d i c todo N M|m1 ts d i c p todo m' p' N M|m1 ts d i c r todo N]; cbn [st_threads st_mem] in *.
    + assert (X := Forall_nth_in _ _ _ _ W N). destruct X as [X _]. cbn in X. apply andb_true_iff in X as [X X']. split; [|split; [|exact M0]].
      * apply sinv_begin; auto. right. split; [exact X|now apply will_running].
      * apply Forall_set_nth; [exact W|]. now split.
    + assert (X := Forall_nth_in _ _ _ _ W N). destruct X as [X X']. cbn in X, X'. split; [eapply sinv_step; eassumption|]. split; [apply Forall_set_nth; [exact W|]; now split|].
      destruct IH as (k1 & _ & [[_ F]|(j & q & p0 & td & N' & Q & J & _)]).
      * assert (Y := Forall_nth_in _ _ _ _ F N). cbn in Y. destruct Y as (_ & P & _). cbn in M0. destruct (ro_step _ _ _ _ P M) as [-> _]. exact M0.
      * exfalso. cbn in N', J. destruct (Nat.eq_dec i j) as [<-|D]; [|specialize (J _ _ N D); discriminate J]. rewrite N in N'. injection N' as <- <- <-. congruence.
    + assert (X := Forall_nth_in _ _ _ _ W N). destruct X as [X _]. cbn in X. split; [eapply sinv_return; eassumption|]. split; [|exact M0]. apply Forall_set_nth; [exact W|]. now split.
Qed.

Lemma sinv_no_race k0 s : sinv k0 s -> ~ race s.
Proof.
  intros (k & _ & I) (i & j & ti & tj & ci & cj & pi & pj & l & wi & wj & D & Ni & Nj & Ti & Tj & Ai & Aj & W). destruct I as [[R F]|(x & q & p & todo & N & _ & J & _)].
  - assert (Xi := Forall_nth_in _ _ _ _ F Ni). assert (Xj := Forall_nth_in _ _ _ _ F Nj). unfold reading in Xi, Xj. rewrite Ti in Xi. rewrite Tj in Xj. destruct Xi as (_ & Pi & _). destruct Xj as (_ & Pj & _).
    apply (ro_access _ _ _ Pi) in Ai. apply (ro_access _ _ _ Pj) in Aj. destruct W; congruence.
  - destruct (Nat.eq_dec i x) as [->|Y]; [|specialize (J _ _ Ni Y); unfold idle in J; congruence]. assert (Y : j <> x) by auto. specialize (J _ _ Nj Y). unfold idle in J. congruence.
Qed.

(** ** The calls of each goroutine return in its order *)
Definition now_calls (t : thread O) : list (call O) := match t_now t with Some (q, _) => [q] | None => [] end.
Lemma calls_of_cons i j q r d : calls_of i ((j, q, r) :: d : list (nat * call O * result O)) = (calls_of i d ++ (if Nat.eqb i j then [q] else []))%list.
Proof. unfold calls_of. cbn [rev]. rewrite filter_app, map_app. f_equal. cbn. now destruct (Nat.eqb i j). Qed.
Lemma set_nth_length {A} i (x : A) l : length (set_nth i x l) = length l.
Proof. revert i. induction l; intros [|i]; cbn; auto. Qed.
Lemma program_order may m progs s : runs may (start m progs) s -> length (st_threads s) = length progs /\
  forall i t, nth_error (st_threads s) i = Some t -> nth_error progs i = Some (calls_of i (st_done s) ++ now_calls t ++ t_todo t)%list.
Proof.
  intros H. remember (start m progs) as s0. induction H as [s|s s1 s2 H IH S].
  - subst. cbn. split; [apply map_length|]. intros i t N. rewrite nth_error_map in N. destruct (nth_error progs i); [|discriminate]. injection N as <-. reflexivity.
  - specialize (IH Heqs0) as [L IH]. destruct S as [m1 ts d i c todo N M|m1 ts d i c p todo m' p' N M|m1 ts d i c r todo N]; cbn [st_threads st_done] in *; rewrite set_nth_length; (split; [exact L|]); intros j t T; destruct (Nat.eq_dec j i) as [->|D];
      try (rewrite nth_set_other in T by exact D).
    + rewrite (nth_set_same _ _ _ _ N) in T. injection T as <-. exact (IH _ _ N).
    + exact (IH _ _ T).
    + rewrite (nth_set_same _ _ _ _ N) in T. injection T as <-. exact (IH _ _ N).
    + exact (IH _ _ T).
    + rewrite (nth_set_same _ _ _ _ N) in T. injection T as <-. rewrite (IH _ _ N). rewrite calls_of_cons, Nat.eqb_refl. cbn. f_equal. now rewrite <- app_assoc.
    + rewrite calls_of_cons. apply Nat.eqb_neq in D. rewrite D, app_nil_r. exact (IH _ _ T).
Qed.

(** ** Progress and termination *)
Lemma prog_steps m p : (exists r, p = Ret r) \/ exists m' p', step m p m' p'.
Proof. destruct p; [left; eauto|right..]; try (do 2 eexists; constructor; fail); do 2 eexists; [apply st_new_arr; constructor|apply st_order; reflexivity]. Qed.
Lemma state_steps (may : list (call O) -> call O -> bool) s : (forall q, may [] q = true) -> ~ finished s -> exists s', sched may s s'.
Proof.
  intros M F. destruct s as [m ts d]. destruct (running ts) as [|q l] eqn:R.
  - assert (X : exists t, In t ts /\ t_todo t <> []).
    { apply running_nil in R. unfold finished in F. cbn in F. induction ts as [|t ts IH]; [exfalso; apply F; constructor|]. inversion R; subst. destruct (t_todo t) eqn:T; [|exists t; split; [now left|congruence]].
      destruct IH as (x & I & X); [|assumption|exists x; split; [now right|exact X]]. intros Y. apply F. constructor; [now split|exact Y]. }
    destruct X as (t & I & T). apply In_nth_error in I as (i & N). assert (J := Forall_nth_in _ _ _ _ (running_nil _ R) N). destruct t as [now todo]. cbn in *. unfold idle in J. cbn in J. subst now. destruct todo as [|q todo]; [congruence|].
    eexists. eapply sc_begin; [exact N|]. rewrite R. apply M.
  - assert (I : In q (running ts)) by (rewrite R; now left). unfold running in I. apply in_flat_map in I as (t & I & X). destruct t as [[[q' p]|] todo]; [|destruct X]. apply In_nth_error in I as (i & N).
    destruct (prog_steps m p) as [(r & ->)|(m' & p' & S)]; eexists; [eapply sc_return|eapply sc_step]; eassumption.
Qed.

Definition plt (p' p : prog O) : Prop := exists m m', step m p m' p'.
Lemma prog_acc p : Acc plt p.
Proof. induction p; constructor; intros p' (m & m' & S); inversion S; subst; auto. Qed.
Inductive tlt : thread O -> thread O -> Prop :=
| tl_begin q todo : tlt (Thread (Some (q, code q)) todo) (Thread None (q :: todo))
| tl_step q p p' todo : plt p' p -> tlt (Thread (Some (q, p')) todo) (Thread (Some (q, p)) todo)
| tl_return q r todo : tlt (Thread None todo) (Thread (Some (q, Ret r)) todo).
Lemma thread_acc now todo : Acc tlt (Thread now todo).
Proof.
  revert now. induction todo as [|q0 todo IH]; intros now.
  - assert (A : Acc tlt (Thread None [])) by (constructor; intros t H; inversion H). destruct now as [[q p]|]; [|exact A].
    induction (prog_acc p) as [p _ IHp]. constructor. intros t H. inversion H; subst; auto.
  - assert (A : Acc tlt (Thread None (q0 :: todo))) by (constructor; intros t H; inversion H; subst; apply IH). destruct now as [[q p]|]; [|exact A].
    induction (prog_acc p) as [p _ IHp]. constructor. intros t H. inversion H; subst; auto.
Qed.
Definition llt (l' l : list (thread O)) : Prop := exists i t t', nth_error l i = Some t /\ tlt t' t /\ l' = set_nth i t' l.
Lemma list_acc l : Acc llt l.
Proof.
  induction l as [|x l IH]; [constructor; intros l' (i & t & t' & N & _); destruct i; discriminate|].
  assert (X : Acc tlt x) by (destruct x; apply thread_acc). revert l IH. induction X as [x _ IHx]. intros l A. assert (A' := A). induction A as [l _ IHl].
  constructor. intros l' (i & t & t' & N & T & ->). destruct i as [|i]; cbn in *.
  - injection N as ->. apply IHx; [exact T|exact A'].
  - apply IHl; [exists i, t, t'; auto|]. apply (Acc_inv A'). exists i, t, t'. auto.
Qed.
Lemma sched_acc may (s : state O) : Acc (fun s' s : state O => sched may s s') s.
Proof.
  assert (X := list_acc (st_threads s)). remember (st_threads s) as l eqn:E. revert s E. induction X as [l _ IH]. intros s ->. constructor. intros s' S. eapply IH; [|reflexivity].
  destruct S; cbn; eexists i, _, _; (split; [eassumption|]); (split; [|reflexivity]); constructor. do 2 eexists; eassumption.
Qed.
End Facts.
