(** Goroutines that share a collection: C87. *)
From Coq Require Import Lia Permutation.
From Verif Require Import GoStr GoStrFacts Uuid Ident IdentFacts Collection CollectionFacts PropCollectionAux Conc ConcSpec ConcFacts.

Section Aux.
Context {O : Type}.
Lemma run_app (h1 h2 : list (string * string * O)) : forall c, fst (run c (h1 ++ h2)) = fst (run (fst (run c h1)) h2).
Proof.
  induction h1 as [|[[id t] o] h1 IH]; intros c; [reflexivity|]. cbn [app run]. destruct (add c id t o) as [c1 ok].
  specialize (IH c1). destruct (run c1 (h1 ++ h2)) as [c2 oks]. destruct (run c1 h1) as [c3 oks3]. exact IH.
Qed.
Lemma adds_cons i q r (d : list (nat * call O * result O)) : adds ((i, q, r) :: d) = (adds d ++ match q with CAdd id typ o => [(id, typ, o)] | _ => [] end)%list.
Proof. unfold adds. cbn [rev]. rewrite flat_map_app. cbn. now rewrite app_nil_r. Qed.
Lemma one_by_one_run k0 (d : list (nat * call O * result O)) k : one_by_one k0 d k -> k = fst (run k0 (adds d)).
Proof.
  induction 1 as [|d k1 i q r k2 H IH A]; [reflexivity|]. rewrite adds_cons, run_app, <- IH. destruct A; cbn [run fst]; try reflexivity. now rewrite H0.
Qed.
Lemma one_by_one_split k0 (d1 : list (nat * call O * result O)) : forall i q r d2 k, one_by_one k0 (d1 ++ (i, q, r) :: d2) k -> exists k1 k2, one_by_one k0 d2 k1 /\ alone k1 q r k2.
Proof. induction d1 as [|x d1 IH]; intros i q r d2 k H; inversion H; subst; eauto. Qed.
Lemma one_by_one_turn ns (d : list (nat * call O * result O)) k : one_by_one (new_coll ns) d k -> in_turn ns d.
Proof. intros H d1 i q r d2 ->. apply one_by_one_split in H as (k1 & k2 & H & A). apply one_by_one_run in H. subst. eauto. Qed.

Lemma last_add_cons i q r (d : list (nat * call O * result O)) id o : last_add ((i, q, r) :: d) id o <->
  (exists typ, q = CAdd id typ o /\ r = RErr true) \/ last_add d id o /\ ~ exists typ o', q = CAdd id typ o' /\ r = RErr true.
Proof.
  split.
  - intros ([|x d1] & j & typ & d2 & E & N); cbn in E; injection E; intros; subst.
    + left. eauto.
    + right. split; [exists d1, j, typ, d2; split; [reflexivity|]; intros i' t' o' I; apply (N i' t' o'); now right|]. intros (t' & o' & -> & ->). apply (N i t' o'). now left.
  - intros [(typ & -> & ->)|((d1 & j & typ & d2 & -> & N) & X)].
    + exists [], i, typ, d. split; [reflexivity|]. intros ? ? ? [].
    + exists ((i, q, r) :: d1), j, typ, d2. split; [reflexivity|]. intros i' t' o' [I|I]; [|exact (N _ _ _ I)]. apply X. exists t', o'. split; congruence.
Qed.
Lemma get_last_add ns (d : list (nat * call O * result O)) k id o : one_by_one (new_coll ns) d k -> (get k id = Some o <-> last_add d id o).
Proof.
  intros H. revert o. induction H as [|d k1 i q r k2 H IH A]; intros o.
  - split; [|intros (d1 & ? & ? & ? & E & _); destruct d1; discriminate]. unfold get. destruct (split_dd id) as [|x [|y [|z l]]]; discriminate.
  - rewrite last_add_cons. assert (K := one_by_one_run _ _ _ H). destruct A as [id' typ o' k' ok A| | | | | ];
      try (rewrite IH; split; [intros X; right; split; [exact X|]; intros (? & ? & ? & ?); discriminate|intros [(? & ? & ?)|[X _]]; [discriminate|exact X]]; fail).
    destruct ok.
    + assert (X := add_get O ns (adds d) id' typ o' id). cbn zeta in X. rewrite <- K, A in X. cbn [fst snd] in X. destruct (X eq_refl) as [X1 X2]. destruct (string_dec id id') as [->|D].
      * rewrite X1. split; [intros Y; left; exists typ; split; congruence|]. intros [(t & Y & _)|[_ Y]]; [congruence|exfalso; apply Y; eauto].
      * rewrite X2 by exact D. rewrite IH. split; [intros Y; right; split; [exact Y|]; intros (? & ? & Q & _); congruence|]. intros [(? & Q & _)|[Y _]]; [congruence|exact Y].
    + assert (k' = k1). { unfold add in A. destruct (has_valid_identifier id' typ); cbn in A; congruence. } subst k'. rewrite IH.
      split; [intros Y; right; split; [exact Y|]; intros (? & ? & _ & Q); congruence|]. intros [(? & _ & Q)|[Y _]]; [congruence|exact Y].
Qed.

(** The entries of AllObjects. *)
Lemma all_objects_entries ns h (k : coll O) l : k = fst (run (new_coll ns) h) -> all_objects k l -> ~ In None l /\ forall o, In (Some o) l <-> exists id, get k id = Some o.
Proof.
  intros -> H. destruct (run (new_coll ns) h) as [c oks] eqn:E. cbn [fst] in *. apply Inv_reach in E as [I NS].
  assert (Y : forall l', iter_all (objects c) l' -> forall o, In o l' <-> exists id, get c id = Some o).
  { intros l' T o. apply iter_all_perm in T. split.
    - intros X. apply (Permutation_in _ T) in X. apply in_map_iff in X as ([id o'] & <- & X). exists id. apply (In_flat_pairs _ _ _ _ I) in X. cbn [snd]. rewrite (get_Inv _ _ _ I). tauto.
    - intros (id & X). apply (Permutation_in _ (Permutation_sym T)). apply in_map_iff. exists (id, o). split; [reflexivity|]. apply (In_flat_pairs _ _ _ _ I). rewrite (get_Inv _ _ _ I) in X. tauto. }
  unfold all_objects in H. destruct (negb (no_sort c) && _) eqn:B.
  - apply andb_true_iff in B as [B _]. apply negb_true_iff in B. subst l. assert (Q := inv_order _ _ I). rewrite B in Q. rewrite Q. split.
    + intros X. apply in_map_iff in X as (id & X & F). rewrite (get_Inv _ _ _ I) in X. apply first_ids_latest in F as (o & F). congruence.
    + intros o. split; [intros X; apply in_map_iff in X as (id & X & _); eauto|]. intros (id & X). apply in_map_iff. exists id. split; [exact X|]. apply first_ids_latest. rewrite (get_Inv _ _ _ I) in X. eauto.
  - destruct H as (l' & T & ->). split; [intros X; apply in_map_iff in X as (? & X & _); discriminate|]. intros o. rewrite <- (Y _ T o). rewrite in_map_iff. split; [intros (x & Q & X); congruence|eauto].
Qed.
End Aux.

(** ** Accesses *)
(** [access], by which data races are defined, misses nothing: a step changes
    what it is said to write, or what it allocates, and nothing else; and how
    code goes on depends on what it is said to access only. *)
Theorem accesses_complete : forall (O : Type) (m : mem O) p m' p', step m p m' p' ->
  (forall l, same_at l m m' \/ access p = Some (l, true) \/ unused l m) /\
  (forall n, m_next n = m_next m -> (forall l w, access p = Some (l, w) -> same_at l m n) -> exists n', step n p n' p').
Proof.
  intros O m p m' p' S. split.
  - intros l. destruct S; try (left; destruct l; reflexivity); cbn [access].
    + destruct l; try (left; reflexivity). now right; left.
    + destruct l; try (left; reflexivity). now right; left.
    + destruct l as [| | |x|x|x j]; try (left; reflexivity). destruct (Nat.eq_dec a x) as [->|D]; [now right; left|left]. cbn. now rewrite upd_other.
    + destruct l as [| | |x|x|x j]; try (left; reflexivity). destruct (Nat.eq_dec a x) as [->|D]; [now right; left|left]. cbn. now rewrite upd_other.
    + destruct l as [| | |x|x|x j]; try (left; reflexivity). destruct (Nat.eq_dec a x) as [->|D]; [|left; cbn; now rewrite upd_other].
      destruct (Nat.eq_dec i j) as [->|D]; [now right; left|left]. cbn. now rewrite upd_same, upd_other.
    + destruct l as [| | |x|x|x j]; try (left; reflexivity). destruct (Nat.eq_dec (m_next m) x) as [<-|D]; [now right; right|left]. cbn. now rewrite upd_other.
    + destruct l as [| | |x|x|x j]; try (left; reflexivity). destruct (Nat.eq_dec (m_next m) x) as [<-|D]; [now right; right|left]. cbn. now rewrite upd_other.
  - intros n N A. destruct S; cbn [access] in A; try (eexists; econstructor; eassumption); try (rewrite <- N; eexists; econstructor; fail); try (rewrite <- N; eexists; constructor; assumption);
      specialize (A _ _ eq_refl); cbn in A; rewrite A; eexists; constructor.
Qed.
Print Assumptions accesses_complete.

(** ** With a lock *)
(** Goroutines take a sync.Mutex around every call, or a sync.RWMutex that the
    calls that read take for reading.  Whatever they call and however they are
    scheduled: nothing is accessed by two at once with one writing; each gets
    its calls done in its order; each call returns what it would return if the
    calls were made one at a time in the order they return. *)
Theorem locked_calls_in_turn : forall (O : Type) may ns (progs : list (list (call O))) s, may = mutex \/ may = rw_mutex ->
  runs may (start (new_mem ns) progs) s ->
  ~ race s /\ in_turn ns (st_done s) /\
  (finished s -> forall i calls, nth_error progs i = Some calls -> calls_of i (st_done s) = calls).
Proof.
  intros O may ns progs s M R. assert (L : locks may) by (destruct M as [->| ->]; [apply mutex_locks|apply rw_locks]).
  assert (I := sinv_runs may (new_mem ns) (new_coll ns) progs s L (rep_new ns) R). split; [exact (sinv_no_race _ _ I)|]. split.
  - destruct I as (k & D & _). exact (one_by_one_turn _ _ _ D).
  - intros F i calls N. destruct (program_order _ _ _ _ R) as [E P]. destruct (nth_error (st_threads s) i) as [t|] eqn:T.
    + specialize (P _ _ T). assert (X := Forall_nth_in _ _ _ _ F T). cbn in X. destruct X as [X1 X2]. unfold now_calls in P. rewrite X1, X2, app_nil_r in P. cbn in P. congruence.
    + apply nth_error_None in T. assert (nth_error progs i <> None) as Q by congruence. apply nth_error_Some in Q. lia.
Qed.
Print Assumptions locked_calls_in_turn.

(** No goroutine hangs: as long as calls are left, one can go on, and there is no
    infinite schedule. *)
Theorem locked_calls_return : forall (O : Type) may m (progs : list (list (call O))), may = mutex \/ may = rw_mutex \/ may = no_lock ->
  (forall s, runs may (start m progs) s -> ~ finished s -> exists s', sched may s s') /\
  ~ exists f : nat -> state O, f 0 = start m progs /\ forall n, sched may (f n) (f (S n)).
Proof.
  intros O may m progs M. assert (E : forall q, may [] q = true) by (intros q; destruct M as [->|[->| ->]]; reflexivity). split.
  - intros s _ F. now apply state_steps.
  - intros (f & _ & F). assert (X := sched_acc may (f 0)). remember (f 0) as s eqn:Q. assert (exists n, s = f n) as Y by eauto. clear Q. induction X as [s _ IH]. destruct Y as (n & ->). eapply IH; [apply F|eauto].
Qed.
Print Assumptions locked_calls_return.

(** What Get and AllObjects say: no object is lost. *)
Theorem locked_objects_kept : forall (O : Type) may ns (progs : list (list (call O))) s d1 i q r d2, may = mutex \/ may = rw_mutex ->
  runs may (start (new_mem ns) progs) s -> st_done s = d1 ++ (i, q, r) :: d2 ->
  (forall id, q = CGet id -> exists o, r = RObj o /\ forall x, o = Some x <-> last_add d2 id x) /\
  (q = CAllObjects -> exists l, r = RObjs l /\ ~ In None l /\ forall x, In (Some x) l <-> exists id, last_add d2 id x).
Proof.
  intros O may ns progs s d1 i q r d2 M R E. assert (L : locks may) by (destruct M as [->| ->]; [apply mutex_locks|apply rw_locks]).
  destruct (sinv_runs may (new_mem ns) (new_coll ns) progs s L (rep_new ns) R) as (k & D & _). rewrite E in D. apply one_by_one_split in D as (k1 & k2 & D & A). split.
  - intros id ->. inversion A; subst. eexists. split; [reflexivity|]. intros x. exact (get_last_add _ _ _ _ _ D).
  - intros ->. inversion A; subst. exists l. split; [reflexivity|]. destruct (all_objects_entries _ _ _ _ (one_by_one_run _ _ _ D) H) as [X Y]. split; [exact X|]. intros x. rewrite Y. split; intros (id & Z); exists id; now apply (get_last_add _ _ _ _ _ D).
Qed.
Print Assumptions locked_objects_kept.

(** ** Without a lock *)
(** Once all Add calls have returned, any number of goroutines may read without a
    lock: there are no data races, the collection does not change, and each call
    returns what it returns when it is made alone. *)
Theorem readers_need_no_lock : forall (O : Type) may ns (progs : list (list (call O))) s0 readers s, may = mutex \/ may = rw_mutex ->
  runs may (start (new_mem ns) progs) s0 -> finished s0 -> forallb (forallb reads) readers = true ->
  runs no_lock (start (st_mem s0) readers) s ->
  ~ race s /\ st_mem s = st_mem s0 /\ forall i q r, In (i, q, r) (st_done s) -> alone (fst (run (new_coll ns) (adds (st_done s0)))) q r (fst (run (new_coll ns) (adds (st_done s0)))).
Proof.
  intros O may ns progs s0 readers s M R F W R'. assert (L : locks may) by (destruct M as [->| ->]; [apply mutex_locks|apply rw_locks]).
  destruct (sinv_runs may (new_mem ns) (new_coll ns) progs s0 L (rep_new ns) R) as (k & D & I). assert (K := one_by_one_run _ _ _ D). rewrite <- K.
  assert (P : rep (st_mem s0) k).
  { destruct I as [[P _]|(i & q & p & todo & N & _)]; [exact P|]. assert (X := Forall_nth_in _ _ _ _ F N). destruct X as [X _]. discriminate X. }
  destruct (sinv_reads no_lock (st_mem s0) k readers s W P R') as (V & X & Y). split; [exact (sinv_no_race _ _ V)|]. split; [exact Y|].
  destruct V as (k' & D' & _). destruct (program_order _ _ _ _ R') as [E Z].
  assert (Q : forall i q r, In (i, q, r) (st_done s) -> reads q = true).
  { clear -W R'. remember (start (st_mem s0) readers) as s1. assert (G : Forall will_read (st_threads s) /\ forall i q r, In (i, q, r) (st_done s) -> reads q = true); [|tauto].
    induction R' as [s|s s1' s2 R' IH S].
    - subst. split; [|intros i q r []]. cbn. apply Forall_forall. intros t I. apply in_map_iff in I as (x & <- & I). rewrite forallb_forall in W. split; [exact (W x I)|exact Logic.I].
    - specialize (IH Heqs1). destruct IH as [G H]. destruct S; cbn [st_threads st_done] in *; assert (T := Forall_nth_in _ _ _ _ G H0); destruct T as [T1 T2]; cbn in T1, T2.
      + apply andb_true_iff in T1 as [T1 T3]. split; [|exact H]. apply Forall_set_nth; [exact G|]. now split.
      + split; [|exact H]. apply Forall_set_nth; [exact G|]. now split.
      + split; [apply Forall_set_nth; [exact G|]; now split|]. intros j q r' [J|J]; [congruence|exact (H _ _ _ J)]. }
  clear -D' Q. induction D' as [|d k1 i q r k2 H IH A]; intros j q' r' J; [destruct J|].
  assert (S : k1 = k). { clear -H Q. assert (Q' : forall i q r, In (i, q, r) d -> reads q = true) by (intros; eapply Q; right; eassumption). clear -H Q'. induction H as [|d k1 i q r k2 H IH A]; [reflexivity|].
    assert (k1 = k) by (apply IH; intros; eapply Q'; right; eassumption). subst. assert (X := Q' i q r (or_introl eq_refl)). destruct A; try reflexivity. discriminate. }
  subst k1. destruct J as [J|J].
  - injection J as <- <- <-. assert (X := Q i q r (or_introl eq_refl)). destruct A; try (constructor; assumption). discriminate.
  - eapply IH; [|exact J]. intros; eapply Q; right; eassumption.
Qed.
Print Assumptions readers_need_no_lock.

(** ** Schedules that can be computed *)
(** Choices of goroutines that cannot go on are skipped. *)
Section Exec.
Context {O : Type}.
Definition exec_prog (m : mem O) (p : prog O) : option (mem O * prog O) :=
  match p with
  | Ret _ => None
  | RdObjects k => Some (m, k (m_objects m))
  | RdOrder k => Some (m, k (m_order m))
  | RdNoSort k => Some (m, k (m_nosort m))
  | RdOuter a k => Some (m, k (m_outer m a))
  | RdBucket a k => Some (m, k (m_bucket m a))
  | RdSlot a i k => Some (m, k (m_slot m a i))
  | WrObjects v p => Some (set_objects v m, p)
  | WrOrder v p => Some (set_order v m, p)
  | PutOuter a t b p => Some (set_outer a (ainsert t b (m_outer m a)) m, p)
  | PutBucket a id o p => Some (set_bucket a (ainsert id o (m_bucket m a)) m, p)
  | WrSlot a i s p => Some (set_slot a i s m, p)
  | NewOuter k => Some (set_outer (m_next m) [] (next m), k (m_next m))
  | NewBucket k => Some (set_bucket (m_next m) [] (next m), k (m_next m))
  | NewArr n k => Some (next m, k (m_next m) n)
  | Order ks k => Some (m, k ks)
  end.
Lemma exec_prog_step m p m' p' : exec_prog m p = Some (m', p') -> step m p m' p'.
Proof. destruct p; cbn; intros H; try discriminate; inversion H; subst; try (constructor; fail); [apply st_new_arr; constructor|apply st_order; reflexivity]. Qed.
Definition exec1 (may : list (call O) -> call O -> bool) (i : nat) (s : state O) : option (state O) :=
  match nth_error (st_threads s) i with
  | Some (Thread None (q :: todo)) => if may (running (st_threads s)) q then Some (State (st_mem s) (set_nth i (Thread (Some (q, code q)) todo) (st_threads s)) (st_done s)) else None
  | Some (Thread (Some (q, Ret r)) todo) => Some (State (st_mem s) (set_nth i (Thread None todo) (st_threads s)) ((i, q, r) :: st_done s))
  | Some (Thread (Some (q, p)) todo) => match exec_prog (st_mem s) p with Some (m', p') => Some (State m' (set_nth i (Thread (Some (q, p')) todo) (st_threads s)) (st_done s)) | None => None end
  | _ => None
  end.
Lemma exec1_sched may i s s' : exec1 may i s = Some s' -> sched may s s'.
Proof.
  unfold exec1. destruct s as [m ts d]. cbn [st_threads st_mem st_done]. destruct (nth_error ts i) as [[[[q p]|] todo]|] eqn:N; [| |discriminate].
  - intros H. assert (X : (exists r, p = Ret r /\ s' = State m (set_nth i (Thread None todo) ts) ((i, q, r) :: d)) \/ exists m' p', exec_prog m p = Some (m', p') /\ s' = State m' (set_nth i (Thread (Some (q, p')) todo) ts) d).
    { destruct p; cbn in H |- *; injection H as <-; [left; eauto|right..]; eauto. }
    destruct X as [(r & -> & ->)|(m' & p' & X & ->)]; [now apply sc_return|eapply sc_step; [exact N|now apply exec_prog_step]].
  - destruct todo as [|q todo]; [discriminate|]. destruct (may (running ts) q) eqn:M; [|discriminate]. intros H. injection H as <-. now apply sc_begin.
Qed.
Fixpoint exec (may : list (call O) -> call O -> bool) (is : list nat) (s : state O) : state O :=
  match is with [] => s | i :: is' => exec may is' (match exec1 may i s with Some s' => s' | None => s end) end.
Lemma exec_runs may is : forall s0 s s', runs may s0 s -> exec may is s = s' -> runs may s0 s'.
Proof.
  induction is as [|i is IH]; cbn; intros s0 s s' R H; [now subst|]. eapply IH; [|exact H]. destruct (exec1 may i s) as [s1|] eqn:E; [|exact R]. econstructor; [exact R|]. now apply exec1_sched in E.
Qed.
End Exec.

Local Open Scope string_scope.
Definition id_a : string := "malware--8e2e2d2b-17d4-4cbf-938f-98ee46b3cd3f".
Definition id_b : string := "tool--8e2e2d2b-17d4-4cbf-938f-98ee46b3cd3f".
Definition racing : list (list (call nat)) := [[CAdd id_a "malware" 1; CGet id_a; CAllObjects]; [CAdd id_b "tool" 2]].
(** The first goroutine adds its object between the moment the second finds that
    there is no map yet and the moment it stores a new one. *)
Definition bad_schedule : list nat := ([1; 1; 1] ++ repeat 0 17 ++ repeat 1 40 ++ repeat 0 60)%list.
Definition bad_end : state nat := exec no_lock bad_schedule (start (new_mem false) racing).

(** Without a lock objects are lost: two goroutines make the first two Add calls
    on a collection; both succeed, and then Get does not find one of the objects
    and AllObjects has nil in its place. *)
Theorem unlocked_calls_in_turn_refuted :
  exists s, runs no_lock (start (new_mem false) racing) s /\ finished s /\
    rev (st_done s) = [(0, CAdd id_a "malware" 1, RErr true); (1, CAdd id_b "tool" 2, RErr true); (0, CGet id_a, RObj None); (0, CAllObjects, RObjs [None; Some 2])] /\
    ~ in_turn false (st_done s).
Proof.
  exists bad_end. split; [exact (exec_runs _ _ _ _ _ (runs_nil _ _) eq_refl)|].
  assert (D : st_done bad_end = [(0, CAllObjects, RObjs [None; Some 2]); (0, CGet id_a, RObj None); (1, CAdd id_b "tool" 2, RErr true); (0, CAdd id_a "malware" 1, RErr true)]) by (vm_compute; reflexivity).
  assert (T : st_threads bad_end = [Thread None []; Thread None []]) by (vm_compute; reflexivity).
  split; [unfold finished; rewrite T; repeat constructor|]. split; [rewrite D; reflexivity|].
  intros X. rewrite D in X. specialize (X [(0, CAllObjects, RObjs [None; Some 2])] _ _ _ _ eq_refl). destruct X as (k & A). inversion A.
Qed.
Print Assumptions unlocked_calls_in_turn_refuted.

(** One goroutine that adds and one that reads are a data race. *)
Theorem unlocked_race_free_refuted :
  exists s, runs no_lock (start (new_mem false) [[CAdd id_a "malware" 1]; [CGet id_b]]) s /\ race s.
Proof.
  exists (exec no_lock [0; 0; 0; 1] (start (new_mem false) [[CAdd id_a "malware" 1]; [CGet id_b]])). split; [exact (exec_runs _ _ _ _ _ (runs_nil _ _) eq_refl)|].
  exists 0, 1. do 9 eexists. split; [discriminate|]. split; [reflexivity|]. split; [reflexivity|]. split; [reflexivity|]. split; [reflexivity|]. split; [reflexivity|]. split; [reflexivity|]. now left.
Qed.
Print Assumptions unlocked_race_free_refuted.

(** ** Examples *)
(** The same goroutines with a lock, and readers that overlap. *)
Example locked_ex : exists s, runs rw_mutex (start (new_mem false) racing) s /\ finished s /\
  rev (st_done s) = [(0, CAdd id_a "malware" 1, RErr true); (1, CAdd id_b "tool" 2, RErr true); (0, CGet id_a, RObj (Some 1)); (0, CAllObjects, RObjs [Some 1; Some 2])].
Proof.
  pose (s := exec rw_mutex (repeat 0 17 ++ repeat 1 40 ++ repeat 0 60)%list (start (new_mem false) racing)).
  exists s. split; [exact (exec_runs _ _ _ _ _ (runs_nil _ _) eq_refl)|].
  assert (T : st_threads s = [Thread None []; Thread None []]) by (vm_compute; reflexivity). split; [unfold finished; rewrite T; repeat constructor|]. vm_compute. reflexivity.
Qed.
(** Two goroutines that read at the same time: both are in their calls. *)
Example readers_ex : exists s0 s, runs rw_mutex (start (new_mem false) racing) s0 /\ finished s0 /\
  runs no_lock (start (st_mem s0) [[CGet id_a; CAllObjects]; [CGetAll "tool"; CTypedAll "malware"]]) s /\ running (st_threads s) = [CGet id_a; CGetAll "tool"].
Proof.
  pose (s := exec rw_mutex (repeat 0 17 ++ repeat 1 40 ++ repeat 0 60)%list (start (new_mem false) racing)).
  exists s, (exec no_lock [0; 1; 0; 1; 0; 1] (start (st_mem s) [[CGet id_a; CAllObjects]; [CGetAll "tool"; CTypedAll "malware"]])).
  split; [exact (exec_runs _ _ _ _ _ (runs_nil _ _) eq_refl)|]. assert (T : st_threads s = [Thread None []; Thread None []]) by (vm_compute; reflexivity). split; [unfold finished; rewrite T; repeat constructor|].
  split; [exact (exec_runs _ _ _ _ _ (runs_nil _ _) eq_refl)|]. vm_compute. reflexivity.
Qed.
