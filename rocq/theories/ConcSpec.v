(** Specification only (models no code): what goroutines that share a
    collection may expect. *)
From Verif Require Import GoStr Collection Conc.
From Coq Require Import Permutation.

Section Spec.
Context {O : Type}.

(** Calls that only read. *)
Definition reads (c : call O) : bool := match c with CAdd _ _ _ => false | _ => true end.

(** Locking: none, a sync.Mutex around every call, or a sync.RWMutex with RLock
    around the calls that read and Lock around Add. *)
Definition no_lock (_ : list (call O)) (_ : call O) : bool := true.
Definition mutex (running : list (call O)) (_ : call O) : bool := match running with [] => true | _ => false end.
Definition rw_mutex (running : list (call O)) (c : call O) : bool :=
  match running with [] => true | _ => reads c && forallb reads running end.

(** Two memories have the same at a place. *)
Definition same_at (l : loc) (m m' : mem O) : Prop :=
  match l with
  | LObjects => m_objects m = m_objects m'
  | LOrder => m_order m = m_order m'
  | LNoSort => m_nosort m = m_nosort m'
  | LOuter a => m_outer m a = m_outer m' a
  | LBucket a => m_bucket m a = m_bucket m' a
  | LSlot a i => m_slot m a i = m_slot m' a i
  end.
(** A place nobody can know before it is allocated. *)
Definition unused (l : loc) (m : mem O) : Prop :=
  match l with LOuter a | LBucket a | LSlot a _ => a = m_next m | _ => False end.

(** Data race: two goroutines are about to access the same thing and one of
    them writes. *)
Definition race (s : state O) : Prop :=
  exists i j ti tj ci cj pi pj l wi wj, i <> j /\
    nth_error (st_threads s) i = Some ti /\ nth_error (st_threads s) j = Some tj /\
    t_now ti = Some (ci, pi) /\ t_now tj = Some (cj, pj) /\
    access pi = Some (l, wi) /\ access pj = Some (l, wj) /\ (wi = true \/ wj = true).

(** A call made alone on a collection: what it may return, and the collection
    after it. *)
Inductive alone (k : coll O) : call O -> result O -> coll O -> Prop :=
| al_add id typ o k' ok : add k id typ o = (k', ok) -> alone k (CAdd id typ o) (RErr ok) k'
| al_get id : alone k (CGet id) (RObj (get k id)) k
| al_all l : all_objects k l -> alone k CAllObjects (RObjs l) k
| al_get_all typ r : get_all k typ r -> alone k (CGetAll typ) (RAll r) k
| al_typed typ id : alone k (CTyped typ id) (RObj (get_object k typ id)) k
| al_typed_all typ es : map_iter (match alookup typ (objects k) with Some b => b | None => [] end) es ->
    alone k (CTypedAll typ) (RList (map snd es)) k.

(** The Add calls among calls that have returned (the last one first), in the
    order they returned. *)
Definition adds (d : list (nat * call O * result O)) : list (string * string * O) :=
  flat_map (fun x => match snd (fst x) with CAdd id typ o => [(id, typ, o)] | _ => [] end) (rev d).

(** The last Add for the identifier that succeeded added the object. *)
Definition last_add (d : list (nat * call O * result O)) (id : string) (o : O) : Prop :=
  exists d1 i typ d2, d = d1 ++ (i, CAdd id typ o, RErr true) :: d2 /\ forall i' typ' o', ~ In (i', CAdd id typ' o', RErr true) d1.

(** Every call returned what it returns when it is made alone, on a collection
    on which the Add calls that returned before it were made one after the other. *)
Definition in_turn (ns : bool) (d : list (nat * call O * result O)) : Prop :=
  forall d1 i q r d2, d = d1 ++ (i, q, r) :: d2 -> exists k, alone (fst (run (new_coll ns) (adds d2))) q r k.

(** The calls of goroutine [i] that have returned, in the order they were made. *)
Definition calls_of (i : nat) (d : list (nat * call O * result O)) : list (call O) :=
  map (fun x => snd (fst x)) (filter (fun x => Nat.eqb i (fst (fst x))) (rev d)).

(** Nothing left to do. *)
Definition finished (s : state O) : Prop := Forall (fun t => t_now t = None /\ t_todo t = []) (st_threads s).
End Spec.
