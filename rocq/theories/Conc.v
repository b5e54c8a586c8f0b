(** The methods of Collection as sequences of accesses to shared memory, and
    goroutines that call them: stix.go:77-181 and 939-949.

    Every access to a field of the Collection, to one of its maps or to an
    element of the array behind its order is a step of its own, so steps of
    other goroutines can come in between.  Objects are opaque references; what
    GetID and GetType return is an argument of the call, as in Collection.v.
    ToBundle is AllObjects followed by work on the objects only, and the typed
    accessors end with type assertions on what they found; neither touches the
    collection again, so they are left out here. *)
From Verif Require Import GoStr Ident.
From Coq Require Import Permutation.

Section Conc.
Context {O : Type}.

(** A slice of identifiers: address of the array, length and capacity
    (Collection.order, stix.go:82). *)
Record slice := Slice { s_arr : nat; s_len : nat; s_cap : nat }.

(** The memory of a Collection, stix.go:77-85: the fields objects (nil or the
    address of a map), order and noSort; the outer maps (type to address of a
    bucket), the buckets and the arrays by address; the next free address. *)
Record mem := Mem {
  m_objects : option nat;
  m_order : slice;
  m_nosort : bool;
  m_outer : nat -> list (string * nat);
  m_bucket : nat -> list (string * O);
  m_slot : nat -> nat -> string;
  m_next : nat
}.

(** New, stix.go:65-73, with or without NoSortOption, stix.go:41-45. *)
Definition new_mem (nosort : bool) : mem :=
  Mem None (Slice 0 0 0) nosort (fun _ => []) (fun _ => []) (fun _ _ => EmptyString) 0.

(** What is accessed: fields of the Collection (stix.go:78-82), maps as a whole
    (Go's maps allow no concurrent write to other keys either) and elements of
    arrays. *)
Inductive loc := LObjects | LOrder | LNoSort | LOuter (a : nat) | LBucket (a : nat) | LSlot (a i : nat).

(** The calls of the API that touch a collection, stix.go:89-176; [CTyped] and
    [CTypedAll] are the accessors of a type, stix.go:183-937. *)
Inductive call :=
| CAdd (id typ : string) (o : O)
| CGet (id : string)
| CAllObjects
| CGetAll (typ : string)
| CTyped (typ id : string)
| CTypedAll (typ : string).

(** What they return: whether the error is nil, an object or nil, the entries
    of AllObjects, the slice of GetAll or nil, a slice. *)
Inductive result :=
| RErr (ok : bool)
| RObj (o : option O)
| RObjs (l : list (option O))
| RAll (r : option (list O))
| RList (l : list O)
| RPanic.

(** Code as its accesses to memory.  [Order] fixes the order of one iteration of
    a map; [NewArr n] allocates an array of some capacity of at least [n], as
    append does. *)
Inductive prog :=
| Ret (r : result)
| RdObjects (k : option nat -> prog)
| RdOrder (k : slice -> prog)
| RdNoSort (k : bool -> prog)
| RdOuter (a : nat) (k : list (string * nat) -> prog)
| RdBucket (a : nat) (k : list (string * O) -> prog)
| RdSlot (a i : nat) (k : string -> prog)
| WrObjects (v : option nat) (p : prog)
| WrOrder (v : slice) (p : prog)
| PutOuter (a : nat) (typ : string) (b : nat) (p : prog)
| PutBucket (a : nat) (id : string) (o : O) (p : prog)
| WrSlot (a i : nat) (s : string) (p : prog)
| NewOuter (k : nat -> prog)
| NewBucket (k : nat -> prog)
| NewArr (n : nat) (k : nat -> nat -> prog)
| Order (ks : list string) (k : list string -> prog).

(** Replacing the value of a function at one point. *)
Definition upd {A} (f : nat -> A) (a : nat) (v : A) : nat -> A := fun x => if Nat.eqb a x then v else f x.

(** The writes, stix.go:110, 116, 122, 126, and the allocations make(...) of
    stix.go:110 and 115. *)
Definition set_objects (v : option nat) (m : mem) : mem := Mem v (m_order m) (m_nosort m) (m_outer m) (m_bucket m) (m_slot m) (m_next m).
Definition set_order (v : slice) (m : mem) : mem := Mem (m_objects m) v (m_nosort m) (m_outer m) (m_bucket m) (m_slot m) (m_next m).
Definition set_outer (a : nat) (v : list (string * nat)) (m : mem) : mem := Mem (m_objects m) (m_order m) (m_nosort m) (upd (m_outer m) a v) (m_bucket m) (m_slot m) (m_next m).
Definition set_bucket (a : nat) (v : list (string * O)) (m : mem) : mem := Mem (m_objects m) (m_order m) (m_nosort m) (m_outer m) (upd (m_bucket m) a v) (m_slot m) (m_next m).
Definition set_slot (a i : nat) (s : string) (m : mem) : mem := Mem (m_objects m) (m_order m) (m_nosort m) (m_outer m) (m_bucket m) (upd (m_slot m) a (upd (m_slot m a) i s)) (m_next m).
Definition next (m : mem) : mem := Mem (m_objects m) (m_order m) (m_nosort m) (m_outer m) (m_bucket m) (m_slot m) (S (m_next m)).

(** One step of code (Go's memory model for programs without data races: steps
    of goroutines interleave). *)
Inductive step : mem -> prog -> mem -> prog -> Prop :=
| st_rd_objects m k : step m (RdObjects k) m (k (m_objects m))
| st_rd_order m k : step m (RdOrder k) m (k (m_order m))
| st_rd_nosort m k : step m (RdNoSort k) m (k (m_nosort m))
| st_rd_outer m a k : step m (RdOuter a k) m (k (m_outer m a))
| st_rd_bucket m a k : step m (RdBucket a k) m (k (m_bucket m a))
| st_rd_slot m a i k : step m (RdSlot a i k) m (k (m_slot m a i))
| st_wr_objects m v p : step m (WrObjects v p) (set_objects v m) p
| st_wr_order m v p : step m (WrOrder v p) (set_order v m) p
| st_put_outer m a t b p : step m (PutOuter a t b p) (set_outer a (ainsert t b (m_outer m a)) m) p
| st_put_bucket m a id o p : step m (PutBucket a id o p) (set_bucket a (ainsert id o (m_bucket m a)) m) p
| st_wr_slot m a i s p : step m (WrSlot a i s p) (set_slot a i s m) p
| st_new_outer m k : step m (NewOuter k) (set_outer (m_next m) [] (next m)) (k (m_next m))
| st_new_bucket m k : step m (NewBucket k) (set_bucket (m_next m) [] (next m)) (k (m_next m))
| st_new_arr m n cap k : n <= cap -> step m (NewArr n k) (next m) (k (m_next m) cap)
| st_order m ks ks' k : Permutation ks ks' -> step m (Order ks k) m (k ks').

(** The access the next step of code makes, if any; [true] is a write. *)
Definition access (p : prog) : option (loc * bool) :=
  match p with
  | RdObjects _ => Some (LObjects, false)
  | RdOrder _ => Some (LOrder, false)
  | RdNoSort _ => Some (LNoSort, false)
  | RdOuter a _ => Some (LOuter a, false)
  | RdBucket a _ => Some (LBucket a, false)
  | RdSlot a i _ => Some (LSlot a i, false)
  | WrObjects _ _ => Some (LObjects, true)
  | WrOrder _ _ => Some (LOrder, true)
  | PutOuter a _ _ _ => Some (LOuter a, true)
  | PutBucket a _ _ _ => Some (LBucket a, true)
  | WrSlot a i _ _ => Some (LSlot a i, true)
  | _ => None
  end.

(** c.objects[typ]: a nil map has no entries (stix.go:113, 166, 896, 940). *)
Definition rd_bucket_addr (typ : string) (k : option nat -> prog) : prog :=
  RdObjects (fun p => match p with None => k None | Some a => RdOuter a (fun m => k (alookup typ m)) end).

(** getObject, stix.go:939-949. *)
Definition get_object_p (typ id : string) (k : option O -> prog) : prog :=
  rd_bucket_addr typ (fun b => match b with None => k None | Some a => RdBucket a (fun m => k (alookup id m)) end).

(** Collection.Get, stix.go:89-101. *)
Definition get_p (id : string) (k : option O -> prog) : prog :=
  match split_dd id with
  | [t; _] => get_object_p t id k
  | _ => k None
  end.

(** The elements [i], [i+1], ... of an array, [n] of them: the loop of
    stix.go:139-141. *)
Fixpoint get_each (a i n : nat) (acc : list (option O)) : prog :=
  match n with
  | 0 => Ret (RObjs acc)
  | S n' => RdSlot a i (fun id => get_p id (fun o => get_each a (S i) n' (acc ++ [o])))
  end.

(** for _, vv := range of a bucket, stix.go:155-157: an entry is read when the
    iteration comes to it. *)
Fixpoint each_object (a : nat) (ks : list string) (acc : list O) (k : list O -> prog) : prog :=
  match ks with
  | [] => k acc
  | id :: ks' => RdBucket a (fun m => each_object a ks' (match alookup id m with Some o => acc ++ [o] | None => acc end) k)
  end.

(** Range over a whole bucket. *)
Definition range_bucket (a : nat) (acc : list O) (k : list O -> prog) : prog :=
  RdBucket a (fun m => Order (map fst m) (fun ks => each_object a ks acc k)).

(** The nested loops, stix.go:154-158. *)
Fixpoint each_bucket (a : nat) (ks : list string) (acc : list O) (k : list O -> prog) : prog :=
  match ks with
  | [] => k acc
  | t :: ks' => RdOuter a (fun m => match alookup t m with Some b => range_bucket b acc (fun acc' => each_bucket a ks' acc' k) | None => each_bucket a ks' acc k end)
  end.

(** The loop that adds up the lengths, stix.go:149-151. *)
Fixpoint each_len (a : nat) (ks : list string) (p : prog) : prog :=
  match ks with
  | [] => p
  | t :: ks' => RdOuter a (fun m => match alookup t m with Some b => RdBucket b (fun _ => each_len a ks' p) | None => each_len a ks' p end)
  end.

(** Collection.AllObjects, stix.go:133-160.  c.order is read for its length in
    line 137, again in 138 and for the loop in 139. *)
Definition all_unsorted : prog :=
  RdObjects (fun p => match p with
    | None => RdObjects (fun p => match p with None => Ret (RObjs []) | Some a => RdOuter a (fun m => Order (map fst m) (fun ks => each_bucket a ks [] (fun l => Ret (RObjs (map Some l))))) end)
    | Some a => RdOuter a (fun m => Order (map fst m) (fun ks => each_len a ks
        (RdObjects (fun p => match p with None => Ret (RObjs []) | Some a => RdOuter a (fun m => Order (map fst m) (fun ks => each_bucket a ks [] (fun l => Ret (RObjs (map Some l))))) end))))
    end).
Definition all_objects_p : prog :=
  RdNoSort (fun ns => if ns then all_unsorted else
    RdOrder (fun s => if Nat.eqb (s_len s) 0 then all_unsorted else
      RdOrder (fun _ => RdOrder (fun s => get_each (s_arr s) 0 (s_len s) [])))).

(** Collection.GetAll, stix.go:165-176. *)
Definition get_all_p (typ : string) : prog :=
  rd_bucket_addr typ (fun b => match b with
    | None => Ret (RAll None)
    | Some a => RdBucket a (fun _ => range_bucket a [] (fun l => Ret (RAll (Some l))))
    end).

(** The plural accessors, for example stix.go:895-901. *)
Definition typed_all_p (typ : string) : prog :=
  rd_bucket_addr typ (fun b =>
    let again := rd_bucket_addr typ (fun b => match b with None => Ret (RList []) | Some a => range_bucket a [] (fun l => Ret (RList l)) end) in
    match b with None => again | Some a => RdBucket a (fun _ => again) end).

(** The copy a growing append makes: elements [i], [i+1], ... of [a] to [a']. *)
Fixpoint copy (a a' i n : nat) (p : prog) : prog :=
  match n with
  | 0 => p
  | S n' => RdSlot a i (fun s => WrSlot a' i s (copy a a' (S i) n' p))
  end.

(** c.order = append(c.order, id), stix.go:126. *)
Definition append_p (id : string) (p : prog) : prog :=
  RdOrder (fun s =>
    if Nat.ltb (s_len s) (s_cap s)
    then WrSlot (s_arr s) (s_len s) id (WrOrder (Slice (s_arr s) (S (s_len s)) (s_cap s)) p)
    else NewArr (S (s_len s)) (fun a cap => copy (s_arr s) a 0 (s_len s) (WrSlot a (s_len s) id (WrOrder (Slice a (S (s_len s)) cap) p)))).

(** Collection.Add, stix.go:104-130.  Lines 119-129, with the bucket. *)
Definition add_tail (id : string) (o : O) (b : nat) : prog :=
  RdBucket b (fun m => let update := match alookup id m with Some _ => true | None => false end in
    PutBucket b id o (RdNoSort (fun ns => if negb ns && negb update then append_p id (Ret (RErr true)) else Ret (RErr true)))).
(** Lines 113-117; an assignment to an entry of a nil map panics. *)
Definition add_bucket (id typ : string) (o : O) : prog :=
  rd_bucket_addr typ (fun b => match b with
    | Some b => add_tail id o b
    | None => NewBucket (fun b => RdObjects (fun p => match p with None => Ret RPanic | Some a => PutOuter a typ b (add_tail id o b) end))
    end).
(** Lines 105-111. *)
Definition add_p (id typ : string) (o : O) : prog :=
  if negb (has_valid_identifier id typ) then Ret (RErr false)
  else RdObjects (fun p => match p with
    | None => NewOuter (fun a => WrObjects (Some a) (add_bucket id typ o))
    | Some _ => add_bucket id typ o
    end).

(** The code of a call. *)
Definition code (c : call) : prog :=
  match c with
  | CAdd id typ o => add_p id typ o
  | CGet id => get_p id (fun o => Ret (RObj o))
  | CAllObjects => all_objects_p
  | CGetAll typ => get_all_p typ
  | CTyped typ id => get_object_p typ id (fun o => Ret (RObj o))
  | CTypedAll typ => typed_all_p typ
  end.

(** ** Goroutines (user code, not in /repo) *)
(** A goroutine: the call it is in with the code left, and the calls it will
    make after that. *)
Record thread := Thread { t_now : option (call * prog); t_todo : list call }.

(** All goroutines that share a collection, its memory, and the calls that have
    returned: number of the goroutine, call and result, the last one first. *)
Record state := State { st_mem : mem; st_threads : list thread; st_done : list (nat * call * result) }.

(** Calls that are running. *)
Definition running (ts : list thread) : list call :=
  flat_map (fun t => match t_now t with Some (c, _) => [c] | None => [] end) ts.

(** A goroutine replaced. *)
Fixpoint set_nth {A} (i : nat) (x : A) (l : list A) : list A :=
  match l, i with
  | [], _ => []
  | _ :: l', 0 => x :: l'
  | y :: l', S i' => y :: set_nth i' x l'
  end.

(** Whether a call may begin while others run is up to the locks the goroutines
    take ([may]): a step begins a call, goes on with one or returns from one. *)
Inductive sched (may : list call -> call -> bool) : state -> state -> Prop :=
| sc_begin m ts d i c todo : nth_error ts i = Some (Thread None (c :: todo)) -> may (running ts) c = true ->
    sched may (State m ts d) (State m (set_nth i (Thread (Some (c, code c)) todo) ts) d)
| sc_step m ts d i c p todo m' p' : nth_error ts i = Some (Thread (Some (c, p)) todo) -> step m p m' p' ->
    sched may (State m ts d) (State m' (set_nth i (Thread (Some (c, p')) todo) ts) d)
| sc_return m ts d i c r todo : nth_error ts i = Some (Thread (Some (c, Ret r)) todo) ->
    sched may (State m ts d) (State m (set_nth i (Thread None todo) ts) ((i, c, r) :: d)).

(** Any number of steps. *)
Inductive runs (may : list call -> call -> bool) : state -> state -> Prop :=
| runs_nil s : runs may s s
| runs_snoc s s1 s2 : runs may s s1 -> sched may s1 s2 -> runs may s s2.

(** Goroutines that have not begun, with the calls each will make. *)
Definition start (m : mem) (progs : list (list call)) : state := State m (map (Thread None) progs) [].

End Conc.
Arguments mem : clear implicits.
Arguments prog : clear implicits.
Arguments call : clear implicits.
Arguments result : clear implicits.
Arguments thread : clear implicits.
Arguments state : clear implicits.
