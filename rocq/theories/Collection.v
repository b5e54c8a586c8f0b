(** Collection of STIX objects: stix.go:64-181 and 939-949.

    The collection is polymorphic in the type [O] of the stored (references to)
    objects.  What Add reads from the object are the values returned by GetID()
    and GetType() at the time of the call; they are arguments of [add], so a
    later mutation of the object is covered: the stored reference stays the
    same, the identifier and type seen by a later call may differ. *)
From Verif Require Import GoStr Ident.
From Coq Require Import Permutation.

Section Coll.
Context {O : Type}.

(** Collection, stix.go:77-85.  The field objects (a map of maps, nil until the
    first Add) is an association list of association lists.  The fields
    dropCustom and customHandler are only read by FromJSON and live there. *)
Record coll := Coll {
  objects : list (string * list (string * O));
  order : list string;
  no_sort : bool
}.

(** New, stix.go:65-73, and NoSortOption, stix.go:41-45. *)
Definition new_coll (nosort : bool) : coll := Coll [] [] nosort.

(** getObject, stix.go:939-949. *)
Definition get_object (c : coll) (typ id : string) : option O :=
  match alookup typ (objects c) with
  | None => None
  | Some bucket => alookup id bucket
  end.

(** Collection.Get, stix.go:89-101. *)
Definition get (c : coll) (id : string) : option O :=
  match split_dd id with
  | [t; _] => get_object c t id
  | _ => None
  end.

(** Collection.Add, stix.go:104-130.  The boolean tells whether the returned
    error is nil. *)
Definition add (c : coll) (id typ : string) (o : O) : coll * bool :=
  if negb (has_valid_identifier id typ) then (c, false)
  else
    let bucket := match alookup typ (objects c) with Some b => b | None => [] end in
    let update := match alookup id bucket with Some _ => true | None => false end in
    let objs := ainsert typ (ainsert id o bucket) (objects c) in
    let ord := if negb (no_sort c) && negb update then order c ++ [id] else order c in
    (Coll objs ord (no_sort c), true).

(** One iteration of a Go map: its entries in some order. *)
Definition map_iter {A} (m : list (string * A)) (l : list (string * A)) : Prop :=
  Permutation l m.

(** The nested loops of stix.go:154-158: the buckets in some order, each bucket
    in some order. *)
Definition iter_all (objs : list (string * list (string * O))) (l : list O) : Prop :=
  exists bs ls, map_iter objs bs /\
    Forall2 (fun b lb => exists es, map_iter (snd b) es /\ lb = map snd es) bs ls /\
    l = concat ls.

(** Collection.AllObjects, stix.go:133-160; the entries are what Get returns,
    so they may be nil ([None]). *)
Definition all_objects (c : coll) (l : list (option O)) : Prop :=
  if negb (no_sort c) && negb (Nat.eqb (length (order c)) 0)
  then l = map (get c) (order c)
  else exists l', iter_all (objects c) l' /\ l = map Some l'.

(** Collection.GetAll, stix.go:165-176; [None] is the nil slice. *)
Definition get_all (c : coll) (typ : string) (r : option (list O)) : Prop :=
  match alookup typ (objects c) with
  | None => r = None
  | Some bucket => exists es, map_iter bucket es /\ r = Some (map snd es)
  end.

(** A sequence of Add calls; the second result lists the returned errors
    ([true] = nil). *)
Fixpoint run (c : coll) (h : list (string * string * O)) : coll * list bool :=
  match h with
  | [] => (c, [])
  | (id, typ, o) :: h' =>
      let '(c1, ok) := add c id typ o in
      let '(c2, oks) := run c1 h' in
      (c2, ok :: oks)
  end.

(** The typed accessors, stix.go:183-937: c.getObject(Type, id) followed by an
    unchecked type assertion obj.( *T ); [is_T] tests the dynamic type. *)
Definition typed_get (is_T : O -> bool) (c : coll) (typ id : string) : res (option O) :=
  match get_object c typ id with
  | None => Ok None
  | Some o => if is_T o then Ok (Some o) else Panic
  end.

(** The plural typed accessors: one loop over the bucket of the type. *)
Definition typed_all (is_T : O -> bool) (c : coll) (typ : string) (r : res (list O)) : Prop :=
  let bucket := match alookup typ (objects c) with Some b => b | None => [] end in
  exists es, map_iter bucket es /\
    r = (if forallb is_T (map snd es) then Ok (map snd es) else Panic).

(** NewBundle, bundle.go:28-40, for the encoder [enc] (json.Marshal of one
    object) and the random bytes [r]; Objects holds the encodings.  A nil entry
    is encoded by json.Marshal(nil interface) as null. *)
Record bundle := Bundle { b_type : string; b_id : string; b_objects : list string }.

(** The loop over the objects, bundle.go:31-37. *)
Fixpoint enc_all (enc : O -> res string) (l : list (option O)) : res (list string) :=
  match l with
  | [] => Ok []
  | o :: l' =>
      do d <- (match o with Some o => enc o | None => Ok "null"%string end);
      do ds <- enc_all enc l';
      Ok (d :: ds)
  end.

(** NewBundle, bundle.go:28-40 *)
Definition new_bundle (enc : O -> res string) (r : string) (l : list (option O)) : res bundle :=
  do ds <- enc_all enc l;
  Ok (Bundle "bundle" (new_identifier r "bundle") ds).

(** Collection.ToBundle, stix.go:179-181. *)
Definition to_bundle (enc : O -> res string) (r : string) (c : coll) (b : res bundle) : Prop :=
  exists l, all_objects c l /\ b = new_bundle enc r l.

End Coll.
Arguments coll : clear implicits.

(** Interleavings of Add with mutations of objects.  Objects are references
    ([nat]); the heap gives the identifier and type an object currently
    reports. *)
Inductive op :=
| OpAdd (ref : nat)
| OpMutate (ref : nat) (id typ : string).

(** What GetID and GetType of each object return at a moment (user code can
    assign to the exported fields, object.go:39-44). *)
Definition heap := nat -> string * string.
(** An assignment to the ID and Type fields of one object. *)
Definition heap_set (h : heap) (r : nat) (v : string * string) : heap :=
  fun r' => if Nat.eqb r r' then v else h r'.

(** Add (stix.go:103-131) interleaved with such assignments. *)
Fixpoint run_ops (h : heap) (c : coll nat) (ops : list op) : heap * coll nat :=
  match ops with
  | [] => (h, c)
  | OpAdd r :: ops' => run_ops h (fst (add c (fst (h r)) (snd (h r)) r)) ops'
  | OpMutate r id typ :: ops' => run_ops (heap_set h r (id, typ)) c ops'
  end.
