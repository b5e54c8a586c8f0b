(** What constructed objects share in memory.  GoVal gives every pointer its own
    target; here a pointer, slice, map or byte string field of an object holds
    an address, and memory gives the value there.  A value in memory stands for
    everything reached from it: addresses inside it are not followed. *)
From Verif Require Import GoStr GoTypes Schema GoVal Codec CodecSpec OptTable FromJson Options Constructors ConstrSpec.
Local Open Scope string_scope.

(** An address of a Go variable, slice or map. *)
Definition addr := nat.
(** Memory. *)
Definition heap := addr -> gval.
(** An assignment through an address. *)
Definition hset (h : heap) (a : addr) (x : gval) : heap := fun b => if Nat.eqb b a then x else h b.
(** A field of a struct: a plain value (also nil), or a reference. *)
Inductive slot := Val (x : gval) | At (a : addr).
(** The value read through a field. *)
Definition look (h : heap) (s : slot) : gval := match s with Val x => x | At a => h a end.
(** An object returned by a constructor: its fields by Go name, those of the
    embedded base struct included (object.go:36-118, 173-257, 318-350). *)
Definition mobj := string -> slot.
(** obj.f = s *)
Definition mset (o : mobj) (f : string) (s : slot) : mobj := fun g => if String.eqb g f then s else o g.

(** A non-nil pointer, slice, map or byte string, or an interface holding one. *)
Fixpoint is_ref (x : gval) : bool :=
  match x with
  | VPtr _ | VSlice _ | VMap _ | VBin _ | VRaw _ => true
  | VDyn _ y => is_ref y
  | _ => false
  end.
(** The field after assigning the value [x], found at [a] if it is a reference:
    Go copies the reference, not what it refers to. *)
Definition put (x : gval) (a : addr) : slot := if is_ref x then At a else Val x.

(** A constructor call: the arguments and options with the addresses the caller
    has them at. *)
Record request := Rq {
  rq_rb : string; rq_now : Z; rq_pf : string -> Float.flt * bool;
  rq_call : call; rq_args : list (string * addr);
  rq_opts : list (stix_option * addr) }.

(** Created and Modified are the same *Timestamp: NewSighting sighting.go:113-120,
    NewLanguageContent meta.go:183-189, NewExtensionDefinition
    extension.go:179-186. *)
Definition one_stamp (c : call) : bool :=
  match c with CSighting _ | CLanguageContent _ _ | CExtensionDefinition _ _ _ _ => true | _ => false end.
(** The time stamps allocated by a constructor, from address [n] on:
    newSTIXRelationshipObject object.go:20-30 and newSTIXDomainObject
    object.go:158-168 allocate two, NewMarkingDefinition meta.go:316-324 has only
    Created, newSTIXCyberObservableObject object.go:417-422 has none. *)
Definition stamp_addrs (c : call) (n : addr) : list (string * addr) :=
  match c with
  | CMarkingDefinition _ _ => [("Created", n)]
  | _ => match call_kind c with
         | SCO => []
         | _ => [("Created", n); ("Modified", if one_stamp c then n else S n)]
         end
  end.
(** A field set from an argument the caller has at an address. *)
Definition put_arg (args : list (string * addr)) (f : string) (x : gval) : slot := match alookup f args with Some a => put x a | None => Val x end.
(** The composite literal of the constructors (see Constructors.v for the lines);
    the identifier is left out. *)
Definition m_init (c : call) (now : Z) (args : list (string * addr)) (n : addr) : mobj := fun f =>
  match alookup f (stamp_addrs c n) with
  | Some a => At a
  | None =>
      match alookup f (starts c now) with
      | Some x => put_arg args f x
      | None => Val (match field_by_name (call_fields c) f with Some (_, t) => zero t | None => VNil end)
      end
  end.
(** Memory after the literal. *)
Definition m_stamped (c : call) (now : Z) (h : heap) (n : addr) : heap :=
  fold_left (fun h fa => hset h (snd fa) (VPtr (VTime now))) (stamp_addrs c n) h.

(** Memory, the next free address and the object. *)
Definition mstate := (heap * addr * mobj)%type.
(** setField option.go:1462-1479 stores the argument; OptionExtension
    option.go:147-174 makes a map if there is none and writes into the map
    there is. *)
Definition m_opt (oa : stix_option * addr) (st : mstate) : mstate :=
  let '(h, n, o) := st in
  match fst oa with
  | ONil => st
  | OField r x => (h, n, mset o (or_field r) (put x (snd oa)))
  | OExt k x =>
      match o "Extensions" with
      | At a => (hset h a (VMap (minsert k x (old_map (h a)))), n, o)
      | Val _ => (hset h n (VMap (minsert k x [])), S n, mset o "Extensions" (At n))
      end
  end.
(** applyOptions, option.go:1450-1460.  Whether an option fails depends on the
    type of the object only. *)
Fixpoint m_opts (t : gty) (oas : list (stix_option * addr)) (st : mstate) : mstate :=
  match oas with
  | [] => st
  | oa :: oas' => match snd (apply_opt t (fst oa) (zero t)) with Ok _ => m_opts t oas' (m_opt oa st) | _ => st end
  end.
(** The work of a constructor in memory.  Two addresses are set aside for the
    time stamps whether used or not. *)
Definition m_make (q : request) (h : heap) (n : addr) : mstate :=
  m_opts (call_ty (rq_call q)) (rq_opts q)
    (m_stamped (rq_call q) (rq_now q) h n, S (S n), m_init (rq_call q) (rq_now q) (rq_args q) n).
(** What the constructor returns, as in Constructors.v. *)
Definition m_result (q : request) : cres := construct (rq_rb q) (rq_now q) (rq_pf q) (rq_call q) (map fst (rq_opts q)).

(** A program using the library: memory, the next free address, the objects made
    so far. *)
Record world := W { w_heap : heap; w_next : addr; w_objs : list (call * mobj) }.
(** The program allocates a value of its own, changes what is at an address
    ([*p = x], [s[i] = x], [m[k] = x]), calls a constructor, or assigns to a
    field of an object. *)
Inductive event :=
| New (x : gval)
| Change (a : addr) (x : gval)
| Make (q : request)
| Assign (i : nat) (f : string) (x : gval) (a : addr).
(** Assignment to a field of the [i]-th object. *)
Fixpoint assign (i : nat) (f : string) (s : slot) (l : list (call * mobj)) : list (call * mobj) :=
  match l, i with
  | [], _ => []
  | (c, o) :: l', O => (c, mset o f s) :: l'
  | co :: l', S i' => co :: assign i' f s l'
  end.
(** One event.  A constructor that returns no object may leave garbage behind. *)
Definition step (w : world) (e : event) : world :=
  match e with
  | New x => W (hset (w_heap w) (w_next w) x) (S (w_next w)) (w_objs w)
  | Change a x => W (hset (w_heap w) a x) (w_next w) (w_objs w)
  | Make q =>
      let '(h, n, o) := m_make q (w_heap w) (w_next w) in
      W h n (match m_result q with Ret (Some _) _ => w_objs w ++ [(rq_call q, o)] | _ => w_objs w end)
  | Assign i f x a => W (w_heap w) (w_next w) (assign i f (put x a) (w_objs w))
  end.
(** The start of the program. *)
Definition start : world := W (fun _ => VNil) 0 [].
(** A history of events. *)
Definition run (es : list event) : world := fold_left step es start.
(** The field [f] of the [i]-th object. *)
Definition slot_of (w : world) (i : nat) (f : string) : option slot :=
  match nth_error (w_objs w) i with Some (_, o) => Some (o f) | None => None end.
(** The value of that field. *)
Definition reading (w : world) (i : nat) (f : string) : option gval := option_map (look (w_heap w)) (slot_of w i f).
