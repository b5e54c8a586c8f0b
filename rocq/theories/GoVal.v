(** Go values of the types in GoTypes. *)
From Verif Require Import GoStr JsonStr Json Float GoTypes Enums Time.

(** [VNil]: nil pointer, slice, map or interface.  [VMap]: a non nil map, the
    entries sorted by key (Go maps have no order; a canonical order makes equal
    maps equal terms).  [VStruct]: field name and value in declaration order,
    an embedded struct is the field named after its type.  [VDyn t v]: a non
    nil interface{} holding [v] of dynamic type [t].  Pointers own their
    target: what objects share is in Alias.v. *)
Inductive gval :=
| VStr (s : string)
| VInt (z : Z)
| VBool (b : bool)
| VFloat (f : flt)
| VEnum (n : N)
| VTime (t : Z)
| VBin (s : string)
| VNil
| VPtr (v : gval)
| VSlice (l : list gval)
| VMap (l : list (string * gval))
| VStruct (l : list (string * gval))
| VDyn (t : gty) (v : gval)
| VRaw (j : json).

(** Byte order on strings: the order json.Marshal sorts map keys in. *)
Fixpoint str_ltb (a b : string) : bool :=
  match a, b with
  | EmptyString, EmptyString => false
  | EmptyString, String _ _ => true
  | String _ _, EmptyString => false
  | String x a', String y b' =>
      if (bt x <? bt y)%N then true else if (bt y <? bt x)%N then false else str_ltb a' b'
  end.

(** m[k] = v on a map kept sorted. *)
Fixpoint minsert {A} (k : string) (v : A) (m : list (string * A)) : list (string * A) :=
  match m with
  | [] => [(k, v)]
  | (k', v') :: m' =>
      if String.eqb k k' then (k, v) :: m'
      else if str_ltb k k' then (k, v) :: m
      else (k', v') :: minsert k v m'
  end.

(** A map in the order the model keeps: names ascending, none twice. *)
Fixpoint msorted {A} (m : list (string * A)) : bool :=
  match m with
  | [] => true
  | (k, _) :: m' =>
      match m' with [] => true | (k', _) :: _ => str_ltb k k' end && msorted m'
  end.

(** The zero value of a type. *)
Fixpoint zero (t : gty) : gval :=
  match t with
  | GString _ => VStr ""
  | GInt _ => VInt 0
  | GBool => VBool false
  | GFloat => VFloat (FFin false 0 0)
  | GEnum _ => VEnum 0
  | GTime => VTime (-62135596800 * 1000000000)
  | GStruct _ fs => VStruct (map (fun ft => (fm_name (fst ft), zero (snd ft))) fs)
  | _ => VNil
  end.

(** reflect.Value.IsZero *)
Fixpoint is_zero (v : gval) : bool :=
  match v with
  | VStr s => is_empty s
  | VInt z => Z.eqb z 0
  | VBool b => negb b
  | VFloat f => flt_bits_zero f
  | VEnum n => N.eqb n 0
  | VTime t => Z.eqb t (-62135596800 * 1000000000)
  | VNil => true
  | VStruct l => forallb (fun kv => is_zero (snd kv)) l
  | _ => false
  end.

(** encoding/json isEmptyValue *)
Definition is_empty_val (v : gval) : bool :=
  match v with
  | VStr s => is_empty s
  | VInt z => Z.eqb z 0
  | VBool b => negb b
  | VFloat f => flt_is_zero f
  | VEnum n => N.eqb n 0
  | VNil => true
  | VSlice l => match l with [] => true | _ => false end
  | VMap l => match l with [] => true | _ => false end
  | VBin s => is_empty s
  | _ => false
  end.

(** Field access; an absent field only arises on ill typed values. *)
Definition get_field (n : string) (v : gval) : gval :=
  match v with
  | VStruct l => match alookup n l with Some x => x | None => VNil end
  | _ => VNil
  end.
(** Assignment to an existing field. *)
Fixpoint areplace {A} (k : string) (v : A) (m : list (string * A)) : list (string * A) :=
  match m with
  | [] => []
  | (k', v') :: m' => if String.eqb k k' then (k, v) :: m' else (k', v') :: areplace k v m'
  end.
(** x.F = v (assignments such as stix.go:1121, option.go:1477) *)
Definition set_field (n : string) (x : gval) (v : gval) : gval :=
  match v with VStruct l => VStruct (areplace n x l) | _ => v end.

(** A field of the object itself or of its embedded base struct. *)
Definition fpath : Type := (option string * string)%type.
(** x.F, with promotion from the embedded base struct (object.go:36-118,
    173-257, 318-350) *)
Definition get_path (p : fpath) (v : gval) : gval :=
  match p with
  | (None, n) => get_field n v
  | (Some b, n) => get_field n (get_field b v)
  end.
(** x.F = v, with promotion from the embedded base struct (object.go:36-118,
    173-257, 318-350) *)
Definition set_path (p : fpath) (x : gval) (v : gval) : gval :=
  match p with
  | (None, n) => set_field n x v
  | (Some b, n) => set_field b (set_field n x (get_field b v)) v
  end.

(** The fields encoding/json sees in a struct: tagged fields, those of embedded
    structs promoted (typeFields).  The rule that a shallower field hides a
    deeper one of the same name is not needed: no struct of /repo has two
    fields of the same JSON name (Schema check in CodecFacts). *)
Definition flat_fields (fs : list (fmeta * gty)) : list (string * fpath * gty) :=
  flat_map (fun ft : fmeta * gty => let (m, t) := ft in
    if fm_embed m then
      match t with
      | GStruct _ fs' =>
          flat_map (fun ft' : fmeta * gty => let (m', t') := ft' in
            if is_empty (fm_key m') then [] else [(fm_key m', (Some (fm_name m), fm_name m'), t')]) fs'
      | _ => []
      end
    else if is_empty (fm_key m) then [] else [(fm_key m, (None, fm_name m), t)]) fs.
