(** Memory behind the length of a slice.  When a JSON object names the same list
    property more than once, encoding/json fills the slice that is already there
    (decode.go, array).  Its first elements are decoded into what they hold.
    Elements behind the length were cut off by an earlier, shorter array; they
    are still in memory, and if the slice gets longer again they are decoded
    into as well, so parts of them show up again.  [dec] of Codec.v starts with
    zero elements there.  Here decoding is given again with that memory. *)
From Verif Require Import GoStr JsonStr Json Float Consts Enums GoTypes Schema GoVal Time Base64 Codec CodecSpec DataTypes Ident Collection FromJson.

(** What lies behind the slices within a variable.  [MNone]: nothing.
    [MSlice ms more]: [ms] belongs to the elements; [more] are the elements
    between length and capacity that have been in use.  The others between
    length and capacity are zero, so the capacity itself does not matter. *)
Inductive mem :=
| MNone
| MPtr (m : mem)
| MSlice (ms : list mem) (more : list (gval * mem))
| MStruct (l : list (fpath * mem)).

(** The same field. *)
Definition fpath_eqb (p q : fpath) : bool :=
  match fst p, fst q with
  | None, None => true
  | Some a, Some b => String.eqb a b
  | _, _ => false
  end && String.eqb (snd p) (snd q).
(** What lies behind the slices of a field; the latest assignment counts. *)
Fixpoint behind (p : fpath) (l : list (fpath * mem)) : mem :=
  match l with [] => MNone | (q, m) :: l' => if fpath_eqb p q then m else behind p l' end.
(** What lies behind the slices of the fields of a struct. *)
Definition fields_mem (m : mem) : list (fpath * mem) := match m with MStruct l => l | _ => [] end.

(** The elements of a slice of value [v], then those behind its length. *)
Fixpoint zip (l : list gval) (ms : list mem) : list (gval * mem) :=
  match l with
  | [] => []
  | v :: l' => match ms with [] => (v, MNone) :: zip l' [] | m :: ms' => (v, m) :: zip l' ms' end
  end.
(** The elements of a slice up to its length and behind it that an array is
    decoded into (encoding/json, decode.go array; stix.go:1104). *)
Definition slots (v : gval) (m : mem) : list (gval * mem) :=
  match m with MSlice ms more => zip (old_list v) ms ++ more | _ => zip (old_list v) [] end.

(** decode.go, array: element i is decoded into slot i, or into a zero element
    where there is none. *)
Definition mem_list (f : json -> gval -> mem -> dres (gval * mem)) (z : gval) : list json -> list (gval * mem) -> dres (list (gval * mem)) :=
  fix go l old :=
    match l with
    | [] => DOk [] false
    | x :: l' => dbind (match old with o :: _ => f x (fst o) (snd o) | [] => f x z MNone end) (fun v =>
                 dbind (go l' (tl old)) (fun vs => DOk (v :: vs) false))
    end.
(** What the slice is afterwards: shortened to the number of elements read; a
    new empty slice if there were none. *)
Definition refilled (n : nat) (old vs : list (gval * mem)) : gval * mem :=
  (VSlice (map fst vs), match n with O => MNone | _ => MSlice (map snd vs) (skipn n old) end).

(** decode.go, object, for structs: cf. [dec_struct]. *)
Definition mem_struct (f : json -> gty -> gval -> mem -> dres (gval * mem)) (fl : list (string * fpath * gty)) :
    list (string * json) -> gval -> list (fpath * mem) -> dres (gval * mem) :=
  fix go ms cur l :=
    match ms with
    | [] => DOk (cur, MStruct l) false
    | (k, x) :: ms' =>
        match find_field k fl with
        | None => go ms' cur l
        | Some (p, t) => dbind (f x t (get_path p cur) (behind p l)) (fun vm => go ms' (set_path p (fst vm) cur) ((p, snd vm) :: l))
        end
    end.

(** The outcome of a decoding step with its value changed by [f]. *)
Definition dval {A B} (f : A -> B) (d : dres A) : dres B := match d with DOk a e => DOk (f a) e | DAbort => DAbort | DPanic => DPanic end.

Section Mem.
Variable rnd : bool -> N -> Z -> option flt.

(** json.Unmarshal of [j] into a variable of type [t] holding [old], with [m]
    behind it: [dec] of Codec.v.  Map elements and the values of
    Extensions.UnmarshalJSON are new variables (decode.go, object; extension.go:
    29-60); the types without slices are left to [dec]. *)
Fixpoint mdec (j : json) : gty -> gval -> mem -> dres (gval * mem) :=
  fix dty (t : gty) (old : gval) (m : mem) {struct t} : dres (gval * mem) :=
    match t with
    | GPtr t' =>
        match j with
        | JNull => DOk (VNil, MNone) false
        | _ => dbind (match old with
                      | VPtr v => dty t' v (match m with MPtr m' => m' | _ => MNone end)
                      | _ => dty t' (zero t') MNone
                      end) (fun vm => DOk (VPtr (fst vm), MPtr (snd vm)) false)
        end
    | GSlice t' =>
        match j with
        | JArr l => dbind (mem_list (fun x o mo => mdec x t' o mo) (zero t') l (slots old m)) (fun vs => DOk (refilled (length l) (slots old m) vs) false)
        | JNull => DOk (VNil, MNone) false
        | JStr _ => dval (fun v => (v, MNone)) (dec rnd j t old)
        | _ => DOk (old, m) true
        end
    | GMap _ _ t' =>
        match j with
        | JObj ms => dbind (dec_mems (fun x => dval fst (mdec x t' (zero t') MNone)) ms (old_map old)) (fun v => DOk (VMap v, MNone) false)
        | _ => dval (fun v => (v, MNone)) (dec rnd j t old)
        end
    | GExt =>
        match j with
        | JObj ms => dbind (dec_ext (fun x t' o => dval fst (mdec x t' o MNone)) ms []) (fun v => DOk (VMap v, MNone) false)
        | _ => dval (fun v => (v, MNone)) (dec rnd j t old)
        end
    | GStruct _ fs =>
        match j with
        | JNull => DOk (old, m) false
        | JObj ms => mem_struct mdec (flat_fields fs) ms old (fields_mem m)
        | _ => DOk (old, m) true
        end
    | _ => dval (fun v => (v, MNone)) (dec rnd j t old)
    end.

(** json.Unmarshal into a variable with nothing behind its slices. *)
Definition mdec_fresh (j : json) (t : gty) (old : gval) : dres gval := dval fst (mdec j t old MNone).
(** json.Unmarshal, cf. [unmarshal] in Codec.v (stix.go:958, 968). *)
Definition unmarshal_mem (s : string) (t : gty) (old : gval) : res gval :=
  match parse_json s with
  | None => Err "invalid JSON"
  | Some j => unmarshal_res (mdec_fresh j t old)
  end.

Variable cf : config.
(** FromJSON as in FromJson.v; an object that a custom parser returns has
    nothing behind its slices. *)
Definition finish_mem (c : coll gobj) (peak : list (string * gval)) (j : json) (o : gobj) : res (coll gobj * gval) :=
  let (t, v) := o in
  do v1 <- unmarshal_res (mdec_fresh j t v);
  let peak1 := if cf_drop cf then peak else filter_out t peak in
  let v2 := if cf_drop cf then v1 else add_props t peak1 v1 in
  do id <- obj_id (t, v2);
  do ty <- obj_type (t, v2);
  let (c1, ok) := add c id ty (t, v2) in
  if ok then Ok (c1, VMap peak1) else Err "failed to add object to collection".
(** stix.go:984-1132, cf. [process_object] in FromJson.v. *)
Definition process_object_mem (j : json) (c : coll gobj) (peak0 : gval) : res (coll gobj * gval) :=
  do peak <- unmarshal_res (mdec_fresh j peak_ty peak0);
  match map_get "type" peak with
  | None => Ok (c, peak)
  | Some tv =>
      do typ <- as_string tv;
      do st <- start cf typ j;
      match st with
      | None => Ok (c, peak)
      | Some o => finish_mem c (old_map peak) j o
      end
  end.
(** The loop of processObjects, stix.go:984-1132. *)
Fixpoint process_objects_mem (js : list json) (c : coll gobj) (peak : gval) : res (coll gobj) :=
  match js with
  | [] => Ok c
  | j :: js' => do r <- process_object_mem j c peak; process_objects_mem js' (fst r) (snd r)
  end.
(** FromJSON, stix.go:953-982, cf. [from_json] in FromJson.v. *)
Definition from_json_mem (s : string) : res (coll gobj) :=
  let c := new_coll (cf_nosort cf) in
  match unmarshal_mem s ty_Bundle (zero ty_Bundle) with
  | Ok b => process_objects_mem (raws (get_field "Objects" b)) c VNil
  | Panic => Panic
  | Err _ =>
      match unmarshal_mem s (GSlice GRaw) VNil with
      | Ok a => process_objects_mem (raws a) c VNil
      | Panic => Panic
      | Err _ => Err "unknown JSON format"
      end
  end.
End Mem.
