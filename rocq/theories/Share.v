(** What the objects of a document share in memory.  FromJson.v copies the values
    of [peak] into the extended properties of an object; here they are
    references, and objects read one after the other may hold the same one. *)
From Verif Require Import GoStr JsonStr Json Float Consts GoTypes Schema GoVal Codec CodecSpec DataTypes Ident Collection FromJson.

(** Memory: the values of type interface{} stored in [peak] so far, by address
    (encoding/json valueInterface makes a new map, slice, string or number for
    every member; stix.go:988).  A value stands for everything reached from
    it. *)
Definition heap : Type := list gval.
(** The value at an address. *)
Definition cell (h : heap) (a : nat) : gval := nth a h VNil.
(** Assignment through an address. *)
Fixpoint store (h : heap) (a : nat) (x : gval) : heap :=
  match h, a with
  | [], _ => []
  | _ :: h', O => x :: h'
  | y :: h', S a' => y :: store h' a' x
  end.
(** The entries of a map[string]interface{} (stix.go:985), sorted by name. *)
Definition refs : Type := list (string * nat).
(** The map read through memory. *)
Definition view (h : heap) (r : refs) : list (string * gval) := map (fun ka => (fst ka, cell h (snd ka))) r.

(** An object in memory: its Go type, its fields as decoded (stix.go:1104), and
    the map of its extended properties, one of its own (stix.go:1116-1121).
    Simplification: what a custom parser keeps is not looked at. *)
Record mobj := Mobj { mo_ty : gty; mo_val : gval; mo_props : refs }.
(** The object as the other files see it. *)
Definition obj_of (h : heap) (o : mobj) : gobj := (mo_ty o, add_props (mo_ty o) (view h (mo_props o)) (mo_val o)).

Section Read.
Variable rnd : bool -> N -> Z -> option flt.
Variable cf : config.

(** The members of a JSON object stored into [peak] (encoding/json decode.go
    object; stix.go:988): a new value for each. *)
Fixpoint m_mems (ms : list (string * json)) (h : heap) (r : refs) : dres (heap * refs) :=
  match ms with
  | [] => DOk (h, r) false
  | (k, x) :: ms' => dbind (dec_any rnd x) (fun v => m_mems ms' (h ++ [v])%list (minsert k (List.length h) r))
  end.
(** json.Unmarshal(data, &peak), stix.go:988; a nil map reads as an empty one. *)
Definition m_peek (j : json) (h : heap) (r : refs) : res (heap * refs) :=
  match j with
  | JNull => Ok (h, [])
  | JObj ms => unmarshal_res (m_mems ms h r)
  | _ => Err "json"
  end.
(** filterOutNonCustom, stix.go:1134-1162 *)
Definition m_filter (t : gty) (r : refs) : refs :=
  match t with
  | GStruct _ fs => filter (fun kv => negb (mem_str (fst kv) (tag_keys fs))) r
  | _ => r
  end.
(** The type has addCustomProperties (stix.go:1115): object.go:120, 259, 352;
    meta.go:139, 275. *)
Definition can_extend (t : gty) : bool := match props_path t with Some _ => true | None => false end.
(** stix.go:1103-1129: custom.Set(k, peak[k]) copies the references. *)
Definition m_finish (h : heap) (r : refs) (j : json) (o : gobj) : res (option mobj * heap * refs) :=
  let (t, v) := o in
  do v1 <- unmarshal_res (dec rnd j t v);
  let r1 := if cf_drop cf then r else m_filter t r in
  let ob := Mobj t v1 (if negb (cf_drop cf) && can_extend t then r1 else []) in
  do id <- obj_id (obj_of h ob);
  do ty <- obj_type (obj_of h ob);
  if has_valid_identifier id ty then Ok (Some ob, h, r1) else Err "failed to add object to collection".
(** One iteration of the loop of processObjects, stix.go:984-1132; the object is
    returned instead of added. *)
Definition m_read (j : json) (h : heap) (r : refs) : res (option mobj * heap * refs) :=
  do hr <- m_peek j h r;
  let (h1, r1) := hr in
  match alookup "type" (view h1 r1) with
  | None => Ok (None, h1, r1)
  | Some tv =>
      do typ <- as_string tv;
      do st <- start cf typ j;
      match st with
      | None => Ok (None, h1, r1)
      | Some o => m_finish h1 r1 j o
      end
  end.
(** The loop, stix.go:984-1132: memory in the end, and for each JSON value the
    object it gave. *)
Fixpoint m_read_all (js : list json) (h : heap) (r : refs) : res (heap * list (option mobj)) :=
  match js with
  | [] => Ok (h, [])
  | j :: js' =>
      do ohr <- m_read j h r;
      let '(o, h1, r1) := ohr in
      do hos <- m_read_all js' h1 r1;
      Ok (fst hos, o :: snd hos)
  end.
(** FromJSON, stix.go:953-982 *)
Definition m_from_json (s : string) : res (heap * list (option mobj)) :=
  match unmarshal rnd s ty_Bundle (zero ty_Bundle) with
  | Ok b => m_read_all (raws (get_field "Objects" b)) [] []
  | Panic => Panic
  | Err _ =>
      match unmarshal rnd s (GSlice GRaw) VNil with
      | Ok a => m_read_all (raws a) [] []
      | Panic => Panic
      | Err _ => Err "unknown JSON format"
      end
  end.
End Read.

(** What a program does with an object it got: with [p] the extended properties
    of the [i]-th object (object.go:154-156, 265-267, 358-360, meta.go:145-147,
    281-283) it calls [p.Set(k, x)] (extension.go:299-301) with a new value, or
    changes what [p.Get(k)] (extension.go:290-296) refers to, as in
    [p.Get(k).(map[string]interface{})["a"] = 1]. *)
Inductive event :=
| SetProp (i : nat) (k : string) (x : gval)
| Change (i : nat) (k : string) (x : gval).
(** A program's view after reading: memory and the objects. *)
Definition world : Type := (heap * list (option mobj))%type.
(** [k] of the [i]-th object: the reference. *)
Definition ref_of (w : world) (i : nat) (k : string) : option nat :=
  match nth_error (snd w) i with
  | Some (Some o) => alookup k (mo_props o)
  | _ => None
  end.
(** p.Get(k), extension.go:290-296. *)
Definition reading (w : world) (i : nat) (k : string) : option gval := option_map (cell (fst w)) (ref_of w i k).
(** The map entry of the [i]-th object after Set (extension.go:299-301); an
    object without extended properties has no map to set. *)
Fixpoint set_prop (os : list (option mobj)) (i : nat) (k : string) (a : nat) : list (option mobj) :=
  match os, i with
  | [], _ => []
  | Some o :: os', O => Some (match mo_props o with [] => o | r => Mobj (mo_ty o) (mo_val o) (minsert k a r) end) :: os'
  | None :: os', O => None :: os'
  | o :: os', S i' => o :: set_prop os' i' k a
  end.
(** One event (extension.go:290-301).  A change in place is only possible if
    the value is a map or a slice; others are allowed too. *)
Definition step (w : world) (e : event) : world :=
  match e with
  | SetProp i k x => ((fst w ++ [x])%list, set_prop (snd w) i k (List.length (fst w)))
  | Change i k x => match ref_of w i k with Some a => (store (fst w) a x, snd w) | None => w end
  end.
(** A history of events. *)
Definition after (w : world) (es : list event) : world := fold_left step es w.
