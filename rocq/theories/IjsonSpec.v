(** Specification only (models no code): Go values whose JSON text is I-JSON
    (RFC 7493). *)
From Verif Require Import GoStr JsonStr Float GoTypes GoVal CodecSpec.
Local Open Scope Z_scope.

(** The fields of every struct in the type have different JSON names, which are
    UTF-8; no raw JSON. *)
Fixpoint tags_apart (t : gty) : bool :=
  match t with
  | GPtr t' | GSlice t' | GMap _ _ t' => tags_apart t'
  | GStruct _ fs =>
      dist_keys (map (fun ft => fm_key (fst ft)) fs) && forallb (fun ft => utf8b (fm_key (fst ft)) && tags_apart (snd ft)) fs
  | GRaw => false
  | _ => true
  end.

(** Floats are float64 values, integers are int64 values; no raw JSON. *)
Fixpoint plain_value (rnd : bool -> N -> Z -> option flt) (v : gval) : bool :=
  match v with
  | VFloat f => is_f64 rnd f
  | VInt z => int64_ok z
  | VPtr w => plain_value rnd w
  | VSlice l => forallb (plain_value rnd) l
  | VMap l => forallb (fun kv => plain_value rnd (snd kv)) l
  | VStruct l => forallb (fun kv => plain_value rnd (snd kv)) l
  | VDyn _ w => plain_value rnd w
  | VRaw _ => false
  | _ => true
  end.

(** Maps, at any depth, have each name once (they are Go maps, kept sorted in
    the model), and the names are UTF-8; so do the structs of the types that
    interfaces hold. *)
Fixpoint names_apart (v : gval) : bool :=
  match v with
  | VPtr w => names_apart w
  | VSlice l => forallb names_apart l
  | VMap l => msorted l && forallb (fun kv => utf8b (fst kv) && names_apart (snd kv)) l
  | VStruct l => forallb (fun kv => names_apart (snd kv)) l
  | VDyn t w => tags_apart t && names_apart w
  | _ => true
  end.

(** The rounding function gives a double for all integers of 64 bits. *)
Definition rounds_ints (rnd : bool -> N -> Z -> option flt) : Prop :=
  forall neg m e, 0 <= e -> Z.of_N m * 10 ^ e <= 2 ^ 63 -> exists neg' m' e', rnd neg m e = Some (FFin neg' m' e').
