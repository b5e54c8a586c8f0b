(** Specification only (models no code): Go values apart from json.RawMessage. *)
From Verif Require Import GoStr Float GoTypes GoVal.

(** The floats in the value are float64 values; no raw JSON. *)
Fixpoint go_value (rnd : bool -> N -> Z -> option flt) (v : gval) : bool :=
  match v with
  | VFloat f => is_f64 rnd f
  | VPtr w => go_value rnd w
  | VSlice l => forallb (go_value rnd) l
  | VMap l => forallb (fun kv => go_value rnd (snd kv)) l
  | VStruct l => forallb (fun kv => go_value rnd (snd kv)) l
  | VDyn _ w => go_value rnd w
  | VRaw _ => false
  | _ => true
  end.
