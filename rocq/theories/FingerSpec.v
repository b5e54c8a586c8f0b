(** Specification only (models no code): Go values whose numbers are told apart
    by canonical JSON. *)
From Verif Require Import GoStr Float GoTypes GoVal Codec CodecSpec.
Local Open Scope Z_scope.

(** Integers are safe in the sense of RFC 7493 2.2 (they have less than 54 bits),
    and no float is the negative zero. *)
Fixpoint safe_numbers (v : gval) : bool :=
  match v with
  | VInt z => Z.abs z <? 2 ^ 53
  | VFloat (FFin true 0 _) => false
  | VPtr w => safe_numbers w
  | VSlice l => forallb safe_numbers l
  | VMap l => forallb (fun kv => safe_numbers (snd kv)) l
  | VStruct l => forallb (fun kv => safe_numbers (snd kv)) l
  | VDyn _ w => safe_numbers w
  | _ => true
  end.

(** Interfaces hold what encoding/json puts there when it reads, and extensions
    are pointers to the types registered for their names. *)
Fixpoint generic (t : gty) (v : gval) {struct v} : bool :=
  match v with
  | VPtr w => match t with GPtr t' => generic t' w | _ => false end
  | VSlice l => match t with GSlice t' => forallb (generic t') l | _ => false end
  | VMap l => match t with
              | GMap _ _ t' => forallb (fun kv => generic t' (snd kv)) l
              | GExt => forallb (fun kv => match snd kv with VDyn t' (VPtr w) => gty_eqb t' (GPtr (ext_ty (fst kv))) && generic (ext_ty (fst kv)) w | _ => false end) l
              | _ => false
              end
  | VDyn t' w => match t with GIface => json_like (VDyn t' w) | _ => false end
  | VStruct vs => match t with GStruct _ fs => wf_fields generic fs vs | _ => false end
  | VRaw _ => false
  | _ => true
  end.
