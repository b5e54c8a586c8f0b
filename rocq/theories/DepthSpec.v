(** Specification only (models no code): how deep a value is nested. *)
From Verif Require Import GoStr Json GoVal.

Definition deepest {A} (f : A -> N) (l : list A) : N := fold_right (fun x m => N.max (f x) m) 0%N l.

(** Arrays and objects around the innermost value. *)
Fixpoint levels (j : json) : N :=
  match j with
  | JArr l => 1 + deepest levels l
  | JObj l => 1 + deepest (fun kx => levels (snd kx)) l
  | _ => 0
  end%N.

(** Slices, maps and structs around the innermost Go value. *)
Fixpoint go_levels (v : gval) : N :=
  match v with
  | VPtr w => go_levels w
  | VDyn _ w => go_levels w
  | VSlice l => 1 + deepest go_levels l
  | VMap l => 1 + deepest (fun kx => go_levels (snd kx)) l
  | VStruct l => 1 + deepest (fun kx => go_levels (snd kx)) l
  | VRaw j => levels j
  | _ => 0
  end%N.
