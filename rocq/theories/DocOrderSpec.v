(** The order in which AllObjects lists what was read. *)
From Verif Require Import GoStr Consts GoTypes Schema GoVal Codec Collection FromJson JoinSpec.

(** The objects among contributions. *)
Fixpoint somes (outs : list (option gobj)) : list gobj :=
  match outs with
  | [] => []
  | Some ob :: outs' => ob :: somes outs'
  | None :: outs' => somes outs'
  end.
(** Every name once, where it stands first. *)
Fixpoint firsts (l : list string) : list string :=
  match l with
  | [] => []
  | x :: l' => x :: filter (fun y => negb (String.eqb x y)) (firsts l')
  end.
