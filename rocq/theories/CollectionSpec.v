(** What a user expects from a collection, stated on the log of Add calls and
    their outcomes only. *)
From Verif Require Import GoStr.

Section Spec.
Context {O : Type}.

(** One Add call: identifier and type reported by the object, the object, and
    whether Add returned a nil error. *)
Record call := Call { c_id : string; c_typ : string; c_obj : O; c_ok : bool }.

(** The log of a history and the list of outcomes. *)
Definition log (h : list (string * string * O)) (oks : list bool) : list call :=
  map (fun x => Call (fst (fst (fst x))) (snd (fst (fst x))) (snd (fst x)) (snd x)) (combine h oks).

(** [last_accepted l id o]: the last accepted call for [id] stored [o]. *)
Definition last_accepted (l : list call) (id : string) (o : O) : Prop :=
  exists l1 t l2, l = l1 ++ Call id t o true :: l2 /\
    forall x, In x l2 -> c_ok x = true -> c_id x <> id.

(** Identifiers accepted, each once, in order of first acceptance. *)
Fixpoint first_ids (l : list call) : list string :=
  match l with
  | [] => []
  | x :: l' =>
      if c_ok x then c_id x :: filter (fun i => negb (String.eqb (c_id x) i)) (first_ids l')
      else first_ids l'
  end.

(** [o] is what the collection should hold for identifier [id] of type [t]. *)
Definition holds (l : list call) (id t : string) (o : O) : Prop :=
  last_accepted l id o /\ exists x, In x l /\ c_ok x = true /\ c_id x = id /\ c_typ x = t.
End Spec.
Arguments call : clear implicits.
