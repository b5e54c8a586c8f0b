(** Which JSON value of a document an extended property comes from. *)
From Verif Require Import GoStr Json GoTypes GoVal Share.

(** The JSON value has a member named [k]. *)
Definition names (j : json) (k : string) : Prop := exists ms x, j = JObj ms /\ In (k, x) ms.
(** No JSON value after the [i]-th, up to the [j]-th, has a member named [k];
    [i] and [j] in either order. *)
Definition unnamed (js : list json) (i j : nat) (k : string) : Prop :=
  forall n v, Nat.min i j < n <= Nat.max i j -> nth_error js n = Some v -> ~ names v k.
(** Every extended property of an object is a member of the object's own JSON
    text. *)
Definition own_names (js : list json) (w : world) : Prop :=
  forall i v k, nth_error js i = Some v -> reading w i k <> None -> names v k.
(** The object and the property an event is about. *)
Definition place (e : event) : nat * string := match e with SetProp i k _ | Change i k _ => (i, k) end.
Definition new_value (e : event) : gval := match e with SetProp _ _ x | Change _ _ x => x end.
