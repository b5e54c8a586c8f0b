(** Documents with the same objects in another order. *)
From Verif Require Import GoStr JsonStr StrSpec Json JsonSpec Float Consts GoTypes Schema GoVal Codec CodecSpec Collection FromJson FromJsonSpec JoinSpec.

(** [apart cf js]: no object of [js] leaves anything to a later one.  All have
    only properties of their type; or custom content is dropped and all state a
    type; or there is a null after each. *)
Definition apart (cf : config) (js : list json) : Prop :=
  (cf_drop cf = false /\ Forall (clean cf) js) \/
  (cf_drop cf = true /\ forall ms, In (JObj ms) js -> member "type" (JObj ms) <> None) \/
  exists l, js = separated l.

(** No two of the values, each read alone, give objects of the same identifier. *)
Definition distinct (rnd : bool -> N -> Z -> option flt) (cf : config) (js : list json) : Prop :=
  forall a j1 b j2 c c1 c2 id, js = a ++ j1 :: b ++ j2 :: c ->
    from_json rnd cf (alone j1) = Ok c1 -> from_json rnd cf (alone j2) = Ok c2 -> get c1 id <> None -> get c2 id = None.
