(** Specification only (models no code): member names that are the same up to
    case, by the simple case folding of Unicode restricted to what can meet an
    ASCII letter. *)
From Verif Require Import GoStr StrSpec GoTypes Codec.
Local Open Scope N_scope.

(** Characters that fold to the same ASCII character: upper and lower case, and
    the Kelvin sign (U+212A) and the long s (U+017F). *)
Definition folds_to (n m : N) : Prop :=
  (n = m /\ ~ (65 <= n <= 90)) \/ (65 <= n <= 90 /\ m = n + 32) \/ (n = 8490 /\ m = 107) \/ (n = 383 /\ m = 115).
(** [spells k f]: the member name [k] is the lower case ASCII name [f] up to
    case. *)
Definition spells (k f : string) : Prop :=
  exists l, byte_chars k l /\ Forall2 folds_to l (map code (list_ascii_of_string f)).
Definition lower_ascii (f : string) : Prop :=
  forall c, In c (list_ascii_of_string f) -> code c < 128 /\ ~ (65 <= code c <= 90).

(** The types that occur in a type. *)
Inductive within : gty -> gty -> Prop :=
| wi_self t : within t t
| wi_ptr t t' : within t t' -> within (GPtr t) t'
| wi_slice t t' : within t t' -> within (GSlice t) t'
| wi_map n k t t' : within t t' -> within (GMap n k t) t'
| wi_field n fs m t t' : In (m, t) fs -> within t t' -> within (GStruct n fs) t'
| wi_ext k t' : within (ext_ty k) t' -> within GExt t'.
