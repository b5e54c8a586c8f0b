(** Specification of reading and writing numbers: IEEE 754 binary64, rounding to
    nearest with ties to even, shortest decimals. *)
From Coq Require Import QArith Qabs Qpower.
From Verif Require Import GoStr JsonStr Json Float.
Local Open Scope Q_scope.

(** The decimal [m * 10^e]. *)
Definition decimal (m : N) (e : Z) : Q := inject_Z (Z.of_N m) * Qpower 10 e.

(** The finite doubles: [M * 2^E] with 53 bits of significand. *)
Definition double_range (M E : Z) : Prop := (Z.abs M < 2 ^ 53 /\ -1074 <= E <= 971)%Z.
Definition is_double (y : Q) : Prop := exists M E, double_range M E /\ y == inject_Z M * Qpower 2 E.
(** The significand of a double ends in 0: it is even when the leading bit is
    one, or the exponent the least. *)
Definition even_double (y : Q) : Prop := exists M E, double_range M E /\ y == inject_Z M * Qpower 2 E /\
  (2 ^ 52 <= Z.abs M \/ E = -1074)%Z /\ Z.even M = true.

(** Numbers that are not read as infinity. *)
Definition in_range (x : Q) : Prop := Qabs x < Qpower 2 1024 - Qpower 2 970.
(** [y] is the double that [x] is rounded to. *)
Definition rounds_to (x y : Q) : Prop := in_range x /\ is_double y /\
  forall z, is_double z -> Qabs (x - y) <= Qabs (x - z) /\ (Qabs (x - y) == Qabs (x - z) -> z == y \/ even_double y).

(** [m * 10^e] is the shortest decimal that is rounded to [y]: it has the fewest
    digits; of these it is the nearest to [y]; of two such [m] is even. *)
Definition shortest_decimal (y : Q) (m : N) (e : Z) : Prop := rounds_to (decimal m e) y /\
  ((m = 0%N /\ e = 0%Z) \/ (m mod 10 <> 0)%N) /\
  forall m' e', rounds_to (decimal m' e') y ->
    (forall n, (m' < 10 ^ n)%N -> (m < 10 ^ n)%N) /\
    ((forall n, (m < 10 ^ n)%N -> (m' < 10 ^ n)%N) -> Qabs (decimal m e - y) <= Qabs (decimal m' e' - y) /\
      (Qabs (decimal m e - y) == Qabs (decimal m' e' - y) -> decimal m' e' == decimal m e \/ N.even m = true)).

(** The model's value of a float64 is its sign and shortest decimal. *)
Definition stands_for (neg : bool) (y : Q) (f : flt) : Prop := is_double y /\ 0 <= y /\ exists m e, f = FFin neg m e /\ shortest_decimal y m e.
Definition with_sign (neg : bool) (y : Q) : Q := if neg then - y else y.
