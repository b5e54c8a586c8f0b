(** Specification only (models no code): the numbers that JSON number texts
    denote. *)
From Verif Require Import GoStr TimeSpec.
Local Open Scope Z_scope.

(** An integer in decimal. *)
Inductive int_text : string -> Z -> Prop :=
| it_pos k n : (0 < k)%nat -> 0 <= n < 10 ^ Z.of_nat k -> int_text (digits k n) n
| it_neg k n : (0 < k)%nat -> 0 <= n < 10 ^ Z.of_nat k -> int_text ("-" ++ digits k n)%string (- n).

(** [frac b k s]: [s] is the fraction [b / 10^k]; [exponent x s]: [s] is the
    exponent [x]. *)
Inductive frac : Z -> nat -> string -> Prop :=
| fr_none : frac 0 0 ""%string
| fr_some k b : (0 < k)%nat -> 0 <= b < 10 ^ Z.of_nat k -> frac b k ("." ++ digits k b)%string.
Inductive exponent : Z -> string -> Prop :=
| ex_none : exponent 0 ""%string
| ex_pos e sg k x : (e = "e" \/ e = "E")%string -> (sg = "" \/ sg = "+")%string -> (0 < k)%nat -> 0 <= x < 10 ^ Z.of_nat k ->
    exponent x (e ++ sg ++ digits k x)%string
| ex_neg e k x : (e = "e" \/ e = "E")%string -> (0 < k)%nat -> 0 <= x < 10 ^ Z.of_nat k ->
    exponent (- x) (e ++ "-" ++ digits k x)%string.

(** [number_text s neg m e]: [s] denotes [m * 10^e] with the sign [neg], in
    lowest terms: [m] not divisible by ten, zero written [0 * 10^0]. *)
Definition lowest (m : N) (e : Z) : Prop := (m = 0%N /\ e = 0) \/ (m mod 10 <> 0)%N.
Inductive number_text : string -> bool -> N -> Z -> Prop :=
| nt (neg : bool) k a b kf ft x et m e i : (0 < k)%nat -> 0 <= a < 10 ^ Z.of_nat k -> frac b kf ft -> exponent x et ->
    lowest m e -> a * 10 ^ Z.of_nat kf + b = Z.of_N m * 10 ^ Z.of_nat i ->
    (m <> 0%N -> e = x - Z.of_nat kf + Z.of_nat i) ->
    number_text ((if neg then "-" else "") ++ digits k a ++ ft ++ et)%string neg m e.
