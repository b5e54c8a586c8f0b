(** float64 as IEEE 754 binary64: strconv.ParseFloat(s, 64) and the shortest
    form of strconv.FormatFloat(f, _, -1, 64), which the library calls through
    encoding/json and in internal/jsoncanonicalizer/jsoncanonicalizer.go:237 and
    es6numfmt.go:60.  They are modelled by what they compute (the nearest double;
    the shortest decimal that reads back), not by their algorithms. *)
From Verif Require Import GoStr JsonStr Json Float.
Local Open Scope N_scope.

(** A double without its sign is the number of its bits; [units k] is its value
    in units of 2^-1074.  [inf_bits] are the bits of the infinity. *)
Definition units (k : N) : N := let s := k / 2 ^ 52 - 1 in (k - s * 2 ^ 52) * 2 ^ s.
(** The bits of the infinity (strconv/atof.go, floatBits). *)
Definition inf_bits : N := 2047 * 2 ^ 52.

(** The largest double that is at most [q] units. *)
Definition floor_bits (q : N) : N := let s := N.log2 q - 52 in s * 2 ^ 52 + q / 2 ^ s.

(** The double nearest to [n / d] units, ties to even bits. *)
Definition nearest_bits (n d : N) : N :=
  let k := floor_bits (n / d) in
  match 2 * n ?= d * (units k + units (k + 1)) with
  | Lt => k
  | Gt => k + 1
  | Eq => if N.even k then k else k + 1
  end.

(** [m * 10^e] as a fraction of units. *)
Definition num10 (m : N) (e : Z) : N := m * 10 ^ Z.to_N e * 2 ^ 1074.
(** The denominator of [m * 10^e] in units of 2^-1074. *)
Definition den10 (e : Z) : N := 10 ^ Z.to_N (- e).

(** strconv.ParseFloat of the decimal [m * 10^e]; None is the range error. *)
Definition read_bits (m : N) (e : Z) : N := nearest_bits (num10 m e) (den10 e).
(** A decimal that rounds to the infinity is the range error
    (strconv/atof.go, rangeError). *)
Definition parse_bits (m : N) (e : Z) : option N :=
  let k := read_bits m e in if k <? inf_bits then Some k else None.

(** The multiple of [10^e] next to the double [k] that reads back as [k], the
    nearer one if there are two. *)
Definition multiple (k : N) (e : Z) : option N :=
  let p := units k * den10 e in
  let q := 2 ^ 1074 * 10 ^ Z.to_N e in
  let a := p / q in
  match read_bits a e =? k, read_bits (a + 1) e =? k with
  | true, true =>
      Some (match 2 * (p mod q) ?= q with
            | Lt => a
            | Gt => a + 1
            | Eq => if N.even a then a else a + 1
            end)
  | true, false => Some a
  | false, true => Some (a + 1)
  | false, false => None
  end.
(** The first exponent from [e] down for which there is one. *)
Fixpoint search (fuel : nat) (k : N) (e : Z) : N * Z :=
  match fuel with
  | O => (0, 0%Z)
  | S f => match multiple k e with Some m => (m, e) | None => search f k (e - 1) end
  end.
(** An exponent with [units k < 10^(top k)] units. *)
Definition top (k : N) : Z :=
  let b := (Z.of_N (N.log2 (units k)) - 1072)%Z in
  (if b <? 0 then - (- b * 3 / 10) else b * 28 / 93 + 1)%Z.
(** The shortest decimal of a double. *)
Definition shortest (k : N) : N * Z := if k =? 0 then (0, 0%Z) else search 700 k (top k).

(** A double with its sign, and the rounding function of Go. *)
Definition flt_of_bits (neg : bool) (k : N) : flt := let (m, e) := shortest k in FFin neg m e.
(** strconv.ParseFloat(s, 64) on the decimal [m * 10^e] with sign. *)
Definition go_rnd (neg : bool) (m : N) (e : Z) : option flt :=
  match parse_bits m e with Some k => Some (flt_of_bits neg k) | None => None end.
