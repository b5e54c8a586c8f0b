(** float64 values as encoding/json reads and writes them. *)
From Verif Require Import GoStr JsonStr Json.
Local Open Scope Z_scope.

(** A float64: NaN, an infinity, or the shortest decimal [m * 10^e] that
    rounds to it (strconv 'shortest' form), [m] not divisible by ten.
    Which decimals are shortest forms, and how other decimals round, is the
    business of strconv.ParseFloat: the rounding function is a parameter [rnd]
    of everything below that reads a number.  Go uses float64 in
    location.go:51-62, file.go:379 and inside interface{} values. *)
Inductive flt :=
| FNaN
| FInf (neg : bool)
| FFin (neg : bool) (m : N) (e : Z).

(** Equality of representations.  (Go's == on float64, for which NaN differs from
    itself and the zeros are equal, is not modelled by this.) *)
Definition flt_eqb (x y : flt) : bool :=
  match x, y with
  | FNaN, FNaN => true
  | FInf a, FInf b => Bool.eqb a b
  | FFin a m e, FFin b m' e' => Bool.eqb a b && (m =? m')%N && (e =? e')
  | _, _ => false
  end.

(** Decimal digits to number. *)
Definition dval (c : ascii) : N := (bt c - 48)%N.
(** The number a text of decimal digits denotes, after [acc]
    (strconv/atof.go readFloat, atoi.go ParseInt). *)
Fixpoint N_of_digits_acc (s : string) (acc : N) : N :=
  match s with EmptyString => acc | String c s' => N_of_digits_acc s' (acc * 10 + dval c)%N end.
(** The number a text of decimal digits denotes. *)
Definition N_of_digits (s : string) : N := N_of_digits_acc s 0.

(** Padding zeros (strconv/ftoa.go, fmtF). *)
Fixpoint zeros (n : nat) : string := match n with O => "" | S n' => String "0" (zeros n') end.

(** strip trailing decimal zeros of [m * 10^e] *)
Fixpoint strip10 (fuel : nat) (m : N) (e : Z) : N * Z :=
  match fuel with
  | O => (m, e)
  | S f => if (m =? 0)%N then (0%N, 0)
           else if (m mod 10 =? 0)%N then strip10 f (m / 10)%N (e + 1) else (m, e)
  end.
(** The decimal with no trailing zero in the digits (strconv/ftoa.go, the
    shortest form has none). *)
Definition norm10 (m : N) (e : Z) : N * Z := strip10 (S (N.to_nat (N.size m))) m e.

(** The digits have no trailing zero; zero has exponent 0. *)
Definition canonical (m : N) (e : Z) : bool :=
  if (m =? 0)%N then e =? 0 else negb (m mod 10 =? 0)%N.

(** Decimal denoted by a JSON number. *)
Definition dec_of_lexeme (l : string) : option (bool * N * Z) :=
  match lex_num l with
  | None => None
  | Some (neg, ip, fp, (eneg, eds)) =>
      let x := Z.of_N (N_of_digits eds) in
      let '(m, e) := norm10 (N_of_digits (ip ++ fp))
                            ((if eneg then - x else x) - Z.of_nat (String.length fp)) in
      Some (neg, m, e)
  end.

(** strconv.ParseFloat(s, 64); None is the range error. *)
Definition parse_float (rnd : bool -> N -> Z -> option flt) (l : string) : option flt :=
  match dec_of_lexeme l with
  | None => None
  | Some (neg, m, e) => rnd neg m e
  end.

(** strconv.ParseInt(s, 10, 64) on a JSON number. *)
Definition int64_ok (z : Z) : bool := (-9223372036854775808 <=? z) && (z <=? 9223372036854775807).
(** Only an integer without fraction and exponent is accepted (encoding/json,
    decode.go literalStore, reflect.Int; fields such as network.go:40-71). *)
Definition parse_int (l : string) : option Z :=
  match lex_num l with
  | Some (neg, ip, "", (_, "")) =>
      let n := Z.of_N (N_of_digits ip) in
      let z := if neg then - n else n in
      if int64_ok z then Some z else None
  | _ => None
  end.

(** First [n] bytes and the rest. *)
Fixpoint split_at (n : nat) (s : string) : string * string :=
  match n, s with
  | S n', String c s' => let '(a, b) := split_at n' s' in (String c a, b)
  | _, _ => ("", s)
  end.

(** encoding/json floatEncoder: 'f' format, or 'e' when the magnitude is below
    1e-6 or at least 1e21, exponents without leading zero. *)
Definition fmt_abs (m : N) (e : Z) : string :=
  let d := N_to_string m in
  let n := Z.of_nat (String.length d) in
  let dp := n + e in
  if (m =? 0)%N then "0"
  else if (dp <? -5) || (21 <? dp) then
    let '(a, b) := split_at 1 d in
    (a ++ (if is_empty b then "" else "." ++ b) ++ "e" ++
     (if (dp - 1 <? 0)%Z then "-" else "+") ++ N_to_string (Z.to_N (Z.abs (dp - 1))))%string
  else if dp <=? 0 then ("0." ++ zeros (Z.to_nat (- dp)) ++ d)%string
  else if n <=? dp then (d ++ zeros (Z.to_nat (dp - n)))%string
  else let '(a, b) := split_at (Z.to_nat dp) d in (a ++ "." ++ b)%string.

(** NaN and the infinities are UnsupportedValueError (encoding/json, encode.go
    floatEncoder; location.go:51-62, file.go:379). *)
Definition fmt_float (f : flt) : option string :=
  match f with
  | FFin neg m e => Some (if neg then String "-" (fmt_abs m e) else fmt_abs m e)
  | _ => None
  end.

(** [f] is a float64 value under the rounding function. *)
Definition is_f64 (rnd : bool -> N -> Z -> option flt) (f : flt) : bool :=
  match f with
  | FFin neg m e => canonical m e && match rnd neg m e with Some g => flt_eqb g f | None => false end
  | _ => true
  end.

(** f == 0 *)
Definition flt_is_zero (f : flt) : bool := match f with FFin _ m _ => (m =? 0)%N | _ => false end.
(** Float64bits(f) == 0 (reflect.Value.IsZero) *)
Definition flt_bits_zero (f : flt) : bool := match f with FFin false m _ => (m =? 0)%N | _ => false end.
