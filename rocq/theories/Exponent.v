(** The exponent in strconv.ParseFloat (strconv/atof.go, readFloat and
    decimal.set): digits after the exponent has reached 10000 are skipped.
    [parse_float] of Float.v reads all of them. *)
From Verif Require Import GoStr JsonStr Json Float.

(** The exponent read after [acc]: if e < 10000 { e = e*10 + digit }
    (strconv/atof.go, readFloat; jsoncanonicalizer.go:237 and encoding/json call
    it). *)
Fixpoint cut_acc (s : string) (acc : N) : N :=
  match s with
  | EmptyString => acc
  | String c s' => cut_acc s' (if (acc <? 10000)%N then (acc * 10 + dval c)%N else acc)
  end.
(** The exponent strconv.ParseFloat reads from a run of digits. *)
Definition cut_exponent (s : string) : N := cut_acc s 0.

(** strconv.ParseFloat(s, 64), cf. [dec_of_lexeme] and [parse_float]. *)
Definition parse_float_cut (rnd : bool -> N -> Z -> option flt) (l : string) : option flt :=
  match lex_num l with
  | None => None
  | Some (neg, ip, fp, (eneg, eds)) =>
      let x := Z.of_N (cut_exponent eds) in
      let '(m, e) := norm10 (N_of_digits (ip ++ fp))
                            ((if eneg then - x else x) - Z.of_nat (String.length fp)) in
      rnd neg m e
  end.
