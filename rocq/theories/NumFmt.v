(** Number formatting of the canonicalizer: internal/jsoncanonicalizer/es6numfmt.go. *)
From Verif Require Import GoStr JsonStr Json Float.
Local Open Scope Z_scope.

(** strconv.FormatFloat(x, 'e', -1, 64) of x = m * 10^e > 0 in shortest form:
    one digit, fraction, sign and at least two digits of the exponent. *)
Definition format_e (m : N) (e : Z) : string :=
  let d := N_to_string m in
  let x := Z.of_nat (String.length d) + e - 1 in
  let ex := N_to_string (Z.to_N (Z.abs x)) in
  let '(a, b) := split_at 1 d in
  (a ++ (if is_empty b then "" else "." ++ b) ++ "e" ++ (if (x <? 0)%Z then "-" else "+") ++
   (if (Z.abs x <? 10)%Z then "0" ++ ex else ex))%string.
(** strconv.FormatFloat(x, 'f', -1, 64) *)
Definition format_f (m : N) (e : Z) : string :=
  let d := N_to_string m in
  let n := Z.of_nat (String.length d) in
  let dp := n + e in
  if dp <=? 0 then ("0." ++ zeros (Z.to_nat (- dp)) ++ d)%string
  else if n <=? dp then (d ++ zeros (Z.to_nat (dp - n)))%string
  else let '(a, b) := split_at (Z.to_nat dp) d in (a ++ "." ++ b)%string.

(** m * 10^e < m' * 10^e' *)
Definition dec_ltb (m : N) (e : Z) (m' : N) (e' : Z) : bool :=
  Z.of_N m * 10 ^ (e - Z.min e e') <? Z.of_N m' * 10 ^ (e' - Z.min e e').

(** strings.IndexByte(s, 'e'): the text before and after the first 'e' *)
Fixpoint cut_e (s : string) : option (string * string) :=
  match s with
  | EmptyString => None
  | String c s' =>
      if Ascii.eqb c "e" then Some ("", s')
      else match cut_e s' with Some (a, b) => Some (String c a, b) | None => None end
  end.
(** The "minor cleanup": the byte after the exponent's sign is dropped if it
    is '0'.  None: index out of range. *)
Definition clean_exponent (s : string) : option string :=
  match cut_e s with
  | Some (String _ _ as a, b) =>
      match b with
      | String sg (String z r) => Some (if Ascii.eqb z "0" then (a ++ "e" ++ String sg r)%string else s)
      | _ => None
      end
  | _ => Some s
  end.

(** NumberToJSON, es6numfmt.go:36-73: the text and whether err is nil; None if
    it panics.  The comparisons with 1e21 and 1e-6 are done on the shortest
    decimals, whose order is that of the numbers. *)
Definition number_to_json (f : flt) : option (string * bool) :=
  match f with
  | FNaN | FInf _ => Some ("null", false)
  | FFin neg m e =>
      if (m =? 0)%N then Some ("0", true)
      else
        let txt := if dec_ltb m e 1 21 && negb (dec_ltb m e 1 (-6)) then format_f m e else format_e m e in
        match clean_exponent txt with
        | Some t => Some (((if neg then "-" else "") ++ t)%string, true)
        | None => None
        end
  end.
