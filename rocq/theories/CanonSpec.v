(** Specification of canonical JSON (RFC 8785), independent of the
    canonicalizer's code. *)
From Verif Require Import GoStr JsonStr Json Float NumSpec StrSpec JsonSpec.
From Coq Require Import Permutation Sorted.
Local Open Scope N_scope.

(** --- values --- *)
Inductive cval :=
| CNull
| CBool (b : bool)
| CNum (f : flt)
| CStr (s : string)
| CArr (l : list cval)
| CObj (l : list (string * cval)).

(** --- texts of values --- *)
(** [clean_text raw l]: the text [raw] between quotation marks stands for the
    characters [l], as RFC 8259 has it; all bytes are UTF-8 and all surrogates
    are paired (RFC 7493). *)
Inductive clean_text : string -> list N -> Prop :=
| ct_nil : clean_text "" []
| ct_char w n r l : utf8_char w n -> 32 <= n -> n <> 34 -> n <> 92 -> clean_text r l -> clean_text (w ++ r) (n :: l)
| ct_escape e n r l : In (e, n) short_escapes -> clean_text r l -> clean_text (String backslash (String e r)) (n :: l)
| ct_u h n r l : hex_text h n -> ~ surrogate n -> clean_text r l -> clean_text (u_escape h ++ r) (n :: l)
| ct_pair h hi h' lo r l : hex_text h hi -> 55296 <= hi <= 56319 -> hex_text h' lo -> 56320 <= lo <= 57343 ->
    clean_text r l -> clean_text (u_escape h ++ u_escape h' ++ r) (65536 + (hi - 55296) * 1024 + (lo - 56320) :: l).
Definition clean_str (raw x : string) : Prop := exists l, clean_text raw l /\ utf8_string x l.

(** [lax_str raw x]: the same for the strings that the canonicalizer takes.
    Bytes from 0x20 on stand for themselves, and a \u escape of a surrogate
    together with the \u escape after it stands for one character, U+FFFD if
    the two are no pair. *)
Definition pair_char (hi lo n : N) : Prop :=
  (hi <= 56319 /\ 56320 <= lo <= 57343 /\ n = 65536 + (hi - 55296) * 1024 + (lo - 56320)) \/
  (~ (hi <= 56319 /\ 56320 <= lo <= 57343) /\ n = replacement).
Inductive lax_str : string -> string -> Prop :=
| lx_nil : lax_str "" ""
| lx_byte c r x : 32 <= code c -> code c <> 34 -> code c <> 92 -> lax_str r x -> lax_str (String c r) (String c x)
| lx_escape e n r x : In (e, n) short_escapes -> lax_str r x -> lax_str (String backslash (String e r)) (String (ascii_of_N n) x)
| lx_u h n w r x : hex_text h n -> ~ surrogate n -> utf8_char w n -> lax_str r x -> lax_str (u_escape h ++ r) (w ++ x)
| lx_pair h hi h' lo n w r x : hex_text h hi -> surrogate hi -> hex_text h' lo -> pair_char hi lo n -> utf8_char w n ->
    lax_str r x -> lax_str (u_escape h ++ u_escape h' ++ r) (w ++ x).

Section Grammar.
(** The texts of numbers, and the texts of strings between quotation marks. *)
Variable num : string -> flt -> Prop.
Variable str : string -> string -> Prop.

Definition in_quotes (raw : string) : string := String "034" (raw ++ String "034" "").
Inductive jc : cval -> string -> Prop :=
| jc_null : jc CNull "null"
| jc_true : jc (CBool true) "true"
| jc_false : jc (CBool false) "false"
| jc_num l neg m e : num l (FFin neg m e) -> jc (CNum (FFin neg m e)) l
| jc_str raw x : str raw x -> jc (CStr x) (in_quotes raw)
| jc_arr0 w : blank w -> jc (CArr []) (String "[" (w ++ "]"))
| jc_arr l s : jcelems l s -> jc (CArr l) (String "[" (s ++ "]"))
| jc_obj0 w : blank w -> jc (CObj []) (String "{" (w ++ "}"))
| jc_obj l s : jcmems l s -> jc (CObj l) (String "{" (s ++ "}"))
with jcelems : list cval -> string -> Prop :=
| jce_one v w1 s w2 : blank w1 -> jc v s -> blank w2 -> jcelems [v] (w1 ++ s ++ w2)
| jce_cons v l w1 s w2 t : blank w1 -> jc v s -> blank w2 -> jcelems l t -> jcelems (v :: l) (w1 ++ s ++ w2 ++ String "," t)
with jcmems : list (string * cval) -> string -> Prop :=
| jcm_one k raw v w1 w2 w3 s w4 : blank w1 -> str raw k -> blank w2 -> blank w3 -> jc v s -> blank w4 ->
    jcmems [(k, v)] (w1 ++ in_quotes raw ++ w2 ++ String ":" (w3 ++ s ++ w4))
| jcm_cons k raw v l w1 w2 w3 s w4 t : blank w1 -> str raw k -> blank w2 -> blank w3 -> jc v s -> blank w4 ->
    jcmems l t -> jcmems ((k, v) :: l) (w1 ++ in_quotes raw ++ w2 ++ String ":" (w3 ++ s ++ w4 ++ String "," t)).

(** [ctext v s]: the text [s] denotes the array or object [v]. *)
Definition container (v : cval) : Prop := match v with CArr _ | CObj _ => True | _ => False end.
Definition ctext (v : cval) (s : string) : Prop :=
  container v /\ exists w1 t w2, blank w1 /\ blank w2 /\ jc v t /\ s = (w1 ++ t ++ w2)%string.
End Grammar.

(** The JSON numbers that [rnd] can round to a double. *)
Definition json_num (rnd : bool -> N -> Z -> option flt) (l : string) (f : flt) : Prop :=
  json_number l /\ exists neg m e, number_text l neg m e /\ rnd neg m e = Some f.
(** [ijson_text rnd v s]: [s] is the text of [v] by RFC 8259, restricted to
    UTF-8 and paired surrogates (RFC 7493). *)
Definition ijson_text rnd : cval -> string -> Prop := ctext (json_num rnd) clean_str.

(** The numbers that the canonicalizer takes: what the parser [pf] (the number
    and whether there is no error) makes of a word of ASCII characters. *)
Definition token_char (c : ascii) : Prop := code c < 128 /\ ~ In (code c) [32; 9; 10; 13] /\ ~ In c [","; "]"; "}"]%char.
Definition token_text (l : string) : Prop :=
  (exists c r, l = String c r /\ ~ In c ["{"; "["; "034"]%char) /\ (forall c, In c (list_ascii_of_string l) -> token_char c) /\
  ~ In l ["null"; "true"; "false"]%string.
Definition lax_num (pf : string -> flt * bool) (l : string) (f : flt) : Prop := token_text l /\ pf l = (f, true).
Definition lax_text pf : cval -> string -> Prop := ctext (lax_num pf) lax_str.

(** A word of the text is taken for a number but is no JSON number. *)
Definition odd_word (pf : string -> flt * bool) (s : string) : Prop :=
  exists a l b f, s = (a ++ l ++ b)%string /\ lax_num pf l f /\ ~ json_number l.

(** No object in the value has two members of the same name. *)
Inductive dup_free : cval -> Prop :=
| df_null : dup_free CNull
| df_bool b : dup_free (CBool b)
| df_num f : dup_free (CNum f)
| df_str s : dup_free (CStr s)
| df_arr l : dup_free_list l -> dup_free (CArr l)
| df_obj l : NoDup (map fst l) -> dup_free_list (map snd l) -> dup_free (CObj l)
with dup_free_list : list cval -> Prop :=
| dfl_nil : dup_free_list []
| dfl_cons v l : dup_free v -> dup_free_list l -> dup_free_list (v :: l).

(** --- canonical texts --- *)
(** ECMAScript Number::toString (ECMA-262 7.1.12.1) of the number with decimal
    digits [d] (without trailing zeros) and value 0.d * 10^n. *)
Definition es6_digits (d : string) (n : Z) : string :=
  let k := Z.of_nat (String.length d) in
  let ex := ((if (n - 1 <? 0)%Z then "-" else "+") ++ N_to_string (Z.to_N (Z.abs (n - 1))))%string in
  if ((k <=? n) && (n <=? 21))%Z then (d ++ zeros (Z.to_nat (n - k)))%string
  else if ((0 <? n) && (n <=? 21))%Z then let (a, b) := split_at (Z.to_nat n) d in (a ++ "." ++ b)%string
  else if ((-6 <? n) && (n <=? 0))%Z then ("0." ++ zeros (Z.to_nat (- n)) ++ d)%string
  else if (k =? 1)%Z then (d ++ "e" ++ ex)%string
  else let (a, b) := split_at 1 d in (a ++ "." ++ b ++ "e" ++ ex)%string.
Definition es6 (neg : bool) (m : N) (e : Z) : string :=
  if m =? 0 then "0"
  else ((if neg then "-" else "") ++ es6_digits (N_to_string m) (Z.of_nat (String.length (N_to_string m)) + e))%string.

(** RFC 8785 3.2.2.2 *)
Definition jcs_char (c : ascii) : string :=
  let n := bt c in
  if n =? 8 then String bs "b"
  else if n =? 9 then String bs "t"
  else if n =? 10 then String bs "n"
  else if n =? 12 then String bs "f"
  else if n =? 13 then String bs "r"
  else if n <? 32 then String bs ("u00" ++ String (hexc (n / 16)) (String (hexc (n mod 16)) ""))
  else if (n =? 34) || (n =? 92) then String bs (String c "")
  else String c "".
Fixpoint jcs_chars (s : string) : string :=
  match s with EmptyString => "" | String c s' => jcs_char c ++ jcs_chars s' end.
Definition jcs_string (s : string) : string := q (jcs_chars s).

(** Names are sorted by their UTF-16 code units (3.2.3).  In a name that is no
    UTF-8, bytes that start no character count as U+FFFD. *)
Definition units (r : N) : list N :=
  if r <? 65536 then [r] else [55296 + (r - 65536) / 1024; 56320 + (r - 65536) mod 1024].
Inductive lex : list N -> list N -> Prop :=
| lex_nil y l : lex [] (y :: l)
| lex_lt x y l l' : x < y -> lex (x :: l) (y :: l')
| lex_eq x l l' : lex l l' -> lex (x :: l) (x :: l').
Definition name_lt (a b : string) : Prop :=
  exists la lb, byte_chars a la /\ byte_chars b lb /\ lex (flat_map units la) (flat_map units lb).

(** [jcs v t]: [t] is the canonical text of [v]. *)
Inductive jcs : cval -> string -> Prop :=
| jcs_null : jcs CNull "null"
| jcs_bool b : jcs (CBool b) (if b then "true" else "false")
| jcs_num neg m e : jcs (CNum (FFin neg m e)) (es6 neg m e)
| jcs_str s : jcs (CStr s) (jcs_string s)
| jcs_arr l ts : jcs_list l ts -> jcs (CArr l) ("[" ++ join "," ts ++ "]")
| jcs_obj l l' ts : Permutation l l' -> StronglySorted name_lt (map fst l') -> jcs_mems l' ts ->
    jcs (CObj l) ("{" ++ join "," ts ++ "}")
with jcs_list : list cval -> list string -> Prop :=
| jcl_nil : jcs_list [] []
| jcl_cons v l t ts : jcs v t -> jcs_list l ts -> jcs_list (v :: l) (t :: ts)
with jcs_mems : list (string * cval) -> list string -> Prop :=
| jcsm_nil : jcs_mems [] []
| jcsm_cons k v l t ts : jcs v t -> jcs_mems l ts -> jcs_mems ((k, v) :: l) ((jcs_string k ++ ":" ++ t)%string :: ts).

(** Equality of values up to the order of members and the sign of zero. *)
Inductive veq : cval -> cval -> Prop :=
| veq_atom v : ~ container v -> veq v v
| veq_zero neg neg' e e' : veq (CNum (FFin neg 0 e)) (CNum (FFin neg' 0 e'))
| veq_arr l l' : veq_list l l' -> veq (CArr l) (CArr l')
| veq_obj l l1 l' : Permutation l l1 -> map fst l1 = map fst l' -> veq_list (map snd l1) (map snd l') -> veq (CObj l) (CObj l')
with veq_list : list cval -> list cval -> Prop :=
| veql_nil : veq_list [] []
| veql_cons v v' l l' : veq v v' -> veq_list l l' -> veq_list (v :: l) (v' :: l').

(** A parser of numbers as strconv.ParseFloat is one: JSON numbers are rounded
    by [rnd], results are doubles in lowest terms, which rounding leaves alone,
    and so is zero. *)
Definition float_parser (rnd : bool -> N -> Z -> option flt) (pf : string -> flt * bool) : Prop :=
  (forall l f, json_num rnd l f -> pf l = (f, true)) /\
  (forall l neg m e, pf l = (FFin neg m e, true) -> lowest m e /\ rnd neg m e = Some (FFin neg m e)) /\
  rnd false 0 0%Z = Some (FFin false 0 0).

(** strconv.ParseFloat(s, 64) on a JSON number, as in Float.v: the number and
    whether err is nil.  On other texts (it also accepts hexadecimal numbers,
    Inf, NaN, ...) it is an arbitrary function [other]. *)
Definition go_parse_float (rnd : bool -> N -> Z -> option flt) (other : string -> flt * bool) (l : string) : flt * bool :=
  if num_ok l then match parse_float rnd l with Some f => (f, true) | None => (FInf (String.prefix "-" l), false) end
  else other l.
