(** Specification only (models no code): JSON texts by RFC 8259 and the values
    they denote. *)
From Verif Require Import GoStr Json TimeSpec NumSpec StrSpec.

(** Space, tab, line feed and carriage return. *)
Definition blank (s : string) : Prop := forall c, In c (list_ascii_of_string s) -> In (code c) [32; 9; 10; 13]%N.
Definition quoted (raw : string) : string := (String "034" (raw ++ String "034" ""))%string.

(** No leading zeros: one digit, or as many digits as the number needs. *)
Inductive json_number : string -> Prop :=
| jn (neg : bool) k a b kf ft x et : (0 <= a < 10 ^ Z.of_nat (S k))%Z -> (k = 0%nat \/ 10 ^ Z.of_nat k <= a)%Z ->
    frac b kf ft -> exponent x et ->
    json_number ((if neg then "-" else "") ++ digits (S k) a ++ ft ++ et)%string.

(** [value_text j s]: the text [s] denotes [j].  A string value is kept as the
    text between its quotation marks, a name as the string it stands for. *)
Inductive value_text : json -> string -> Prop :=
| vt_null : value_text JNull "null"
| vt_true : value_text (JBool true) "true"
| vt_false : value_text (JBool false) "false"
| vt_num l : json_number l -> value_text (JNum l) l
| vt_str raw x : str_means raw x -> value_text (JStr raw) (quoted raw)
| vt_arr0 w : blank w -> value_text (JArr []) ("[" ++ w ++ "]")%string
| vt_arr l s : elements_text l s -> value_text (JArr l) ("[" ++ s ++ "]")%string
| vt_obj0 w : blank w -> value_text (JObj []) ("{" ++ w ++ "}")%string
| vt_obj l s : members_text l s -> value_text (JObj l) ("{" ++ s ++ "}")%string
with elements_text : list json -> string -> Prop :=
| et_one j w1 s w2 : blank w1 -> value_text j s -> blank w2 -> elements_text [j] (w1 ++ s ++ w2)%string
| et_cons j l w1 s w2 t : blank w1 -> value_text j s -> blank w2 -> elements_text l t ->
    elements_text (j :: l) (w1 ++ s ++ w2 ++ "," ++ t)%string
with members_text : list (string * json) -> string -> Prop :=
| mt_one k raw j w1 w2 w3 s w4 : blank w1 -> str_means raw k -> blank w2 -> blank w3 -> value_text j s -> blank w4 ->
    members_text [(k, j)] (w1 ++ quoted raw ++ w2 ++ ":" ++ w3 ++ s ++ w4)%string
| mt_cons k raw j l w1 w2 w3 s w4 t : blank w1 -> str_means raw k -> blank w2 -> blank w3 -> value_text j s -> blank w4 ->
    members_text l t ->
    members_text ((k, j) :: l) (w1 ++ quoted raw ++ w2 ++ ":" ++ w3 ++ s ++ w4 ++ "," ++ t)%string.

Definition json_text (j : json) (s : string) : Prop :=
  exists w1 t w2, blank w1 /\ blank w2 /\ value_text j t /\ s = (w1 ++ t ++ w2)%string.
