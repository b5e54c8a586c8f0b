(** JSON values and texts as encoding/json sees them.
    /repo only reaches JSON text through json.Unmarshal and json.Marshal; the
    package first checks the syntax of the whole text and then decodes, so a
    text is modelled by its syntax tree.
    Simplification: the nesting limit of encoding/json (10000) is not
    modelled here but in Depth.v. *)
From Verif Require Import GoStr JsonStr.

(** [JNum l]: the number's text.  [JStr raw]: the text between the quotation
    marks, escapes unresolved, because Timestamp.UnmarshalJSON and the
    enumerations look at the raw text (data-types.go:450, artifact.go:94).
    Member names are decoded. *)
Inductive json :=
| JNull
| JBool (b : bool)
| JNum (lexeme : string)
| JStr (raw : string)
| JArr (l : list json)
| JObj (l : list (string * json)).

(** --- compact text, as json.Marshal writes it --- *)
Definition q (s : string) : string := (String qt (s ++ String qt ""))%string.
(** The text json.Marshal writes: no white space, members in the given order
    (encoding/json, encode.go; object.go:431, bundle.go:32). *)
Fixpoint print (j : json) : string :=
  match j with
  | JNull => "null"
  | JBool true => "true"
  | JBool false => "false"
  | JNum l => l
  | JStr raw => q raw
  | JArr l => ("[" ++ join "," (map print l) ++ "]")%string
  | JObj l => ("{" ++ join "," (map (fun kv => (q (quote (fst kv)) ++ ":" ++ print (snd kv))%string) l) ++ "}")%string
  end.

(** --- numbers --- *)
Definition is_digit (c : ascii) : bool := ((48 <=? bt c) && (bt c <=? 57))%N.
(** A byte that can be part of a number (encoding/json, scanner.go state functions). *)
Definition is_numch (c : ascii) : bool :=
  is_digit c || Ascii.eqb c "+" || Ascii.eqb c "-" || Ascii.eqb c "." || Ascii.eqb c "e" || Ascii.eqb c "E".

(** The longest run of digits (encoding/json, scanner.go state1, stateDot0,
    stateE0). *)
Fixpoint take_digits (s : string) : string * string :=
  match s with
  | String c s' => if is_digit c then let '(d, r) := take_digits s' in (String c d, r) else ("", s)
  | EmptyString => ("", s)
  end.

(** [lex_num l = Some (neg, int, frac, exp)]: [l] is a JSON number with that
    sign, integer digits, fraction digits and exponent (sign, digits). *)
Definition lex_exp (s : string) : option (bool * string) :=
  match s with
  | EmptyString => Some (false, "")
  | String c s1 =>
      if Ascii.eqb c "e" || Ascii.eqb c "E" then
        let '(neg, s2) := match s1 with
                          | String d s2 => if Ascii.eqb d "+" then (false, s2)
                                           else if Ascii.eqb d "-" then (true, s2) else (false, s1)
                          | EmptyString => (false, s1)
                          end in
        let '(ds, r) := take_digits s2 in
        if is_empty ds || negb (is_empty r) then None else Some (neg, ds)
      else None
  end.
(** The fraction, if there is one (encoding/json, scanner.go stateDot). *)
Definition lex_frac (s : string) : option (string * string) :=
  match s with
  | String c s1 =>
      if Ascii.eqb c "." then
        let '(ds, r) := take_digits s1 in if is_empty ds then None else Some (ds, r)
      else Some ("", s)
  | EmptyString => Some ("", s)
  end.
(** A whole number (encoding/json, scanner.go stateNeg to stateE0). *)
Definition lex_num (s : string) : option (bool * string * string * (bool * string)) :=
  let '(neg, s1) := match s with
                    | String c s1 => if Ascii.eqb c "-" then (true, s1) else (false, s)
                    | EmptyString => (false, s)
                    end in
  let '(ip, s2) := take_digits s1 in
  if is_empty ip || (match ip with String c (String _ _) => Ascii.eqb c "0" | _ => false end) then None
  else match lex_frac s2 with
       | None => None
       | Some (fp, s3) =>
           match lex_exp s3 with
           | None => None
           | Some ex => Some (neg, ip, fp, ex)
           end
       end.
(** The text is a JSON number (encoding/json, isValidNumber and scanner.go). *)
Definition num_ok (s : string) : bool := match lex_num s with Some _ => true | None => false end.

(** --- parser --- *)
Definition is_ws (c : ascii) : bool :=
  Ascii.eqb c " " || Ascii.eqb c "009" || Ascii.eqb c "010" || Ascii.eqb c "013".
(** Skips white space (encoding/json, scanner.go isSpace; the closing check of
    jsoncanonicalizer.go:370-375 uses the same bytes). *)
Fixpoint skip_ws (s : string) : string :=
  match s with
  | String c s' => if is_ws c then skip_ws s' else s
  | EmptyString => s
  end.

(** The longest run of bytes that can be part of a number.  What follows a
    number is none of these, so this is the token (scanner.go). *)
Fixpoint take_num (s : string) : string * string :=
  match s with
  | String c s' => if is_numch c then let '(d, r) := take_num s' in (String c d, r) else ("", s)
  | EmptyString => ("", s)
  end.

(** The raw text up to the closing quotation mark. *)
Fixpoint scan_str (s : string) : option (string * string) :=
  match s with
  | EmptyString => None
  | String c s1 =>
      if Ascii.eqb c qt then Some ("", s1)
      else if Ascii.eqb c bs then
        match s1 with
        | EmptyString => None
        | String d s2 =>
            match scan_str s2 with Some (x, r) => Some (String c (String d x), r) | None => None end
        end
      else match scan_str s1 with Some (x, r) => Some (String c x, r) | None => None end
  end.

(** The byte [c], then the rest (encoding/json, scanner.go stateEndValue,
    stateBeginStringOrEmpty). *)
Definition expect (c : ascii) (s : string) : option string :=
  match s with String d r => if Ascii.eqb c d then Some r else None | EmptyString => None end.

(** The rest of a literal (encoding/json, scanner.go stateN, stateT, stateF ...). *)
Fixpoint strip_prefix (p s : string) : option string :=
  match p with
  | EmptyString => Some s
  | String a p' =>
      match s with
      | String b s' => if Ascii.eqb a b then strip_prefix p' s' else None
      | EmptyString => None
      end
  end.

(** A value, the elements of an array, the members of an object (encoding/json,
    scanner.go; called by json.Unmarshal, stix.go:958, 968, 988, 1104).  [n] is
    fuel; ParseComplete shows that [fuel_for] is enough. *)
Fixpoint p_val (n : nat) (s : string) : option (json * string) :=
  match n with
  | O => None
  | S n' =>
      match skip_ws s with
      | EmptyString => None
      | String c r =>
          if Ascii.eqb c "{" then
            match expect "}" (skip_ws r) with
            | Some r' => Some (JObj [], r')
            | None => match p_mems n' r with Some (l, r') => Some (JObj l, r') | None => None end
            end
          else if Ascii.eqb c "[" then
            match expect "]" (skip_ws r) with
            | Some r' => Some (JArr [], r')
            | None => match p_elems n' r with Some (l, r') => Some (JArr l, r') | None => None end
            end
          else if Ascii.eqb c qt then
            match scan_str r with
            | Some (raw, r') => match unq raw with Some _ => Some (JStr raw, r') | None => None end
            | None => None
            end
          else if Ascii.eqb c "n" then
            match strip_prefix "ull" r with Some r' => Some (JNull, r') | None => None end
          else if Ascii.eqb c "t" then
            match strip_prefix "rue" r with Some r' => Some (JBool true, r') | None => None end
          else if Ascii.eqb c "f" then
            match strip_prefix "alse" r with Some r' => Some (JBool false, r') | None => None end
          else
            let '(l, r') := take_num (String c r) in
            if num_ok l then Some (JNum l, r') else None
      end
  end
with p_elems (n : nat) (s : string) : option (list json * string) :=
  match n with
  | O => None
  | S n' =>
      match p_val n' s with
      | None => None
      | Some (j, r) =>
          match skip_ws r with
          | EmptyString => None
          | String c r1 =>
              if Ascii.eqb c "]" then Some ([j], r1)
              else if Ascii.eqb c "," then
                match p_elems n' r1 with Some (l, r2) => Some (j :: l, r2) | None => None end
              else None
          end
      end
  end
with p_mems (n : nat) (s : string) : option (list (string * json) * string) :=
  match n with
  | O => None
  | S n' =>
      match expect qt (skip_ws s) with
      | None => None
      | Some r0 =>
          match scan_str r0 with
          | None => None
          | Some (raw, r1) =>
              match unq raw, expect ":" (skip_ws r1) with
              | Some k, Some r2 =>
                  match p_val n' r2 with
                  | None => None
                  | Some (j, r3) =>
                      match skip_ws r3 with
                      | EmptyString => None
                      | String c r4 =>
                          if Ascii.eqb c "}" then Some ([(k, j)], r4)
                          else if Ascii.eqb c "," then
                            match p_mems n' r4 with Some (l, r5) => Some ((k, j) :: l, r5) | None => None end
                          else None
                      end
                  end
              | _, _ => None
              end
          end
      end
  end.

(** Enough fuel for a text: every two calls read a byte. *)
Definition fuel_for (s : string) : nat := 2 * String.length s + 2.

(** The syntax check and tree of json.Unmarshal. *)
Definition parse_json (s : string) : option json :=
  match p_val (fuel_for s) s with
  | Some (j, r) => if is_empty (skip_ws r) then Some j else None
  | None => None
  end.

(** --- the JSON grammar (RFC 8259), independent of the parser --- *)
Definition ws (s : string) : Prop := forall c, In c (list_ascii_of_string s) -> is_ws c = true.

(** Values, and the insides of arrays and objects (RFC 8259, sections 3 to 7). *)
Inductive jval : json -> string -> Prop :=
| jv_null : jval JNull "null"
| jv_true : jval (JBool true) "true"
| jv_false : jval (JBool false) "false"
| jv_num l : num_ok l = true -> jval (JNum l) l
| jv_str raw x : unq raw = Some x -> jval (JStr raw) (q raw)
| jv_arr0 w : ws w -> jval (JArr []) (String "[" (w ++ "]"))
| jv_arr l s : jelems l s -> jval (JArr l) (String "[" (s ++ "]"))
| jv_obj0 w : ws w -> jval (JObj []) (String "{" (w ++ "}"))
| jv_obj l s : jmems l s -> jval (JObj l) (String "{" (s ++ "}"))
with jelems : list json -> string -> Prop :=
| je_one j w1 s w2 : ws w1 -> jval j s -> ws w2 -> jelems [j] (w1 ++ s ++ w2)
| je_cons j l w1 s w2 t : ws w1 -> jval j s -> ws w2 -> jelems l t ->
    jelems (j :: l) (w1 ++ s ++ w2 ++ String "," t)
with jmems : list (string * json) -> string -> Prop :=
| jm_one k raw j w1 w2 w3 s w4 : ws w1 -> unq raw = Some k -> ws w2 -> ws w3 -> jval j s -> ws w4 ->
    jmems [(k, j)] (w1 ++ q raw ++ w2 ++ String ":" (w3 ++ s ++ w4))
| jm_cons k raw j l w1 w2 w3 s w4 t : ws w1 -> unq raw = Some k -> ws w2 -> ws w3 -> jval j s -> ws w4 ->
    jmems l t -> jmems ((k, j) :: l) (w1 ++ q raw ++ w2 ++ String ":" (w3 ++ s ++ w4 ++ String "," t)).

(** [jtext j s]: the text [s] denotes the value [j]. *)
Definition jtext (j : json) (s : string) : Prop :=
  exists w1 t w2, ws w1 /\ ws w2 /\ jval j t /\ s = (w1 ++ t ++ w2)%string.

(** Values that json.Marshal can produce: number texts and string texts are
    lexically valid, names are UTF-8. *)
Fixpoint json_okb (j : json) : bool :=
  match j with
  | JNum l => num_ok l
  | JStr raw => match unq raw with Some _ => true | None => false end
  | JArr l => forallb json_okb l
  | JObj l => forallb (fun kv => utf8b (fst kv) && json_okb (snd kv)) l
  | _ => true
  end.
