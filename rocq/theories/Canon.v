(** The JSON canonicalizer: internal/jsoncanonicalizer/jsoncanonicalizer.go. *)
From Verif Require Import GoStr JsonStr Json Float NumFmt.
Local Open Scope N_scope.

(** --- Go's standard library --- *)
(** []rune(s): bytes that are no UTF-8 give U+FFFD *)
Fixpoint runes (s : string) : list N :=
  match s with
  | EmptyString => []
  | String a s1 =>
      if bt a <? 128 then bt a :: runes s1 else
      match s1 with
      | EmptyString => 65533 :: runes s1
      | String b s2 =>
          if ok2 a b then ((bt a - 192) * 64 + (bt b - 128)) :: runes s2 else
          match s2 with
          | EmptyString => 65533 :: runes s1
          | String c s3 =>
              if ok3 a b c then ((bt a - 224) * 4096 + (bt b - 128) * 64 + (bt c - 128)) :: runes s3 else
              match s3 with
              | EmptyString => 65533 :: runes s1
              | String d s4 =>
                  if ok4 a b c d then ((bt a - 240) * 262144 + (bt b - 128) * 4096 + (bt c - 128) * 64 + (bt d - 128)) :: runes s4
                  else 65533 :: runes s1
              end
          end
      end
  end.
(** utf16.Encode *)
Definition utf16_encode (l : list N) : list N :=
  flat_map (fun r =>
    if r <? 65536 then (if is_surr r then [65533] else [r])
    else if r <? 1114112 then [55296 + (r - 65536) / 1024; 56320 + (r - 65536) mod 1024]
    else [65533]) l.

(** --- the closures of Transform (jsoncanonicalizer.go:44-378) --- *)
(** The captured variables: the bytes before the index in reverse order, the
    bytes from the index on, globalError. *)
Record cst := CSt { c_pre : string; c_rest : string; c_err : option string }.

(** checkError and setError, lines 61-70.  Messages are not modelled exactly. *)
Definition set_err (msg : string) (s : cst) : cst :=
  CSt (c_pre s) (c_rest s) (match c_err s with None => Some msg | e => e end).
(** The test of nextChar for a byte above 127, lines 79-82. *)
Definition ascii_check (c : ascii) (e : option string) : option string :=
  match e with None => if 127 <? bt c then Some "Unexpected non-ASCII character" else None | _ => e end.

(** nextChar, lines 76-87 *)
Definition next_char (s : cst) : ascii * cst :=
  match c_rest s with
  | String c r => (c, CSt (String c (c_pre s)) r (ascii_check c (c_err s)))
  | EmptyString => (qt, set_err "Unexpected EOF reached" s)
  end.

(** scan, lines 89-97 *)
Fixpoint scan_from (pre rest : string) (e : option string) : ascii * cst :=
  match rest with
  | String c r =>
      if is_ws c then scan_from (String c pre) r (ascii_check c e) else (c, CSt (String c pre) r (ascii_check c e))
  | EmptyString => (qt, set_err "Unexpected EOF reached" (CSt pre rest e))
  end.
(** scan, lines 89-97, from the current index. *)
Definition scan (s : cst) : ascii * cst := scan_from (c_pre s) (c_rest s) (c_err s).
(** scanFor, lines 99-104 *)
Definition scan_for (expected : ascii) (s : cst) : cst :=
  let (c, s1) := scan s in if Ascii.eqb c expected then s1 else set_err "Expected another character" s1.
(** testNextNonWhiteSpaceChar, lines 120-125: the index is restored, the error
    is not. *)
Definition test_next (s : cst) : ascii * cst :=
  let (c, s1) := scan s in (c, CSt (c_pre s) (c_rest s) (c_err s1)).

(** getUEscape, lines 106-118 (strconv.ParseUint gives 0 on a syntax error) *)
Definition get_u (s : cst) : N * cst :=
  let (c1, s1) := next_char s in
  let (c2, s2) := next_char s1 in
  let (c3, s3) := next_char s2 in
  let (c4, s4) := next_char s3 in
  match c_err s4 with
  | Some _ => (0, s4)
  | None => match hex4 c1 c2 c3 c4 with Some v => (v, s4) | None => (0, set_err "invalid syntax" s4) end
  end.

(** asciiEscapes and binaryEscapes, lines 38-39 *)
Definition escape_table : list (ascii * ascii) :=
  [(bs, bs); (qt, qt); ("b"%char, ch 8); ("f"%char, ch 12); ("n"%char, ch 10); ("r"%char, ch 13); ("t"%char, ch 9)].
(** The search for an escape letter, lines 192-197. *)
Definition binary_of (e : ascii) : option ascii :=
  match find (fun p => Ascii.eqb (fst p) e) escape_table with Some (_, b) => Some b | None => None end.
(** The search for a byte to escape, lines 133-139. *)
Definition ascii_of_binary (b : ascii) : option ascii :=
  match find (fun p => Ascii.eqb (snd p) b) escape_table with Some (a, _) => Some a | None => None end.

(** decorateString, lines 127-149 *)
Definition dec_char (c : ascii) : string :=
  match ascii_of_binary c with
  | Some a => String bs (String a "")
  | None =>
      if bt c <? 32 then String bs (String "u" (String "0" (String "0" (String (hexc (bt c / 16)) (String (hexc (bt c mod 16)) "")))))
      else String c ""
  end.
(** The loop of decorateString, lines 131-146. *)
Fixpoint dec_chars (s : string) : string :=
  match s with EmptyString => "" | String c s' => dec_char c ++ dec_chars s' end.
(** decorateString, lines 127-149: the text between quotation marks. *)
Definition decorate (s : string) : string := q (dec_chars s).

(** Results of closures that loop: a value and the new state, an index out of
    range, or no fuel left. *)
Inductive out (A : Type) :=
| Done (a : A) (s : cst)
| Crash
| NoFuel.
Arguments Done {A}. Arguments Crash {A}. Arguments NoFuel {A}.
(** The rest of a closure after a call that may panic. *)
Definition obind {A B} (o : out A) (f : A -> cst -> out B) : out B :=
  match o with Done a s => f a s | Crash => Crash | NoFuel => NoFuel end.
(** A write to the string builder before the rest of the loop. *)
Definition oapp (p : string) (o : out string) : out string := obind o (fun a s => Done (p ++ a)%string s).

(** parseQuotedString, lines 151-210, after the opening quotation mark *)
Fixpoint quoted (n : nat) (s : cst) : out string :=
  match n with
  | O => NoFuel
  | S n' =>
      match c_err s with
      | Some _ => Done "" s
      | None =>
          match c_rest s with
          | EmptyString => Done "" (snd (next_char s))
          | String c r =>
              let s1 := CSt (String c (c_pre s)) r None in
              if Ascii.eqb c qt then Done "" s1
              else if bt c <? 32 then quoted n' (set_err "Unterminated string literal" s1)
              else if Ascii.eqb c bs then
                let (e, s2) := next_char s1 in
                if Ascii.eqb e "u" then
                  let (u, s3) := get_u s2 in
                  if is_surr u then
                    let (b1, s4) := next_char s3 in
                    if negb (Ascii.eqb b1 bs) then quoted n' (set_err "Missing surrogate" s4)
                    else
                      let (b2, s5) := next_char s4 in
                      if negb (Ascii.eqb b2 "u") then quoted n' (set_err "Missing surrogate" s5)
                      else
                        let (w, s6) := get_u s5 in
                        oapp (enc_rune (match dec_pair u w with Some r => r | None => 65533 end)) (quoted n' s6)
                  else oapp (enc_rune u) (quoted n' s3)
                else if Ascii.eqb e "/" then oapp "/" (quoted n' s2)
                else match binary_of e with
                     | Some b => oapp (String b "") (quoted n' s2)
                     | None => quoted n' (set_err "Unexpected escape" s2)
                     end
              else oapp (String c "") (quoted n' s1)
          end
      end
  end.
(** parseQuotedString, lines 151-210, with enough fuel: every iteration reads a
    byte or sets the error. *)
Definition parse_quoted (s : cst) : out string := quoted (S (S (String.length (c_rest s)))) s.

(** lexicographicallyPrecedes, lines 275-303: the result and whether the keys
    are equal (setError) *)
Fixpoint precedes (new old : list N) : bool * bool :=
  match new, old with
  | x :: new', y :: old' => if x <? y then (true, false) else if y <? x then (false, false) else precedes new' old'
  | [], [] => (false, true)
  | [], _ :: _ => (true, false)
  | _ :: _, [] => (false, false)
  end.
(** nameValueType, lines 31-35, and the insertion, lines 325-336.  The second
    result: a duplicate was seen. *)
Definition name_value : Type := (string * list N * string)%type.
(** The insertion before the first name that the new one precedes, lines
    325-336. *)
Fixpoint insert_nv (nv : name_value) (l : list name_value) : list name_value * bool :=
  match l with
  | [] => ([nv], false)
  | x :: l' =>
      let (p, dup) := precedes (snd (fst nv)) (snd (fst x)) in
      if p then (nv :: l, false)
      else let (r, d) := insert_nv nv l' in (x :: r, dup || d)
  end.
(** lines 349-352 *)
Definition write_nv (x : name_value) : string := (decorate (fst (fst x)) ++ ":" ++ snd x)%string.
(** The text of the sorted members, lines 341-355. *)
Definition write_object (l : list name_value) : string := ("{" ++ join "," (map write_nv l) ++ "}")%string.

Section Canon.
(** strconv.ParseFloat(s, 64): the number and whether err is nil *)
Variable pf : string -> flt * bool.

(** The loop of parseSimpleType, lines 215-225 *)
Fixpoint token (n : nat) (s : cst) : out string :=
  match n with
  | O => NoFuel
  | S n' =>
      match c_err s with
      | Some _ => Done "" s
      | None =>
          let (c, s1) := test_next s in
          if Ascii.eqb c "," || Ascii.eqb c "]" || Ascii.eqb c "}" then Done "" s1
          else
            let (d, s2) := next_char s1 in
            if is_ws d then Done "" s2 else oapp (String d "") (token n' s2)
      end
  end.
(** literals, line 42; the test for them, lines 231-235 *)
Definition literals : list string := ["true"; "false"; "null"].
(** parseSimpleType, lines 212-242; it steps back one byte first. *)
Definition simple (s : cst) : out string :=
  match c_pre s with
  | EmptyString => Crash
  | String c p =>
      let s0 := CSt p (String c (c_rest s)) (c_err s) in
      obind (token (S (S (String.length (c_rest s0)))) s0) (fun value s1 =>
        let s2 := if is_empty value then set_err "Missing argument" s1 else s1 in
        if mem_str value literals then Done value s2
        else
          let (f, ok) := pf value in
          let s3 := if ok then s2 else set_err "invalid number" s2 in
          match number_to_json f with
          | None => Crash
          | Some (t, ok') => Done t (if ok' then s3 else set_err "Invalid JSON number" s3)
          end)
  end.

(** parseElement, lines 244-255; parseArray, 257-273; parseObject, 305-356 *)
Fixpoint element (n : nat) (s : cst) : out string :=
  match n with
  | O => NoFuel
  | S n' =>
      let (c, s1) := scan s in
      if Ascii.eqb c "{" then obind (members n' false [] s1) (fun l s2 => Done (write_object l) s2)
      else if Ascii.eqb c qt then obind (parse_quoted s1) (fun x s2 => Done (decorate x) s2)
      else if Ascii.eqb c "[" then oapp "[" (elements n' false s1)
      else simple s1
  end
(** The loop of parseArray and what follows it; gives the text after '['. *)
with elements (n : nat) (next : bool) (s : cst) : out string :=
  match n with
  | O => NoFuel
  | S n' =>
      let finish s := Done "]" (snd (scan s)) in
      match c_err s with
      | Some _ => finish s
      | None =>
          let (c, s1) := test_next s in
          if Ascii.eqb c "]" then finish s1
          else
            let s2 := if next then scan_for "," s1 else s1 in
            obind (element n' s2) (fun x s3 =>
              oapp (if next then "," ++ x else x)%string (elements n' true s3))
      end
  end
(** The loop of parseObject and the scan of '}'; gives the sorted list. *)
with members (n : nat) (next : bool) (l : list name_value) (s : cst) : out (list name_value) :=
  match n with
  | O => NoFuel
  | S n' =>
      let finish s := Done l (snd (scan s)) in
      match c_err s with
      | Some _ => finish s
      | None =>
          let (c, s1) := test_next s in
          if Ascii.eqb c "}" then finish s1
          else
            let s2 := if next then scan_for "," s1 else s1 in
            let s3 := scan_for qt s2 in
            obind (parse_quoted s3) (fun name s4 =>
              match c_err s4 with
              | Some _ => finish s4
              | None =>
                  let key := utf16_encode (runes name) in
                  let s5 := scan_for ":" s4 in
                  obind (element n' s5) (fun v s6 =>
                    let (l', dup) := insert_nv (name, key, v) l in
                    members n' true l' (if dup then set_err "Duplicate key" s6 else s6))
              end)
      end
  end.

(** Transform itself, lines 361-377 *)
Definition transform_run (n : nat) (data : string) : out string :=
  let s := CSt "" data None in
  let (c, s1) := test_next s in
  obind (if Ascii.eqb c "[" then oapp "[" (elements n false (snd (scan s1)))
         else obind (members n false [] (scan_for "{" s1)) (fun l s2 => Done (write_object l) s2)) (fun t s2 =>
  Done t (if is_empty (skip_ws (c_rest s2)) then s2 else set_err "Improperly terminated JSON object" s2)).
(** Transform, lines 44-378, with fuel that is enough (CanonTotal.v). *)
Definition transform (data : string) : res string :=
  match transform_run (2 * String.length data + 3) data with
  | Done t s => match c_err s with None => Ok t | Some e => Err e end
  | Crash => Panic
  | NoFuel => Panic
  end.
End Canon.
