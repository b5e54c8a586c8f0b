(** JSON strings as encoding/json reads and writes them.
    Every string of /repo's objects is written by appendString/encodeString with
    escapeHTML = true (json.Marshal default) and read by unquoteBytes
    (encoding/json/encode.go, decode.go). The functions work on the text
    between the quotation marks. *)
From Verif Require Import GoStr.
Local Open Scope N_scope.

(** A byte as a number. *)
Definition bt (c : ascii) : N := N_of_ascii c.
(** A continuation byte, 10xxxxxx (utf8.DecodeRune, called by encoding/json when
    it reads and writes strings; stix.go:958, object.go:431). *)
Definition is_cont (c : ascii) : bool := (128 <=? bt c) && (bt c <=? 191).

(** Well formed multi byte UTF-8 sequences (utf8.DecodeRune, table of first
    bytes and accept ranges). *)
Definition ok2 (a b : ascii) : bool := (194 <=? bt a) && (bt a <=? 223) && is_cont b.
(** Three byte sequences: no overlong forms, no surrogates (utf8.DecodeRune). *)
Definition ok3 (a b c : ascii) : bool :=
  is_cont c &&
  (((bt a =? 224) && (160 <=? bt b) && (bt b <=? 191)) ||
   ((225 <=? bt a) && (bt a <=? 236) && is_cont b) ||
   ((bt a =? 237) && (128 <=? bt b) && (bt b <=? 159)) ||
   ((238 <=? bt a) && (bt a <=? 239) && is_cont b)).
(** Four byte sequences: no overlong forms, nothing above U+10FFFF
    (utf8.DecodeRune). *)
Definition ok4 (a b c d : ascii) : bool :=
  is_cont c && is_cont d &&
  (((bt a =? 240) && (144 <=? bt b) && (bt b <=? 191)) ||
   ((241 <=? bt a) && (bt a <=? 243) && is_cont b) ||
   ((bt a =? 244) && (128 <=? bt b) && (bt b <=? 143))).

(** Specification: the string is well formed UTF-8. *)
Inductive utf8 : string -> Prop :=
| utf8_nil : utf8 ""
| utf8_1 a s : (bt a < 128)%N -> utf8 s -> utf8 (String a s)
| utf8_2 a b s : ok2 a b = true -> utf8 s -> utf8 (String a (String b s))
| utf8_3 a b c s : ok3 a b c = true -> utf8 s -> utf8 (String a (String b (String c s)))
| utf8_4 a b c d s : ok4 a b c d = true -> utf8 s -> utf8 (String a (String b (String c (String d s)))).

(** utf8.ValidString *)
Fixpoint utf8b (s : string) : bool :=
  match s with
  | EmptyString => true
  | String a s1 =>
      if bt a <? 128 then utf8b s1 else
      match s1 with
      | EmptyString => false
      | String b s2 =>
          if ok2 a b then utf8b s2 else
          match s2 with
          | EmptyString => false
          | String c s3 =>
              if ok3 a b c then utf8b s3 else
              match s3 with
              | EmptyString => false
              | String d s4 => if ok4 a b c d then utf8b s4 else false
              end
          end
      end
  end.

(** utf8.EncodeRune of a code point (of an invalid one: U+FFFD). *)
Definition ch (n : N) : ascii := ascii_of_N n.
(** utf8.EncodeRune, called by unquoteBytes (encoding/json, decode.go) and by
    jsoncanonicalizer.go:151-210 through strings.Builder.WriteRune. *)
Definition enc_rune (r : N) : string :=
  if r <? 128 then String (ch r) ""
  else if r <? 2048 then String (ch (192 + r / 64)) (String (ch (128 + r mod 64)) "")
  else if ((55296 <=? r) && (r <=? 57343)) || (1114112 <=? r) then
    String (ch 239) (String (ch 191) (String (ch 189) ""))
  else if r <? 65536 then
    String (ch (224 + r / 4096)) (String (ch (128 + r / 64 mod 64)) (String (ch (128 + r mod 64)) ""))
  else String (ch (240 + r / 262144)) (String (ch (128 + r / 4096 mod 64))
         (String (ch (128 + r / 64 mod 64)) (String (ch (128 + r mod 64)) ""))).
(** U+FFFD in UTF-8, utf8.RuneError (encoding/json, unquoteBytes). *)
Definition repl : string := String (ch 239) (String (ch 191) (String (ch 189) "")).

(** The hex digits used by the encoder. *)
Definition hexc (n : N) : ascii := if n <? 10 then ch (48 + n) else ch (87 + n).
(** The backslash. *)
Definition bs : ascii := "092"%char.
(** The quotation mark. *)
Definition qt : ascii := "034"%char.

(** appendString for a byte below 0x80, escapeHTML = true
    (Go <= 1.21: \b and \f are written \u0008 and \u000c). *)
Definition esc_ascii (c : ascii) : string :=
  let n := bt c in
  if Ascii.eqb c bs || Ascii.eqb c qt then String bs (String c "")
  else if n =? 10 then String bs "n"
  else if n =? 13 then String bs "r"
  else if n =? 9 then String bs "t"
  else if (n <? 32) || (n =? 60) || (n =? 62) || (n =? 38) then
    String bs (String "u" (String "0" (String "0" (String (hexc (n / 16)) (String (hexc (n mod 16)) "")))))
  else String c "".

(** What appendString writes for a byte that is not UTF-8 (encoding/json,
    encode.go). *)
Definition esc_fffd : string := String bs "ufffd".

(** U+2028 and U+2029 are escaped. *)
Definition esc3 (a b c : ascii) : string :=
  if (bt a =? 226) && (bt b =? 128) && ((bt c =? 168) || (bt c =? 169))
  then String bs (String "u" (String "2" (String "0" (String "2" (String (hexc (bt c mod 16)) "")))))
  else String a (String b (String c "")).

(** encoding/json appendString *)
Fixpoint quote (s : string) : string :=
  match s with
  | EmptyString => EmptyString
  | String a s1 =>
      if bt a <? 128 then (esc_ascii a ++ quote s1)%string else
      match s1 with
      | EmptyString => (esc_fffd ++ quote s1)%string
      | String b s2 =>
          if ok2 a b then String a (String b (quote s2)) else
          match s2 with
          | EmptyString => (esc_fffd ++ quote s1)%string
          | String c s3 =>
              if ok3 a b c then (esc3 a b c ++ quote s3)%string else
              match s3 with
              | EmptyString => (esc_fffd ++ quote s1)%string
              | String d s4 =>
                  if ok4 a b c d then String a (String b (String c (String d (quote s4))))
                  else (esc_fffd ++ quote s1)%string
              end
          end
      end
  end.

(** The value of a hex digit (encoding/json, getu4; strconv.ParseUint in
    jsoncanonicalizer.go:115). *)
Definition hexval (c : ascii) : option N :=
  let n := bt c in
  if (48 <=? n) && (n <=? 57) then Some (n - 48)
  else if (97 <=? n) && (n <=? 102) then Some (n - 87)
  else if (65 <=? n) && (n <=? 70) then Some (n - 55)
  else None.
(** getu4 *)
Definition hex4 (a b c d : ascii) : option N :=
  match hexval a, hexval b, hexval c, hexval d with
  | Some x, Some y, Some z, Some w => Some (((x * 16 + y) * 16 + z) * 16 + w)
  | _, _, _, _ => None
  end.

(** utf16.IsSurrogate (encoding/json, unquoteBytes; jsoncanonicalizer.go:174) *)
Definition is_surr (r : N) : bool := (55296 <=? r) && (r <? 57344).
(** utf16.DecodeRune *)
Definition dec_pair (r1 r2 : N) : option N :=
  if (55296 <=? r1) && (r1 <? 56320) && (56320 <=? r2) && (r2 <? 57344)
  then Some ((r1 - 55296) * 1024 + (r2 - 56320) + 65536) else None.

(** Puts a decoded piece in front of the rest (b[w] = ... in unquoteBytes). *)
Definition app_opt (p : string) (r : option string) : option string :=
  match r with Some s => Some (p ++ s)%string | None => None end.

(** Single character escapes accepted by the scanner: b f n r t \ / and the
    quotation mark. *)
Definition esc1 (e : ascii) : option ascii :=
  let n := bt e in
  if n =? 98 then Some (ch 8) else if n =? 102 then Some (ch 12)
  else if n =? 110 then Some (ch 10) else if n =? 114 then Some (ch 13)
  else if n =? 116 then Some (ch 9)
  else if (n =? 92) || (n =? 47) || (n =? 34) then Some e else None.

(** unquoteBytes on a literal the scanner accepted; None when the scanner
    would have rejected it. *)
Fixpoint unq (s : string) : option string :=
  match s with
  | EmptyString => Some EmptyString
  | String a s1 =>
      if Ascii.eqb a bs then
        match s1 with
        | EmptyString => None
        | String e s2 =>
            if bt e =? 117 then
              match s2 with
              | String h1 (String h2 (String h3 (String h4 r))) =>
                  match hex4 h1 h2 h3 h4 with
                  | None => None
                  | Some v =>
                      if is_surr v then
                        match r with
                        | String b1 (String b2 (String g1 (String g2 (String g3 (String g4 r'))))) =>
                            if Ascii.eqb b1 bs && (bt b2 =? 117) then
                              match hex4 g1 g2 g3 g4 with
                              | Some w =>
                                  match dec_pair v w with
                                  | Some cp => app_opt (enc_rune cp) (unq r')
                                  | None => app_opt repl (unq r)
                                  end
                              | None => app_opt repl (unq r)
                              end
                            else app_opt repl (unq r)
                        | _ => app_opt repl (unq r)
                        end
                      else app_opt (enc_rune v) (unq r)
                  end
              | _ => None
              end
            else match esc1 e with
                 | Some x => app_opt (String x "") (unq s2)
                 | None => None
                 end
        end
      else if (bt a <? 32) || Ascii.eqb a qt then None
      else if bt a <? 128 then app_opt (String a "") (unq s1)
      else
      match s1 with
      | EmptyString => app_opt repl (unq s1)
      | String b s2 =>
          if ok2 a b then app_opt (String a (String b "")) (unq s2) else
          match s2 with
          | EmptyString => app_opt repl (unq s1)
          | String c s3 =>
              if ok3 a b c then app_opt (String a (String b (String c ""))) (unq s3) else
              match s3 with
              | EmptyString => app_opt repl (unq s1)
              | String d s4 =>
                  if ok4 a b c d then app_opt (String a (String b (String c (String d "")))) (unq s4)
                  else app_opt repl (unq s1)
              end
          end
      end
  end.
