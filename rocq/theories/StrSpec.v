(** Specification only (models no code): UTF-8 by RFC 3629 and the characters
    the text of a JSON string (RFC 8259) stands for. *)
From Verif Require Import GoStr.
Local Open Scope N_scope.

Definition code (c : ascii) : N := N_of_ascii c.
Definition surrogate (n : N) : Prop := 55296 <= n <= 57343.

(** [utf8_char w n]: the bytes [w] are the encoding of the character [n]. *)
Inductive utf8_char : string -> N -> Prop :=
| u8_1 a : code a < 128 -> utf8_char (String a "") (code a)
| u8_2 a b x y n : code a = 192 + x -> code b = 128 + y -> x < 32 -> y < 64 ->
    n = x * 64 + y -> 128 <= n -> utf8_char (String a (String b "")) n
| u8_3 a b c x y z n : code a = 224 + x -> code b = 128 + y -> code c = 128 + z -> x < 16 -> y < 64 -> z < 64 ->
    n = x * 4096 + y * 64 + z -> 2048 <= n -> ~ surrogate n -> utf8_char (String a (String b (String c ""))) n
| u8_4 a b c d x y z w n : code a = 240 + x -> code b = 128 + y -> code c = 128 + z -> code d = 128 + w -> x < 8 -> y < 64 -> z < 64 -> w < 64 ->
    n = x * 262144 + y * 4096 + z * 64 + w -> 65536 <= n <= 1114111 -> utf8_char (String a (String b (String c (String d "")))) n.
(** A string and its characters. *)
Inductive utf8_string : string -> list N -> Prop :=
| u8_nil : utf8_string "" []
| u8_cons w n s l : utf8_char w n -> utf8_string s l -> utf8_string (w ++ s) (n :: l).

Definition replacement : N := 65533.
(** The characters of any byte string: bytes that start no character count as
    the replacement character. *)
Inductive byte_chars : string -> list N -> Prop :=
| bc_nil : byte_chars "" []
| bc_char w n s l : utf8_char w n -> byte_chars s l -> byte_chars (w ++ s) (n :: l)
| bc_byte a s l : (forall w n r, utf8_char w n -> String a s <> (w ++ r)%string) -> byte_chars s l -> byte_chars (String a s) (replacement :: l).

(** Hexadecimal digits in lower or upper case. *)
Definition hex_digit (c : ascii) (n : N) : Prop :=
  nth_error (list_ascii_of_string "0123456789abcdef") (N.to_nat n) = Some c \/
  nth_error (list_ascii_of_string "0123456789ABCDEF") (N.to_nat n) = Some c.
Definition hex_text (s : string) (n : N) : Prop :=
  exists a b c d x y z w, s = String a (String b (String c (String d ""))) /\
    hex_digit a x /\ hex_digit b y /\ hex_digit c z /\ hex_digit d w /\ n = x * 4096 + y * 256 + z * 16 + w.

Definition backslash : ascii := "092"%char.
Definition short_escapes : list (ascii * N) :=
  [("b", 8); ("f", 12); ("n", 10); ("r", 13); ("t", 9); ("092", 92); ("/", 47); ("034", 34)]%char.
(** \uXXXX *)
Definition u_escape (h : string) : string := String backslash (String "u" h).

(** [str_text raw l]: the text [raw] between quotation marks stands for the
    characters [l].  Bytes that start no UTF-8 character and surrogates without
    partner stand for the replacement character. *)
Inductive str_text : string -> list N -> Prop :=
| st_nil : str_text "" []
| st_char w n r l : utf8_char w n -> 32 <= n -> n <> 34 -> n <> 92 -> str_text r l -> str_text (w ++ r) (n :: l)
| st_byte a r l : 128 <= code a -> (forall w n r', utf8_char w n -> String a r <> (w ++ r')%string) ->
    str_text r l -> str_text (String a r) (replacement :: l)
| st_escape e n r l : In (e, n) short_escapes -> str_text r l -> str_text (String backslash (String e r)) (n :: l)
| st_u h n r l : hex_text h n -> ~ surrogate n -> str_text r l -> str_text (u_escape h ++ r) (n :: l)
| st_pair h hi h' lo r l : hex_text h hi -> 55296 <= hi <= 56319 -> hex_text h' lo -> 56320 <= lo <= 57343 ->
    str_text r l -> str_text (u_escape h ++ u_escape h' ++ r) (65536 + (hi - 55296) * 1024 + (lo - 56320) :: l)
| st_lone h n r l : hex_text h n -> surrogate n ->
    (forall h' lo r', n <= 56319 -> hex_text h' lo -> 56320 <= lo <= 57343 -> r <> (u_escape h' ++ r')%string) ->
    str_text r l -> str_text (u_escape h ++ r) (replacement :: l).

(** The text [raw] between quotation marks stands for the string [s]. *)
Definition str_means (raw s : string) : Prop := exists l, str_text raw l /\ utf8_string s l.

(** Text free of control characters, of < > & and of the line and paragraph
    separators: fit for HTML and JavaScript. *)
Definition safe_char (n : N) : Prop := 32 <= n /\ ~ In n [38; 60; 62; 8232; 8233].
Definition safe_text (s : string) : Prop := exists l, utf8_string s l /\ Forall safe_char l.
