(** github.com/google/uuid v1.3.0 (go.mod of /repo), as used by data-types.go.
    A UUID is a 16 byte string. *)
From Verif Require Import GoStr.

(** A digit of the hex text, lower case; the alphabet of encoding/hex, used by
    uuid.encodeHex (data-types.go:207, 213 print a UUID). *)
Definition hexdigit (n : N) : ascii :=
  if (n <? 10)%N then ascii_of_N (48 + n) else ascii_of_N (87 + n).

(** b >> 4 (encoding/hex.Encode, called by uuid.encodeHex; data-types.go:207, 213) *)
Definition hi (b : ascii) : N := (N_of_ascii b / 16)%N.
(** b & 0x0f (encoding/hex.Encode, called by uuid.encodeHex; data-types.go:207, 213) *)
Definition lo (b : ascii) : N := (N_of_ascii b mod 16)%N.

(** xvalues table of the uuid package: value of a hex digit, either case. *)
Definition hexval (c : ascii) : option N :=
  let n := N_of_ascii c in
  if ((48 <=? n) && (n <=? 57))%N then Some (n - 48)%N
  else if ((97 <=? n) && (n <=? 102))%N then Some (n - 87)%N
  else if ((65 <=? n) && (n <=? 70))%N then Some (n - 55)%N
  else None.

(** xtob *)
Definition xtob (c1 c2 : ascii) : option ascii :=
  match hexval c1, hexval c2 with
  | Some a, Some b => Some (ascii_of_N (16 * a + b))
  | _, _ => None
  end.

(** Reads [n] hex encoded bytes and returns them with the rest of the text. *)
Fixpoint hexbytes (n : nat) (s : string) : option (string * string) :=
  match n with
  | O => Some (EmptyString, s)
  | S n' =>
      match s with
      | String c1 (String c2 s') =>
          match xtob c1 c2, hexbytes n' s' with
          | Some b, Some (bs, r) => Some (String b bs, r)
          | _, _ => None
          end
      | _ => None
      end
  end.

(** s[8] != '-' and the like in uuid.Parse (data-types.go:193, 223). *)
Definition skip_dash (s : string) : option string :=
  match s with
  | String c s' => if Ascii.eqb c dash then Some s' else None
  | EmptyString => None
  end.

(** xxxxxxxx-xxxx-xxxx-xxxx-xxxxxxxxxxxx; bytes after the 36th are not looked at
    (they exist only in the braced form). *)
Definition parse_dashed (s : string) : option string :=
  match hexbytes 4 s with
  | None => None
  | Some (a, s) =>
    match skip_dash s with
    | None => None
    | Some s =>
      match hexbytes 2 s with
      | None => None
      | Some (b, s) =>
        match skip_dash s with
        | None => None
        | Some s =>
          match hexbytes 2 s with
          | None => None
          | Some (c, s) =>
            match skip_dash s with
            | None => None
            | Some s =>
              match hexbytes 2 s with
              | None => None
              | Some (d, s) =>
                match skip_dash s with
                | None => None
                | Some s =>
                  match hexbytes 6 s with
                  | None => None
                  | Some (e, _) => Some (a ++ b ++ c ++ d ++ e)%string
                  end
                end
              end
            end
          end
        end
      end
    end
  end.

(** strings.ToLower on an ASCII byte, for the URN prefix in uuid.Parse
    (data-types.go:193, 223). *)
Definition ascii_lower (c : ascii) : ascii :=
  let n := N_of_ascii c in
  if ((65 <=? n) && (n <=? 90))%N then ascii_of_N (n + 32) else c.

(** strings.ToLower, for the URN prefix in uuid.Parse (data-types.go:193, 223). *)
Fixpoint to_lower (s : string) : string :=
  match s with
  | EmptyString => EmptyString
  | String c s' => String (ascii_lower c) (to_lower s')
  end.

(** s[n:]; uuid.Parse slices its argument this way (data-types.go:193, 223). *)
Fixpoint str_drop (n : nat) (s : string) : string :=
  match n, s with
  | O, _ => s
  | S n', String _ s' => str_drop n' s'
  | S _, EmptyString => EmptyString
  end.

(** s[:n]; uuid.Parse and uuid.NewHash slice this way (data-types.go:193, 212, 223). *)
Fixpoint str_take (n : nat) (s : string) : string :=
  match n, s with
  | O, _ => EmptyString
  | S n', String c s' => String c (str_take n' s')
  | S _, EmptyString => EmptyString
  end.

(** uuid.Parse.  Lengths 36, 45 (urn:uuid:), 38 (braces, outer bytes not
    checked) and 32. strings.ToLower on the 9 byte URN prefix is modelled by
    ASCII lower casing (no non-ASCII rune lower-cases to this 9 byte text). *)
Definition uuid_parse (s : string) : option string :=
  match String.length s with
  | 36 => parse_dashed s
  | 45 => if String.eqb (to_lower (str_take 9 s)) "urn:uuid:"
          then parse_dashed (str_drop 9 s) else None
  | 38 => parse_dashed (str_drop 1 s)
  | 32 => match hexbytes 16 s with Some (b, _) => Some b | None => None end
  | _ => None
  end.

(** hex encoding of bytes, lower case (uuid.encodeHex). *)
Fixpoint hex_encode (s : string) : string :=
  match s with
  | EmptyString => EmptyString
  | String b s' => String (hexdigit (hi b)) (String (hexdigit (lo b)) (hex_encode s'))
  end.

(** UUID.String *)
Definition uuid_string (u : string) : string :=
  (hex_encode (str_take 4 u) ++ "-" ++
   hex_encode (str_take 2 (str_drop 4 u)) ++ "-" ++
   hex_encode (str_take 2 (str_drop 6 u)) ++ "-" ++
   hex_encode (str_take 2 (str_drop 8 u)) ++ "-" ++
   hex_encode (str_drop 10 u))%string.

(** b[n] = f(b[n]); uuid.New and uuid.NewSHA1 set two bytes (data-types.go:206, 212). *)
Fixpoint str_set (n : nat) (f : ascii -> ascii) (s : string) : string :=
  match n, s with
  | O, String c s' => String (f c) s'
  | S n', String c s' => String c (str_set n' f s')
  | _, EmptyString => EmptyString
  end.

(** uuid[6] = (uuid[6] & 0x0f) | (v << 4) ; uuid[8] = (uuid[8] & 0x3f) | 0x80
    (uuid.NewRandomFromReader and uuid.NewHash). *)
Definition set_version (v : N) (c : ascii) : ascii :=
  ascii_of_N (N_of_ascii c mod 16 + 16 * v).
(** uuid[8] = (uuid[8] & 0x3f) | 0x80 (data-types.go:206, 212) *)
Definition set_variant (c : ascii) : ascii :=
  ascii_of_N (N_of_ascii c mod 64 + 128).
(** Both assignments, in uuid.New and uuid.NewSHA1 (data-types.go:206, 212). *)
Definition stamp (v : N) (u : string) : string :=
  str_set 8 set_variant (str_set 6 (set_version v) u).

(** uuid.New() on the 16 random bytes [r]. *)
Definition uuid_v4 (r : string) : string := stamp 4 r.

(** Version and variant fields of a UUID. *)
Definition nth_byte (n : nat) (u : string) : N :=
  match String.get n u with Some c => N_of_ascii c | None => 0%N end.
(** Specification: the version field (RFC 4122, 4.1.3). *)
Definition uuid_version (u : string) : N := (nth_byte 6 u / 16)%N.
(** Specification: the variant field (RFC 4122, 4.1.1). *)
Definition uuid_variant (u : string) : N := (nth_byte 8 u / 64)%N.
