(** encoding/base64 StdEncoding, used by Binary (data-types.go:19-37) through
    encoding/json's treatment of []byte, and by Artifact. *)
From Verif Require Import GoStr.

(** encodeStd (encoding/base64; data-types.go:23, 28, 36) *)
Definition b64_alphabet : string := "ABCDEFGHIJKLMNOPQRSTUVWXYZabcdefghijklmnopqrstuvwxyz0123456789+/".

(** enc.encode[n] (encoding/base64, Encode; data-types.go:23, 36) *)
Definition b64_char (n : N) : ascii :=
  match String.get (N.to_nat n) b64_alphabet with Some c => c | None => "="%char end.

(** decodeMap of the Go package; None for 0xff. *)
Definition b64_val (c : ascii) : option N :=
  let n := N_of_ascii c in
  if ((65 <=? n) && (n <=? 90))%N then Some (n - 65)%N
  else if ((97 <=? n) && (n <=? 122))%N then Some (n - 71)%N
  else if ((48 <=? n) && (n <=? 57))%N then Some (n + 4)%N
  else if (n =? 43)%N then Some 62%N
  else if (n =? 47)%N then Some 63%N
  else None.

(** StdEncoding.EncodeToString (base64.go Encode): groups of three bytes, '='
    padding. *)
Fixpoint b64_encode (s : string) : string :=
  match s with
  | EmptyString => EmptyString
  | String a EmptyString =>
      let x := N_of_ascii a in
      String (b64_char (x / 4)) (String (b64_char (x mod 4 * 16)) "==")
  | String a (String b EmptyString) =>
      let x := N_of_ascii a in let y := N_of_ascii b in
      String (b64_char (x / 4)) (String (b64_char (x mod 4 * 16 + y / 16))
        (String (b64_char (y mod 16 * 4)) "="))
  | String a (String b (String c s')) =>
      let x := N_of_ascii a in let y := N_of_ascii b in let z := N_of_ascii c in
      String (b64_char (x / 4)) (String (b64_char (x mod 4 * 16 + y / 16))
        (String (b64_char (y mod 16 * 4 + z / 64)) (String (b64_char (z mod 64)) (b64_encode s'))))
  end%N.

(** '\r' and '\n' are skipped by the decoder (decodeQuantum). *)
Definition is_nl (c : ascii) : bool := Ascii.eqb c "010"%char || Ascii.eqb c "013"%char.
(** The text without the bytes the decoder skips (encoding/base64,
    decodeQuantum; data-types.go:28). *)
Fixpoint strip_nl (s : string) : string :=
  match s with
  | EmptyString => EmptyString
  | String c s' => if is_nl c then strip_nl s' else String c (strip_nl s')
  end.

(** StdPadding (encoding/base64; data-types.go:23, 28, 36) *)
Definition pad : ascii := "="%char.

(** StdEncoding.Decode on text without line breaks: quanta of four characters;
    padding only in the last one, nothing after it; not strict, so the spare
    bits of a padded quantum are ignored. *)
Fixpoint b64_quanta (s : string) : option string :=
  match s with
  | EmptyString => Some EmptyString
  | String a (String b (String c (String d s'))) =>
      match b64_val a, b64_val b with
      | Some x, Some y =>
          match b64_val c, b64_val d with
          | Some z, Some w =>
              match b64_quanta s' with
              | Some r => Some (String (ascii_of_N (x * 4 + y / 16))
                            (String (ascii_of_N (y mod 16 * 16 + z / 4))
                              (String (ascii_of_N (z mod 4 * 64 + w)) r)))
              | None => None
              end
          | Some z, None =>
              if Ascii.eqb d pad && is_empty s'
              then Some (String (ascii_of_N (x * 4 + y / 16)) (String (ascii_of_N (y mod 16 * 16 + z / 4)) ""))
              else None
          | None, _ =>
              if Ascii.eqb c pad && Ascii.eqb d pad && is_empty s'
              then Some (String (ascii_of_N (x * 4 + y / 16)) "")
              else None
          end
      | _, _ => None
      end
  | _ => None
  end%N.

(** StdEncoding.Decode, called by encoding/json for a []byte (data-types.go:28). *)
Definition b64_decode (s : string) : option string := b64_quanta (strip_nl s).
