(** crypto/sha1 as used by uuid.NewSHA1 (data-types.go:212). *)
From Verif Require Import GoStr Uuid.
Local Open Scope N_scope.

(** 2^32, the modulus of uint32.  All of this file models crypto/sha1 as called
    by uuid.NewSHA1 (data-types.go:212). *)
Definition w32 : N := 4294967296.
(** bits.RotateLeft32(x, k) (crypto/sha1, block; data-types.go:212) *)
Definition rotl (k : N) (x : N) : N :=
  N.lor (N.shiftl x k mod w32) (N.shiftr x (32 - k)).
(** uint32 addition (crypto/sha1, block; data-types.go:212) *)
Definition add32 (a b : N) : N := (a + b) mod w32.
(** ^a on uint32 (crypto/sha1, block; data-types.go:212) *)
Definition not32 (a : N) : N := N.lxor a 4294967295.

(** Big endian words of a byte list; the length is a multiple of 4. *)
Fixpoint words (l : list N) : list N :=
  match l with
  | a :: b :: c :: d :: l' => (a * 16777216 + b * 65536 + c * 256 + d) :: words l'
  | _ => []
  end.

(** putUint32 (crypto/sha1, checkSum; data-types.go:212) *)
Definition be4 (x : N) : list N :=
  [x / 16777216 mod 256; x / 65536 mod 256; x / 256 mod 256; x mod 256].

(** The zero bytes of the padding (crypto/sha1, checkSum; data-types.go:212). *)
Fixpoint zeros (n : nat) : list N := match n with O => [] | S n' => 0 :: zeros n' end.

(** FIPS 180-4 padding. *)
Definition sha1_pad (l : list N) : list N :=
  let len := N.of_nat (length l) in
  let k := (119 - len mod 64) mod 64 in
  let bits := (8 * len) mod 18446744073709551616 in
  l ++ 128 :: zeros (N.to_nat k) ++ be4 (bits / w32) ++ be4 (bits mod w32).

(** Message schedule; [acc] is reversed (last word first). *)
Fixpoint schedule (n : nat) (acc : list N) : list N :=
  match n with
  | O => rev acc
  | S n' =>
      let x := N.lxor (N.lxor (nth 2 acc 0) (nth 7 acc 0)) (N.lxor (nth 13 acc 0) (nth 15 acc 0)) in
      schedule n' (rotl 1 x :: acc)
  end.

(** The five words of the state (crypto/sha1, digest.h; data-types.go:212). *)
Record st5 := St5 { sA : N; sB : N; sC : N; sD : N; sE : N }.
(** init0 ... init4 (crypto/sha1, Reset; data-types.go:212) *)
Definition sha1_init : st5 := St5 1732584193 4023233417 2562383102 271733878 3285377520.

(** The function of round [t] (crypto/sha1, blockGeneric; data-types.go:212). *)
Definition round_f (t : N) (b c d : N) : N :=
  if t <? 20 then N.lor (N.land b c) (N.land (not32 b) d)
  else if t <? 40 then N.lxor b (N.lxor c d)
  else if t <? 60 then N.lor (N.lor (N.land b c) (N.land b d)) (N.land c d)
  else N.lxor b (N.lxor c d).
(** The constant of round [t] (crypto/sha1, _K0 ... _K3; data-types.go:212). *)
Definition round_k (t : N) : N :=
  if t <? 20 then 1518500249 else if t <? 40 then 1859775393
  else if t <? 60 then 2400959708 else 3395469782.

(** The rounds from [t] on, one word of the schedule each (crypto/sha1,
    blockGeneric; data-types.go:212). *)
Fixpoint rounds (t : N) (ws : list N) (s : st5) : st5 :=
  match ws with
  | [] => s
  | w :: ws' =>
      let tmp := add32 (add32 (add32 (rotl 5 (sA s)) (round_f t (sB s) (sC s) (sD s))) (add32 (sE s) (round_k t))) w in
      rounds (t + 1) ws' (St5 tmp (sA s) (rotl 30 (sB s)) (sC s) (sD s))
  end.

(** One block: the rounds, then the sum with the old state (crypto/sha1,
    blockGeneric; data-types.go:212). *)
Definition block (s : st5) (ws : list N) : st5 :=
  let r := rounds 0 (schedule 64 (rev ws)) s in
  St5 (add32 (sA s) (sA r)) (add32 (sB s) (sB r)) (add32 (sC s) (sC r))
      (add32 (sD s) (sD r)) (add32 (sE s) (sE r)).

(** Processes the words 16 at a time; [n] is the number of blocks. *)
Fixpoint blocks (n : nat) (ws : list N) (s : st5) : st5 :=
  match n with
  | O => s
  | S n' => blocks n' (skipn 16 ws) (block s (firstn 16 ws))
  end.

(** sha1.Sum on byte values (crypto/sha1; data-types.go:212). *)
Definition sha1_bytes (l : list N) : list N :=
  let p := sha1_pad l in
  let s := blocks (Nat.div (length p) 64) (words p) sha1_init in
  be4 (sA s) ++ be4 (sB s) ++ be4 (sC s) ++ be4 (sD s) ++ be4 (sE s).

(** sha1.Sum (crypto/sha1; data-types.go:212). *)
Definition sha1 (s : string) : string :=
  of_bytes (map ascii_of_N (sha1_bytes (map N_of_ascii (bytes_of s)))).

(** uuid.NewSHA1(space, data): first 16 bytes of SHA-1(space ++ data), stamped
    with version 5. *)
Definition uuid_v5 (space data : string) : string :=
  stamp 5 (str_take 16 (sha1 (space ++ data)%string)).
