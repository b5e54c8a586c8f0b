(** SHA-1 as in FIPS 180-4 and name-based UUIDs as in RFC 4122, section 4.3.
    Messages and digests are lists of octets, words are numbers below 2^32. *)
From Coq Require Import List NArith Arith Lia.
Import ListNotations.
Local Open Scope N_scope.

Definition octets (l : list N) : Prop := Forall (fun b => b < 256) l.
Definition big_endian (l : list N) : N := fold_left (fun a b => 256 * a + b) l 0.

(** Section 2.2.2 and 3.2: addition modulo 2^32, rotation. *)
Definition plus32 (x y : N) : N := (x + y) mod 2 ^ 32.
Definition rot_left (n x : N) : N := (x * 2 ^ n) mod 2 ^ 32 + x / 2 ^ (32 - n).

(** Section 4.1.1: the functions Ch, Parity, Maj. *)
Definition ch_bits (x y z : N) : N := N.lxor (N.land x y) (N.ldiff z x).
Definition parity_bits (x y z : N) : N := N.lxor (N.lxor x y) z.
Definition maj_bits (x y z : N) : N := N.lxor (N.lxor (N.land x y) (N.land x z)) (N.land y z).
Definition f_bits (t : nat) : N -> N -> N -> N :=
  if (t <=? 19)%nat then ch_bits else if (t <=? 39)%nat then parity_bits else if (t <=? 59)%nat then maj_bits else parity_bits.
(** Section 4.2.1. *)
Definition k_const (t : nat) : N :=
  if (t <=? 19)%nat then 0x5a827999 else if (t <=? 39)%nat then 0x6ed9eba1 else if (t <=? 59)%nat then 0x8f1bbcdc else 0xca62c1d6.

(** Section 5.1.1: a bit 1, as few zeros as possible, the length in bits in 64
    bits; the result is a multiple of 512 bits. *)
Definition padded (m p : list N) : Prop := exists k len,
  p = m ++ [0x80] ++ repeat 0 k ++ len /\ (k < 64)%nat /\ length len = 8%nat /\ octets len /\
  big_endian len = 8 * N.of_nat (length m) /\ (length p mod 64 = 0)%nat.

(** Section 5.3.1. *)
Record regs := Regs { ra : N; rb : N; rc : N; rd : N; re : N }.
Definition h_init : regs := Regs 0x67452301 0xefcdab89 0x98badcfe 0x10325476 0xc3d2e1f0.

(** Section 6.1.2: the message schedule [W] of block [i] of the message [p]. *)
Definition word_at (p : list N) (i : nat) : N := big_endian (firstn 4 (skipn i p)).
Definition msg_schedule (p : list N) (i : nat) (W : nat -> N) : Prop :=
  (forall t, (t < 16)%nat -> W t = word_at p (64 * i + 4 * t)) /\
  (forall t, (16 <= t < 80)%nat -> W t = rot_left 1 (N.lxor (N.lxor (W (t - 3)%nat) (W (t - 8)%nat)) (N.lxor (W (t - 14)%nat) (W (t - 16)%nat)))).
Definition one_step (t : nat) (w : N) (r : regs) : regs :=
  Regs (plus32 (plus32 (plus32 (plus32 (rot_left 5 (ra r)) (f_bits t (rb r) (rc r) (rd r))) (re r)) (k_const t)) w)
       (ra r) (rot_left 30 (rb r)) (rc r) (rd r).
Definition hashed_block (p : list N) (i : nat) (h h' : regs) : Prop := exists W R,
  msg_schedule p i W /\ R 0%nat = h /\ (forall t, (t < 80)%nat -> R (S t) = one_step t (W t) (R t)) /\
  h' = Regs (plus32 (ra h) (ra (R 80%nat))) (plus32 (rb h) (rb (R 80%nat))) (plus32 (rc h) (rc (R 80%nat)))
            (plus32 (rd h) (rd (R 80%nat))) (plus32 (re h) (re (R 80%nat))).

(** The digest: the five words of the last value, in octets. *)
Definition is_sha1 (m d : list N) : Prop := exists p n H a b c e f,
  padded m p /\ length p = (64 * n)%nat /\ H 0%nat = h_init /\ (forall i, (i < n)%nat -> hashed_block p i (H i) (H (S i))) /\
  d = a ++ b ++ c ++ e ++ f /\ Forall (fun w => length w = 4%nat /\ octets w) [a; b; c; e; f] /\
  H n = Regs (big_endian a) (big_endian b) (big_endian c) (big_endian e) (big_endian f).

(** RFC 4122, section 4.3: the first 16 octets of the digest of name space and
    name; the four most significant bits of octet 6 are the version, 0101, the
    two most significant bits of octet 8 the variant, 10. *)
Definition uuid5 (space name u : list N) : Prop := exists d, is_sha1 (space ++ name) d /\ length u = 16%nat /\ octets u /\
  (forall i, (i < 16)%nat -> i <> 6%nat -> i <> 8%nat -> nth i u 0 = nth i d 0) /\
  nth 6 u 0 / 16 = 5 /\ nth 6 u 0 mod 16 = nth 6 d 0 mod 16 /\
  nth 8 u 0 / 64 = 2 /\ nth 8 u 0 mod 64 = nth 8 d 0 mod 64.
