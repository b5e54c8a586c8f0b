(** Specification only (models no code): base64 text as RFC 4648, section 4,
    describes it, by bits. *)
From Verif Require Import GoStr.

(** The last [k] bits of [n], most significant first. *)
Fixpoint bits (k : nat) (n : N) : list bool := match k with O => [] | S k' => bits k' (n / 2)%N ++ [N.odd n] end.
Definition byte_bits (b : string) : list bool := flat_map (fun c => bits 8 (N_of_ascii c)) (list_ascii_of_string b).

(** Table 1 of the RFC. *)
Definition table : list ascii :=
  list_ascii_of_string "ABCDEFGHIJKLMNOPQRSTUVWXYZ" ++ list_ascii_of_string "abcdefghijklmnopqrstuvwxyz" ++ list_ascii_of_string "0123456789" ++ ["+"; "/"]%char.
Inductive sextet : ascii -> list bool -> Prop :=
| Sextet i c : nth_error table i = Some c -> sextet c (bits 6 (N.of_nat i)).

(** [t] is base64 text for the bytes [b]: characters carrying the bits of [b]
    followed by fewer than six [spare] bits, then at most three = signs making
    the length a multiple of four. *)
Definition base64 (b : string) (spare : list bool) (t : string) : Prop :=
  exists cs ss p, Forall2 sextet cs ss /\ concat ss = byte_bits b ++ spare /\ (length spare < 6)%nat /\
    (p < 4)%nat /\ Nat.modulo (length cs + p) 4 = 0%nat /\ t = string_of_list_ascii (cs ++ repeat "="%char p).

(** [t] without carriage returns and line feeds. *)
Definition without_breaks (t : string) : string :=
  string_of_list_ascii (filter (fun c => negb (existsb (Ascii.eqb c) ["010"; "013"]%char)) (list_ascii_of_string t)).
