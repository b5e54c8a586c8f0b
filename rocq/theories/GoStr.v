(** Go strings and small helpers from the Go runtime used by /repo.
    A Go [string] / [[]byte] is a Coq [string]: a sequence of 8 bit bytes. *)
From Coq Require Export String Ascii List Bool Arith NArith ZArith Lia.
Export ListNotations.
Open Scope string_scope.
Open Scope list_scope.

(** Outcome of a Go call: a value, an [error], or a run time panic. *)
Inductive res (A : Type) : Type :=
| Ok (a : A)
| Err (e : string)
| Panic.
Arguments Ok {A} a.
Arguments Err {A} e.
Arguments Panic {A}.

(** if err != nil { return err }, the panic passed on; the control flow between
    calls everywhere in /repo (e.g. stix.go:988-991). *)
Definition bind {A B} (x : res A) (f : A -> res B) : res B :=
  match x with Ok a => f a | Err e => Err e | Panic => Panic end.
Notation "'do' x <- a ; b" := (bind a (fun x => b))
  (at level 200, x pattern, a at level 100, b at level 200, right associativity).

(** err == nil *)
Definition is_ok {A} (r : res A) : bool := match r with Ok _ => true | _ => false end.
(** err != nil *)
Definition is_err {A} (r : res A) : bool := match r with Err _ => true | _ => false end.
(** The call panicked. *)
Definition is_panic {A} (r : res A) : bool := match r with Panic => true | _ => false end.

(** strings.Index(s, p) == 0, used in data-types.go:167 (prefix test). *)
Fixpoint has_prefix (p s : string) : bool :=
  match p with
  | EmptyString => true
  | String a p' =>
      match s with
      | EmptyString => false
      | String b s' => Ascii.eqb a b && has_prefix p' s'
      end
  end.

(** '-', half of the separator (stix.go:90, data-types.go:183, 207, 213, 218) *)
Definition dash : ascii := "-"%char.
(** "--", the separator of identifiers (stix.go:90, data-types.go:183, 207, 213,
    218) *)
Definition dd : string := "--".

(** [cons_head c l] puts the byte [c] in front of the first part. *)
Definition cons_head (c : ascii) (l : list string) : list string :=
  match l with
  | [] => [String c EmptyString]
  | h :: t => String c h :: t
  end.

(** strings.Split(s, "--"): leftmost, non overlapping occurrences
    (stix.go:90, data-types.go:183, data-types.go:218). *)
Fixpoint split_dd (s : string) : list string :=
  match s with
  | EmptyString => [EmptyString]
  | String c s' =>
      match s' with
      | String c' s'' =>
          if Ascii.eqb c dash && Ascii.eqb c' dash
          then EmptyString :: split_dd s''
          else cons_head c (split_dd s')
      | EmptyString => cons_head c (split_dd s')
      end
  end.

(** strings.Join *)
Fixpoint join (sep : string) (l : list string) : string :=
  match l with
  | [] => ""
  | [x] => x
  | x :: l' => x ++ sep ++ join sep l'
  end%string.

(** Association lists standing for Go maps with string-like keys. *)
Fixpoint alookup {A} (k : string) (m : list (string * A)) : option A :=
  match m with
  | [] => None
  | (k', v) :: m' => if String.eqb k k' then Some v else alookup k m'
  end.

(** m[k] = v : replaces in place, or adds a new entry. *)
Fixpoint ainsert {A} (k : string) (v : A) (m : list (string * A)) : list (string * A) :=
  match m with
  | [] => [(k, v)]
  | (k', v') :: m' =>
      if String.eqb k k' then (k, v) :: m' else (k', v') :: ainsert k v m'
  end.

(** delete(m, k) *)
Definition adelete {A} (k : string) (m : list (string * A)) : list (string * A) :=
  filter (fun kv => negb (String.eqb k (fst kv))) m.

(** The keys of a map (for k := range m, e.g. stix.go:1118). *)
Definition akeys {A} (m : list (string * A)) : list string := map fst m.

(** s == "" / len(s) == 0 (e.g. attack.go:65, data-types.go:104) *)
Definition is_empty (s : string) : bool := String.eqb s "".

(** A search through a []string (e.g. option.go:1503, stix.go:1189-1190). *)
Fixpoint mem_str (s : string) (l : list string) : bool :=
  match l with [] => false | x :: l' => String.eqb s x || mem_str s l' end.

(** Conversions between [string] and [list ascii]. *)
Definition bytes_of (s : string) : list ascii := list_ascii_of_string s.
(** string(b) on a []byte (e.g. data-types.go:23). *)
Definition of_bytes (l : list ascii) : string := string_of_list_ascii l.

(** Decimal digits of a natural number, as printed by fmt %d. *)
Definition digit_ascii (n : N) : ascii := ascii_of_N (48 + n).

(** The digits of [n] in front of [acc], last digit first (strconv.formatBits;
    fmt.Sprintf %d in as.go:37, network.go:179-184). *)
Fixpoint pos_digits (fuel : nat) (n : N) (acc : string) : string :=
  match fuel with
  | O => acc
  | S f =>
      if (n <? 10)%N then String (digit_ascii n) acc
      else pos_digits f (n / 10)%N (String (digit_ascii (n mod 10)) acc)
  end.

(** The number of binary digits bounds the number of decimal digits. *)
Definition N_to_string (n : N) : string := pos_digits (S (N.to_nat (N.size n))) n "".

(** fmt.Sprintf("%d", z) / strconv.FormatInt(z, 10) *)
Definition Z_to_string (z : Z) : string :=
  match z with
  | Zneg p => "-" ++ N_to_string (Npos p)
  | _ => N_to_string (Z.to_N z)
  end%string.
