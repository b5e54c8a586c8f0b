(** Specification only (models no code): dates of the proleptic Gregorian
    calendar counted day by day, and RFC 3339 text. *)
From Verif Require Import GoStr.
Local Open Scope Z_scope.

(** Years divisible by four, but centuries only when divisible by 400. *)
Definition leap (y : Z) : bool := if y mod 100 =? 0 then y mod 400 =? 0 else y mod 4 =? 0.
Definition month_days (y m : Z) : Z :=
  if m =? 2 then (if leap y then 29 else 28)
  else if existsb (Z.eqb m) [4; 6; 9; 11] then 30 else 31.

(** Days of the years before year [y], of the months before month [m + 1]. *)
Fixpoint year_sum (y : nat) : Z :=
  match y with O => 0 | S y' => year_sum y' + if leap (Z.of_nat y') then 366 else 365 end.
Fixpoint month_sum (y : Z) (m : nat) : Z :=
  match m with O => 0 | S m' => month_sum y m' + month_days y (Z.of_nat m) end.
(** Days from 1970-01-01 to the date. *)
Definition day_number (y m d : Z) : Z :=
  year_sum (Z.to_nat y) + month_sum y (Z.to_nat (m - 1)) + (d - 1) - year_sum (Z.to_nat 1970).

Record civil := Civil { c_y : Z; c_mo : Z; c_d : Z; c_h : Z; c_mi : Z; c_s : Z }.
Definition valid_civil (c : civil) : Prop :=
  0 <= c_y c <= 9999 /\ 1 <= c_mo c <= 12 /\ 1 <= c_d c <= month_days (c_y c) (c_mo c) /\
  0 <= c_h c <= 23 /\ 0 <= c_mi c <= 59 /\ 0 <= c_s c <= 59.
(** Nanoseconds since the epoch; [off] = seconds east of UTC. *)
Definition instant (c : civil) (off ns : Z) : Z :=
  (day_number (c_y c) (c_mo c) (c_d c) * 86400 + c_h c * 3600 + c_mi c * 60 + c_s c - off) * 1000000000 + ns.

(** [digits k n]: the last [k] decimal digits of [n]. *)
Definition dchar (n : Z) : ascii := ascii_of_N (48 + Z.to_N n).
Fixpoint digits (k : nat) (n : Z) : string :=
  match k with O => ""%string | S k' => (digits k' (n / 10) ++ String (dchar (n mod 10)) "")%string end.

Definition date_text (c : civil) : string := (digits 4 (c_y c) ++ "-" ++ digits 2 (c_mo c) ++ "-" ++ digits 2 (c_d c))%string.
Definition min_sec_text (c : civil) : string := (digits 2 (c_mi c) ++ ":" ++ digits 2 (c_s c))%string.
Definition utc_ms_text (c : civil) (ms : Z) : string :=
  (date_text c ++ "T" ++ digits 2 (c_h c) ++ ":" ++ min_sec_text c ++ "." ++ digits 3 ms ++ "Z")%string.

(** What is read: an hour of one or two digits, a fraction of any length after
    a full stop or a comma, a zone. *)
Inductive hour_text (h : Z) : string -> Prop :=
| h_two : hour_text h (digits 2 h)
| h_one : h <= 9 -> hour_text h (digits 1 h).
Inductive frac_text : Z -> string -> Prop :=
| f_none : frac_text 0 ""%string
| f_some p k n : (p = "." \/ p = ",")%string -> (0 < k)%nat -> 0 <= n < 10 ^ Z.of_nat k ->
    frac_text (n * 1000000000 / 10 ^ Z.of_nat k) (p ++ digits k n)%string.
Inductive zone_text : Z -> string -> Prop :=
| z_utc : zone_text 0 "Z"%string
| z_east h m : 0 <= h <= 24 -> 0 <= m <= 60 -> zone_text (h * 3600 + m * 60) ("+" ++ digits 2 h ++ ":" ++ digits 2 m)%string
| z_west h m : 0 <= h <= 24 -> 0 <= m <= 60 -> zone_text (- (h * 3600 + m * 60)) ("-" ++ digits 2 h ++ ":" ++ digits 2 m)%string.
