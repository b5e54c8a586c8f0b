(** Timestamp (data-types.go:433-455): a wrapper of time.Time.
    A time.Time is modelled by the instant it denotes, as a number of
    nanoseconds since 1970-01-01T00:00:00Z.  Simplification: the location is
    dropped; String converts to UTC first (data-types.go:441), and comparison
    (time.Time.After, used by the constructors) only looks at the instant.
    The parts of package time that are reached from /repo are modelled here:
    UTC().Format("2006-01-02T15:04:05.000Z07:00") and Parse(RFC3339Nano)
    (as of Go 1.20: two digit zone fields, range checked). *)
From Verif Require Import GoStr.
Local Open Scope Z_scope.

(** time.Second in nanoseconds (data-types.go:441, 451) *)
Definition ns_per_s : Z := 1000000000.
(** time.Millisecond in nanoseconds (data-types.go:441) *)
Definition ns_per_ms : Z := 1000000.
(** secondsPerDay (package time; data-types.go:441, 451) *)
Definition s_per_day : Z := 86400.

(** Proleptic Gregorian calendar, days since 1970-01-01
    (time.Time.Date / time.Date restricted to dates). *)
Definition era_days : Z := 146097.
(** Days from 0000-03-01 to 1970-01-01. *)
Definition epoch_shift : Z := 719468.

(** Year, month and day of a day within a 400 year era that starts on March 1st
    (absDate of package time gives the same dates; data-types.go:441). *)
Definition civil_of_doe (doe : Z) : Z * Z * Z :=
  let yoe := (doe - doe / 1460 + doe / 36524 - doe / 146096) / 365 in
  let doy := doe - (365 * yoe + yoe / 4 - yoe / 100) in
  let mp := (5 * doy + 2) / 153 in
  let d := doy - (153 * mp + 2) / 5 + 1 in
  let m := if mp <? 10 then mp + 3 else mp - 9 in
  (if m <=? 2 then yoe + 1 else yoe, m, d).

(** time.Time.Date (data-types.go:441) *)
Definition civil_of_days (days : Z) : Z * Z * Z :=
  let z := days + epoch_shift in
  let '(y, m, d) := civil_of_doe (z mod era_days) in
  (y + z / era_days * 400, m, d).

(** The day within the era (time.Date; data-types.go:451). *)
Definition doe_of_civil (yoe m d : Z) : Z :=
  let mp := if 2 <? m then m - 3 else m + 9 in
  yoe * 365 + yoe / 4 - yoe / 100 + ((153 * mp + 2) / 5 + d - 1).

(** time.Date restricted to dates (data-types.go:451) *)
Definition days_of_civil (y m d : Z) : Z :=
  let y' := if m <=? 2 then y - 1 else y in
  y' / 400 * era_days + doe_of_civil (y' mod 400) m d - epoch_shift.

(** time.isLeap (time.Parse checks the day of the month; data-types.go:451) *)
Definition is_leap (y : Z) : bool :=
  (y mod 4 =? 0) && (negb (y mod 100 =? 0) || (y mod 400 =? 0)).

(** time.daysIn *)
Definition days_in (m y : Z) : Z :=
  if m =? 2 then (if is_leap y then 29 else 28)
  else if (m =? 4) || (m =? 6) || (m =? 9) || (m =? 11) then 30 else 31.

(** The year of an instant in UTC. *)
Definition year_of (t : Z) : Z :=
  let '(y, _, _) := civil_of_days (t / ns_per_s / s_per_day) in y.

(** time.appendInt: decimal, zero padded to [width] digits, sign in front. *)
Definition digit (n : Z) : ascii := digit_ascii (Z.to_N n).
(** appendInt(b, n, 2) (time.Time.Format; data-types.go:441) *)
Definition pad2 (n : Z) : string := String (digit (n / 10)) (String (digit (n mod 10)) "").
(** The milliseconds ".000" (time.Time.Format, appendNano; data-types.go:441) *)
Definition pad3 (n : Z) : string :=
  String (digit (n / 100)) (String (digit (n / 10 mod 10)) (String (digit (n mod 10)) "")).
(** appendInt(b, n, 4) for 0 <= n <= 9999 (time.Time.Format; data-types.go:441) *)
Definition pad4 (n : Z) : string :=
  String (digit (n / 1000)) (String (digit (n / 100 mod 10))
    (String (digit (n / 10 mod 10)) (String (digit (n mod 10)) ""))).
(** appendInt(b, year, 4) for any year (time.Time.Format; data-types.go:441) *)
Definition year_string (y : Z) : string :=
  if y <? 0 then String "-" (if y <? -9999 then Z_to_string (- y) else pad4 (- y))
  else if 9999 <? y then Z_to_string y else pad4 y.

(** Timestamp.String, data-types.go:438-442 *)
Definition ts_string (t : Z) : string :=
  let s := t / ns_per_s in
  let ms := t mod ns_per_s / ns_per_ms in
  let sod := s mod s_per_day in
  let '(y, m, d) := civil_of_days (s / s_per_day) in
  let hh := pad2 (sod / 3600) in
  let mm := pad2 (sod / 60 mod 60) in
  let ss := pad2 (sod mod 60) in
  (year_string y ++ "-" ++ pad2 m ++ "-" ++ pad2 d ++ "T" ++
   hh ++ ":" ++ mm ++ ":" ++ ss ++ "." ++ pad3 ms ++ "Z")%string.

(** --- time.Parse(time.RFC3339Nano, s) --- *)

(** The value of a digit (time.isDigit and s[i]-'0' in time.Parse;
    data-types.go:451). *)
Definition dig_val (c : ascii) : option Z :=
  let n := N_of_ascii c in
  if ((48 <=? n) && (n <=? 57))%N then Some (Z.of_N (n - 48)) else None.

(** time.getnum; [fixed]: both digits needed. *)
Definition getnum (fixed : bool) (s : string) : option (Z * string) :=
  match s with
  | String a s1 =>
      match dig_val a with
      | None => None
      | Some x =>
          match s1 with
          | String b s2 =>
              match dig_val b with
              | Some y => Some (10 * x + y, s2)
              | None => if fixed then None else Some (x, s1)
              end
          | EmptyString => if fixed then None else Some (x, s1)
          end
      end
  | EmptyString => None
  end.

(** stdLongYear: exactly four digits (time.Parse; data-types.go:451). *)
Definition get_year (s : string) : option (Z * string) :=
  match getnum true s with
  | Some (a, s1) =>
      match getnum true s1 with
      | Some (b, s2) => Some (100 * a + b, s2)
      | None => None
      end
  | None => None
  end.

(** A literal byte of the layout (time.skip; data-types.go:451). *)
Definition skip_char (c : ascii) (s : string) : option string :=
  match s with String c' s' => if Ascii.eqb c c' then Some s' else None | _ => None end.

(** The run of digits starting [s]: value of the first nine (scaled to nine
    digits) and the remaining text (parseNanoseconds). *)
Fixpoint take_frac (s : string) (scale acc : Z) : Z * string :=
  match s with
  | String c s' =>
      match dig_val c with
      | Some x => take_frac s' (scale / 10) (acc + x * scale)
      | None => (acc, s)
      end
  | EmptyString => (acc, s)
  end.

(** The optional fraction of a second, after a point or a comma (time.Parse,
    commaOrPeriod and parseNanoseconds; data-types.go:451). *)
Definition get_frac (s : string) : Z * string :=
  match s with
  | String p (String c s') =>
      if (Ascii.eqb p "."%char || Ascii.eqb p ","%char) && (match dig_val c with Some _ => true | None => false end)
      then take_frac (String c s') 100000000 0
      else (0, s)
  | _ => (0, s)
  end.

(** The zone: 'Z' or +hh:mm / -hh:mm; offset in seconds. *)
Definition get_zone (s : string) : option (Z * string) :=
  match s with
  | String c s1 =>
      if Ascii.eqb c "Z"%char then Some (0, s1)
      else
        match getnum true s1 with
        | Some (hr, s2) =>
            match skip_char ":"%char s2 with
            | Some s3 =>
                match getnum true s3 with
                | Some (mm, s4) =>
                    if (24 <? hr) || (60 <? mm) then None
                    else if Ascii.eqb c "+"%char then Some ((hr * 60 + mm) * 60, s4)
                    else if Ascii.eqb c "-"%char then Some (- ((hr * 60 + mm) * 60), s4)
                    else None
                | None => None
                end
            | None => None
            end
        | None => None
        end
  | EmptyString => None
  end.

Notation "'mdo' x <- a ; b" := (match a with Some x => b | None => None end)
  (at level 200, x pattern, a at level 100, b at level 200, right associativity).

(** time.Parse(time.RFC3339Nano, s) (data-types.go:451, extension.go:372) *)
Definition ts_parse (s : string) : option Z :=
  mdo (y, s) <- get_year s;
  mdo s <- skip_char "-"%char s;
  mdo (m, s) <- getnum true s;
  mdo s <- skip_char "-"%char s;
  mdo (d, s) <- getnum true s;
  mdo s <- skip_char "T"%char s;
  mdo (h, s) <- getnum false s;
  mdo s <- skip_char ":"%char s;
  mdo (mi, s) <- getnum true s;
  mdo s <- skip_char ":"%char s;
  mdo (sec, s) <- getnum true s;
  let '(ns, s) := get_frac s in
  mdo (off, s) <- get_zone s;
  if negb (is_empty s) then None
  else if (m <? 1) || (12 <? m) || (d <? 1) || (days_in m y <? d)
       || (23 <? h) || (59 <? mi) || (59 <? sec) then None
  else Some ((days_of_civil y m d * s_per_day + h * 3600 + mi * 60 + sec - off) * ns_per_s + ns).

(** Timestamp.MarshalJSON, data-types.go:445-447 *)
Definition ts_marshal (t : Z) : string := (String "034" "" ++ ts_string t ++ String "034" "")%string.

(** b[1:len(b)-1] of the bytes of a JSON value; the slice expression panics
    when the value is a single byte long. *)
Definition inner_slice (b : string) : res string :=
  match b with
  | String _ (String c r) => Ok (substring 0 (String.length r) (String c r))
  | _ => Panic
  end.

(** Timestamp.UnmarshalJSON, data-types.go:450-455 (the value is replaced even
    when parsing fails, but every caller drops it on error). *)
Definition ts_unmarshal (b : string) : res Z :=
  do s <- inner_slice b;
  match ts_parse s with Some t => Ok t | None => Err "parsing time" end.

(** Specification: the instant [t] with everything below a millisecond
    dropped. *)
Definition trunc_ms (t : Z) : Z := (t - t mod ns_per_ms)%Z.
