From Verif Require Import GoStr GoStrFacts Time.
Local Open Scope Z_scope.

(** * Calendar *)
Fixpoint sweep (f : Z -> bool) (z : Z) (n : nat) : bool :=
  match n with O => true | S n' => f z && sweep f (z + 1) n' end.
Lemma sweep_ok f n : forall z, sweep f z n = true -> forall k, z <= k < z + Z.of_nat n -> f k = true.
Proof.
  induction n as [|n IH]; intros z H k Hk; [lia|].
  cbn [sweep] in H. apply andb_true_iff in H as [H1 H2].
  destruct (Z.eq_dec k z) as [->|]; [exact H1|]. apply (IH (z + 1) H2). lia.
Qed.

(** Years of the 400 year era start in March; [ystart] is the first day. *)
Definition ystart (y : Z) : Z := 365 * y + y / 4 - y / 100.
Definition ylen (y : Z) : Z := if is_leap (y + 1) then 366 else 365.
Definition yoe_of (doe : Z) : Z := (doe - doe / 1460 + doe / 36524 - doe / 146096) / 365.

Lemma yoe_mono a b : 0 <= a <= b -> b < era_days -> yoe_of a <= yoe_of b.
Proof.
  intros H1 H2. unfold yoe_of, era_days in *. apply Z.div_le_mono; [reflexivity|].
  Z.div_mod_to_equations. lia.
Qed.

Definition year_check (y : Z) : bool :=
  (0 <=? ystart y) && (yoe_of (ystart y) =? y) && (yoe_of (ystart y + ylen y - 1) =? y) &&
  (ystart y + ylen y =? if y =? 399 then era_days else ystart (y + 1)).
Lemma year_all : sweep year_check 0 400 = true.
Proof. vm_compute. reflexivity. Qed.
Lemma year_facts y : 0 <= y < 400 ->
  0 <= ystart y /\ yoe_of (ystart y) = y /\ yoe_of (ystart y + ylen y - 1) = y /\
  ystart y + ylen y = (if y =? 399 then era_days else ystart (y + 1)).
Proof.
  intros H. assert (C := sweep_ok _ _ _ year_all y ltac:(lia)). unfold year_check in C.
  rewrite !andb_true_iff, Z.leb_le, !Z.eqb_eq in C. tauto.
Qed.
Lemma ylen_bound y : 365 <= ylen y <= 366.
Proof. unfold ylen. destruct (is_leap (y + 1)); lia. Qed.

Lemma year_end y : 0 <= y < 400 -> ystart y + ylen y <= era_days.
Proof.
  intros H. destruct (year_facts y H) as (_ & _ & _ & E). rewrite E.
  destruct (Z.eqb_spec y 399); [lia|]. unfold ystart, era_days.
  assert (y + 1 <= 399) by lia. Z.div_mod_to_equations. lia.
Qed.

Lemma yoe_inv y doy : 0 <= y < 400 -> 0 <= doy < ylen y -> yoe_of (ystart y + doy) = y.
Proof.
  intros Hy Hd. destruct (year_facts y Hy) as (A & B & C & _). assert (E := year_end y Hy).
  assert (L := yoe_mono (ystart y) (ystart y + doy) ltac:(lia) ltac:(lia)).
  assert (U := yoe_mono (ystart y + doy) (ystart y + ylen y - 1) ltac:(lia) ltac:(lia)). lia.
Qed.

Lemma doe_split doe : 0 <= doe < era_days ->
  exists y doy, 0 <= y < 400 /\ 0 <= doy < ylen y /\ doe = ystart y + doy.
Proof.
  intros H. set (y := yoe_of doe).
  assert (Y : 0 <= y < 400).
  { subst y. assert (L := yoe_mono 0 doe ltac:(lia) ltac:(lia)). change (yoe_of 0) with 0 in L.
    assert (U := yoe_mono doe (era_days - 1) ltac:(lia) ltac:(unfold era_days; lia)).
    change (yoe_of (era_days - 1)) with 399 in U. lia. }
  exists y, (doe - ystart y). split; [exact Y|].
  destruct (year_facts y Y) as (A & B & C & D).
  assert (E := year_end y Y). assert (LB := ylen_bound y).
  split; [|ring]. split.
  - destruct (Z_lt_le_dec doe (ystart y)) as [Hlt|]; [exfalso|lia].
    destruct (Z.eq_dec y 0) as [Z0|NZ]; [rewrite Z0 in Hlt; change (ystart 0) with 0 in Hlt; lia|].
    destruct (year_facts (y - 1) ltac:(lia)) as (A' & B' & C' & D').
    destruct (Z.eqb_spec (y - 1) 399); [lia|]. replace (y - 1 + 1) with y in D' by ring.
    assert (U := yoe_mono doe (ystart (y - 1) + ylen (y - 1) - 1) ltac:(lia) ltac:(lia)).
    fold y in U. lia.
  - destruct (Z_lt_le_dec doe (ystart y + ylen y)) as [Hlt|Hge]; [lia|exfalso].
    destruct (Z.eqb_spec y 399) as [|N]; [lia|].
    destruct (year_facts (y + 1) ltac:(lia)) as (A' & B' & _ & _).
    assert (U := yoe_mono (ystart (y + 1)) doe ltac:(lia) ltac:(lia)). fold y in U. lia.
Qed.

(** Month and day from the day of the March based year. *)
Definition md_of (doy : Z) : Z * Z :=
  let mp := (5 * doy + 2) / 153 in
  ((if mp <? 10 then mp + 3 else mp - 9), doy - (153 * mp + 2) / 5 + 1).

Lemma civil_split y doy : 0 <= y < 400 -> 0 <= doy < ylen y ->
  civil_of_doe (ystart y + doy) =
  (if fst (md_of doy) <=? 2 then y + 1 else y, fst (md_of doy), snd (md_of doy)).
Proof.
  intros Hy Hd. unfold civil_of_doe. cbv zeta. fold (yoe_of (ystart y + doy)).
  rewrite (yoe_inv y doy Hy Hd). fold (ystart y).
  replace (ystart y + doy - ystart y) with doy by ring. reflexivity.
Qed.

Definition dim (leap : bool) (m : Z) : Z :=
  if m =? 2 then (if leap then 29 else 28)
  else if (m =? 4) || (m =? 6) || (m =? 9) || (m =? 11) then 30 else 31.
Definition doy_check (leap : bool) (doy : Z) : bool :=
  let '(m, d) := md_of doy in
  let '(m', d') := md_of (doy + 1)%Z in
  (1 <=? m) && (m <=? 12) && (1 <=? d) && (d <=? dim leap m) &&
  ((153 * (if 2 <? m then m - 3 else m + 9) + 2) / 5 + d - 1 =? doy) &&
  (if doy =? (if leap then 365 else 364) then (m =? 2) && (d =? dim leap 2)
   else if d <? dim leap m then (m' =? m) && (d' =? d + 1)
   else (d' =? 1) && (if m <? 12 then (m' =? m + 1) && negb (m =? 2) else (m' =? 1) && (m =? 12))).
Lemma doy_all : sweep (doy_check true) 0 366 && sweep (doy_check false) 0 365 = true.
Proof. vm_compute. reflexivity. Qed.
Lemma doy_facts (leap : bool) (doy : Z) : 0 <= doy < (if leap then 366 else 365) -> doy_check leap doy = true.
Proof.
  intros H. assert (A := doy_all). apply andb_true_iff in A as [A B].
  destruct leap; [apply (sweep_ok _ _ _ A)|apply (sweep_ok _ _ _ B)]; lia.
Qed.
Lemma days_in_dim m y : days_in m (if m <=? 2 then y + 1 else y) = dim (is_leap (y + 1)) m.
Proof. unfold days_in, dim. destruct (Z.eqb_spec m 2) as [->|]; reflexivity. Qed.

(** doe -> (y,m,d): in range, inverse of doe_of_civil, valid date. *)
Definition doe_check (doe : Z) : bool :=
  let '(y, m, d) := civil_of_doe doe in
  let yoe := if m <=? 2 then y - 1 else y in
  (0 <=? yoe) && (yoe <? 400) && (1 <=? m) && (m <=? 12) && (1 <=? d) && (d <=? days_in m y)
  && (doe_of_civil yoe m d =? doe).

Lemma doe_facts doe : 0 <= doe < era_days -> doe_check doe = true.
Proof.
  intros H. destruct (doe_split doe H) as (y & doy & Hy & Hd & ->).
  unfold doe_check. rewrite (civil_split y doy Hy Hd).
  assert (C := doy_facts (is_leap (y + 1)) doy Hd). unfold doy_check in C.
  destruct (md_of doy) as [m d]. destruct (md_of (doy + 1)) as [m' d'].
  cbn [fst snd]. rewrite days_in_dim.
  rewrite !andb_true_iff in C. destruct C as [[[[[C1 C2] C3] C4] C5] _].
  replace (if m <=? 2 then (if m <=? 2 then y + 1 else y) - 1 else if m <=? 2 then y + 1 else y) with y
    by (destruct (m <=? 2); ring).
  unfold doe_of_civil. rewrite !andb_true_iff. repeat split; try assumption; try lia.
  apply Z.eqb_eq in C5. apply Z.eqb_eq. unfold ystart. lia.
Qed.

Lemma is_leap_period y k : is_leap (y + k * 400) = is_leap y.
Proof.
  unfold is_leap.
  assert (A : (y + k * 400) mod 4 = y mod 4) by (replace (k * 400) with (k * 100 * 4) by ring; apply Z.mod_add; discriminate).
  assert (B : (y + k * 400) mod 100 = y mod 100) by (replace (k * 400) with (k * 4 * 100) by ring; apply Z.mod_add; discriminate).
  assert (C : (y + k * 400) mod 400 = y mod 400) by (apply Z.mod_add; discriminate).
  now rewrite A, B, C.
Qed.
Lemma days_in_period m y k : days_in m (y + k * 400) = days_in m y.
Proof. unfold days_in. now rewrite is_leap_period. Qed.

Lemma civil_valid days y m d : civil_of_days days = (y, m, d) ->
  1 <= m <= 12 /\ 1 <= d <= days_in m y /\ days_of_civil y m d = days.
Proof.
  unfold civil_of_days. intros H.
  assert (R : 0 <= (days + epoch_shift) mod era_days < era_days) by (apply Z.mod_pos_bound; reflexivity).
  assert (C := doe_facts _ R). unfold doe_check in C.
  destruct (civil_of_doe ((days + epoch_shift) mod era_days)) as [[y0 m0] d0].
  injection H as <- <- <-.
  rewrite !andb_true_iff, !Z.leb_le, Z.ltb_lt, Z.eqb_eq in C.
  destruct C as [[[[[[C1 C2] C3] C4] C5] C6] C7].
  rewrite days_in_period. repeat split; try assumption.
  unfold days_of_civil.
  set (e := (days + epoch_shift) / era_days) in *.
  assert (E : (if m0 <=? 2 then y0 + e * 400 - 1 else y0 + e * 400) =
              (if m0 <=? 2 then y0 - 1 else y0) + e * 400) by (destruct (m0 <=? 2); ring).
  rewrite E. rewrite Z.div_add, Z.mod_add by discriminate.
  rewrite (Z.div_small _ 400) by lia. rewrite (Z.mod_small _ 400) by lia. rewrite C7.
  assert (D := Z.div_mod (days + epoch_shift) era_days). subst e.
  assert (era_days <> 0) by discriminate. specialize (D H). lia.
Qed.

(** Calendar specification: the successor of a date. *)
Definition next_date (p : Z * Z * Z) : Z * Z * Z :=
  let '(y, m, d) := p in
  if d <? days_in m y then (y, m, d + 1)
  else if m <? 12 then (y, m + 1, 1) else (y + 1, 1, 1).

Lemma doe_next doe : 0 <= doe < era_days - 1 -> civil_of_doe (doe + 1) = next_date (civil_of_doe doe).
Proof.
  intros H. destruct (doe_split doe ltac:(lia)) as (y & doy & Hy & Hd & ->).
  rewrite (civil_split y doy Hy Hd).
  assert (C := doy_facts (is_leap (y + 1)) doy Hd). unfold doy_check in C.
  destruct (Z.eq_dec doy (ylen y - 1)) as [E|E].
  - destruct (year_facts y Hy) as (_ & _ & _ & F).
    assert (Y : y <> 399) by (intros ->; cbn [Z.eqb Pos.eqb] in F; lia).
    replace (y =? 399) with false in F by lia.
    replace (ystart y + doy + 1) with (ystart (y + 1) + 0) by lia.
    rewrite civil_split by (try lia; assert (B := ylen_bound (y + 1)); lia).
    change (md_of 0) with (3, 1). cbn [fst snd].
    destruct (md_of doy) as [m d]. destruct (md_of (doy + 1)) as [m' d']. cbn [fst snd].
    apply andb_true_iff in C as [_ C].
    replace (doy =? (if is_leap (y + 1) then 365 else 364)) with true in C
      by (subst doy; unfold ylen; destruct (is_leap (y + 1)); reflexivity).
    apply andb_true_iff in C as [C1 C2]. apply Z.eqb_eq in C1, C2. subst m.
    change (2 <=? 2) with true. change (3 <=? 2) with false. cbv iota.
    unfold next_date. assert (D := days_in_dim 2 y). change (2 <=? 2) with true in D. cbv iota in D.
    rewrite D, <- C2. rewrite Z.ltb_irrefl. reflexivity.
  - replace (ystart y + doy + 1) with (ystart y + (doy + 1)) by ring.
    rewrite (civil_split y (doy + 1) Hy ltac:(lia)).
    destruct (md_of doy) as [m d]. destruct (md_of (doy + 1)) as [m' d']. cbn [fst snd].
    apply andb_true_iff in C as [C0 C].
    replace (doy =? (if is_leap (y + 1) then 365 else 364)) with false in C
      by (symmetry; apply Z.eqb_neq; intros ->; apply E; unfold ylen; destruct (is_leap (y + 1)); reflexivity).
    unfold next_date. rewrite days_in_dim.
    destruct (d <? dim (is_leap (y + 1)) m).
    + apply andb_true_iff in C as [A B]. apply Z.eqb_eq in A, B. now subst.
    + apply andb_true_iff in C as [A B]. apply Z.eqb_eq in A. subst d'.
      rewrite !andb_true_iff in C0. destruct C0 as [[[[A1 A2] _] _] _].
      destruct (m <? 12) eqn:L; apply andb_true_iff in B as [B1 B2].
      * apply Z.eqb_eq in B1. subst m'. apply negb_true_iff in B2.
        destruct (Z.leb_spec m 2), (Z.leb_spec (m + 1) 2); try reflexivity; lia.
      * apply Z.eqb_eq in B1, B2. subst. reflexivity.
Qed.

Lemma next_shift y m d k : next_date (y + k * 400, m, d) =
  let '(y', m', d') := next_date (y, m, d) in (y' + k * 400, m', d').
Proof.
  unfold next_date. rewrite days_in_period.
  destruct (d <? days_in m y); [reflexivity|]. destruct (m <? 12); [reflexivity|].
  now replace (y + k * 400 + 1) with (y + 1 + k * 400) by ring.
Qed.

Lemma civil_succ days : civil_of_days (days + 1) = next_date (civil_of_days days).
Proof.
  unfold civil_of_days.
  set (z := days + epoch_shift). replace (days + 1 + epoch_shift) with (z + 1) by (subst z; ring).
  assert (R : 0 <= z mod era_days < era_days) by (apply Z.mod_pos_bound; reflexivity).
  assert (D := Z.div_mod z era_days). assert (NZ : era_days <> 0) by discriminate. specialize (D NZ).
  destruct (Z.eq_dec (z mod era_days) (era_days - 1)) as [E|E].
  - assert (Hd : (z + 1) / era_days = z / era_days + 1) by (symmetry; apply Z.div_unique with 0; lia).
    assert (Hm : (z + 1) mod era_days = 0) by (symmetry; apply Z.mod_unique with (z / era_days + 1); lia).
    rewrite Hd, Hm, E.
    change (civil_of_doe (era_days - 1)) with (400, 2, 29). change (civil_of_doe 0) with (0, 3, 1).
    cbv beta iota zeta. rewrite next_shift. change (next_date (400, 2, 29)) with (400, 3, 1). cbv beta iota zeta.
    now replace (0 + (z / era_days + 1) * 400) with (400 + z / era_days * 400) by ring.
  - assert (Hd : (z + 1) / era_days = z / era_days) by (symmetry; apply Z.div_unique with (z mod era_days + 1); lia).
    assert (Hm : (z + 1) mod era_days = z mod era_days + 1) by (symmetry; apply Z.mod_unique with (z / era_days); lia).
    rewrite Hd, Hm.
    rewrite doe_next by lia.
    destruct (civil_of_doe (z mod era_days)) as [[y m] d]. now rewrite next_shift.
Qed.

Lemma civil_epoch : civil_of_days 0 = (1970, 1, 1).
Proof. reflexivity. Qed.

(** * Text *)
Lemma dig_val_digit n : 0 <= n < 10 -> dig_val (digit n) = Some n.
Proof.
  intros H.
  assert (D : sweep (fun n => match dig_val (digit n) with Some m => m =? n | None => false end) 0 10 = true) by reflexivity.
  assert (E := sweep_ok _ _ _ D n ltac:(lia)). cbv beta in E.
  destruct (dig_val (digit n)); [|discriminate]. apply Z.eqb_eq in E. congruence.
Qed.

Lemma getnum_pad2 f n r : 0 <= n < 100 -> getnum f (pad2 n ++ r)%string = Some (n, r).
Proof.
  intros H. unfold pad2. cbn [String.append getnum].
  rewrite dig_val_digit by (split; [apply Z.div_pos; lia | apply Z.div_lt_upper_bound; lia]).
  rewrite dig_val_digit by (apply Z.mod_pos_bound; lia).
  assert (D := Z.div_mod n 10 ltac:(lia)). rewrite <- D. reflexivity.
Qed.

Lemma pad4_split n : 0 <= n < 10000 -> pad4 n = (pad2 (n / 100) ++ pad2 (n mod 100))%string.
Proof.
  intros H. unfold pad4, pad2. cbn [String.append].
  rewrite Z.div_div by lia. change (100 * 10) with 1000.
  assert (D := Z.div_mod n 100 ltac:(lia)). assert (M := Z.mod_pos_bound n 100 ltac:(lia)).
  assert (A : n / 10 mod 10 = n mod 100 / 10).
  { assert (E : n / 10 = n mod 100 / 10 + n / 100 * 10).
    { rewrite D at 1. replace (100 * (n / 100) + n mod 100) with (n mod 100 + (n / 100 * 10) * 10) by ring.
      now rewrite Z.div_add by lia. }
    rewrite E, Z.mod_add by lia. apply Z.mod_small.
    split; [apply Z.div_pos; lia | apply Z.div_lt_upper_bound; lia]. }
  assert (B : n mod 10 = n mod 100 mod 10).
  { rewrite D at 1. replace (100 * (n / 100) + n mod 100) with (n mod 100 + (n / 100 * 10) * 10) by ring.
    now rewrite Z.mod_add by lia. }
  now rewrite A, B.
Qed.

Lemma append_assoc' a b c : ((a ++ b) ++ c)%string = (a ++ b ++ c)%string.
Proof. induction a as [|x a IH]; cbn; [reflexivity | now rewrite IH]. Qed.

Lemma get_year_pad4 n r : 0 <= n < 10000 -> get_year (pad4 n ++ r)%string = Some (n, r).
Proof.
  intros H. rewrite pad4_split by assumption. unfold get_year.
  rewrite append_assoc', getnum_pad2.
  2:{ split; [apply Z.div_pos; lia | apply Z.div_lt_upper_bound; lia]. }
  rewrite getnum_pad2 by (apply Z.mod_pos_bound; lia).
  assert (D := Z.div_mod n 100 ltac:(lia)). rewrite <- D. reflexivity.
Qed.

Lemma get_frac_pad3 n : 0 <= n < 1000 -> get_frac ("." ++ pad3 n ++ "Z")%string = (n * ns_per_ms, "Z"%string).
Proof.
  intros H. unfold pad3, get_frac. cbn [String.append].
  assert (H1 : 0 <= n / 100 < 10) by (split; [apply Z.div_pos; lia | apply Z.div_lt_upper_bound; lia]).
  assert (H2 : 0 <= n / 10 mod 10 < 10) by (apply Z.mod_pos_bound; lia).
  assert (H3 : 0 <= n mod 10 < 10) by (apply Z.mod_pos_bound; lia).
  rewrite dig_val_digit by assumption. 
  change (Ascii.eqb "." "." || Ascii.eqb "." ",") with true. cbn [andb].
  cbn [take_frac]. rewrite !dig_val_digit by assumption.
  change (dig_val "Z") with (@None Z). cbn beta iota. f_equal.
  change (100000000 / 10 / 10) with 1000000. change (100000000 / 10) with 10000000.
  unfold ns_per_ms.
  assert (D1 := Z.div_mod n 10 ltac:(lia)). assert (D2 := Z.div_mod (n / 10) 10 ltac:(lia)).
  rewrite Z.div_div in D2 by lia. change (10 * 10) with 100 in D2. lia.
Qed.

Lemma year_string_pad4 y : 0 <= y < 10000 -> year_string y = pad4 y.
Proof.
  intros H. unfold year_string.
  rewrite (proj2 (Z.ltb_ge y 0)) by lia. rewrite (proj2 (Z.ltb_ge 9999 y)) by lia. reflexivity.
Qed.

Lemma ts_roundtrip t : 0 <= year_of t < 10000 -> ts_parse (ts_string t) = Some (trunc_ms t).
Proof.
  unfold year_of, ts_string, ts_parse. intros HY.
  set (s := t / ns_per_s) in *. set (sod := s mod s_per_day).
  destruct (civil_of_days (s / s_per_day)) as [[y m] d] eqn:EC.
  destruct (civil_valid _ _ _ _ EC) as (Hm & Hd & Hinv).
  assert (Hsod : 0 <= sod < 86400) by (apply Z.mod_pos_bound; reflexivity).
  assert (Hns : 0 <= t mod ns_per_s < ns_per_s) by (apply Z.mod_pos_bound; reflexivity).
  set (ms := t mod ns_per_s / ns_per_ms).
  assert (Hms : 0 <= ms < 1000).
  { subst ms. unfold ns_per_ms, ns_per_s in *. split; [apply Z.div_pos; lia | apply Z.div_lt_upper_bound; lia]. }
  rewrite year_string_pad4 by assumption.
  rewrite get_year_pad4 by assumption. cbn [String.append skip_char].
  replace (Ascii.eqb "-" "-") with true by reflexivity.
  assert (Hd' : d <= 31).
  { unfold days_in in Hd. destruct (m =? 2); [destruct (is_leap y); lia|].
    match type of Hd with context [if ?b then _ else _] => destruct b end; lia. }
  assert (Hh : 0 <= sod / 3600 < 24) by (split; [apply Z.div_pos; lia | apply Z.div_lt_upper_bound; lia]).
  assert (Hmi : 0 <= sod / 60 mod 60 < 60) by (apply Z.mod_pos_bound; lia).
  assert (Hse : 0 <= sod mod 60 < 60) by (apply Z.mod_pos_bound; lia).
  rewrite getnum_pad2 by lia. cbn [skip_char]. replace (Ascii.eqb "-" "-") with true by reflexivity.
  rewrite getnum_pad2 by lia. cbn [skip_char]. replace (Ascii.eqb "T" "T") with true by reflexivity.
  rewrite getnum_pad2 by lia. cbn [skip_char]. replace (Ascii.eqb ":" ":") with true by reflexivity.
  rewrite getnum_pad2 by lia. cbn [skip_char]. replace (Ascii.eqb ":" ":") with true by reflexivity.
  rewrite getnum_pad2 by lia.
  change (String "." (pad3 ms ++ "Z")) with ("." ++ pad3 ms ++ "Z")%string.
  rewrite get_frac_pad3 by assumption. cbn [get_zone].
  replace (Ascii.eqb "Z" "Z") with true by reflexivity.
  replace (negb (is_empty "")) with false by reflexivity.
  rewrite (proj2 (Z.ltb_ge m 1)), (proj2 (Z.ltb_ge 12 m)), (proj2 (Z.ltb_ge d 1)),
    (proj2 (Z.ltb_ge (days_in m y) d)), (proj2 (Z.ltb_ge 23 (sod / 3600))),
    (proj2 (Z.ltb_ge 59 (sod / 60 mod 60))), (proj2 (Z.ltb_ge 59 (sod mod 60))) by lia.
  cbn [orb]. f_equal. rewrite Hinv. unfold trunc_ms.
  assert (D1 := Z.div_mod t ns_per_s ltac:(discriminate)). fold s in D1.
  assert (D2 := Z.div_mod s s_per_day ltac:(discriminate)). fold sod in D2.
  assert (D3 := Z.div_mod sod 60 ltac:(lia)). assert (D4 := Z.div_mod (sod / 60) 60 ltac:(lia)).
  rewrite Z.div_div in D4 by lia. change (60 * 60) with 3600 in D4.
  assert (D5 := Z.div_mod (t mod ns_per_s) ns_per_ms ltac:(discriminate)). fold ms in D5.
  assert (D6 : t mod ns_per_s mod ns_per_ms = t mod ns_per_ms).
  { rewrite D1 at 2. unfold ns_per_s at 2.
    replace (1000000000 * s + t mod ns_per_s) with (t mod ns_per_s + (1000 * s) * ns_per_ms)
      by (unfold ns_per_ms; ring).
    symmetry. apply Z.mod_add. discriminate. }
  rewrite <- D6. unfold s_per_day in *. lia.
Qed.

Lemma ts_string_trunc t : ts_string (trunc_ms t) = ts_string t.
Proof.
  unfold trunc_ms, ts_string.
  assert (D1 := Z.div_mod t ns_per_s ltac:(discriminate)).
  assert (M1 := Z.mod_pos_bound t ns_per_s ltac:(reflexivity)).
  assert (M2 := Z.mod_pos_bound t ns_per_ms ltac:(reflexivity)).
  assert (D5 := Z.div_mod (t mod ns_per_s) ns_per_ms ltac:(discriminate)).
  assert (D6 : t mod ns_per_s mod ns_per_ms = t mod ns_per_ms).
  { rewrite D1 at 2. unfold ns_per_s at 2.
    replace (1000000000 * (t / ns_per_s) + t mod ns_per_s) with (t mod ns_per_s + (1000 * (t / ns_per_s)) * ns_per_ms)
      by (unfold ns_per_ms; ring).
    symmetry. apply Z.mod_add. discriminate. }
  rewrite D6 in D5.
  set (q := t mod ns_per_s / ns_per_ms) in *.
  assert (Q : 0 <= q) by (apply Z.div_pos; [lia | reflexivity]).
  assert (E : t - t mod ns_per_ms = ns_per_s * (t / ns_per_s) + ns_per_ms * q) by lia.
  assert (B : 0 <= ns_per_ms * q < ns_per_s) by (unfold ns_per_ms in *; lia).
  assert (E1 : (t - t mod ns_per_ms) / ns_per_s = t / ns_per_s)
    by (symmetry; apply Z.div_unique with (ns_per_ms * q); lia).
  assert (E2 : (t - t mod ns_per_ms) mod ns_per_s = ns_per_ms * q)
    by (symmetry; apply Z.mod_unique with (t / ns_per_s); lia).
  rewrite E1, E2. replace (ns_per_ms * q / ns_per_ms) with q; [reflexivity|].
  rewrite Z.mul_comm, Z.div_mul by discriminate. reflexivity.
Qed.

Lemma trunc_ms_mono t u : t <= u -> trunc_ms t <= trunc_ms u.
Proof.
  unfold trunc_ms. intros H.
  assert (D1 := Z.div_mod t ns_per_ms ltac:(discriminate)).
  assert (D2 := Z.div_mod u ns_per_ms ltac:(discriminate)).
  assert (L := Z.div_le_mono t u ns_per_ms ltac:(reflexivity) H).
  assert (ns_per_ms > 0) by reflexivity. nia.
Qed.

Lemma trunc_ms_near t : trunc_ms t <= t < trunc_ms t + ns_per_ms.
Proof. unfold trunc_ms. assert (M := Z.mod_pos_bound t ns_per_ms ltac:(reflexivity)). lia. Qed.

Lemma trunc_ms_mult t : trunc_ms t mod ns_per_ms = 0.
Proof.
  unfold trunc_ms. assert (D := Z.div_mod t ns_per_ms ltac:(discriminate)).
  replace (t - t mod ns_per_ms) with (t / ns_per_ms * ns_per_ms) by lia. apply Z.mod_mul. discriminate.
Qed.

Lemma trunc_ms_idem t : trunc_ms (trunc_ms t) = trunc_ms t.
Proof. unfold trunc_ms at 1. rewrite trunc_ms_mult. lia. Qed.

Lemma year_trunc t : year_of (trunc_ms t) = year_of t.
Proof.
  unfold year_of. 
  replace (trunc_ms t / ns_per_s) with (t / ns_per_s); [reflexivity|].
  assert (D1 := Z.div_mod t ns_per_s ltac:(discriminate)).
  assert (M1 := Z.mod_pos_bound t ns_per_s ltac:(reflexivity)).
  assert (D2 := Z.div_mod t ns_per_ms ltac:(discriminate)).
  apply Z.div_unique with (trunc_ms t - ns_per_s * (t / ns_per_s)); [|lia].
  left. assert (N := trunc_ms_near t). split; [|lia].
  assert (L : trunc_ms (ns_per_s * (t / ns_per_s)) <= trunc_ms t) by (apply trunc_ms_mono; lia).
  unfold trunc_ms at 1 in L.
  replace (ns_per_s * (t / ns_per_s)) with (1000 * (t / ns_per_s) * ns_per_ms) in L at 2 by (unfold ns_per_s, ns_per_ms; ring).
  rewrite Z.mod_mul in L by discriminate. lia.
Qed.

Lemma substring_all s : substring 0 (String.length s) s = s.
Proof. induction s as [|c s IH]; cbn; [reflexivity | now rewrite IH]. Qed.
Lemma substring_app_l s t : substring 0 (String.length s) (s ++ t)%string = s.
Proof. induction s as [|c s IH]; cbn; [destruct t; reflexivity | now rewrite IH]. Qed.

Lemma length_app s t : String.length (s ++ t)%string = (String.length s + String.length t)%nat.
Proof. induction s as [|c s IH]; cbn; [reflexivity | now rewrite IH]. Qed.

Lemma inner_slice_quoted s a b : inner_slice (String a (s ++ String b ""))%string = Ok s.
Proof.
  destruct s as [|c s]; [reflexivity|]. cbn [inner_slice String.append]. f_equal.
  rewrite length_app. cbn [String.length]. rewrite Nat.add_1_r.
  change (String c (s ++ String b "")) with (String c s ++ String b "")%string.
  change (S (String.length s)) with (String.length (String c s)). apply substring_app_l.
Qed.

Lemma ts_unmarshal_marshal t : 0 <= year_of t < 10000 -> ts_unmarshal (ts_marshal t) = Ok (trunc_ms t).
Proof.
  intros H. unfold ts_unmarshal, ts_marshal. cbn [String.append].
  rewrite inner_slice_quoted. cbn [bind]. now rewrite ts_roundtrip.
Qed.
