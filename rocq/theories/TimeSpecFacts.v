(** Lemmas for PropTime: the calendar computations and the texts of Time.v
    against TimeSpec.v. *)
From Verif Require Import GoStr GoStrFacts Time TimeFacts TimeSpec.
Local Open Scope Z_scope.

Lemma leap_eq y : leap y = is_leap y.
Proof.
  unfold leap, is_leap. destruct (Z.eqb_spec (y mod 100) 0) as [E|E]; cbn [negb orb].
  - destruct (Z.eqb_spec (y mod 400) 0) as [F|F]; [|now rewrite andb_false_r]. rewrite andb_true_r. symmetry. apply Z.eqb_eq.
    Z.div_mod_to_equations. lia.
  - now rewrite andb_true_r.
Qed.
Lemma month_days_eq y m : month_days y m = days_in m y.
Proof. unfold month_days, days_in. rewrite leap_eq. cbn [existsb]. rewrite orb_false_r. now rewrite !orb_assoc. Qed.

Definition leaps (y : Z) : Z := (y + 3) / 4 - (y + 99) / 100 + (y + 399) / 400.
Lemma leaps_succ y : leaps (y + 1) = leaps y + if leap y then 1 else 0.
Proof.
  unfold leaps, leap.
  assert (A : forall k, 0 < k -> (y + 1 + (k - 1)) / k = (y + (k - 1)) / k + if y mod k =? 0 then 1 else 0).
  { intros k Hk. destruct (Z.eqb_spec (y mod k) 0) as [E|E].
    - replace (y + 1 + (k - 1)) with (y + 1 * k) by ring. rewrite Z.div_add by lia.
      assert (D := Z.div_mod y k ltac:(lia)). replace (y + (k - 1)) with (y / k * k + (k - 1)) by lia. rewrite (Z.div_add_l (y / k) k (k - 1)) by lia.
      rewrite (Z.div_small (k - 1)) by lia. lia.
    - assert (D := Z.div_mod y k ltac:(lia)). assert (M := Z.mod_pos_bound y k Hk).
      replace (y + 1 + (k - 1)) with ((y / k + 1) * k + y mod k) by lia. rewrite Z.div_add_l by lia. rewrite (Z.div_small (y mod k)) by lia.
      replace (y + (k - 1)) with ((y / k + 1) * k + (y mod k - 1)) by lia. rewrite (Z.div_add_l (y / k + 1)) by lia. rewrite (Z.div_small (y mod k - 1)) by lia. lia. }
  assert (A4 := A 4 ltac:(lia)). assert (A100 := A 100 ltac:(lia)). assert (A400 := A 400 ltac:(lia)).
  change (4 - 1) with 3 in A4. change (100 - 1) with 99 in A100. change (400 - 1) with 399 in A400. rewrite A4, A100, A400.
  destruct (Z.eqb_spec (y mod 100) 0) as [E|E].
  - replace (y mod 4 =? 0) with true by (symmetry; apply Z.eqb_eq; Z.div_mod_to_equations; lia). destruct (y mod 400 =? 0); lia.
  - replace (y mod 400 =? 0) with false by (symmetry; apply Z.eqb_neq; Z.div_mod_to_equations; lia). destruct (y mod 4 =? 0); lia.
Qed.
Lemma year_sum_eq n : year_sum n = 365 * Z.of_nat n + leaps (Z.of_nat n).
Proof.
  induction n as [|n IH]; [reflexivity|]. cbn [year_sum]. rewrite IH, Nat2Z.inj_succ. unfold Z.succ. rewrite leaps_succ.
  destruct (leap (Z.of_nat n)); lia.
Qed.

Definition month_start (l : bool) (m : Z) : Z := (153 * (if 2 <? m then m - 3 else m + 9) + 2) / 5 + if 2 <? m then (if l then 60 else 59) else - 306.
Lemma month_sum_eq y m : 1 <= m <= 12 -> month_sum y (Z.to_nat (m - 1)) = month_start (leap y) m.
Proof.
  intros H. assert (C : m = 1 \/ m = 2 \/ m = 3 \/ m = 4 \/ m = 5 \/ m = 6 \/ m = 7 \/ m = 8 \/ m = 9 \/ m = 10 \/ m = 11 \/ m = 12) by lia.
  repeat destruct C as [->|C]; try subst m; cbv -[leap]; destruct (leap y); reflexivity.
Qed.
Lemma day_number_eq y m d : 0 <= y -> 1 <= m <= 12 -> day_number y m d = days_of_civil y m d.
Proof.
  intros Hy Hm. unfold day_number. rewrite !year_sum_eq, month_sum_eq by assumption. rewrite !Z2Nat.id by lia.
  change (leaps 1970) with 478. unfold days_of_civil, doe_of_civil, era_days, epoch_shift, month_start.
  rewrite leap_eq. unfold is_leap, leaps.
  destruct (Z.leb_spec m 2); [rewrite !(proj2 (Z.ltb_ge 2 m)) by lia|rewrite !(proj2 (Z.ltb_lt 2 m)) by lia].
  - generalize ((153 * (m + 9) + 2) / 5). intros q. Z.div_mod_to_equations. lia.
  - generalize ((153 * (m - 3) + 2) / 5). intros q.
    destruct (Z.eqb_spec (y mod 4) 0), (Z.eqb_spec (y mod 100) 0), (Z.eqb_spec (y mod 400) 0); cbn [negb andb orb]; Z.div_mod_to_equations; lia.
Qed.

(** * Digits *)
Lemma dig_val_dchar c x : dig_val c = Some x <-> 0 <= x < 10 /\ c = dchar x.
Proof.
  split.
  - unfold dig_val, dchar. destruct ((48 <=? N_of_ascii c) && (N_of_ascii c <=? 57))%N eqn:E; [|discriminate]. intros Q. injection Q as <-.
    apply andb_true_iff in E as [E1 E2]. apply N.leb_le in E1, E2. split; [lia|]. rewrite N2Z.id.
    replace (48 + (N_of_ascii c - 48))%N with (N_of_ascii c) by lia. now rewrite ascii_N_embedding.
  - intros [H ->]. exact (dig_val_digit x H).
Qed.
Lemma digits_mod k : forall n, digits k (n mod 10 ^ Z.of_nat k) = digits k n.
Proof.
  induction k as [|k IH]; intros n; [reflexivity|]. cbn [digits]. rewrite Nat2Z.inj_succ, Z.pow_succ_r by lia.
  assert (P : 0 < 10 ^ Z.of_nat k) by (apply Z.pow_pos_nonneg; lia).
  rewrite Z.rem_mul_r by lia. f_equal.
  - rewrite <- (IH (n / 10)). f_equal. rewrite Z.add_comm, Z.mul_comm, Z.div_add_l by lia.
    rewrite (Z.div_small (n mod 10)) by (apply Z.mod_pos_bound; lia). lia.
  - do 2 f_equal. rewrite Z.add_comm, Z.mul_comm, Z.add_comm. rewrite Z.mod_add by lia. apply Z.mod_mod. lia.
Qed.
Lemma digits_front k : forall n, digits (S k) n = String (dchar (n / 10 ^ Z.of_nat k mod 10)) (digits k n).
Proof.
  induction k as [|k IH]; intros n.
  - cbn. now rewrite Z.div_1_r.
  - change (digits (S (S k)) n) with (digits (S k) (n / 10) ++ String (dchar (n mod 10)) "")%string. rewrite IH.
    cbn [String.append]. f_equal. rewrite Nat2Z.inj_succ, Z.pow_succ_r by lia. rewrite Z.div_div by (try lia; apply Z.pow_pos_nonneg; lia). reflexivity.
Qed.
Lemma digits_front' k d n : 0 <= d < 10 -> 0 <= n < 10 ^ Z.of_nat k ->
  digits (S k) (d * 10 ^ Z.of_nat k + n) = String (dchar d) (digits k n).
Proof.
  intros Hd Hn. rewrite digits_front. rewrite Z.div_add_l by lia. rewrite (Z.div_small n) by assumption. rewrite Z.add_0_r, Z.mod_small by lia.
  f_equal. rewrite <- digits_mod. rewrite Z.add_comm, Z.mod_add by lia. now rewrite Z.mod_small by assumption.
Qed.

Lemma pad2_digits n : 0 <= n < 100 -> pad2 n = digits 2 n.
Proof. intros H. unfold pad2. cbn. rewrite (Z.mod_small (n / 10)) by (split; [apply Z.div_pos; lia|apply Z.div_lt_upper_bound; lia]). reflexivity. Qed.
Lemma pad3_digits n : 0 <= n < 1000 -> pad3 n = digits 3 n.
Proof.
  intros H. unfold pad3. cbn. rewrite Z.div_div by lia. change (10 * 10) with 100.
  rewrite (Z.mod_small (n / 100)) by (split; [apply Z.div_pos; lia|apply Z.div_lt_upper_bound; lia]). reflexivity.
Qed.
Lemma pad4_digits n : 0 <= n < 10000 -> pad4 n = digits 4 n.
Proof.
  intros H. unfold pad4. cbn. rewrite !Z.div_div by lia. cbn [Z.mul Pos.mul Pos.add].
  rewrite (Z.mod_small (n / 1000)) by (split; [apply Z.div_pos; lia|apply Z.div_lt_upper_bound; lia]). reflexivity.
Qed.

(** * Writing *)
Lemma ts_text t : 0 <= year_of t < 10000 -> exists c ms,
  valid_civil c /\ 0 <= ms < 1000 /\ ts_string t = utc_ms_text c ms /\ trunc_ms t = instant c 0 (ms * 1000000).
Proof.
  unfold year_of, ts_string. intros HY. set (s := t / ns_per_s) in *. set (sod := s mod s_per_day).
  destruct (civil_of_days (s / s_per_day)) as [[y m] d] eqn:EC. destruct (civil_valid _ _ _ _ EC) as (Hm & Hd & Hinv).
  assert (Hsod : 0 <= sod < 86400) by (apply Z.mod_pos_bound; reflexivity).
  assert (H1 : 0 <= sod / 3600 < 24) by (split; [apply Z.div_pos; lia|apply Z.div_lt_upper_bound; lia]).
  assert (H2 : 0 <= sod / 60 mod 60 < 60) by (apply Z.mod_pos_bound; lia).
  assert (H3 : 0 <= sod mod 60 < 60) by (apply Z.mod_pos_bound; lia).
  assert (Hms : 0 <= t mod ns_per_s / ns_per_ms < 1000).
  { assert (M := Z.mod_pos_bound t ns_per_s ltac:(reflexivity)). unfold ns_per_s, ns_per_ms in *.
    split; [apply Z.div_pos; lia|apply Z.div_lt_upper_bound; lia]. }
  assert (Hd31 : days_in m y <= 31) by (unfold days_in; destruct (m =? 2); [destruct (is_leap y)|destruct ((m =? 4) || (m =? 6) || (m =? 9) || (m =? 11))]; lia).
  exists (Civil y m d (sod / 3600) (sod / 60 mod 60) (sod mod 60)), (t mod ns_per_s / ns_per_ms). split; [|split; [exact Hms|split]].
  - unfold valid_civil. cbn [c_y c_mo c_d c_h c_mi c_s]. rewrite month_days_eq. lia.
  - unfold utc_ms_text, date_text, min_sec_text. cbn [c_y c_mo c_d c_h c_mi c_s].
    rewrite year_string_pad4 by assumption. rewrite pad4_digits by assumption. rewrite !pad2_digits by lia. rewrite pad3_digits by assumption.
    now rewrite !append_assoc'.
  - unfold instant. cbn [c_y c_mo c_d c_h c_mi c_s]. rewrite day_number_eq by lia. rewrite Hinv. unfold trunc_ms.
    assert (D1 := Z.div_mod t ns_per_s ltac:(discriminate)). fold s in D1.
    assert (D2 := Z.div_mod s s_per_day ltac:(discriminate)). fold sod in D2.
    assert (D3 : sod = sod / 3600 * 3600 + sod / 60 mod 60 * 60 + sod mod 60) by (clear; Z.div_mod_to_equations; lia).
    assert (D4 : t mod ns_per_s - t mod ns_per_ms = t mod ns_per_s / ns_per_ms * 1000000).
    { unfold ns_per_s, ns_per_ms. clear. Z.div_mod_to_equations. lia. }
    unfold s_per_day, ns_per_s in *. lia.
Qed.

Lemma year_range t : 0 <= year_of t < 10000 <-> - 62167219200 * 1000000000 <= t < 253402300800 * 1000000000.
Proof.
  unfold year_of. destruct (civil_of_days (t / ns_per_s / s_per_day)) as [[y m] d] eqn:EC. destruct (civil_valid _ _ _ _ EC) as (Hm & Hd & Hinv).
  assert (Hd31 : days_in m y <= 31) by (unfold days_in; destruct (m =? 2); [destruct (is_leap y)|destruct ((m =? 4) || (m =? 6) || (m =? 9) || (m =? 11))]; lia).
  assert (A : 0 <= y < 10000 <-> -719528 <= days_of_civil y m d < 2932897).
  { unfold days_of_civil, doe_of_civil, era_days, epoch_shift.
    destruct (Z.leb_spec m 2); [rewrite !(proj2 (Z.ltb_ge 2 m)) by lia|rewrite !(proj2 (Z.ltb_lt 2 m)) by lia].
    - assert (Q : 306 <= (153 * (m + 9) + 2) / 5 <= 337) by (Z.div_mod_to_equations; lia). revert Q. generalize ((153 * (m + 9) + 2) / 5). intros q Q.
      clear - Hd Hd31 Q. split; intros X; Z.div_mod_to_equations; lia.
    - assert (Q : 0 <= (153 * (m - 3) + 2) / 5 <= 275) by (Z.div_mod_to_equations; lia). revert Q. generalize ((153 * (m - 3) + 2) / 5). intros q Q.
      clear - Hd Hd31 Q. split; intros X; Z.div_mod_to_equations; lia. }
  rewrite A, Hinv. unfold ns_per_s, s_per_day. clear. split; intros X; Z.div_mod_to_equations; lia.
Qed.

(** * Reading *)
Lemma some_pair {A B} (a c : A) (b d : B) : Some (a, b) = Some (c, d) -> a = c /\ b = d.
Proof. intros Q. injection Q. auto. Qed.
Definition no_digit (s : string) : Prop := match s with String c _ => dig_val c = None | EmptyString => True end.

Lemma digits1 x : 0 <= x < 10 -> digits 1 x = String (dchar x) "".
Proof. intros H. cbn. now rewrite Z.mod_small. Qed.
Lemma digits2 x y : 0 <= x < 10 -> 0 <= y < 10 -> digits 2 (10 * x + y) = String (dchar x) (String (dchar y) "").
Proof.
  intros Hx Hy. replace (10 * x + y) with (x * 10 ^ Z.of_nat 1 + y) by (change (10 ^ Z.of_nat 1) with 10; lia). rewrite digits_front' by (change (10 ^ Z.of_nat 1) with 10; lia). now rewrite digits1.
Qed.
Lemma getnum_true s x r : getnum true s = Some (x, r) <-> 0 <= x < 100 /\ s = (digits 2 x ++ r)%string.
Proof.
  split.
  - destruct s as [|a [|b s]]; cbn [getnum]; [discriminate|destruct (dig_val a); discriminate|].
    destruct (dig_val a) as [u|] eqn:Ea; [|discriminate]. destruct (dig_val b) as [v|] eqn:Eb; [|discriminate]. intros Q. apply some_pair in Q as [<- <-].
    apply dig_val_dchar in Ea as [Ha ->]. apply dig_val_dchar in Eb as [Hb ->]. split; [lia|]. now rewrite digits2.
  - intros [H ->]. rewrite <- pad2_digits by assumption. now apply getnum_pad2.
Qed.
Lemma getnum_false s x r : getnum false s = Some (x, r) <->
  (0 <= x < 100 /\ s = (digits 2 x ++ r)%string) \/ (0 <= x < 10 /\ s = (digits 1 x ++ r)%string /\ no_digit r).
Proof.
  split.
  - destruct s as [|a s]; cbn [getnum]; [discriminate|]. destruct (dig_val a) as [u|] eqn:Ea; [|discriminate]. apply dig_val_dchar in Ea as [Ha ->].
    destruct s as [|b s]; [intros Q; apply some_pair in Q as [<- <-]; right; split; [lia|]; rewrite digits1 by lia; now split|].
    destruct (dig_val b) as [v|] eqn:Eb; intros Q; apply some_pair in Q as [<- <-].
    + apply dig_val_dchar in Eb as [Hb ->]. left. split; [lia|]. now rewrite digits2.
    + right. split; [lia|]. rewrite digits1 by lia. now split.
  - intros [[H ->]|(H & -> & N)].
    + rewrite <- pad2_digits by assumption. now apply getnum_pad2.
    + rewrite digits1 by lia. cbn [String.append getnum]. rewrite (proj2 (dig_val_dchar (dchar x) x)) by auto.
      destruct r as [|c r]; [reflexivity|]. cbn in N. now rewrite N.
Qed.
Lemma digits4 x y : 0 <= x < 100 -> 0 <= y < 100 -> digits 4 (100 * x + y) = (digits 2 x ++ digits 2 y)%string.
Proof.
  intros Hx Hy. rewrite <- pad4_digits by lia. rewrite pad4_split by lia. rewrite !pad2_digits.
  - f_equal; f_equal.
    + rewrite Z.mul_comm, Z.div_add_l by lia. rewrite (Z.div_small y) by lia. lia.
    + rewrite Z.add_comm, Z.mul_comm, Z.mod_add by lia. now apply Z.mod_small.
  - apply Z.mod_pos_bound. lia.
  - split; [apply Z.div_pos; lia|apply Z.div_lt_upper_bound; lia].
Qed.
Lemma get_year_spec s y r : get_year s = Some (y, r) <-> 0 <= y < 10000 /\ s = (digits 4 y ++ r)%string.
Proof.
  split.
  - unfold get_year. destruct (getnum true s) as [[a s1]|] eqn:E1; [|discriminate]. destruct (getnum true s1) as [[b s2]|] eqn:E2; [|discriminate].
    intros Q. apply some_pair in Q as [<- <-]. apply getnum_true in E1 as [Ha ->]. apply getnum_true in E2 as [Hb ->]. split; [lia|].
    rewrite digits4 by assumption. now rewrite append_assoc'.
  - intros [H ->]. rewrite <- pad4_digits by assumption. now apply get_year_pad4.
Qed.
Lemma skip_char_spec c s r : skip_char c s = Some r <-> s = String c r.
Proof.
  split.
  - destruct s as [|c' s]; cbn [skip_char]; [discriminate|]. destruct (Ascii.eqb_spec c c'); [|discriminate]. congruence.
  - intros ->. cbn. now rewrite Ascii.eqb_refl.
Qed.

(** The fraction. *)
Lemma pow10_pos k : 0 < 10 ^ Z.of_nat k.
Proof. apply Z.pow_pos_nonneg; lia. Qed.
Lemma take_frac_zero s : forall acc, take_frac s 0 acc = (acc, snd (take_frac s 0 acc)).
Proof.
  induction s as [|c s IH]; intros acc; cbn [take_frac]; [reflexivity|]. destruct (dig_val c) as [x|]; [|reflexivity].
  rewrite Z.mul_0_r, Z.add_0_r. change (0 / 10) with 0. apply IH.
Qed.
Lemma take_frac_split s : forall scale acc v r, take_frac s scale acc = (v, r) ->
  exists k n, 0 <= n < 10 ^ Z.of_nat k /\ s = (digits k n ++ r)%string /\ no_digit r.
Proof.
  induction s as [|c s IH]; intros scale acc v r E; cbn [take_frac] in E.
  - injection E as <- <-. exists 0%nat, 0. split; [cbn; lia|]. split; [reflexivity|exact I].
  - destruct (dig_val c) as [x|] eqn:Ec.
    + apply dig_val_dchar in Ec as [Hx ->]. destruct (IH _ _ _ _ E) as (k & n & Hn & -> & N). exists (S k), (x * 10 ^ Z.of_nat k + n).
      split; [rewrite Nat2Z.inj_succ, Z.pow_succ_r by lia; nia|]. split; [|exact N]. now rewrite digits_front' by assumption.
    + injection E as <- <-. exists 0%nat, 0. split; [cbn; lia|]. split; [reflexivity|exact Ec].
Qed.
(** With [scale] = 10^j. *)
Lemma take_frac_val r : no_digit r -> forall k n j acc, 0 <= n < 10 ^ Z.of_nat k ->
  take_frac (digits k n ++ r) (10 ^ Z.of_nat j) acc = (acc + n * 10 ^ (Z.of_nat j + 1) / 10 ^ Z.of_nat k, r).
Proof.
  intros N. assert (Base : forall scale acc, take_frac r scale acc = (acc, r)).
  { intros scale acc. destruct r as [|c r]; [reflexivity|]. cbn [take_frac]. cbn in N. now rewrite N. }
  assert (Zero : forall k n acc, 0 <= n < 10 ^ Z.of_nat k -> take_frac (digits k n ++ r) 0 acc = (acc, r)).
  { induction k as [|k IH]; intros n acc Hn; [apply Base|].
    assert (D := Z.div_mod n (10 ^ Z.of_nat k) ltac:(assert (P := pow10_pos k); lia)). assert (M := Z.mod_pos_bound n _ (pow10_pos k)).
    rewrite Nat2Z.inj_succ, Z.pow_succ_r in Hn by lia.
    assert (Q : 0 <= n / 10 ^ Z.of_nat k < 10) by (split; [apply Z.div_pos; [lia|apply pow10_pos]|apply Z.div_lt_upper_bound; [apply pow10_pos|lia]]).
    replace n with (n / 10 ^ Z.of_nat k * 10 ^ Z.of_nat k + n mod 10 ^ Z.of_nat k) by lia. rewrite digits_front' by assumption.
    cbn [String.append take_frac]. rewrite (proj2 (dig_val_dchar _ (n / 10 ^ Z.of_nat k))) by auto. change (0 / 10) with 0. rewrite IH by assumption. f_equal. lia. }
  induction k as [|k IH]; intros n j acc Hn.
  - cbn [digits String.append Z.of_nat]. cbn [Z.of_nat] in Hn. change (10 ^ 0) with 1 in *. replace n with 0 by lia. rewrite Base. f_equal. rewrite Z.mul_0_l. change (0 / 1) with 0. lia.
  - assert (P := pow10_pos k). assert (D := Z.div_mod n (10 ^ Z.of_nat k) ltac:(lia)). assert (M := Z.mod_pos_bound n _ P).
    rewrite Nat2Z.inj_succ, Z.pow_succ_r in * by lia.
    assert (Q : 0 <= n / 10 ^ Z.of_nat k < 10) by (split; [apply Z.div_pos; [lia|exact P]|apply Z.div_lt_upper_bound; [exact P|lia]]).
    set (d := n / 10 ^ Z.of_nat k) in *. set (n' := n mod 10 ^ Z.of_nat k) in *.
    replace n with (d * 10 ^ Z.of_nat k + n') by lia. rewrite digits_front' by assumption. cbn [String.append take_frac].
    rewrite (proj2 (dig_val_dchar _ d)) by auto.
    assert (V : (d * 10 ^ Z.of_nat k + n') * 10 ^ (Z.of_nat j + 1) / (10 * 10 ^ Z.of_nat k) = d * 10 ^ Z.of_nat j + n' * 10 ^ Z.of_nat j / 10 ^ Z.of_nat k).
    { replace (10 ^ (Z.of_nat j + 1)) with (10 * 10 ^ Z.of_nat j) by (rewrite Z.pow_add_r by lia; ring).
      replace ((d * 10 ^ Z.of_nat k + n') * (10 * 10 ^ Z.of_nat j)) with (10 * (d * 10 ^ Z.of_nat j * 10 ^ Z.of_nat k + n' * 10 ^ Z.of_nat j)) by ring.
      rewrite Z.div_mul_cancel_l by lia. rewrite Z.div_add_l by lia. reflexivity. }
    rewrite V. destruct j as [|j].
    + change (Z.of_nat 0) with 0. change (10 ^ 0) with 1. change (1 / 10) with 0. rewrite Zero by assumption. f_equal. rewrite !Z.mul_1_r. rewrite (Z.div_small n') by assumption. lia.
    + replace (10 ^ Z.of_nat (S j) / 10) with (10 ^ Z.of_nat j) by (rewrite Nat2Z.inj_succ, Z.pow_succ_r, Z.mul_comm by lia; symmetry; apply Z.div_mul; lia).
      rewrite IH by assumption. f_equal. rewrite Nat2Z.inj_succ. unfold Z.succ. lia.
Qed.

Lemma zone_no_digit off z r : zone_text off z -> no_digit (z ++ r).
Proof. intros [|h m|h m]; reflexivity. Qed.
Lemma get_frac_zone f ft off z : frac_text f ft -> zone_text off z -> get_frac (ft ++ z) = (f, z).
Proof.
  intros F Zt. assert (N := zone_no_digit _ _ ""%string Zt). replace (z ++ "")%string with z in N by (clear; induction z; [reflexivity|cbn; congruence]).
  destruct F as [|p k n Hp Hk Hn].
  - cbn [String.append]. destruct Zt as [|h m|h m]; reflexivity.
  - destruct k as [|k]; [lia|]. rewrite append_assoc'.
    assert (D := Z.div_mod n (10 ^ Z.of_nat k) ltac:(assert (P := pow10_pos k); lia)). assert (M := Z.mod_pos_bound n _ (pow10_pos k)).
    assert (Q : 0 <= n / 10 ^ Z.of_nat k < 10).
    { rewrite Nat2Z.inj_succ, Z.pow_succ_r in Hn by lia. split; [apply Z.div_pos; [lia|apply pow10_pos]|apply Z.div_lt_upper_bound; [apply pow10_pos|lia]]. }
    assert (T := take_frac_val z N (S k) n 8%nat 0 Hn).
    assert (S1 : digits (S k) n = String (dchar (n / 10 ^ Z.of_nat k)) (digits k (n mod 10 ^ Z.of_nat k))).
    { rewrite <- digits_front' by assumption. f_equal. lia. }
    change (10 ^ Z.of_nat 8) with 100000000 in T. change (10 ^ (Z.of_nat 8 + 1)) with 1000000000 in T. rewrite S1 in *.
    assert (G : get_frac (p ++ String (dchar (n / 10 ^ Z.of_nat k)) (digits k (n mod 10 ^ Z.of_nat k)) ++ z) =
                take_frac (String (dchar (n / 10 ^ Z.of_nat k)) (digits k (n mod 10 ^ Z.of_nat k)) ++ z) 100000000 0).
    { destruct Hp as [->| ->]; cbn [String.append get_frac]; rewrite (proj2 (dig_val_dchar _ (n / 10 ^ Z.of_nat k))) by auto; reflexivity. }
    rewrite G, T. f_equal.
Qed.
Lemma get_frac_inv s f r : get_frac s = (f, r) -> (f = 0 /\ s = r) \/ exists ft, frac_text f ft /\ s = (ft ++ r)%string.
Proof.
  unfold get_frac. destruct s as [|p [|c s]]; [intros Q; injection Q as <- <-; now left|intros Q; injection Q as <- <-; now left|].
  destruct ((Ascii.eqb p "." || Ascii.eqb p ",") && match dig_val c with Some _ => true | None => false end) eqn:E; [|intros Q; injection Q as <- <-; now left].
  apply andb_true_iff in E as [E1 E2]. intros Q. right. destruct (dig_val c) as [x|] eqn:Ec; [|discriminate].
  destruct (take_frac_split _ _ _ _ _ Q) as (k & n & Hn & S1 & N).
  assert (Hk : (0 < k)%nat). { destruct k; [|lia]. cbn [digits String.append] in S1. rewrite <- S1 in N. cbn in N. congruence. }
  assert (T := take_frac_val r N k n 8%nat 0 Hn). rewrite <- S1 in T. change (10 ^ Z.of_nat 8) with 100000000 in T. rewrite Q in T. injection T as ->.
  change (10 ^ (Z.of_nat 8 + 1)) with 1000000000. exists (String p (digits k n)). split; [|cbn [String.append]; congruence].
  change (String p (digits k n)) with (String p "" ++ digits k n)%string. apply (f_some (String p "")); [|exact Hk|exact Hn].
  apply orb_true_iff in E1 as [E1|E1]; apply Ascii.eqb_eq in E1; subst p; auto.
Qed.
Lemma get_zone_spec s off r : get_zone s = Some (off, r) <-> exists z, zone_text off z /\ s = (z ++ r)%string.
Proof.
  split.
  - destruct s as [|c s1]; cbn [get_zone]; [discriminate|]. destruct (Ascii.eqb_spec c "Z"); [intros Q; apply some_pair in Q as [<- <-]; subst c; exists "Z"%string; split; [constructor|reflexivity]|].
    destruct (getnum true s1) as [[h s2]|] eqn:E1; [|discriminate]. destruct (skip_char ":" s2) as [s3|] eqn:E2; [|discriminate].
    destruct (getnum true s3) as [[m s4]|] eqn:E3; [|discriminate].
    apply getnum_true in E1 as [Hh ->]. apply skip_char_spec in E2 as ->. apply getnum_true in E3 as [Hm ->].
    destruct ((24 <? h) || (60 <? m)) eqn:R; [discriminate|]. apply orb_false_iff in R as [R1 R2]. apply Z.ltb_ge in R1, R2.
    destruct (Ascii.eqb_spec c "+"); [|destruct (Ascii.eqb_spec c "-"); [|discriminate]]; intros Q; apply some_pair in Q as [<- <-]; subst c.
    + exists ("+" ++ digits 2 h ++ ":" ++ digits 2 m)%string. split; [|now rewrite !append_assoc']. replace ((h * 60 + m) * 60) with (h * 3600 + m * 60) by ring. now constructor.
    + exists ("-" ++ digits 2 h ++ ":" ++ digits 2 m)%string. split; [|now rewrite !append_assoc']. replace (- ((h * 60 + m) * 60)) with (- (h * 3600 + m * 60)) by ring. now constructor.
  - intros (z & H & ->).
    assert (X : forall h m r, 0 <= h <= 24 -> 0 <= m <= 60 -> getnum true ((digits 2 h ++ ":" ++ digits 2 m) ++ r)%string = Some (h, (":" ++ digits 2 m ++ r)%string) /\
      getnum true (digits 2 m ++ r)%string = Some (m, r)).
    { intros h m r0 Hh Hm. split; apply getnum_true; split; try lia; now rewrite ?append_assoc'. }
    destruct H as [|h m Hh Hm|h m Hh Hm]; [reflexivity| |];
      (destruct (X h m r Hh Hm) as [X1 X2]; set (w := (digits 2 h ++ ":" ++ digits 2 m)%string) in *; cbn [String.append get_zone Ascii.eqb Bool.eqb]; rewrite X1; cbn [String.append skip_char Ascii.eqb Bool.eqb]; rewrite X2;
       replace ((24 <? h) || (60 <? m)) with false by (symmetry; apply orb_false_iff; split; apply Z.ltb_ge; lia); do 2 f_equal; ring).
Qed.

Lemma parse_exact s t : ts_parse s = Some t <->
  exists c ht f ft off zt, valid_civil c /\ hour_text (c_h c) ht /\ frac_text f ft /\ zone_text off zt /\
    s = (date_text c ++ "T" ++ ht ++ ":" ++ min_sec_text c ++ ft ++ zt)%string /\ t = instant c off f.
Proof.
  split.
  - unfold ts_parse. destruct (get_year s) as [[y s1]|] eqn:E1; [|discriminate]. apply get_year_spec in E1 as [Hy ->].
    destruct (skip_char "-" s1) as [s2|] eqn:E2; [|discriminate]. apply skip_char_spec in E2 as ->.
    destruct (getnum true s2) as [[m s3]|] eqn:E3; [|discriminate]. apply getnum_true in E3 as [_ ->].
    destruct (skip_char "-" s3) as [s4|] eqn:E4; [|discriminate]. apply skip_char_spec in E4 as ->.
    destruct (getnum true s4) as [[d s5]|] eqn:E5; [|discriminate]. apply getnum_true in E5 as [_ ->].
    destruct (skip_char "T" s5) as [s6|] eqn:E6; [|discriminate]. apply skip_char_spec in E6 as ->.
    destruct (getnum false s6) as [[h s7]|] eqn:E7; [|discriminate].
    destruct (skip_char ":" s7) as [s8|] eqn:E8; [|discriminate]. apply skip_char_spec in E8 as ->.
    destruct (getnum true s8) as [[mi s9]|] eqn:E9; [|discriminate]. apply getnum_true in E9 as [Hmi ->].
    destruct (skip_char ":" s9) as [s10|] eqn:E10; [|discriminate]. apply skip_char_spec in E10 as ->.
    destruct (getnum true s10) as [[sec s11]|] eqn:E11; [|discriminate]. apply getnum_true in E11 as [Hsec ->].
    destruct (get_frac s11) as [ns s12] eqn:E12. destruct (get_zone s12) as [[off s13]|] eqn:E13; [|discriminate].
    destruct s13 as [|? ?]; cbn [is_empty negb]; [|discriminate].
    destruct ((m <? 1) || (12 <? m) || (d <? 1) || (days_in m y <? d) || (23 <? h) || (59 <? mi) || (59 <? sec)) eqn:R; [discriminate|].
    rewrite !orb_false_iff, !Z.ltb_ge in R. destruct R as ((((((R1 & R2) & R3) & R4) & R5) & R6) & R7). intros Q. apply (f_equal (fun o => match o with Some x => x | None => 0 end)) in Q; cbv beta iota in Q; subst t.
    apply get_zone_spec in E13 as (zt & Hz & ->).
    assert (Hh : 0 <= h <= 23 /\ exists ht, hour_text h ht /\ s6 = (ht ++ String ":" (digits 2 mi ++ String ":" (digits 2 sec ++ s11)))%string).
    { apply getnum_false in E7 as [[Hh ->]|(Hh & -> & _)]; (split; [lia|]); eexists; (split; [|reflexivity]); constructor; lia. }
    destruct Hh as (Hh & ht & Hht & ->).
    assert (Hf : exists ft, frac_text ns ft /\ s11 = (ft ++ zt ++ "")%string).
    { apply get_frac_inv in E12 as [[-> ->]|X]; [|exact X]. exists ""%string. split; [constructor|reflexivity]. }
    destruct Hf as (ft & Hf & ->).
    exists (Civil y m d h mi sec), ht, ns, ft, off, zt. split; [unfold valid_civil; cbn [c_y c_mo c_d c_h c_mi c_s]; rewrite month_days_eq; lia|].
    split; [exact Hht|]. split; [exact Hf|]. split; [exact Hz|]. split.
    + unfold date_text, min_sec_text. cbn [c_y c_mo c_d c_h c_mi c_s]. rewrite !append_assoc'. cbn [String.append].
      replace (zt ++ "")%string with zt by (clear; induction zt; [reflexivity|cbn; congruence]). reflexivity.
    + unfold instant, s_per_day, ns_per_s. cbn [c_y c_mo c_d c_h c_mi c_s]. rewrite day_number_eq by lia. reflexivity.
  - intros ([y m d h mi sec] & ht & f & ft & off & zt & V & Hh & Hf & Hz & -> & ->). unfold valid_civil in V. cbn [c_y c_mo c_d c_h c_mi c_s] in *.
    rewrite month_days_eq in V. destruct V as (V1 & V2 & V3 & V4 & V5 & V6).
    assert (Hd31 : days_in m y <= 31) by (unfold days_in; destruct (m =? 2); [destruct (is_leap y)|destruct ((m =? 4) || (m =? 6) || (m =? 9) || (m =? 11))]; lia).
    unfold date_text, min_sec_text, instant. cbn [c_y c_mo c_d c_h c_mi c_s]. rewrite !append_assoc'. unfold ts_parse.
    rewrite (proj2 (get_year_spec _ y _)) by (split; [lia|reflexivity]).
    rewrite (proj2 (skip_char_spec "-" _ _)) by reflexivity.
    rewrite (proj2 (getnum_true _ m _)) by (split; [lia|reflexivity]).
    rewrite (proj2 (skip_char_spec "-" _ _)) by reflexivity.
    rewrite (proj2 (getnum_true _ d _)) by (split; [lia|reflexivity]).
    rewrite (proj2 (skip_char_spec "T" _ _)) by reflexivity.
    rewrite (proj2 (getnum_false _ h (":" ++ digits 2 mi ++ ":" ++ digits 2 sec ++ ft ++ zt)%string)).
    2:{ destruct Hh as [|H9]; [left; split; [lia|reflexivity]|right; split; [lia|]; split; reflexivity]. }
    rewrite (proj2 (skip_char_spec ":" _ _)) by reflexivity.
    rewrite (proj2 (getnum_true _ mi _)) by (split; [lia|reflexivity]).
    rewrite (proj2 (skip_char_spec ":" _ _)) by reflexivity.
    rewrite (proj2 (getnum_true _ sec _)) by (split; [lia|reflexivity]).
    rewrite (get_frac_zone _ _ _ _ Hf Hz).
    rewrite (proj2 (get_zone_spec zt off ""%string)) by (exists zt; split; [exact Hz|clear; induction zt; [reflexivity|cbn; congruence]]).
    cbn [is_empty negb].
    replace ((m <? 1) || (12 <? m) || (d <? 1) || (days_in m y <? d) || (23 <? h) || (59 <? mi) || (59 <? sec)) with false
      by (symmetry; rewrite !orb_false_iff, !Z.ltb_ge; lia).
    rewrite day_number_eq by lia. reflexivity.
Qed.

(** * Dates are counted without gaps or repetitions *)
Lemma month_days_pos y m : 28 <= month_days y m <= 31.
Proof. unfold month_days. destruct (m =? 2); [destruct (leap y)|destruct (existsb (Z.eqb m) [4; 6; 9; 11])]; lia. Qed.
Lemma month_sum_mono y a b : (a <= b)%nat -> month_sum y a <= month_sum y b.
Proof.
  induction 1 as [|b H IH]; [lia|]. change (month_sum y (S b)) with (month_sum y b + month_days y (Z.of_nat (S b))).
  assert (P := month_days_pos y (Z.of_nat (S b))). lia.
Qed.
Lemma month_sum_12 y : month_sum y 12 = if leap y then 366 else 365.
Proof. cbv -[leap]. destruct (leap y); reflexivity. Qed.
Lemma year_sum_mono a b : (a <= b)%nat -> year_sum a <= year_sum b.
Proof. induction 1 as [|b H IH]; [lia|]. cbn [year_sum]. destruct (leap (Z.of_nat b)); lia. Qed.
Lemma day_in_month y m d : 1 <= m <= 12 -> 1 <= d <= month_days y m ->
  month_sum y (Z.to_nat (m - 1)) <= month_sum y (Z.to_nat (m - 1)) + (d - 1) < month_sum y (Z.to_nat m).
Proof.
  intros Hm Hd. replace (Z.to_nat m) with (S (Z.to_nat (m - 1))) by lia. cbn [month_sum].
  replace (Z.of_nat (S (Z.to_nat (m - 1)))) with m by lia. lia.
Qed.
Lemma day_in_year y m d : 0 <= y -> 1 <= m <= 12 -> 1 <= d <= month_days y m ->
  year_sum (Z.to_nat y) <= year_sum (Z.to_nat y) + month_sum y (Z.to_nat (m - 1)) + (d - 1) < year_sum (S (Z.to_nat y)).
Proof.
  intros Hy Hm Hd. assert (D := day_in_month y m d Hm Hd). assert (M := month_sum_mono y 0 (Z.to_nat (m - 1)) ltac:(lia)).
  assert (M' := month_sum_mono y (Z.to_nat m) 12 ltac:(lia)). rewrite month_sum_12 in M'. cbn [month_sum] in M. cbn [year_sum].
  rewrite (Z2Nat.id y) by lia. lia.
Qed.
Lemma day_number_inj y m d y' m' d' : 0 <= y -> 1 <= m <= 12 -> 1 <= d <= month_days y m ->
  0 <= y' -> 1 <= m' <= 12 -> 1 <= d' <= month_days y' m' -> day_number y m d = day_number y' m' d' -> y = y' /\ m = m' /\ d = d'.
Proof.
  intros Hy Hm Hd Hy' Hm' Hd' E. unfold day_number in E. set (z := year_sum (Z.to_nat 1970)) in E. clearbody z.
  assert (A := day_in_year y m d Hy Hm Hd). assert (A' := day_in_year y' m' d' Hy' Hm' Hd').
  assert (Y : y = y').
  { destruct (Z.lt_trichotomy y y') as [L|[L|L]]; [|exact L|].
    - assert (M := year_sum_mono (S (Z.to_nat y)) (Z.to_nat y') ltac:(lia)). lia.
    - assert (M := year_sum_mono (S (Z.to_nat y')) (Z.to_nat y) ltac:(lia)). lia. }
  subst y'. split; [reflexivity|].
  assert (B := day_in_month y m d Hm Hd). assert (B' := day_in_month y m' d' Hm' Hd').
  assert (Mm : m = m').
  { destruct (Z.lt_trichotomy m m') as [L|[L|L]]; [|exact L|].
    - assert (M := month_sum_mono y (Z.to_nat m) (Z.to_nat (m' - 1)) ltac:(lia)). lia.
    - assert (M := month_sum_mono y (Z.to_nat m') (Z.to_nat (m - 1)) ltac:(lia)). lia. }
  subst m'. split; [reflexivity|]. lia.
Qed.
Lemma instant_range c ns : valid_civil c -> 0 <= ns < 1000000000 -> 0 <= year_of (instant c 0 ns) < 10000.
Proof.
  intros V Hn. apply year_range. destruct c as [y m d h mi s]. unfold valid_civil, instant in *. cbn [c_y c_mo c_d c_h c_mi c_s] in *.
  destruct V as (V1 & V2 & V3 & V4 & V5 & V6). assert (A := day_in_year y m d ltac:(lia) V2 V3). unfold day_number.
  assert (M := year_sum_mono (S (Z.to_nat y)) (Z.to_nat 10000) ltac:(lia)). assert (M0 := year_sum_mono 0 (Z.to_nat y) ltac:(lia)).
  assert (E1 : year_sum (Z.to_nat 10000) = 3652425) by (rewrite year_sum_eq, Z2Nat.id by lia; reflexivity).
  assert (E2 : year_sum (Z.to_nat 1970) = 719528) by (rewrite year_sum_eq, Z2Nat.id by lia; reflexivity).
  rewrite E2. rewrite E1 in M. cbn [year_sum] in M0. lia.
Qed.
Lemma instant_inj c ms c' ms' : valid_civil c -> valid_civil c' -> 0 <= ms < 1000 -> 0 <= ms' < 1000 ->
  instant c 0 (ms * 1000000) = instant c' 0 (ms' * 1000000) -> c = c' /\ ms = ms'.
Proof.
  intros V V' Hms Hms' E. destruct c as [y m d h mi s], c' as [y' m' d' h' mi' s']. unfold valid_civil, instant in *. cbn [c_y c_mo c_d c_h c_mi c_s] in *.
  destruct V as (V1 & V2 & V3 & V4 & V5 & V6). destruct V' as (V1' & V2' & V3' & V4' & V5' & V6').
  assert (D : day_number y m d = day_number y' m' d').
  { revert E. generalize (day_number y m d) (day_number y' m' d'). intros a b E. lia. }
  assert (I := day_number_inj y m d y' m' d' ltac:(lia) V2 V3 ltac:(lia) V2' V3' D). destruct I as (-> & -> & ->).
  revert E. generalize (day_number y' m' d'). intros a E. assert (h = h') by lia. subst. assert (mi = mi') by lia. subst. assert (s = s') by lia. subst.
  split; [reflexivity|lia].
Qed.
