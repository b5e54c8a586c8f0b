(** C70, continued: exponents of any length. *)
From Coq Require Import Lia.
From Verif Require Import GoStr GoStrFacts JsonStr Json JsonSpec JsonSpecFacts NumSpec NumSpecFacts Float FloatFacts Double DoubleFacts DoubleNear DoubleSpec DoubleReal Exponent.
Local Open Scope N_scope.

Lemma cut_stop s : forall acc, 10000 <= acc -> cut_acc s acc = acc.
Proof.
  induction s as [|c s IH]; intros acc H; cbn [cut_acc]; [reflexivity|]. assert (E : (acc <? 10000) = false) by (apply N.ltb_ge; exact H). rewrite E. now apply IH.
Qed.
Lemma digits_grow s : forall acc, acc <= N_of_digits_acc s acc.
Proof. induction s as [|c s IH]; intros acc; cbn [N_of_digits_acc]; [lia|]. specialize (IH (acc * 10 + dval c)). lia. Qed.
Lemma cut_spec s : forall acc, cut_acc s acc = N_of_digits_acc s acc \/ (10000 <= cut_acc s acc /\ 10000 <= N_of_digits_acc s acc).
Proof.
  induction s as [|c s IH]; intros acc; cbn [cut_acc N_of_digits_acc]; [now left|]. destruct (N.ltb_spec acc 10000) as [L|L]; [apply IH|].
  right. rewrite cut_stop by exact L. split; [exact L|]. assert (G := digits_grow s (acc * 10 + dval c)). lia.
Qed.

Lemma digits_below s : digits_only s = true -> forall acc, N_of_digits_acc s acc < (acc + 1) * 10 ^ N.of_nat (String.length s).
Proof.
  induction s as [|c s IH]; intros D acc; cbn [N_of_digits_acc String.length]; [cbn; lia|]. cbn [digits_only] in D. apply andb_true_iff in D as [D1 D2].
  specialize (IH D2 (acc * 10 + dval c)). rewrite Nat2N.inj_succ, N.pow_succ_r'. assert (V : dval c < 10) by (unfold dval; unfold is_digit in D1; apply andb_true_iff in D1 as [A B]; apply N.leb_le in A, B; lia).
  eapply N.lt_le_trans; [exact IH|]. set (p := 10 ^ N.of_nat (String.length s)). clearbody p. nia.
Qed.

Lemma read_large m e : 0 < m -> (309 <= e)%Z -> inf_bits <= read_bits m e.
Proof.
  intros M E. apply read_above. unfold den10, ten_units. replace (Z.to_N (- e)) with 0 by lia. rewrite N.pow_0_r, N.mul_1_r.
  assert (P : 10 ^ 309 <= 10 ^ Z.to_N e) by (apply N.pow_le_mono_r; lia).
  assert (U : units inf_bits <= 2 ^ 1074 * 10 ^ 309) by (vm_compute; discriminate).
  apply N.le_trans with (2 ^ 1074 * 10 ^ 309); [exact U|]. assert (X : 2 ^ 1074 * 10 ^ 309 <= 2 ^ 1074 * 10 ^ Z.to_N e) by now apply N.mul_le_mono_l.
  set (a := 2 ^ 1074 * 10 ^ 309) in *. set (b := 2 ^ 1074 * 10 ^ Z.to_N e) in *. clearbody a b. nia.
Qed.
Lemma read_tiny m e n : m < 10 ^ n -> (e + Z.of_N n <= -400)%Z -> read_bits m e = 0.
Proof.
  intros M E. unfold read_bits. apply near_reads; [apply den10_pos| |].
  - replace (2 * units 0 + 1) with 1 by reflexivity. rewrite N.mul_1_r. unfold num10, den10. replace (Z.to_N e) with 0 by lia. rewrite N.pow_0_r, N.mul_1_r.
    assert (P : 10 ^ (n + 400) <= 10 ^ Z.to_N (- e)) by (apply N.pow_le_mono_r; lia). rewrite N.pow_add_r in P.
    assert (U : 2 * 2 ^ 1074 < 10 ^ 400) by (vm_compute; reflexivity).
    eapply N.lt_le_trans; [|exact P]. set (a := 2 ^ 1074) in *. set (b := 10 ^ 400) in *. set (p := 10 ^ n) in *. clearbody a b p. nia.
  - replace (2 * units 0) with 0 by reflexivity. rewrite N.mul_0_r. assert (D := den10_pos e). lia.
Qed.
Lemma go_rnd_bits neg m e m' e' : read_bits m e = read_bits m' e' -> go_rnd neg m e = go_rnd neg m' e'.
Proof. intros H. unfold go_rnd, parse_bits. now rewrite H. Qed.
Lemma norm_reads m e : read_bits (fst (norm10 m e)) (snd (norm10 m e)) = read_bits m e.
Proof.
  destruct (norm10 m e) as [m' e'] eqn:E. apply norm10_spec in E as (_ & i & -> & H). cbn [fst snd]. destruct (N.eq_dec m' 0) as [->|N].
  - rewrite N.mul_0_l. now rewrite !read_0.
  - rewrite (H N). rewrite read_shift by lia. f_equal. f_equal. f_equal. lia.
Qed.
Lemma norm_rnd neg m e : (let '(m', e') := norm10 m e in go_rnd neg m' e') = go_rnd neg m e.
Proof. assert (X := norm_reads m e). destruct (norm10 m e) as [m' e']. now apply go_rnd_bits. Qed.

(** Out of range, whatever the exponent exactly is. *)
Lemma far_alike neg m e e' n : m < 10 ^ n -> (309 <= e /\ 309 <= e')%Z \/ (e + Z.of_N n <= -400 /\ e' + Z.of_N n <= -400)%Z -> go_rnd neg m e = go_rnd neg m e'.
Proof.
  intros M [[A B]|[A B]].
  - destruct (N.eq_dec m 0) as [->|N]; [apply go_rnd_bits; now rewrite !read_0|]. unfold go_rnd, parse_bits.
    assert (X := read_large m e ltac:(lia) A). assert (Y := read_large m e' ltac:(lia) B).
    assert (E : (read_bits m e <? inf_bits) = false) by now apply N.ltb_ge. assert (E' : (read_bits m e' <? inf_bits) = false) by now apply N.ltb_ge. now rewrite E, E'.
  - apply go_rnd_bits. now rewrite (read_tiny m e n M A), (read_tiny m e' n M B).
Qed.

(** A number of fewer than 9600 bytes is read as if all digits of its exponent
    counted: C70's other theorems hold of Go's algorithm for such numbers. *)
Theorem exponent_digits_skipped : forall l, json_number l -> N.of_nat (String.length l) < 9600 ->
  parse_float_cut go_rnd l = parse_float go_rnd l.
Proof.
  intros l J L. unfold parse_float_cut, parse_float, dec_of_lexeme. destruct (lex_num l) as [[[[neg ip] fp] [en eds]]|] eqn:E; [|reflexivity].
  apply lex_num_inv in E as (ft & et & -> & Di & _ & F & Df & _). rewrite !slength_app in L.
  set (x := Z.of_N (N_of_digits eds)). set (c := Z.of_N (cut_exponent eds)).
  transitivity (go_rnd neg (N_of_digits (ip ++ fp)) ((if en then - x else x) - Z.of_nat (String.length fp))).
  2: { rewrite <- norm_rnd. now destruct (norm10 _ _). }
  rewrite norm_rnd.
  assert (X : (c = x \/ (10000 <= c /\ 10000 <= x))%Z).
  { unfold c, x, cut_exponent, N_of_digits. destruct (cut_spec eds 0) as [Q|[Q R]]; [left; now rewrite Q|right; lia]. }
  destruct X as [->|[A B]]; [reflexivity|].
  assert (FL : (String.length fp <= String.length ft)%nat) by (inversion F; cbn [String.append String.length]; rewrite ?digits_len; lia).
  assert (M : N_of_digits (ip ++ fp) < 10 ^ N.of_nat (String.length (ip ++ fp))).
  { assert (D : digits_only (ip ++ fp) = true) by (clear -Di Df; induction ip as [|a ip IH]; [exact Df|]; cbn [digits_only String.append] in *; apply andb_true_iff in Di as [D1 D2]; now rewrite D1, IH).
    assert (P := digits_below _ D 0). rewrite N.add_0_l, N.mul_1_l in P. exact P. }
  apply far_alike with (n := N.of_nat (String.length (ip ++ fp))); [exact M|]. rewrite slength_app. destruct en; lia.
Qed.
Print Assumptions exponent_digits_skipped.

(** strconv.ParseFloat, skipping digits, returns the nearest double or the range
    error. *)
Theorem number_read_by_strconv : forall l neg m e, json_number l -> number_text l neg m e -> N.of_nat (String.length l) < 9600 ->
  (in_range (decimal m e) -> exists y f, rounds_to (decimal m e) y /\ stands_for neg y f /\ parse_float_cut go_rnd l = Some f) /\
  (~ in_range (decimal m e) -> parse_float_cut go_rnd l = None).
Proof.
  intros l neg m e J T L. rewrite (exponent_digits_skipped l J L). apply num_ok_exact in J. apply (dec_exact l neg m e J) in T. unfold parse_float. rewrite T. split; intros R.
  - destruct (go_rnd_some neg m e R) as (_ & m' & e' & _ & _ & G). rewrite G. apply go_rnd_stands in G as (y & Y & S). exists y, (FFin neg m' e'). auto.
  - now apply go_rnd_none.
Qed.
Print Assumptions number_read_by_strconv.

(** The bound is needed: 0.00...01e100000 with 100000 zeros is 0.1, Go reads 0. *)
Definition long_number (n : nat) : string := ("0." ++ zeros n ++ "1e100000")%string.
Lemma zeros_digits n s : take_digits (zeros n ++ s) = let '(a, b) := take_digits s in (zeros n ++ a, b)%string.
Proof. induction n as [|n IH]; cbn [zeros String.append take_digits]; [now destruct (take_digits s)|]. rewrite IH. now destruct (take_digits s). Qed.
Lemma long_lex n : lex_num (long_number n) = Some (false, "0", zeros n ++ "1", (false, "100000"))%string.
Proof.
  unfold long_number. cbn. rewrite zeros_digits. cbn. destruct n; reflexivity.
Qed.
Lemma zeros_len n : String.length (zeros n) = n.
Proof. induction n as [|n IH]; [reflexivity|]. cbn [zeros String.length]. now rewrite IH. Qed.
Lemma long_reads n : N.of_nat n = 100000 -> json_number (long_number n) /\
  parse_float go_rnd (long_number n) = Some (FFin false 1 (-1)) /\ parse_float_cut go_rnd (long_number n) = Some (FFin false 0 0).
Proof.
  intros Hn. split; [apply num_ok_exact; unfold num_ok; now rewrite long_lex|].
  unfold parse_float, parse_float_cut, dec_of_lexeme. rewrite long_lex.
  assert (M : N_of_digits ("0" ++ zeros n ++ "1") = 1).
  { cbn [String.append]. unfold N_of_digits. cbn [N_of_digits_acc]. rewrite N_of_digits_acc_app, N_of_digits_zeros. rewrite N.mul_0_l. reflexivity. }
  assert (LN : Z.of_nat (String.length (zeros n ++ "1")) = 100001%Z).
  { rewrite slength_app, zeros_len. cbn [String.length]. lia. }
  rewrite M, LN. change (N_of_digits "100000") with 100000. change (cut_exponent "100000") with 10000. cbn [Z.of_N]. 
  change (norm10 1 (100000 - 100001)) with (1, (-1)%Z). change (norm10 1 (10000 - 100001)) with (1, (-90001)%Z). split; [vm_compute; reflexivity|].
  rewrite (go_rnd_bits false 1 (-90001) 0 0); [vm_compute; reflexivity|]. rewrite (read_tiny 1 (-90001) 1); [now rewrite read_0|reflexivity|lia].
Qed.
Theorem exponent_digits_skipped_refuted : exists l, json_number l /\
  parse_float go_rnd l = Some (FFin false 1 (-1)) /\ parse_float_cut go_rnd l = Some (FFin false 0 0).
Proof.
  assert (H : exists n, N.of_nat n = 100000) by (exists (N.to_nat 100000); apply N2Nat.id). destruct H as [n H]. exists (long_number n). now apply long_reads.
Qed.
Print Assumptions exponent_digits_skipped_refuted.

(** A number the theorem is about: its exponent has more digits than are read. *)
Example exponent_digits_skipped_ex : json_number "1.5e-123456789" /\ N.of_nat (String.length "1.5e-123456789") < 9600 /\
  cut_exponent "123456789" = 12345.
Proof. repeat split; try (vm_compute; reflexivity). apply num_ok_exact. reflexivity. Qed.
