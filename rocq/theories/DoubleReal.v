(** Doubles as rational numbers: the model of rounding meets its specification. *)
From Coq Require Import Lia QArith Qabs Qpower Lqa.
From Verif Require Import GoStr JsonStr Json Float Double DoubleFacts DoubleNear DoubleSpec.
Local Open Scope Q_scope.

(** A natural number as rational. *)
Definition iz (n : N) : Q := inject_Z (Z.of_N n).
(** The value of a double. *)
Definition real (k : N) : Q := iz (units k) * Qpower 2 (-1074).
(** 2^1074 as rational. *)
Definition two1074 : Q := iz (2 ^ 1074).
Lemma iz_pow (a : N) (z : Z) : (0 <= z)%Z -> iz (a ^ Z.to_N z) == iz a ^ z.
Proof. intros H. unfold iz. rewrite N2Z.inj_pow, Z2N.id by exact H. now apply Zpower_Qpower. Qed.
Lemma iz_pos n : (0 < n)%N -> 0 < iz n.
Proof. intros H. unfold iz. replace 0 with (inject_Z 0) by reflexivity. rewrite <- Zlt_Qlt. lia. Qed.
Lemma iz_mult a b : iz (a * b) == iz a * iz b.
Proof. unfold iz. now rewrite N2Z.inj_mul, inject_Z_mult. Qed.
Lemma two1074_inv : Qpower 2 (-1074) * two1074 == 1.
Proof.
  unfold two1074. change 1074%N with (Z.to_N 1074). rewrite iz_pow by lia. change (iz 2) with 2.
  rewrite <- Qpower_plus by discriminate. reflexivity.
Qed.
Lemma two1074_pos : 0 < two1074.
Proof. apply iz_pos. reflexivity. Qed.
Lemma real_scaled k : real k * two1074 == iz (units k).
Proof. unfold real. rewrite <- Qmult_assoc, two1074_inv. apply Qmult_1_r. Qed.
Lemma ten_scaled e : Qpower 10 e * iz (den10 e) == iz (10 ^ Z.to_N e).
Proof.
  unfold den10. destruct (Z.le_gt_cases 0 e) as [H|H].
  - replace (Z.to_N (- e)) with 0%N by lia. rewrite N.pow_0_r. change (iz 1) with 1. rewrite Qmult_1_r, iz_pow by exact H. reflexivity.
  - replace (Z.to_N e) with 0%N by lia. rewrite N.pow_0_r, iz_pow by lia. change (iz 10) with 10.
    rewrite <- Qpower_plus by discriminate. replace (e + - e)%Z with 0%Z by lia. reflexivity.
Qed.
Lemma decimal_scaled m e : decimal m e * (iz (den10 e) * two1074) == iz (num10 m e).
Proof.
  unfold decimal, num10. fold (iz m). rewrite !iz_mult. fold two1074. rewrite <- (ten_scaled e). ring.
Qed.
(** The factor between decimals and units. *)
Definition scale (e : Z) : Q := iz (den10 e) * two1074.
Lemma scale_pos e : 0 < scale e.
Proof. apply Qmult_lt_0_compat; [apply iz_pos, den10_pos|apply two1074_pos]. Qed.
Lemma real_scale k e : real k * scale e == iz (units k * den10 e).
Proof. unfold scale. rewrite iz_mult, <- (real_scaled k). ring. Qed.
Lemma iz_abs a b : Qabs (iz a - iz b) == inject_Z (Z.abs (Z.of_N a - Z.of_N b)).
Proof. unfold iz. unfold Qminus. rewrite <- inject_Z_opp, <- inject_Z_plus. reflexivity. Qed.
Lemma distance m e k : Qabs (decimal m e - real k) * scale e == inject_Z (offset (num10 m e) (den10 e) k).
Proof.
  unfold offset. rewrite <- (Qabs_pos (scale e)) at 1 by (apply Qlt_le_weak, scale_pos). rewrite <- Qabs_Qmult, <- iz_abs.
  apply Qabs_wd. unfold Qminus. rewrite Qmult_plus_distr_l. rewrite <- (real_scale k e). rewrite <- (decimal_scaled m e). unfold scale. ring.
Qed.
Lemma distance_le m e j k : Qabs (decimal m e - real k) <= Qabs (decimal m e - real j) <->
  (offset (num10 m e) (den10 e) k <= offset (num10 m e) (den10 e) j)%Z.
Proof.
  rewrite Zle_Qle, <- !distance. split; intros H.
  - apply Qmult_le_compat_r; [exact H|apply Qlt_le_weak, scale_pos].
  - now apply Qmult_le_r in H; [|apply scale_pos].
Qed.
Lemma distance_eq m e j k : Qabs (decimal m e - real k) == Qabs (decimal m e - real j) <->
  offset (num10 m e) (den10 e) k = offset (num10 m e) (den10 e) j.
Proof.
  rewrite <- inject_Z_injective, <- !distance. split; intros H.
  - now rewrite H.
  - apply Qmult_inj_r in H; [exact H|]. assert (S := scale_pos e). intros Q. rewrite Q in S. discriminate.
Qed.

Lemma real_mono j k : (j < k)%N -> real j < real k.
Proof.
  intros H. unfold real. apply Qmult_lt_compat_r; [reflexivity|]. unfold iz. rewrite <- Zlt_Qlt. apply units_mono in H. lia.
Qed.
Lemma real_inj j k : real j == real k -> j = k.
Proof.
  intros H. destruct (N.lt_trichotomy j k) as [L|[L|L]]; [|exact L|]; apply real_mono in L; rewrite H in L; now apply Qlt_irrefl in L.
Qed.
Lemma real_0 : real 0 == 0. Proof. unfold real. rewrite units_0. apply Qmult_0_l. Qed.
Lemma real_nonneg k : 0 <= real k.
Proof. destruct (N.eq_dec k 0) as [->|K]; [rewrite real_0; discriminate|]. assert (X := real_mono 0 k ltac:(lia)). rewrite real_0 in X. now apply Qlt_le_weak. Qed.
Lemma pow_units s M : iz (M * 2 ^ s) * Qpower 2 (-1074) == iz M * Qpower 2 (Z.of_N s - 1074).
Proof.
  rewrite iz_mult, <- (N2Z.id s) at 1. rewrite iz_pow by lia. change (iz 2) with 2.
  unfold Z.sub. rewrite Qpower_plus by discriminate. change (- (1074))%Z with (-1074)%Z. ring.
Qed.
Lemma B53 : (2 ^ 53 = 2 * 2 ^ 52)%N. Proof. reflexivity. Qed.
(** The canonical significand and exponent. *)
Lemma real_form k : (k < inf_bits)%N -> exists M s, real k == iz M * Qpower 2 (Z.of_N s - 1074) /\ units k = (M * 2 ^ s)%N /\
  (M < 2 ^ 53)%N /\ (s <= 2045)%N /\ (2 ^ 52 <= M \/ s = 0)%N /\ N.even M = N.even k.
Proof.
  intros K. rewrite B53. destruct (units_split k) as [(L & U & _)|(s & f & F & V & U & _)].
  - exists k, 0%N. unfold real. rewrite U, N.pow_0_r, N.mul_1_r. split; [reflexivity|]. repeat split; try lia.
  - exists (2 ^ 52 + f)%N, s. split; [|split; [exact U|]].
    + unfold real. rewrite U. apply pow_units.
    + repeat split; [lia| |left; lia|].
      * unfold inf_bits in K. nia.
      * rewrite V, !N.even_add, N.even_mul. change (N.even (2 ^ 52)) with true. rewrite orb_true_r. reflexivity.
Qed.
Lemma real_double k : (k < inf_bits)%N -> is_double (real k).
Proof.
  intros K. destruct (real_form k K) as (M & s & R & _ & L & S & _). exists (Z.of_N M), (Z.of_N s - 1074)%Z. split; [|exact R].
  split; [change (2 ^ 53)%Z with (Z.of_N (2 ^ 53)); lia|lia].
Qed.
Lemma form_bits s : forall M, (M < 2 ^ 53)%N -> (s <= 2045)%N -> exists k, (k < inf_bits)%N /\ units k = (M * 2 ^ s)%N.
Proof.
  rewrite B53. induction s as [|s IH] using N.peano_ind; intros M L S.
  - exists M. split; [unfold inf_bits; lia|]. rewrite N.pow_0_r, N.mul_1_r.
    destruct (units_split M) as [(_ & U & _)|(s & f & F & V & U & _)]; [exact U|]. assert (s = 0)%N by nia. subst s. rewrite U, N.pow_0_r. lia.
  - destruct (N.lt_ge_cases M (2 ^ 52)) as [H|H].
    + destruct (IH (2 * M)%N ltac:(lia) ltac:(lia)) as (k & K & U). exists k. split; [exact K|]. rewrite U, N.pow_succ_r'. lia.
    + exists ((N.succ s + 1) * 2 ^ 52 + (M - 2 ^ 52))%N. split; [unfold inf_bits; nia|].
      rewrite units_at by lia. f_equal. lia.
Qed.
Lemma double_real y : is_double y -> 0 <= y -> exists k, (k < inf_bits)%N /\ y == real k.
Proof.
  intros (M & E & [A [B C]] & Y) P.
  assert (Mn : (0 <= M)%Z). { destruct (Z.le_gt_cases 0 M) as [X|X]; [exact X|]. exfalso.
    assert (Q : inject_Z M * Qpower 2 E < 0). { assert (T := Qpower_0_lt 2 E ltac:(reflexivity)).
      assert (inject_Z M < 0) by (change 0 with (inject_Z 0); rewrite <- Zlt_Qlt; exact X). nra. }
    rewrite <- Y in Q. now apply Qlt_not_le in Q. }
  destruct (form_bits (Z.to_N (E + 1074)) (Z.to_N M)) as (k & K & U).
  - change (2 ^ 53)%Z with (Z.of_N (2 ^ 53)) in A. lia.
  - lia.
  - exists k. split; [exact K|]. unfold real. rewrite U, pow_units, Y. unfold iz. rewrite !Z2N.id by lia.
    replace (E + 1074 - 1074)%Z with E by lia. reflexivity.
Qed.
Lemma pow2_le s s' : (s <= s' -> 2 ^ s <= 2 ^ s')%N.
Proof. apply N.pow_le_mono_r. discriminate. Qed.
Lemma real_even k : (k < inf_bits)%N -> even_double (real k) <-> N.even k = true.
Proof.
  intros K. destruct (real_form k K) as (M & s & R & U & L & S & C & V). split.
  - intros (M' & E' & [A [B D]] & Y & C' & V').
    assert (Mn : (0 <= M')%Z). { destruct (Z.le_gt_cases 0 M') as [X|X]; [exact X|]. exfalso.
      assert (Q : inject_Z M' * Qpower 2 E' < 0). { assert (T := Qpower_0_lt 2 E' ltac:(reflexivity)).
        assert (inject_Z M' < 0) by (change 0 with (inject_Z 0); rewrite <- Zlt_Qlt; exact X). nra. }
      rewrite <- Y in Q. apply Qlt_not_le in Q. apply Q, real_nonneg. }
    set (n := Z.to_N M'). set (s' := Z.to_N (E' + 1074)).
    assert (E : (n * 2 ^ s' = M * 2 ^ s)%N).
    { rewrite <- U. assert (X : iz (n * 2 ^ s') * Qpower 2 (-1074) == real k).
      { rewrite pow_units, Y. unfold iz, n, s'. rewrite !Z2N.id by lia. replace (E' + 1074 - 1074)%Z with E' by lia. reflexivity. }
      unfold real in X. apply Qmult_inj_r in X; [|discriminate]. unfold iz in X. apply (proj1 (inject_Z_injective _ _)) in X. now apply N2Z.inj in X. }
    assert (Q : s' = s).
    { assert (Pn : (n < 2 ^ 53)%N) by (change (2 ^ 53)%Z with (Z.of_N (2 ^ 53)) in A; lia).
      assert (Cn : (2 ^ 52 <= n \/ s' = 0)%N) by (change (2 ^ 52)%Z with (Z.of_N (2 ^ 52)) in C'; lia).
      rewrite B53 in *. clear - E Pn Cn L C. assert (P : forall s, (0 < 2 ^ s)%N) by (intros; apply N.neq_0_lt_0, N.pow_nonzero; discriminate).
      set (b := (2 ^ 52)%N) in *. clearbody b n.
      destruct (N.lt_trichotomy s' s) as [X|[X|X]]; [exfalso|exact X|exfalso].
      - assert (H := pow2_le (N.succ s') s ltac:(lia)). rewrite N.pow_succ_r' in H. assert (P1 := P s'). destruct C as [C|C]; [|rewrite C in X; now apply N.nlt_0_r in X].
        assert (b * (2 * 2 ^ s') <= M * 2 ^ s)%N by (now apply N.mul_le_mono). assert (n * 2 ^ s' < 2 * b * 2 ^ s')%N by (now apply N.mul_lt_mono_pos_r). lia.
      - assert (H := pow2_le (N.succ s) s' ltac:(lia)). rewrite N.pow_succ_r' in H. assert (P1 := P s). destruct Cn as [C'|C']; [|rewrite C' in X; now apply N.nlt_0_r in X].
        assert (b * (2 * 2 ^ s) <= n * 2 ^ s')%N by (now apply N.mul_le_mono). assert (M * 2 ^ s < 2 * b * 2 ^ s)%N by (now apply N.mul_lt_mono_pos_r). lia. }
    rewrite Q in E. apply N.mul_cancel_r in E; [|apply N.pow_nonzero; discriminate]. rewrite <- V, <- E. unfold n.
    rewrite <- V'. rewrite <- (Z2N.id M') at 2 by exact Mn. generalize (Z.to_N M'). intros x. destruct x; [reflexivity|now destruct p].
  - intros W. exists (Z.of_N M), (Z.of_N s - 1074)%Z. split; [|split; [exact R|split]].
    + split; [change (2 ^ 53)%Z with (Z.of_N (2 ^ 53)); lia|lia].
    + change (2 ^ 52)%Z with (Z.of_N (2 ^ 52)). lia.
    + rewrite <- V in W. rewrite <- W. destruct M; [reflexivity|now destruct p].
Qed.

Lemma decimal_nonneg m e : 0 <= decimal m e.
Proof.
  unfold decimal. apply Qmult_le_0_compat; [|apply Qlt_le_weak, Qpower_0_lt; reflexivity].
  change 0 with (inject_Z 0). rewrite <- Zle_Qle. lia.
Qed.
Lemma decimal_range m e : in_range (decimal m e) <-> limit (num10 m e) (den10 e).
Proof.
  unfold in_range, limit. rewrite Qabs_pos by apply decimal_nonneg.
  assert (S := scale_pos e). rewrite <- (Qmult_lt_r _ _ (scale e) S).
  assert (D : decimal m e * scale e == iz (num10 m e)) by apply decimal_scaled. rewrite D.
  set (H := (2 ^ 2098 - 2 ^ 2044)%N).
  assert (X : (Qpower 2 1024 - Qpower 2 970) * scale e == iz (H * den10 e)).
  { unfold scale. rewrite iz_mult. assert (Y : (Qpower 2 1024 - Qpower 2 970) * two1074 == iz H) by (vm_compute; reflexivity). rewrite <- Y. ring. }
  rewrite X. unfold iz. rewrite <- Zlt_Qlt. assert (U : (units (inf_bits - 1) + units inf_bits = 2 * H)%N) by (vm_compute; reflexivity).
  rewrite U. lia.
Qed.

(** Rounding. *)
Lemma read_rounds m e k : (k < inf_bits)%N -> read_bits m e = k <-> rounds_to (decimal m e) (real k).
Proof.
  intros K. unfold read_bits. rewrite (nearest_closest _ _ _ (den10_pos e) K), <- decimal_range. unfold rounds_to. split.
  - intros [L C]. split; [exact L|]. split; [now apply real_double|]. intros z Z.
    destruct (Qlt_le_dec z 0) as [N|P].
    + assert (X : Qabs (decimal m e - real k) <= Qabs (decimal m e - real 0)) by (apply distance_le, C; reflexivity).
      assert (Y : Qabs (decimal m e - real 0) < Qabs (decimal m e - z)).
      { assert (D := decimal_nonneg m e). assert (Z0 := real_0). rewrite !Qabs_pos; lra. }
      split; [lra|]. intros Q. exfalso. lra.
    + destruct (double_real z Z P) as (j & J & Q). destruct (C j J) as [A B].
      assert (W : Qabs (decimal m e - z) == Qabs (decimal m e - real j)) by (now rewrite Q).
      rewrite W. split; [now apply distance_le|]. intros T. apply distance_eq, B in T as [T|T]; [left; now rewrite Q, T|].
      right. now apply real_even.
  - intros [L [_ C]]. split; [exact L|]. intros j J. destruct (C (real j) (real_double j J)) as [A B].
    split; [now apply distance_le|]. intros T. apply distance_eq, B in T as [T|T]; [left; now apply real_inj|right; now apply real_even in T].
Qed.

(** Distances at different exponents. *)
Lemma cross m e m' e' k : (dist m e k * Z.of_N (den10 e') < dist m' e' k * Z.of_N (den10 e))%Z ->
  Qabs (decimal m e - real k) < Qabs (decimal m' e' - real k).
Proof.
  rewrite Zlt_Qlt, !inject_Z_mult. assert (A := distance m e k). assert (B := distance m' e' k). unfold offset in A, B. unfold dist.
  rewrite <- A, <- B. fold (iz (den10 e)) (iz (den10 e')). unfold scale. intros H.
  set (a := Qabs (decimal m e - real k)) in *. set (b := Qabs (decimal m' e' - real k)) in *.
  assert (P := iz_pos _ (den10_pos e)). assert (P' := iz_pos _ (den10_pos e')). assert (T := two1074_pos).
  set (x := iz (den10 e)) in *. set (y := iz (den10 e')) in *. set (t := two1074) in *.
  assert (W : 0 < x * y * t) by (repeat apply Qmult_lt_0_compat; assumption).
  apply (Qmult_lt_r _ _ (x * y * t) W). setoid_replace (a * (x * y * t)) with (a * (x * t) * y) by ring.
  setoid_replace (b * (x * y * t)) with (b * (y * t) * x) by ring. exact H.
Qed.
Lemma digits_of m : (0 < m -> exists n, 10 ^ n <= m /\ m < 10 ^ (n + 1))%N.
Proof.
  induction m as [m IH] using (well_founded_induction N.lt_wf_0). intros P.
  destruct (N.lt_ge_cases m 10) as [L|L]; [exists 0%N; change (10 ^ 0)%N with 1%N; change (10 ^ (0 + 1))%N with 10%N; lia|].
  destruct (IH (m / 10)%N) as (n & A & B).
  - apply N.div_lt; lia.
  - assert (1 <= m / 10)%N by (apply N.div_le_lower_bound; lia). lia.
  - exists (n + 1)%N. assert (E1 : (10 ^ (n + 1) = 10 * 10 ^ n)%N) by (rewrite N.add_1_r; apply N.pow_succ_r').
    assert (E2 : (10 ^ (n + 1 + 1) = 10 * 10 ^ (n + 1))%N) by (rewrite (N.add_1_r (n + 1)); apply N.pow_succ_r').
    assert (D := N.div_mod m 10 ltac:(lia)). assert (M := N.mod_lt m 10 ltac:(lia)). rewrite E2, E1 in *.
    set (q := (m / 10)%N) in *. set (r := (m mod 10)%N) in *. clearbody q r. lia.
Qed.
Lemma real_nearest_0 m' e' : Qabs (decimal 0 0 - real 0) <= Qabs (decimal m' e' - real 0) /\
  (Qabs (decimal 0 0 - real 0) == Qabs (decimal m' e' - real 0) -> decimal m' e' == decimal 0 0).
Proof.
  assert (D := decimal_nonneg m' e'). assert (Z0 := real_0). assert (D0 : decimal 0 0 == 0) by reflexivity.
  rewrite (Qabs_pos (decimal 0 0 - _)) by lra. rewrite (Qabs_pos (decimal m' e' - _)) by lra. split; [lra|]. intros H. lra.
Qed.
Lemma shortest_correct k : (k < inf_bits)%N -> shortest_decimal (real k) (fst (shortest k)) (snd (shortest k)).
Proof.
  intros K. split; [apply read_rounds; [exact K|now apply shortest_reads]|]. split; [now apply shortest_lowest|].
  intros m' e' R. apply read_rounds in R; [|exact K].
  destruct (N.eq_dec k 0) as [->|P].
  - change (fst (shortest 0)) with 0%N. change (snd (shortest 0)) with 0%Z. split.
    + intros n _. apply N.neq_0_lt_0, N.pow_nonzero. discriminate.
    + intros _. destruct (real_nearest_0 m' e') as [A B]. split; [exact A|]. intros H. left. now apply B.
  - assert (P' : (0 < k)%N) by lia. destruct (shortest_spec k P' K) as (m & e & S & M & E & H). rewrite S. cbn [fst snd].
    assert (Rm := multiple_sound _ _ _ M). split.
    + intros n. apply (fewest_digits k m e m' e'); auto.
    + intros D. assert (Mp : (0 < m)%N). { apply N.neq_0_lt_0. intros ->. rewrite read_0 in Rm. lia. }
      destruct (digits_of m Mp) as (n & A & B). destruct (closest_digits k m e m' e' n P' K S M E H R A (D _ B)) as [->|X].
      * assert (C := multiple_closest k e m m' M R). assert (T := multiple_tie k e m m' M R).
        assert (Dm := distance m e k). assert (Dm' := distance m' e k). unfold offset in *. unfold dist in *. split.
        -- rewrite Zle_Qle, <- Dm, <- Dm' in C. now apply Qmult_le_r in C; [|apply scale_pos].
        -- intros Q. rewrite Q in Dm. rewrite Dm in Dm'. apply (proj1 (inject_Z_injective _ _)) in Dm'.
           apply T in Dm' as [->|[V _]]; [left; reflexivity|now right].
      * apply cross in X. split; [now apply Qlt_le_weak|]. intros Q. exfalso. rewrite Q in X. now apply Qlt_irrefl in X.
Qed.

(** ParseFloat. *)
Lemma parse_bits_range m e : in_range (decimal m e) <-> exists k, parse_bits m e = Some k.
Proof.
  rewrite decimal_range, <- (nearest_limit _ _ (den10_pos e)). fold (read_bits m e). unfold parse_bits.
  destruct (N.ltb_spec (read_bits m e) inf_bits) as [L|L].
  - split; [now exists (read_bits m e)|auto].
  - split; [lia|intros [k H]; discriminate].
Qed.
Lemma parse_bits_some m e k : parse_bits m e = Some k <-> (k < inf_bits)%N /\ rounds_to (decimal m e) (real k).
Proof.
  unfold parse_bits. destruct (N.ltb_spec (read_bits m e) inf_bits) as [L|L].
  - split; [intros [= <-]; split; [exact L|now apply read_rounds]|]. intros [K R]. apply read_rounds in R; [now rewrite R|exact K].
  - split; [discriminate|]. intros [K R]. apply read_rounds in R; [|exact K]. lia.
Qed.
Lemma go_rnd_some neg m e : in_range (decimal m e) -> exists y m' e', rounds_to (decimal m e) y /\ shortest_decimal y m' e' /\
  go_rnd neg m e = Some (FFin neg m' e').
Proof.
  intros R. apply parse_bits_range in R as [k P]. exists (real k), (fst (shortest k)), (snd (shortest k)).
  unfold go_rnd, flt_of_bits. rewrite P. apply parse_bits_some in P as [K P]. split; [exact P|]. split; [now apply shortest_correct|].
  now destruct (shortest k).
Qed.
Lemma go_rnd_none neg m e : ~ in_range (decimal m e) -> go_rnd neg m e = None.
Proof.
  intros R. unfold go_rnd. destruct (parse_bits m e) as [k|] eqn:P; [|reflexivity]. destruct R. apply parse_bits_range. now exists k.
Qed.
(** The doubles are what rounding leaves alone. *)
Lemma parse_shortest k : (k < inf_bits)%N -> parse_bits (fst (shortest k)) (snd (shortest k)) = Some k.
Proof. intros K. unfold parse_bits. rewrite shortest_reads by exact K. apply N.ltb_lt in K. now rewrite K. Qed.
Lemma go_rnd_fixed neg m e f : go_rnd neg m e = Some f -> exists k, (k < inf_bits)%N /\ f = flt_of_bits neg k /\
  go_rnd neg (fst (shortest k)) (snd (shortest k)) = Some f.
Proof.
  unfold go_rnd. destruct (parse_bits m e) as [k|] eqn:P; [|discriminate]. intros [= <-].
  apply parse_bits_some in P as [K _]. exists k. split; [exact K|]. split; [reflexivity|]. now rewrite parse_shortest.
Qed.

(** The shortest decimal is unique. *)
Lemma decimal_inj m e m' e' : (m mod 10 <> 0)%N -> (m' mod 10 <> 0)%N -> decimal m e == decimal m' e' -> m = m' /\ e = e'.
Proof.
  assert (W : forall m e m' e', (m mod 10 <> 0)%N -> (e <= e')%Z -> decimal m e == decimal m' e' -> m = m' /\ e = e').
  { clear. intros m e m' e' M L H. unfold decimal in H. replace e' with (e + (e' - e))%Z in H by lia.
    rewrite Qpower_plus in H by discriminate. assert (P := Qpower_0_lt 10 e ltac:(reflexivity)).
    assert (H' : iz m * Qpower 10 e == (iz m' * iz (10 ^ Z.to_N (e' - e))) * Qpower 10 e).
    { rewrite iz_pow by lia. unfold iz at 1. rewrite H. unfold iz. change (inject_Z (Z.of_N 10)) with 10. ring. }
    apply Qmult_inj_r in H'; [|intros Q; rewrite Q in P; discriminate]. rewrite <- iz_mult in H'. unfold iz in H'.
    apply (proj1 (inject_Z_injective _ _)), N2Z.inj in H'.
    destruct (Z.eq_dec e' e) as [->|N].
    - rewrite Z.sub_diag in H'. change (10 ^ Z.to_N 0)%N with 1%N in H'. rewrite N.mul_1_r in H'. auto.
    - exfalso. apply M. rewrite H'. replace (Z.to_N (e' - e)) with (N.succ (Z.to_N (e' - e - 1))) by lia. rewrite N.pow_succ_r'.
      rewrite (N.mul_comm 10), N.mul_assoc. apply N.mod_mul. discriminate. }
  intros M M' H. destruct (Z.le_ge_cases e e') as [L|L]; [now apply W|].
  destruct (W m' e' m e M' L) as [A B]; [now symmetry|auto].
Qed.
Lemma shortest_unique k m e : (k < inf_bits)%N -> shortest_decimal (real k) m e -> shortest k = (m, e).
Proof.
  intros K (R & L & F). assert (R0 := R). apply read_rounds in R0; [|exact K].
  destruct (shortest_correct k K) as (S1 & S2 & S3). destruct (N.eq_dec k 0) as [->|P].
  - change (fst (shortest 0)) with 0%N in *. change (snd (shortest 0)) with 0%Z in *. change (shortest 0) with (0%N, 0%Z).
    destruct (F 0%N 0%Z S1) as [A _]. assert (m < 10 ^ 0)%N by (apply A; reflexivity). change (10 ^ 0)%N with 1%N in *.
    assert (m = 0)%N by lia. subst m. destruct L as [[_ ->]|L]; [reflexivity|now destruct L].
  - assert (P' : (0 < k)%N) by lia. destruct (shortest_spec k P' K) as (m0 & e0 & S & M & E & H). rewrite S in *. cbn [fst snd] in *.
    assert (Rm := multiple_sound _ _ _ M). assert (Mp : (0 < m0)%N). { apply N.neq_0_lt_0. intros ->. rewrite read_0 in Rm. lia. }
    assert (Mz : (m <> 0)%N) by (intros ->; rewrite read_0 in R0; lia).
    destruct (S3 m e R) as [A1 A2]. destruct (F m0 e0 S1) as [B1 B2]. destruct (A2 B1) as [A3 _]. destruct (B2 A1) as [B3 B4].
    assert (Eq : Qabs (decimal m0 e0 - real k) == Qabs (decimal m e - real k)) by (apply Qle_antisym; assumption).
    destruct (digits_of m0 Mp) as (n & D1 & D2).
    destruct (closest_digits k m0 e0 m e n P' K S M E H R0 D1 (B1 _ D2)) as [->|X]; [|apply cross in X; rewrite Eq in X; now apply Qlt_irrefl in X].
    f_equal. assert (T := multiple_tie k e0 m0 m M R0). destruct T as [T|[T1 T2]]; [|now symmetry|].
    + assert (Dm := distance m0 e0 k). assert (Dm' := distance m e0 k). rewrite Eq, Dm' in Dm. unfold offset in Dm. unfold dist.
      apply (proj1 (inject_Z_injective _ _)) in Dm. now symmetry.
    + destruct B4 as [Q|Q]; [now symmetry| |congruence].
      destruct L as [[L _]|L]; [contradiction|]. destruct S2 as [[S2 _]|S2]; [lia|]. now destruct (decimal_inj m0 e0 m e0 S2 L Q).
Qed.

Lemma rounds_ext x y y' : y == y' -> rounds_to x y -> rounds_to x y'.
Proof.
  intros Q (R & (M & E & D & Y) & C). split; [exact R|]. split; [exists M, E; split; [exact D|now rewrite <- Q]|]. intros z Z.
  destruct (C z Z) as [A B]. split; [now rewrite <- Q|]. intros T. rewrite <- Q in T. apply B in T as [T|T]; [left; now rewrite <- Q|right].
  destruct T as (M' & E' & D' & Y' & W). exists M', E'. split; [exact D'|]. split; [now rewrite <- Q|exact W].
Qed.
Lemma shortest_ext y y' m e : y == y' -> shortest_decimal y m e -> shortest_decimal y' m e.
Proof.
  intros Q (R & L & F). split; [now apply (rounds_ext _ y)|]. split; [exact L|]. intros m' e' R'.
  destruct (F m' e') as [A B]; [apply (rounds_ext _ y'); [now symmetry|exact R']|]. split; [exact A|].
  intros D. destruct (B D) as [B1 B2]. split; [now rewrite <- Q|]. intros T. rewrite <- Q in T. now apply B2.
Qed.
Lemma stands_bits neg y f : stands_for neg y f <-> exists k, (k < inf_bits)%N /\ y == real k /\ f = flt_of_bits neg k.
Proof.
  split.
  - intros (D & P & m & e & F & S). destruct (double_real y D P) as (k & K & Y). exists k. split; [exact K|]. split; [exact Y|].
    unfold flt_of_bits. now rewrite (shortest_unique k m e K (shortest_ext _ _ _ _ Y S)).
  - intros (k & K & Y & F). split; [destruct (real_double k K) as (M & E & D & R); exists M, E; split; [exact D|now rewrite Y]|].
    split; [rewrite Y; apply real_nonneg|]. exists (fst (shortest k)), (snd (shortest k)). split; [unfold flt_of_bits in F; now destruct (shortest k)|].
    apply (shortest_ext (real k)); [now symmetry|]. now apply shortest_correct.
Qed.
Lemma stands_unique neg y f g : stands_for neg y f -> stands_for neg y g -> f = g.
Proof. intros A B. apply stands_bits in A as (k & _ & Y & ->), B as (j & _ & Y' & ->). rewrite Y in Y'. now apply real_inj in Y' as ->. Qed.
Lemma stands_total neg y : is_double y -> 0 <= y -> exists f, stands_for neg y f.
Proof. intros D P. destruct (double_real y D P) as (k & K & Y). exists (flt_of_bits neg k). apply stands_bits. eauto. Qed.
Lemma go_rnd_stands neg m e f : go_rnd neg m e = Some f <-> exists y, rounds_to (decimal m e) y /\ stands_for neg y f.
Proof.
  unfold go_rnd. split.
  - destruct (parse_bits m e) as [k|] eqn:P; [|discriminate]. intros [= <-]. apply parse_bits_some in P as [K R]. exists (real k).
    split; [exact R|]. apply stands_bits. exists k. split; [exact K|]. split; reflexivity.
  - intros (y & R & S). apply stands_bits in S as (k & K & Y & ->). apply (rounds_ext _ _ _ Y) in R.
    assert (P : parse_bits m e = Some k) by (now apply parse_bits_some). now rewrite P.
Qed.
(** The shortest decimal of a double is read as this double. *)
Lemma go_rnd_own neg y m e : stands_for neg y (FFin neg m e) -> go_rnd neg m e = Some (FFin neg m e).
Proof.
  intros S. apply go_rnd_stands. exists y. split; [|exact S]. destruct S as (_ & _ & m' & e' & F & R & _). now injection F as <- <-.
Qed.
Lemma f64_double f : is_f64 go_rnd f = true <-> (forall neg m e, f = FFin neg m e -> exists y, stands_for neg y f).
Proof.
  destruct f as [|b|neg m e]; [split; [discriminate|reflexivity]|split; [discriminate|reflexivity]|]. unfold is_f64. rewrite andb_true_iff. split.
  - intros [C R] n m0 e0 E. injection E as <- <- <-. destruct (go_rnd neg m e) as [g|] eqn:G; [|discriminate].
    assert (g = FFin neg m e). { destruct g; try discriminate. cbn in R. apply andb_true_iff in R as [R R3]. apply andb_true_iff in R as [R1 R2].
      apply eqb_prop in R1. apply N.eqb_eq in R2. apply Z.eqb_eq in R3. congruence. }
    subst g. apply go_rnd_stands in G as (y & _ & S). now exists y.
  - intros H. destruct (H neg m e eq_refl) as [y S]. split.
    + destruct S as (_ & _ & m' & e' & F & _ & L & _). injection F as <- <-. unfold canonical. destruct L as [[-> ->]|L]; [reflexivity|].
      destruct (N.eqb_spec m 0) as [->|_]; [now destruct L|]. destruct (N.eqb_spec (m mod 10) 0); [contradiction|reflexivity].
    + rewrite (go_rnd_own neg y m e S). cbn. now rewrite eqb_reflx, N.eqb_refl, Z.eqb_refl.
Qed.

(** Order. *)
Lemma decimal_le m e m' e' : decimal m e <= decimal m' e' <-> dle m e m' e'.
Proof.
  unfold dle. assert (P := iz_pos _ (den10_pos e)). assert (P' := iz_pos _ (den10_pos e')). assert (T := two1074_pos).
  assert (W : 0 < iz (den10 e) * iz (den10 e') * two1074) by (repeat apply Qmult_lt_0_compat; assumption).
  rewrite <- (Qmult_le_r _ _ _ W). assert (A := decimal_scaled m e). assert (B := decimal_scaled m' e').
  setoid_replace (decimal m e * (iz (den10 e) * iz (den10 e') * two1074)) with (iz (num10 m e * den10 e')) by (rewrite iz_mult, <- A; ring).
  setoid_replace (decimal m' e' * (iz (den10 e) * iz (den10 e') * two1074)) with (iz (num10 m' e' * den10 e)) by (rewrite iz_mult, <- B; ring).
  unfold iz. rewrite <- Zle_Qle. lia.
Qed.
Lemma shortest_order j k : (j < inf_bits)%N -> (k < inf_bits)%N ->
  decimal (fst (shortest j)) (snd (shortest j)) < decimal (fst (shortest k)) (snd (shortest k)) <-> real j < real k.
Proof.
  intros J K. assert (W : forall a b, (a < inf_bits)%N -> (b < inf_bits)%N -> real a < real b ->
    decimal (fst (shortest a)) (snd (shortest a)) < decimal (fst (shortest b)) (snd (shortest b))).
  { intros a b A B H. apply Qnot_le_lt. intros L. apply decimal_le, read_mono in L. rewrite !shortest_reads in L by assumption.
    destruct (N.eq_dec b a) as [->|N]; [now apply Qlt_irrefl in H|]. assert (X := real_mono b a ltac:(lia)). apply (Qlt_trans _ _ _ H) in X. now apply Qlt_irrefl in X. }
  split; [|now apply W]. intros H. destruct (Qlt_le_dec (real j) (real k)) as [L|L]; [exact L|]. exfalso.
  apply Qle_lteq in L as [L|L].
  - apply (W k j K J) in L. apply (Qlt_trans _ _ _ H) in L. now apply Qlt_irrefl in L.
  - apply real_inj in L as ->. now apply Qlt_irrefl in H.
Qed.
