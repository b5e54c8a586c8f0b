(** Facts about doubles. *)
From Coq Require Import Lia.
From Verif Require Import GoStr JsonStr Json Float Double.
Local Open Scope N_scope.

Lemma B_pos : 0 < 2 ^ 52. Proof. reflexivity. Qed.

Lemma units_split k : (k < 2 ^ 52 /\ units k = k /\ k / 2 ^ 52 - 1 = 0) \/
  exists s f, f < 2 ^ 52 /\ k = (s + 1) * 2 ^ 52 + f /\ units k = (2 ^ 52 + f) * 2 ^ s /\ k / 2 ^ 52 - 1 = s.
Proof.
  unfold units. assert (B := B_pos). set (b := 2 ^ 52) in *. clearbody b.
  assert (D := N.div_mod k b ltac:(lia)). assert (M := N.mod_lt k b ltac:(lia)).
  set (q := k / b) in *. set (f := k mod b) in *. clearbody q f.
  destruct (N.eq_dec q 0) as [->|Q].
  - left. change (0 - 1) with 0. rewrite N.pow_0_r. lia.
  - right. exists (q - 1), f. split; [lia|]. split; [nia|]. split; [|reflexivity]. f_equal. nia.
Qed.
Lemma units_at s f : f < 2 ^ 52 -> units ((s + 1) * 2 ^ 52 + f) = (2 ^ 52 + f) * 2 ^ s.
Proof.
  intros F. unfold units. assert (B := B_pos). set (b := 2 ^ 52) in *. clearbody b.
  replace (((s + 1) * b + f) / b) with (s + 1).
  - replace (s + 1 - 1) with s by lia. f_equal. nia.
  - rewrite (N.add_comm ((s + 1) * _)), N.div_add by lia. rewrite N.div_small by lia. lia.
Qed.
Definition gap (k : N) : N := 2 ^ (k / 2 ^ 52 - 1).
Lemma gap_pos k : 0 < gap k.
Proof. unfold gap. apply N.neq_0_lt_0, N.pow_nonzero. discriminate. Qed.
Lemma units_succ k : units (k + 1) = units k + gap k.
Proof.
  unfold gap. assert (B := B_pos). destruct (units_split k) as [(L & E & S)|(s & f & F & K & E & S)]; rewrite S, E.
  - rewrite N.pow_0_r. destruct (N.eq_dec (k + 1) (2 ^ 52)) as [Q|Q].
    + rewrite Q. assert (X := units_at 0 0 B). rewrite N.add_0_r, N.add_0_l, N.mul_1_l, N.pow_0_r in X. rewrite X. lia.
    + destruct (units_split (k + 1)) as [(_ & X & _)|(s & f & F & K & _)]; [exact X|]. exfalso. nia.
  - subst k. destruct (N.eq_dec (f + 1) (2 ^ 52)) as [Q|Q].
    + replace ((s + 1) * 2 ^ 52 + f + 1) with ((s + 1 + 1) * 2 ^ 52 + 0) by nia. rewrite units_at by exact B.
      replace (2 ^ (s + 1)) with (2 * 2 ^ s) by (rewrite N.add_1_r, N.pow_succ_r'; reflexivity). nia.
    + replace ((s + 1) * 2 ^ 52 + f + 1) with ((s + 1) * 2 ^ 52 + (f + 1)) by lia. rewrite units_at by lia. nia.
Qed.
Lemma units_0 : units 0 = 0. Proof. reflexivity. Qed.
Lemma units_mono j k : j < k -> units j < units k.
Proof.
  intros H. replace k with (j + 1 + (k - j - 1)) by lia. generalize (k - j - 1). intros n. induction n using N.peano_ind.
  - rewrite N.add_0_r, units_succ. assert (G := gap_pos j). lia.
  - rewrite <- N.add_1_r, N.add_assoc, units_succ. assert (G := gap_pos (j + 1 + n)). lia.
Qed.
Lemma units_le j k : j <= k -> units j <= units k.
Proof. intros H. destruct (N.eq_dec j k) as [->|N]; [lia|]. assert (X := units_mono j k). lia. Qed.
Lemma units_le_iff j k : units j <= units k <-> j <= k.
Proof. split; [|apply units_le]. intros H. destruct (N.le_gt_cases j k) as [L|L]; [exact L|]. apply units_mono in L. lia. Qed.
Lemma units_pos k : 0 < k -> 0 < units k.
Proof. intros H. apply units_mono in H. now rewrite units_0 in H. Qed.

Lemma floor_bits_spec q : units (floor_bits q) <= q < units (floor_bits q + 1).
Proof.
  rewrite units_succ. unfold floor_bits. set (s := N.log2 q - 52).
  assert (P : 0 < 2 ^ s) by (apply N.neq_0_lt_0, N.pow_nonzero; discriminate).
  assert (D := N.div_mod q (2 ^ s) ltac:(lia)). assert (M := N.mod_lt q (2 ^ s) ltac:(lia)).
  assert (L : N.log2 q <= 52 \/ 52 < N.log2 q) by lia. destruct L as [L|L].
  - assert (S0 : s = 0) by (unfold s; lia). rewrite S0. clear D M P. rewrite N.pow_0_r, N.div_1_r, N.mul_0_l, N.add_0_l.
    assert (q < 2 ^ 53). { destruct (N.eq_dec q 0) as [->|Q]; [reflexivity|]. assert (X := proj2 (N.log2_spec q ltac:(lia))).
      eapply N.lt_le_trans; [exact X|]. apply N.pow_le_mono_r; lia. }
    replace (2 ^ 53) with (2 * 2 ^ 52) in H by reflexivity. unfold gap.
    destruct (units_split q) as [(_ & E & S)|(s' & f & F & K & E & S)]; rewrite S, E.
    + rewrite N.pow_0_r. lia.
    + assert (Z0 : s' = 0) by nia. rewrite Z0 in *. rewrite N.pow_0_r. nia.
  - assert (Q : q <> 0) by (intros ->; cbn in L; lia).
    destruct (N.log2_spec q ltac:(lia)) as [A C]. replace (N.log2 q) with (s + 52) in A, C by (unfold s; lia).
    rewrite N.pow_add_r in A. replace (N.succ (s + 52)) with (s + 53) in C by lia. rewrite N.pow_add_r in C.
    replace (2 ^ 53) with (2 * 2 ^ 52) in C by reflexivity.
    set (h := q / 2 ^ s) in *. assert (h < 2 * 2 ^ 52) by (unfold h; apply N.div_lt_upper_bound; lia).
    assert (2 ^ 52 <= h) by (unfold h; apply N.div_le_lower_bound; lia).
    assert (K : s * 2 ^ 52 + h = (s + 1) * 2 ^ 52 + (h - 2 ^ 52)) by lia.
    assert (U : units (s * 2 ^ 52 + h) = h * 2 ^ s). { rewrite K, units_at by lia. f_equal. lia. }
    assert (G : gap (s * 2 ^ 52 + h) = 2 ^ s).
    { unfold gap. f_equal. rewrite K. rewrite (N.add_comm ((s + 1) * _)), N.div_add by lia. rewrite N.div_small by lia. lia. }
    rewrite U, G, (N.mul_comm h). revert D M. generalize (q mod 2 ^ s). intros a. generalize (2 ^ s * h). intros b. generalize (2 ^ s). intros c D M. clear - D M. lia.
Qed.
Lemma floor_bits_mono p q : p <= q -> floor_bits p <= floor_bits q.
Proof.
  intros H. destruct (N.le_gt_cases (floor_bits p) (floor_bits q)) as [L|L]; [exact L|]. exfalso.
  assert (A := floor_bits_spec p). assert (B := floor_bits_spec q).
  assert (X := units_le (floor_bits q + 1) (floor_bits p) ltac:(lia)). lia.
Qed.

(** Rounding is monotone and leaves doubles alone. *)
Lemma div_mono n d n' d' : 0 < d -> 0 < d' -> n * d' <= n' * d -> n / d <= n' / d'.
Proof.
  intros D D' H. apply N.div_le_lower_bound; [lia|].
  assert (X := N.mul_div_le n d ltac:(lia)). set (q := n / d) in *. clearbody q. nia.
Qed.
Lemma nearest_mono n d n' d' : 0 < d -> 0 < d' -> n * d' <= n' * d -> nearest_bits n d <= nearest_bits n' d'.
Proof.
  intros D D' H. unfold nearest_bits. assert (F := floor_bits_mono _ _ (div_mono n d n' d' D D' H)).
  set (k := floor_bits (n / d)) in *. set (k' := floor_bits (n' / d')) in *. clearbody k k'.
  destruct (N.eq_dec k k') as [<-|Q].
  - set (u := units k + units (k + 1)). clearbody u.
    destruct (N.compare_spec (2 * n) (d * u)); destruct (N.compare_spec (2 * n') (d' * u)); try destruct (N.even k); try lia; exfalso; nia.
  - destruct (2 * n ?= d * _); destruct (2 * n' ?= d' * _); try destruct (N.even k); try destruct (N.even k'); lia.
Qed.
Lemma nearest_exact k d : 0 < d -> nearest_bits (units k * d) d = k.
Proof.
  intros D. unfold nearest_bits. rewrite N.div_mul by lia.
  assert (S := floor_bits_spec (units k)). assert (E : floor_bits (units k) = k).
  { destruct (N.lt_trichotomy (floor_bits (units k)) k) as [L|[L|L]]; [|exact L|].
    - assert (X := units_le (floor_bits (units k) + 1) k ltac:(lia)). lia.
    - assert (X := units_mono k _ L). lia. }
  rewrite E. assert (U := units_mono k (k + 1) ltac:(lia)).
  destruct (N.compare_spec (2 * (units k * d)) (d * (units k + units (k + 1)))); [exfalso; nia|reflexivity|exfalso; nia].
Qed.

(** The decimals that are read as a double lie between the midpoints to its
    neighbours. *)
Definition above_lower (k n d : N) : Prop :=
  k = 0 \/ d * (units (k - 1) + units k) < 2 * n \/ (d * (units (k - 1) + units k) = 2 * n /\ N.even k = true).
Definition below_upper (k n d : N) : Prop :=
  2 * n < d * (units k + units (k + 1)) \/ (2 * n = d * (units k + units (k + 1)) /\ N.even k = true).
Lemma even_succ1 k : N.even (k + 1) = negb (N.even k).
Proof. rewrite N.add_1_r, N.even_succ. now rewrite <- N.negb_even. Qed.
Lemma nearest_between n d : 0 < d -> above_lower (nearest_bits n d) n d /\ below_upper (nearest_bits n d) n d.
Proof.
  intros D. unfold nearest_bits. set (q := n / d). assert (S := floor_bits_spec q). set (k := floor_bits q) in *. clearbody k.
  assert (A : units k * d <= n). { assert (X := N.mul_div_le n d ltac:(lia)). fold q in X. clearbody q. nia. }
  assert (B : n < units (k + 1) * d). { assert (X := N.mul_succ_div_gt n d ltac:(lia)). fold q in X. clearbody q. nia. }
  clear S. clearbody q.
  assert (Lo : above_lower k n d).
  { unfold above_lower. destruct (N.eq_dec k 0) as [->|K]; [now left|]. right. left. assert (X := units_mono (k - 1) k ltac:(lia)). nia. }
  assert (Up : below_upper (k + 1) n d).
  { unfold below_upper. left. assert (X := units_mono (k + 1) (k + 1 + 1) ltac:(lia)). nia. }
  assert (P : above_lower (k + 1) n d <-> d * (units k + units (k + 1)) < 2 * n \/ (d * (units k + units (k + 1)) = 2 * n /\ N.even (k + 1) = true)).
  { unfold above_lower. replace (k + 1 - 1) with k by lia. split; [intros [X|X]; [lia|exact X]|now right]. }
  destruct (N.compare_spec (2 * n) (d * (units k + units (k + 1)))) as [Q|Q|Q].
  - destruct (N.even k) eqn:V.
    + split; [exact Lo|]. right. auto.
    + split; [|exact Up]. apply P. right. rewrite even_succ1, V. auto.
  - split; [exact Lo|]. now left.
  - split; [|exact Up]. apply P. now left.
Qed.
Lemma between_unique n d k k' : 0 < d -> above_lower k n d -> below_upper k n d -> above_lower k' n d -> below_upper k' n d -> k = k'.
Proof.
  intros D. assert (W : forall j j', below_upper j n d -> above_lower j' n d -> ~ j < j').
  { intros j j' U L H. destruct L as [L|L]; [lia|].
    assert (A := units_le j (j' - 1) ltac:(lia)). assert (B := units_le (j + 1) j' ltac:(lia)).
    assert (C : d * (units j + units (j + 1)) <= d * (units (j' - 1) + units j')) by (apply N.mul_le_mono_l; lia).
    destruct U as [U|[U E]]; destruct L as [L|[L E']]; try lia.
    assert (Q : units j + units (j + 1) = units (j' - 1) + units j') by nia.
    assert (R : units (j' - 1) <= units j) by lia. apply (proj1 (units_le_iff _ _)) in R. assert (V : j' = j + 1) by (clear - R H; lia). rewrite V in E'.
    rewrite even_succ1, E in E'. discriminate. }
  intros L U L' U'. assert (X := W _ _ U L'). assert (Y := W _ _ U' L). lia.
Qed.
Lemma nearest_iff n d k : 0 < d -> nearest_bits n d = k <-> above_lower k n d /\ below_upper k n d.
Proof.
  intros D. destruct (nearest_between n d D) as [A B]. split; [intros <-; auto|]. intros [L U]. now apply (between_unique n d).
Qed.
(** Whatever is less than half a unit away is read as the double. *)
Lemma near_reads k n d : 0 < d -> 2 * n < d * (2 * units k + 1) -> d * (2 * units k) < 2 * n + d -> nearest_bits n d = k.
Proof.
  intros D A B. apply nearest_iff; [exact D|]. split.
  - destruct (N.eq_dec k 0) as [->|K]; [now left|]. right. left. assert (X := units_mono (k - 1) k ltac:(lia)). nia.
  - left. assert (X := units_mono k (k + 1) ltac:(lia)). nia.
Qed.

(** Decimals. *)
Lemma den10_pos e : 0 < den10 e.
Proof. unfold den10. apply N.neq_0_lt_0, N.pow_nonzero. discriminate. Qed.
Definition dle (m : N) (e : Z) (m' : N) (e' : Z) : Prop := num10 m e * den10 e' <= num10 m' e' * den10 e.
Lemma read_mono m e m' e' : dle m e m' e' -> read_bits m e <= read_bits m' e'.
Proof. intros H. apply nearest_mono; auto using den10_pos. Qed.
Lemma read_0 e : read_bits 0 e = 0.
Proof. unfold read_bits, num10. rewrite !N.mul_0_l. now apply (nearest_exact 0 (den10 e)), den10_pos. Qed.
(** Shifting the exponent. *)
Lemma pow_shift e i : (0 <= i)%Z -> 10 ^ Z.to_N (e + i) * 10 ^ Z.to_N (- e) = 10 ^ Z.to_N e * 10 ^ Z.to_N (- (e + i)) * 10 ^ Z.to_N i.
Proof. intros I. rewrite <- !N.pow_add_r. f_equal. lia. Qed.
Lemma dle_same m m' e : m <= m' -> dle m e m' e.
Proof. intros H. unfold dle, num10. apply N.mul_le_mono_r. apply N.mul_le_mono_r. now apply N.mul_le_mono_r. Qed.
Lemma dle_trans m1 e1 m2 e2 m3 e3 : dle m1 e1 m2 e2 -> dle m2 e2 m3 e3 -> dle m1 e1 m3 e3.
Proof.
  unfold dle. intros A B. assert (D := den10_pos e2). assert (D1 := den10_pos e1). assert (D3 := den10_pos e3).
  apply (N.mul_le_mono_pos_r _ _ (den10 e2)); [exact D|].
  set (a := num10 m1 e1) in *. set (b := num10 m2 e2) in *. set (c := num10 m3 e3) in *.
  set (x := den10 e1) in *. set (y := den10 e2) in *. set (z := den10 e3) in *. clearbody a b c x y z.
  apply N.le_trans with (b * x * z); [nia|]. nia.
Qed.
Lemma dle_shift m e i : (0 <= i)%Z -> dle (m * 10 ^ Z.to_N i) e m (e + i) /\ dle m (e + i) (m * 10 ^ Z.to_N i) e.
Proof.
  intros I. unfold dle, num10, den10. assert (P := pow_shift e i I).
  set (a := 10 ^ Z.to_N (e + i)) in *. set (b := 10 ^ Z.to_N (- e)) in *. set (c := 10 ^ Z.to_N e) in *.
  set (d := 10 ^ Z.to_N (- (e + i))) in *. set (x := 10 ^ Z.to_N i) in *. set (y := 2 ^ 1074). clearbody a b c d x y.
  assert (m * x * c * y * d = m * a * y * b) by (transitivity (m * y * (c * d * x)); [ring|]; rewrite <- P; ring). lia.
Qed.
Lemma read_shift m e i : (0 <= i)%Z -> read_bits m (e + i) = read_bits (m * 10 ^ Z.to_N i) e.
Proof. intros I. destruct (dle_shift m e i I) as [A B]. apply read_mono in A, B. lia. Qed.

(** The decimals next to a double. *)
Lemma div_bounds p q : 0 < q -> q * (p / q) <= p < q * (p / q + 1).
Proof. intros Q. split; [apply N.mul_div_le; lia|]. rewrite N.add_1_r. apply N.mul_succ_div_gt. lia. Qed.
Definition ten_units (e : Z) : N := 2 ^ 1074 * 10 ^ Z.to_N e.
Lemma ten_units_pos e : 0 < ten_units e.
Proof. unfold ten_units. apply N.neq_0_lt_0. intros H. apply N.mul_eq_0 in H as [H|H]; revert H; apply N.pow_nonzero; discriminate. Qed.
Lemma num10_units m e : num10 m e = m * ten_units e.
Proof. unfold num10, ten_units. ring. Qed.
Lemma read_below m e k : m * ten_units e <= units k * den10 e -> read_bits m e <= k.
Proof.
  intros H. unfold read_bits. rewrite <- (nearest_exact k (den10 e)) by apply den10_pos.
  apply nearest_mono; auto using den10_pos. rewrite num10_units. apply N.mul_le_mono_r. exact H.
Qed.
Lemma read_above m e k : units k * den10 e <= m * ten_units e -> k <= read_bits m e.
Proof.
  intros H. unfold read_bits. rewrite <- (nearest_exact k (den10 e)) by apply den10_pos.
  apply nearest_mono; auto using den10_pos. rewrite num10_units. apply N.mul_le_mono_r. exact H.
Qed.

Lemma multiple_sound k e m : multiple k e = Some m -> read_bits m e = k.
Proof.
  unfold multiple. fold (ten_units e). set (a := units k * den10 e / ten_units e).
  destruct (N.eqb_spec (read_bits a e) k) as [A|A]; destruct (N.eqb_spec (read_bits (a + 1) e) k) as [B|B]; intros H;
    [|injection H as <-; assumption|injection H as <-; assumption|discriminate].
  assert (Q : m = a \/ m = a + 1). { revert H. destruct (_ ?= _); [destruct (N.even a)| |]; intros [=]; auto. }
  destruct Q; subst m; assumption.
Qed.
Lemma multiple_none k e m : multiple k e = None -> read_bits m e <> k.
Proof.
  unfold multiple. fold (ten_units e). assert (S := div_bounds (units k * den10 e) _ (ten_units_pos e)).
  set (a := units k * den10 e / ten_units e) in *. clearbody a.
  destruct (N.eqb_spec (read_bits a e) k) as [A|A]; destruct (N.eqb_spec (read_bits (a + 1) e) k) as [B|B]; intros H; try discriminate.
  intros R. assert (C := read_below a e k ltac:(lia)). assert (D := read_above (a + 1) e k ltac:(lia)).
  destruct (N.le_gt_cases m a) as [L|L].
  - assert (X := read_mono _ _ _ _ (dle_same m a e L)). lia.
  - assert (X := read_mono _ _ _ _ (dle_same (a + 1) m e ltac:(lia))). lia.
Qed.
(** Distance of a decimal from a double, times the denominators. *)
Definition dist (m : N) (e : Z) (k : N) : Z := Z.abs (Z.of_N (num10 m e) - Z.of_N (units k * den10 e)).
Lemma multiple_closest k e m m' : multiple k e = Some m -> read_bits m' e = k -> (dist m e k <= dist m' e k)%Z.
Proof.
  unfold multiple, dist. fold (ten_units e). assert (S := div_bounds (units k * den10 e) _ (ten_units_pos e)).
  assert (R := N.div_mod (units k * den10 e) (ten_units e)). assert (T := ten_units_pos e). specialize (R ltac:(lia)).
  rewrite !num10_units. set (p := units k * den10 e) in *. set (r := p mod ten_units e) in *.
  set (a := p / ten_units e) in *. assert (Lo := read_below a e k ltac:(fold p; lia)). assert (Up := read_above (a + 1) e k ltac:(fold p; lia)).
  clearbody a p r. set (t := ten_units e) in *. clearbody t. intros H Rd.
  destruct (N.eqb_spec (read_bits a e) k) as [A|A]; destruct (N.eqb_spec (read_bits (a + 1) e) k) as [B|B].
  - assert (Q : (m = a /\ 2 * r <= t) \/ (m = a + 1 /\ t <= 2 * r)).
    { revert H. destruct (N.compare_spec (2 * r) t); [destruct (N.even a)| |]; intros [=]; subst; lia. }
    destruct (N.le_gt_cases m' a) as [L|L]; destruct Q as [[-> Q]|[-> Q]]; nia.
  - injection H as <-. destruct (N.le_gt_cases m' a) as [L|L]; [nia|].
    assert (X := read_mono _ _ _ _ (dle_same (a + 1) m' e ltac:(lia))). lia.
  - injection H as <-. destruct (N.le_gt_cases m' a) as [L|L]; [|nia].
    assert (X := read_mono _ _ _ _ (dle_same m' a e L)). lia.
  - discriminate.
Qed.

(** Multiples of 10^-324 are dense enough. *)
Lemma fine_exponent : 2 ^ 1074 < 10 ^ 324. Proof. reflexivity. Qed.
Lemma multiple_fine k : multiple k (-324) <> None.
Proof.
  intros H. assert (W := fine_exponent).
  assert (T : ten_units (-324) = 2 ^ 1074) by (unfold ten_units; change (Z.to_N (-324)) with 0; rewrite N.pow_0_r; lia).
  assert (D : den10 (-324) = 10 ^ 324) by reflexivity.
  assert (S := div_bounds (units k * den10 (-324)) _ (ten_units_pos (-324))).
  set (a := units k * den10 (-324) / ten_units (-324)) in *. clearbody a.
  assert (A := multiple_none k (-324) a H). assert (B := multiple_none k (-324) (a + 1) H).
  rewrite T, D in S. unfold read_bits in A, B. rewrite num10_units, T, D in A, B.
  set (t := 2 ^ 1074) in *. set (d := 10 ^ 324) in *. clearbody t d.
  assert (Q : d * (2 * units k) < 2 * (a * t) + d \/ 2 * ((a + 1) * t) < d * (2 * units k + 1)) by nia.
  destruct Q as [Q|Q]; [apply A|apply B]; apply near_reads; nia.
Qed.

(** Nothing that large is read as [k]. *)
Lemma pow_root a b n : 0 < n -> a ^ n <= b ^ n -> a <= b.
Proof. intros N H. apply (N.pow_le_mono_l_iff _ _ n); [lia|exact H]. Qed.
Lemma pow_10_2 c : 10 ^ (c * 3 / 10) <= 2 ^ c.
Proof.
  apply (pow_root _ _ 10); [reflexivity|]. rewrite <- !N.pow_mul_r.
  apply N.le_trans with (10 ^ (3 * c)).
  - apply N.pow_le_mono_r; [discriminate|]. assert (X := N.mul_div_le (c * 3) 10). lia.
  - rewrite (N.mul_comm c), !N.pow_mul_r. apply N.pow_le_mono_l. vm_compute. discriminate.
Qed.
Lemma pow_2_10 b : 2 ^ b <= 10 ^ (b * 28 / 93 + 1).
Proof.
  apply (pow_root _ _ 93); [reflexivity|]. rewrite <- !N.pow_mul_r.
  apply N.le_trans with (10 ^ (28 * b)).
  - rewrite (N.mul_comm b), !N.pow_mul_r. apply N.pow_le_mono_l. vm_compute. discriminate.
  - apply N.pow_le_mono_r; [discriminate|]. assert (X := N.mul_succ_div_gt (b * 28) 93). lia.
Qed.
Lemma gap_units k : 0 < k -> gap k <= units k.
Proof.
  intros K. unfold gap. destruct (units_split k) as [(_ & -> & ->)|(s & f & _ & _ & -> & ->)].
  - rewrite N.pow_0_r. lia.
  - assert (B := B_pos). set (b := 2 ^ 52) in *. clearbody b. nia.
Qed.
Lemma top_high k : 0 < k -> units (k + 1) * den10 (top k) <= ten_units (top k).
Proof.
  intros K. assert (G := gap_units k K). rewrite units_succ.
  assert (L := proj2 (N.log2_spec (units k) (units_pos k K))). unfold top, ten_units, den10.
  set (u := units k) in *. set (l := N.log2 u) in *. clearbody u l.
  assert (U : u + gap k <= 2 ^ (l + 2)).
  { replace (l + 2) with (N.succ (N.succ l)) by lia. rewrite N.pow_succ_r'. lia. }
  apply N.le_trans with (2 ^ (l + 2) * 10 ^ Z.to_N (- (if (Z.of_N l - 1072 <? 0)%Z then (- (- (Z.of_N l - 1072) * 3 / 10))%Z else ((Z.of_N l - 1072) * 28 / 93 + 1)%Z))); [now apply N.mul_le_mono_r|].
  destruct (Z.ltb_spec (Z.of_N l - 1072) 0) as [N|N].
  - set (c := 1072 - l). assert (X := pow_10_2 c). replace (- (Z.of_N l - 1072) * 3 / 10)%Z with (Z.of_N (c * 3 / 10)).
    2:{ rewrite N2Z.inj_div. f_equal. lia. }
    generalize dependent (c * 3 / 10). intros y X. replace (Z.to_N (- Z.of_N y)) with 0 by lia. rewrite Z.opp_involutive, N2Z.id, N.pow_0_r.
    replace 1074 with (l + 2 + c) by (unfold c; lia). rewrite (N.pow_add_r 2 (l + 2) c).
    generalize dependent (10 ^ y). intros z X. generalize dependent (2 ^ c). intros. nia.
  - set (b := l - 1072). assert (X := pow_2_10 b). replace ((Z.of_N l - 1072) * 28 / 93 + 1)%Z with (Z.of_N (b * 28 / 93 + 1)).
    2:{ rewrite N2Z.inj_add, N2Z.inj_div. f_equal. f_equal. lia. }
    generalize dependent (b * 28 / 93 + 1). intros y X. replace (Z.to_N (- Z.of_N y)) with 0 by lia. rewrite N2Z.id, N.pow_0_r, N.mul_1_r.
    replace (l + 2) with (1074 + b) by (unfold b; lia). rewrite (N.pow_add_r 2 1074 b). now apply N.mul_le_mono_l.
Qed.
Lemma read_top k m : 0 < k -> 0 < m -> k < read_bits m (top k).
Proof.
  intros K M. assert (H := top_high k K). apply N.lt_le_trans with (k + 1); [lia|]. apply read_above. nia.
Qed.
Lemma read_high k m e : 0 < k -> (top k <= e)%Z -> read_bits m e <> k.
Proof.
  intros K H. destruct (N.eq_dec m 0) as [->|M]; [rewrite read_0; lia|].
  replace e with (top k + (e - top k))%Z by lia. rewrite read_shift by lia.
  assert (X := read_top k (m * 10 ^ Z.to_N (e - top k)) K).
  assert (0 < 10 ^ Z.to_N (e - top k)) by (apply N.neq_0_lt_0, N.pow_nonzero; discriminate). nia.
Qed.

Lemma search_spec fuel : forall k e, (-324 <= e)%Z -> (Z.to_nat (e + 324) < fuel)%nat ->
  exists m e1, search fuel k e = (m, e1) /\ multiple k e1 = Some m /\ (-324 <= e1 <= e)%Z /\
    forall e2, (e1 < e2 <= e)%Z -> multiple k e2 = None.
Proof.
  induction fuel as [|f IH]; intros k e L F; [lia|]. cbn [search]. destruct (multiple k e) as [m|] eqn:M.
  - exists m, e. repeat split; auto; lia.
  - destruct (Z.eq_dec e (-324)) as [->|N]; [now destruct (multiple_fine k)|].
    destruct (IH k (e - 1)%Z ltac:(lia) ltac:(lia)) as (m & e1 & S & Me & B & C).
    exists m, e1. split; [exact S|]. split; [exact Me|]. split; [lia|]. intros e2 H.
    destruct (Z.eq_dec e2 e) as [->|Q]; [exact M|]. apply C. lia.
Qed.
Lemma log2_units k : k < inf_bits -> N.log2 (units k) <= 2098.
Proof.
  intros H. assert (X := units_le k inf_bits ltac:(lia)). apply N.log2_le_mono in X.
  eapply N.le_trans; [exact X|]. vm_compute. discriminate.
Qed.

(** What [shortest] finds. *)
Lemma shortest_spec k : 0 < k -> k < inf_bits -> exists m e, shortest k = (m, e) /\ multiple k e = Some m /\
  (-324 <= e)%Z /\ forall m' e', (e < e')%Z -> read_bits m' e' <> k.
Proof.
  intros K I. unfold shortest. destruct (N.eqb_spec k 0) as [Q|_]; [lia|].
  assert (T : (-324 <= top k)%Z /\ (Z.to_nat (top k + 324) < 700)%nat).
  { assert (L := log2_units k I). unfold top. destruct (Z.ltb_spec (Z.of_N (N.log2 (units k)) - 1072) 0).
    - assert (- (Z.of_N (N.log2 (units k)) - 1072) * 3 / 10 <= 1072 * 3 / 10)%Z by (apply Z.div_le_mono; lia).
      change (1072 * 3 / 10)%Z with 321%Z in *.
      assert (0 <= - (Z.of_N (N.log2 (units k)) - 1072) * 3 / 10)%Z by (apply Z.div_pos; lia). lia.
    - assert ((Z.of_N (N.log2 (units k)) - 1072) * 28 / 93 <= 1026 * 28 / 93)%Z by (apply Z.div_le_mono; lia).
      change (1026 * 28 / 93)%Z with 308%Z in *.
      assert (0 <= (Z.of_N (N.log2 (units k)) - 1072) * 28 / 93)%Z by (apply Z.div_pos; lia). lia. }
  destruct T as [T1 T2]. destruct (search_spec 700 k (top k) T1 T2) as (m & e & S & M & B & C).
  exists m, e. split; [exact S|]. split; [exact M|]. split; [lia|]. intros m' e' H.
  destruct (Z.le_gt_cases (top k) e') as [L|L]; [now apply read_high|]. apply multiple_none, C. lia.
Qed.
Lemma shortest_reads k : k < inf_bits -> read_bits (fst (shortest k)) (snd (shortest k)) = k.
Proof.
  intros I. destruct (N.eq_dec k 0) as [->|K]; [apply read_0|].
  destruct (shortest_spec k ltac:(lia) I) as (m & e & -> & M & _). now apply multiple_sound.
Qed.
Lemma shortest_lowest k : k < inf_bits -> (fst (shortest k) = 0 /\ snd (shortest k) = 0%Z) \/ fst (shortest k) mod 10 <> 0.
Proof.
  intros I. destruct (N.eq_dec k 0) as [->|K]; [now left|]. right.
  destruct (shortest_spec k ltac:(lia) I) as (m & e & -> & M & _ & H). cbn [fst]. intros D.
  apply N.div_exact in D; [|discriminate]. apply (H (m / 10) (e + 1)%Z); [lia|].
  rewrite read_shift by lia. change (10 ^ Z.to_N 1) with 10. rewrite N.mul_comm, <- D. now apply multiple_sound.
Qed.
