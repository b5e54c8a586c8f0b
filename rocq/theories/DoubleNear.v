(** Nearest doubles and fewest digits, in integers. *)
From Coq Require Import Lia.
From Verif Require Import GoStr JsonStr Json Float Double DoubleFacts.
Local Open Scope N_scope.

(** The distance of [n / d] units to the double [k], times [d]. *)
Definition offset (n d k : N) : Z := Z.abs (Z.of_N n - Z.of_N (units k * d)).
(** Below the midpoint between the largest double and the infinity. *)
Definition limit (n d : N) : Prop := 2 * n < d * (units (inf_bits - 1) + units inf_bits).
Lemma odd_max : N.even (inf_bits - 1) = false. Proof. reflexivity. Qed.
(** No double is nearer; of two as near the one with even bits is taken. *)
Definition closest (n d k : N) : Prop := forall j, j < inf_bits ->
  (offset n d k <= offset n d j)%Z /\ (offset n d k = offset n d j -> j = k \/ N.even k = true).

Lemma between_closest n d k : 0 < d -> k < inf_bits -> above_lower k n d -> below_upper k n d -> limit n d /\ closest n d k.
Proof.
  intros D K L U. split.
  - unfold limit. destruct (N.eq_dec k (inf_bits - 1)) as [->|Q].
    + replace (inf_bits - 1 + 1) with inf_bits in U by reflexivity. destruct U as [U|[_ U]]; [exact U|]. now rewrite odd_max in U.
    + assert (A := units_le k (inf_bits - 1) ltac:(lia)). assert (B := units_mono (k + 1) inf_bits ltac:(lia)).
      assert (2 * n <= d * (units k + units (k + 1))) by (destruct U as [U|[U _]]; lia). nia.
  - intros j J. unfold offset. destruct (N.lt_trichotomy j k) as [H|[->|H]]; [|split; [lia|auto]|].
    + destruct L as [L|L]; [lia|]. assert (A := units_le j (k - 1) ltac:(lia)).
      assert (B := units_mono (k - 1) k ltac:(lia)).
      assert (M : d * (units (k - 1) + units k) <= 2 * n) by (destruct L as [L|[L _]]; lia).
      split; [nia|]. intros E. right. destruct L as [L|[L V]]; [|exact V]. exfalso. nia.
    + assert (A := units_le (k + 1) j ltac:(lia)). assert (B := units_mono k (k + 1) ltac:(lia)).
      assert (M : 2 * n <= d * (units k + units (k + 1))) by (destruct U as [U|[U _]]; lia).
      split; [nia|]. intros E. right. destruct U as [U|[U V]]; [|exact V]. exfalso. nia.
Qed.
Lemma closest_between n d k : 0 < d -> k < inf_bits -> limit n d -> closest n d k -> above_lower k n d /\ below_upper k n d.
Proof.
  intros D K L C. split.
  - unfold above_lower. destruct (N.eq_dec k 0) as [->|Q]; [now left|]. right.
    destruct (C (k - 1) ltac:(lia)) as [A B]. assert (M := units_mono (k - 1) k ltac:(lia)). unfold offset in *.
    destruct (N.lt_trichotomy (d * (units (k - 1) + units k)) (2 * n)) as [H|[H|H]]; [now left| |exfalso; nia].
    right. split; [exact H|]. destruct (B ltac:(nia)) as [X|X]; [lia|exact X].
  - unfold below_upper. destruct (N.eq_dec k (inf_bits - 1)) as [->|Q].
    + left. replace (inf_bits - 1 + 1) with inf_bits by reflexivity. exact L.
    + destruct (C (k + 1) ltac:(lia)) as [A B]. assert (M := units_mono k (k + 1) ltac:(lia)). unfold offset in *.
      destruct (N.lt_trichotomy (2 * n) (d * (units k + units (k + 1)))) as [H|[H|H]]; [now left| |exfalso; nia].
      right. split; [exact H|]. destruct (B ltac:(nia)) as [X|X]; [lia|exact X].
Qed.
Lemma nearest_closest n d k : 0 < d -> k < inf_bits -> nearest_bits n d = k <-> limit n d /\ closest n d k.
Proof.
  intros D K. rewrite nearest_iff by exact D. split.
  - intros [A B]. now apply between_closest.
  - intros [A B]. now apply closest_between.
Qed.
Lemma nearest_limit n d : 0 < d -> nearest_bits n d < inf_bits <-> limit n d.
Proof.
  intros D. split.
  - intros H. now apply (nearest_closest n d _ D H).
  - intros L. destruct (nearest_between n d D) as [A _]. unfold limit in L. set (k := nearest_bits n d) in *. clearbody k.
    destruct (N.lt_ge_cases k inf_bits) as [X|X]; [exact X|]. exfalso. destruct A as [A|A]; [subst k; now apply X|].
    assert (P := units_le (inf_bits - 1) (k - 1) ltac:(lia)). assert (Q := units_le inf_bits k X).
    assert (d * (units (k - 1) + units k) <= 2 * n) by (destruct A as [A|[A _]]; lia). nia.
Qed.

(** ** Digits *)
Lemma read_convex m1 e1 m e m2 e2 k : dle m1 e1 m e -> dle m e m2 e2 -> read_bits m1 e1 = k -> read_bits m2 e2 = k -> read_bits m e = k.
Proof. intros A B C D. apply read_mono in A, B. lia. Qed.
(** [m' * 10^e' <= 10^(n + e)] and [10^(n + e) <= m * 10^e] *)
Lemma below_power m' e' n e : m' < 10 ^ n -> (e' <= e)%Z -> dle m' e' 1 (e + Z.of_N n).
Proof.
  intros M E. apply dle_trans with (m2 := 10 ^ n) (e2 := e); [|].
  - replace e with (e' + (e - e'))%Z by lia. eapply dle_trans; [|apply (dle_shift (10 ^ n) e' (e - e')); lia].
    apply dle_same. assert (0 < 10 ^ Z.to_N (e - e')) by (apply N.neq_0_lt_0, N.pow_nonzero; discriminate). nia.
  - destruct (dle_shift 1 e (Z.of_N n) ltac:(lia)) as [X _]. now rewrite N2Z.id, N.mul_1_l in X.
Qed.
Lemma above_power m n e : 10 ^ n <= m -> dle 1 (e + Z.of_N n) m e.
Proof.
  intros M. eapply dle_trans; [apply dle_shift; lia|]. rewrite N2Z.id, N.mul_1_l. now apply dle_same.
Qed.
Lemma fewest_digits k m e m' e' n : 0 < k -> read_bits m e = k -> (forall m e', (e < e')%Z -> read_bits m e' <> k) ->
  read_bits m' e' = k -> m' < 10 ^ n -> m < 10 ^ n.
Proof.
  intros K R H R' M. destruct (N.lt_ge_cases m (10 ^ n)) as [L|L]; [exact L|]. exfalso.
  assert (E : (e' <= e)%Z) by (destruct (Z.le_gt_cases e' e) as [X|X]; [exact X|]; now destruct (H m' e' X)).
  destruct (N.eq_dec n 0) as [->|Nz].
  - rewrite N.pow_0_r in M. assert (m' = 0) by lia. subst m'. rewrite read_0 in R'. lia.
  - apply (H 1 (e + Z.of_N n)%Z); [lia|]. apply (read_convex m' e' _ _ m e); auto using below_power, above_power.
Qed.

(** The only decimal of one digit next to a power of ten that is read the same. *)
Definition straddles (k : N) (e : Z) : bool := (read_bits 1 e =? k) && (read_bits 9 (e - 1) =? k).
Lemma straddle_small k e : straddles k e = true -> 0 < k -> k <= 10.
Proof.
  unfold straddles. rewrite andb_true_iff, !N.eqb_eq. intros [A B] K.
  replace e with (e - 1 + 1)%Z in A by lia. rewrite read_shift in A by lia. change (1 * 10 ^ Z.to_N 1) with 10 in A.
  unfold read_bits in *. apply nearest_iff in A as [_ A], B as [B _]; try apply den10_pos. rewrite num10_units in A, B.
  assert (D := den10_pos (e - 1)). set (d := den10 (e - 1)) in *. set (t := ten_units (e - 1)) in *. clearbody d t.
  assert (B' : d * (units (k - 1) + units k) <= 2 * (9 * t)) by (destruct B as [B|[B|[B _]]]; lia). clear B.
  assert (A' : 2 * (10 * t) <= d * (units k + units (k + 1))) by (destruct A as [A|[A _]]; lia). clear A.
  assert (G := units_succ k). assert (G1 := units_succ (k - 1)). replace (k - 1 + 1) with k in G1 by lia.
  assert (Gm : gap (k - 1) <= gap k). { unfold gap. apply N.pow_le_mono_r; [discriminate|]. assert ((k - 1) / 2 ^ 52 <= k / 2 ^ 52) by (apply N.div_le_mono; [discriminate|lia]). lia. }
  assert (X : 2 * units k <= 20 * gap k) by nia. clear A' B' G.
  unfold gap in *. destruct (units_split k) as [(S & U & V)|(s & f & F & V & U & W)].
  - rewrite U, V, N.pow_0_r in X. lia.
  - rewrite U, W in X. assert (P : 2 ^ s <> 0) by (apply N.pow_nonzero; discriminate). change (2 ^ 52) with 4503599627370496 in X. nia.
Qed.

(** Decimals around the smallest double. *)
Definition small_cases : list (N * Z) := list_prod [1; 2; 3; 4; 5; 6; 7; 8; 9; 10] [-324; -323; -322; -321]%Z.
Lemma straddle_cases : forallb (fun ke => negb (straddles (fst ke) (snd ke)) || ((fst ke =? 2) && (snd ke =? -323)%Z)) small_cases = true.
Proof. vm_compute. reflexivity. Qed.
Lemma straddle_only k e : straddles k e = true -> 0 < k -> (-324 <= e)%Z -> k = 2 /\ e = (-323)%Z.
Proof.
  intros S K E. assert (L := straddle_small k e S K). assert (T : (e < -320)%Z).
  { assert (A : read_bits 1 e = k) by (unfold straddles in S; apply andb_true_iff in S as [A _]; now apply N.eqb_eq in A).
    destruct (Z.le_gt_cases (top k) e) as [X|X]; [now destruct (read_high k 1 e K X)|]. eapply Z.lt_le_trans; [exact X|].
    assert (Q : In k [1; 2; 3; 4; 5; 6; 7; 8; 9; 10]) by (cbn [In]; lia).
    repeat (destruct Q as [<-|Q]; [vm_compute; discriminate|]). destruct Q. }
  assert (I : In (k, e) small_cases) by (apply in_prod; cbn [In]; lia).
  assert (X := proj1 (forallb_forall _ _) straddle_cases _ I). cbn [fst snd] in X. rewrite S in X. cbn [negb orb] in X.
  apply andb_true_iff in X as [X Y]. apply N.eqb_eq in X. apply Z.eqb_eq in Y. auto.
Qed.

Lemma multiple_tie k e m m' : multiple k e = Some m -> read_bits m' e = k -> dist m e k = dist m' e k ->
  m' = m \/ (N.even m = true /\ N.even m' = false).
Proof.
  unfold multiple, dist. fold (ten_units e). assert (T := ten_units_pos e).
  assert (R := N.div_mod (units k * den10 e) (ten_units e) ltac:(lia)). assert (M := N.mod_lt (units k * den10 e) (ten_units e) ltac:(lia)).
  rewrite !num10_units. set (p := units k * den10 e) in *. set (r := p mod ten_units e) in *. set (a := p / ten_units e) in *.
  assert (Lo := read_below a e k ltac:(fold p; lia)).
  clearbody a p r. set (t := ten_units e) in *. clearbody t. intros H Rd Eq.
  assert (C : (m' + 1) * t <= a * t \/ m' = a \/ m' = a + 1 \/ (a + 2) * t <= m' * t).
  { destruct (N.lt_trichotomy m' a) as [L|[L|L]]; [left; apply N.mul_le_mono_r; lia|auto|].
    destruct (N.eq_dec m' (a + 1)) as [Q|Q]; [auto|]. right. right. right. apply N.mul_le_mono_r. lia. }
  destruct (N.eqb_spec (read_bits a e) k) as [A|A]; destruct (N.eqb_spec (read_bits (a + 1) e) k) as [B|B]; [| | |discriminate].
  - destruct (N.compare_spec (2 * r) t) as [Q|Q|Q].
    + destruct (N.even a) eqn:V; injection H as <-; (destruct C as [C|[C|[C|C]]]; [lia| | |lia]); subst m'; rewrite ?even_succ1, ?V; auto.
    + injection H as <-. left. destruct C as [C|[C|[C|C]]]; [lia|exact C|subst m'; lia|lia].
    + injection H as <-. left. destruct C as [C|[C|[C|C]]]; [lia|subst m'; lia|exact C|lia].
  - injection H as <-. left. destruct C as [C|[C|[C|C]]]; [lia|exact C|subst m'; contradiction|lia].
  - injection H as <-. left. destruct C as [C|[C|[C|C]]]; [|subst m'; contradiction|exact C|lia].
    assert (X := read_mono _ _ _ _ (dle_same m' a e ltac:(nia))). lia.
Qed.

(** The shortest decimal of the second smallest double. *)
Lemma shortest_2 : shortest 2 = (1, (-323)%Z). Proof. vm_compute. reflexivity. Qed.
Lemma consts_2 : 2 * 10 ^ 323 <= 2 ^ 1074 /\ 19 * 2 ^ 1074 <= 40 * 10 ^ 323 - 1. Proof. split; vm_compute; discriminate. Qed.
(** Among decimals with as many digits, the shortest is the closest. *)
Lemma closest_digits k m e m' e' n : 0 < k -> k < inf_bits -> shortest k = (m, e) -> multiple k e = Some m -> (-324 <= e)%Z ->
  (forall m e', (e < e')%Z -> read_bits m e' <> k) -> read_bits m' e' = k ->
  10 ^ n <= m -> m' < 10 ^ (n + 1) ->
  (e' = e \/ dist m e k * Z.of_N (den10 e') < dist m' e' k * Z.of_N (den10 e))%Z.
Proof.
  intros K I Sh Mu E H R' L U. assert (R := multiple_sound _ _ _ Mu).
  destruct (Z.lt_trichotomy e' e) as [X|[X|X]]; [right|now left|now destruct (H m' e' X)].
  assert (P : read_bits 1 (e + Z.of_N n) = k).
  { apply (read_convex m' e' _ _ m e); auto using above_power.
    replace (e + Z.of_N n)%Z with (e - 1 + Z.of_N (n + 1))%Z by lia. apply below_power; [exact U|lia]. }
  destruct (N.eq_dec n 0) as [->|Nz]; [|exfalso; apply (H 1 (e + Z.of_N n)%Z); [lia|exact P]].
  replace (e + Z.of_N 0)%Z with e in P by lia. change (10 ^ (0 + 1)) with 10 in U.
  assert (Nine : dle m' e' 9 (e - 1)).
  { replace (e - 1)%Z with (e' + (e - 1 - e'))%Z by lia. eapply dle_trans; [|apply dle_shift; lia]. apply dle_same.
    assert (0 < 10 ^ Z.to_N (e - 1 - e')) by (apply N.neq_0_lt_0, N.pow_nonzero; discriminate). nia. }
  assert (Q : read_bits 9 (e - 1) = k).
  { apply (read_convex m' e' _ _ 1 e); auto. replace e with (e - 1 + 1)%Z at 2 by lia. eapply dle_trans; [|apply dle_shift; lia].
    apply dle_same. discriminate. }
  destruct (straddle_only k e) as [-> ->]; [unfold straddles; now rewrite P, Q, !N.eqb_refl|exact K|exact E|].
  rewrite shortest_2 in Sh. assert (M1 : m = 1) by congruence. subst m. clear - Nine. destruct consts_2 as [C1 C2].
  unfold dle, dist in *. rewrite !num10_units in *. assert (D' := den10_pos e'). set (d := den10 e') in *.
  generalize dependent (m' * ten_units e'). intros x Nine. clearbody d.
  change (-323 - 1)%Z with (-324)%Z in Nine.
  assert (T : ten_units (-323) = 2 ^ 1074 /\ ten_units (-324) = 2 ^ 1074) by (split; unfold ten_units; [change (Z.to_N (-323)) with 0|change (Z.to_N (-324)) with 0]; rewrite N.pow_0_r; apply N.mul_1_r).
  assert (Dn : den10 (-323) = 10 ^ 323 /\ den10 (-324) = 10 * 10 ^ 323) by (split; vm_compute; reflexivity).
  destruct T as [T1 T2], Dn as [D1 D2]. rewrite T1, D1. rewrite T2, D2 in Nine. change (units 2) with 2. clear T1 T2 D1 D2.
  assert (C3 : 0 < 10 ^ 323) by (vm_compute; reflexivity).
  set (a := 2 ^ 1074) in *. set (b := 10 ^ 323) in *. clearbody a b.
  assert (Y : 19 * (a * d) < 40 * (b * d)) by nia. assert (Z : 2 * (b * d) <= a * d) by nia.
  assert (W : 190 * (x * b) <= 171 * (a * d)) by nia. assert (V : x * b < 2 * d * b) by nia. assert (V' : x < 2 * d) by nia.
  rewrite (Z.abs_eq (_ - Z.of_N (2 * b))) by lia. rewrite (Z.abs_neq (Z.of_N x - _)) by lia. lia.
Qed.
