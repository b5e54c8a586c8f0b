(** The model's SHA-1 is the one of FIPS 180-4. *)
From Verif Require Import GoStr Uuid Sha1 ShaSpec.
Local Open Scope N_scope.

Lemma high x n i : x < 2 ^ n -> n <= i -> N.testbit x i = false.
Proof. intros H L. rewrite <- (N.mod_small x (2 ^ n)) by exact H. now apply N.mod_pow2_bits_high. Qed.
Lemma below x n : (forall i, n <= i -> N.testbit x i = false) -> x < 2 ^ n.
Proof.
  intros H. replace x with (x mod 2 ^ n); [apply N.mod_lt, N.pow_nonzero; discriminate|]. apply N.bits_inj. intros i.
  destruct (N.lt_ge_cases i n) as [L|L]; [now apply N.mod_pow2_bits_low|]. now rewrite N.mod_pow2_bits_high, H.
Qed.
Lemma land_below a b n : a < 2 ^ n -> N.land a b < 2 ^ n.
Proof. intros H. apply below. intros i L. rewrite N.land_spec, (high a n) by assumption. reflexivity. Qed.
Lemma ldiff_below a b n : a < 2 ^ n -> N.ldiff a b < 2 ^ n.
Proof. intros H. apply below. intros i L. rewrite N.ldiff_spec, (high a n) by assumption. reflexivity. Qed.
Lemma lxor_below a b n : a < 2 ^ n -> b < 2 ^ n -> N.lxor a b < 2 ^ n.
Proof. intros H H'. apply below. intros i L. rewrite N.lxor_spec, (high a n), (high b n) by assumption. reflexivity. Qed.

Lemma rotl_spec k x : 0 < k -> k <= 32 -> x < 2 ^ 32 -> rotl k x = rot_left k x /\ rotl k x < 2 ^ 32.
Proof.
  intros K0 K H. unfold rotl, rot_left. change w32 with (2 ^ 32). rewrite N.shiftl_mul_pow2, N.shiftr_div_pow2.
  set (a := (x * 2 ^ k) mod 2 ^ 32). set (b := x / 2 ^ (32 - k)). assert (Z : N.land a b = 0).
  { apply N.bits_inj. intros i. rewrite N.land_spec, N.bits_0. destruct (N.lt_ge_cases i k) as [L|L].
    - replace (N.testbit a i) with false; [reflexivity|]. unfold a. rewrite N.mod_pow2_bits_low by lia. symmetry. now apply N.mul_pow2_bits_low.
    - rewrite (high b k i); [apply andb_false_r| |exact L]. unfold b. apply N.div_lt_upper_bound; [apply N.pow_nonzero; discriminate|].
      rewrite <- N.pow_add_r. replace (32 - k + k) with 32 by lia. exact H. }
  rewrite <- N.lxor_lor by exact Z. rewrite N.add_nocarry_lxor by exact Z. split; [reflexivity|].
  apply lxor_below.
  - apply N.mod_lt. discriminate.
  - unfold b. eapply N.le_lt_trans; [|exact H]. apply N.div_le_upper_bound; [apply N.pow_nonzero; discriminate|]. assert (2 ^ (32 - k) <> 0) by (apply N.pow_nonzero; discriminate). nia.
Qed.
Lemma add32_below a b : add32 a b < 2 ^ 32.
Proof. unfold add32. apply N.mod_lt. discriminate. Qed.

Lemma round_f_spec t b c d : b < 2 ^ 32 -> c < 2 ^ 32 -> d < 2 ^ 32 -> round_f (N.of_nat t) b c d = f_bits t b c d.
Proof.
  intros B C D. unfold round_f, f_bits.
  replace (N.of_nat t <? 20) with (t <=? 19)%nat by (destruct (Nat.leb_spec t 19); symmetry; [apply N.ltb_lt|apply N.ltb_ge]; lia).
  replace (N.of_nat t <? 40) with (t <=? 39)%nat by (destruct (Nat.leb_spec t 39); symmetry; [apply N.ltb_lt|apply N.ltb_ge]; lia).
  replace (N.of_nat t <? 60) with (t <=? 59)%nat by (destruct (Nat.leb_spec t 59); symmetry; [apply N.ltb_lt|apply N.ltb_ge]; lia).
  destruct (_ <=? 19)%nat; [|destruct (_ <=? 39)%nat; [|destruct (_ <=? 59)%nat]].
  - unfold ch_bits, not32. apply N.bits_inj. intros i. rewrite N.lor_spec, N.lxor_spec, !N.land_spec, N.ldiff_spec, N.lxor_spec.
    change 4294967295 with (N.ones 32). destruct (N.lt_ge_cases i 32) as [L|L].
    + rewrite N.ones_spec_low by exact L. now destruct (N.testbit b i), (N.testbit c i), (N.testbit d i).
    + rewrite (high b 32 i), (high c 32 i), (high d 32 i) by assumption. now rewrite N.ones_spec_high by exact L.
  - unfold parity_bits. now rewrite N.lxor_assoc.
  - unfold maj_bits. apply N.bits_inj. intros i. rewrite !N.lor_spec, !N.lxor_spec, !N.land_spec. now destruct (N.testbit b i), (N.testbit c i), (N.testbit d i).
  - unfold parity_bits. now rewrite N.lxor_assoc.
Qed.
Lemma round_k_spec t : round_k (N.of_nat t) = k_const t.
Proof.
  unfold round_k, k_const.
  replace (N.of_nat t <? 20) with (t <=? 19)%nat by (destruct (Nat.leb_spec t 19); symmetry; [apply N.ltb_lt|apply N.ltb_ge]; lia).
  replace (N.of_nat t <? 40) with (t <=? 39)%nat by (destruct (Nat.leb_spec t 39); symmetry; [apply N.ltb_lt|apply N.ltb_ge]; lia).
  replace (N.of_nat t <? 60) with (t <=? 59)%nat by (destruct (Nat.leb_spec t 59); symmetry; [apply N.ltb_lt|apply N.ltb_ge]; lia).
  reflexivity.
Qed.

(** States. *)
Definition reg (s : st5) : regs := Regs (sA s) (sB s) (sC s) (sD s) (sE s).
Definition small (s : st5) : Prop := sA s < 2 ^ 32 /\ sB s < 2 ^ 32 /\ sC s < 2 ^ 32 /\ sD s < 2 ^ 32 /\ sE s < 2 ^ 32.
Definition model_step (t : N) (w : N) (s : st5) : st5 :=
  St5 (add32 (add32 (add32 (rotl 5 (sA s)) (round_f t (sB s) (sC s) (sD s))) (add32 (sE s) (round_k t))) w) (sA s) (rotl 30 (sB s)) (sC s) (sD s).
Lemma step_spec t w s : small s -> small (model_step (N.of_nat t) w s) /\ reg (model_step (N.of_nat t) w s) = one_step t w (reg s).
Proof.
  intros (A & B & C & D & E). destruct (rotl_spec 5 (sA s)) as [R1 R2]; [lia..|exact A|]. destruct (rotl_spec 30 (sB s)) as [R3 R4]; [lia..|exact B|]. split.
  - unfold small, model_step. cbn [sA sB sC sD sE]. repeat split; try assumption. apply add32_below.
  - unfold reg, one_step, model_step. cbn [sA sB sC sD sE ra rb rc rd re]. rewrite round_f_spec, round_k_spec, R1, R3 by assumption. f_equal.
    unfold add32, plus32. change w32 with (2 ^ 32). set (x := (rot_left 5 (sA s) + f_bits t (sB s) (sC s) (sD s)) mod 2 ^ 32).
    rewrite N.add_mod_idemp_r by discriminate. rewrite (N.add_mod_idemp_l (x + sE s)) by discriminate. now rewrite N.add_assoc.
Qed.

Lemma rounds_spec W n : forall t s R, small s -> R t = reg s -> (forall i, (t <= i < t + n)%nat -> R (S i) = one_step i (W i) (R i)) ->
  let r := rounds (N.of_nat t) (map W (seq t n)) s in small r /\ R (t + n)%nat = reg r.
Proof.
  induction n as [|n IH]; intros t s R Sm E H; cbn [seq map rounds].
  - rewrite Nat.add_0_r. now split.
  - fold (model_step (N.of_nat t) (W t) s). destruct (step_spec t (W t) s Sm) as [S1 S2]. replace (N.of_nat t + 1) with (N.of_nat (S t)) by lia.
    rewrite <- Nat.add_succ_comm. apply (IH (S t) (model_step (N.of_nat t) (W t) s) R); [exact S1| |].
    + rewrite S2, <- E. apply H. lia.
    + intros i I. apply H. lia.
Qed.
Lemma rounds_states W n : forall t s, small s -> exists R, R t = reg s /\ forall i, (t <= i < t + n)%nat -> R (S i) = one_step i (W i) (R i).
Proof.
  intros t s _. exists (fun i => nat_rect (fun _ => regs) (reg s) (fun k r => one_step (t + k) (W (t + k)%nat) r) (i - t)). split.
  - now rewrite Nat.sub_diag.
  - intros i I. replace (S i - t)%nat with (S (i - t)) by lia. cbn [nat_rect]. now replace (t + (i - t))%nat with i by lia.
Qed.

(** The schedule. *)
Definition next_word (acc : list N) : N := rotl 1 (N.lxor (N.lxor (nth 2 acc 0) (nth 7 acc 0)) (N.lxor (nth 13 acc 0) (nth 15 acc 0))).
Lemma nth_rev_seq W n k : (k < n)%nat -> nth k (rev (map W (seq 0 n))) 0 = W (n - 1 - k)%nat.
Proof.
  intros K. rewrite rev_nth by (now rewrite map_length, seq_length). rewrite map_length, seq_length.
  rewrite (nth_indep _ 0 (W 0%nat)) by (rewrite map_length, seq_length; lia). rewrite map_nth, seq_nth by lia. f_equal. lia.
Qed.
Lemma schedule_spec W : (forall t, (t < 16)%nat -> W t < 2 ^ 32) ->
  (forall t, (16 <= t < 80)%nat -> W t = rot_left 1 (N.lxor (N.lxor (W (t - 3)%nat) (W (t - 8)%nat)) (N.lxor (W (t - 14)%nat) (W (t - 16)%nat)))) ->
  schedule 64 (rev (map W (seq 0 16))) = map W (seq 0 80).
Proof.
  intros B H. assert (X : forall n t, (16 <= t)%nat -> (t + n <= 80)%nat -> (forall i, (i < t)%nat -> W i < 2 ^ 32) ->
    schedule n (rev (map W (seq 0 t))) = map W (seq 0 (t + n))).
  { induction n as [|n IH]; intros t T L Sm.
    - cbn [schedule]. now rewrite rev_involutive, Nat.add_0_r.
    - cbn [schedule]. fold (next_word (rev (map W (seq 0 t)))). assert (Sx : N.lxor (N.lxor (W (t - 3)%nat) (W (t - 8)%nat)) (N.lxor (W (t - 14)%nat) (W (t - 16)%nat)) < 2 ^ 32)
        by (repeat apply lxor_below; apply Sm; lia).
      assert (E : next_word (rev (map W (seq 0 t))) = W t /\ W t < 2 ^ 32).
      { destruct (rotl_spec 1 _ ltac:(lia) ltac:(lia) Sx) as [R1 R2]. rewrite <- H in R1 by lia. rewrite <- R1. split; [|exact R2].
        unfold next_word. rewrite !nth_rev_seq by lia. do 3 f_equal; f_equal; lia. }
      destruct E as [-> Bt]. replace (W t :: rev (map W (seq 0 t))) with (rev (map W (seq 0 (S t)))).
      + rewrite IH; [f_equal; f_equal; lia|lia|lia|]. intros i I. destruct (Nat.eq_dec i t) as [->|N]; [exact Bt|]. apply Sm. lia.
      + rewrite seq_S, map_app, rev_app_distr. reflexivity. }
  now apply (X 64%nat 16%nat); [lia|lia|].
Qed.
Lemma schedule_exists (M : nat -> N) : (forall t, (t < 16)%nat -> M t < 2 ^ 32) -> exists W, (forall t, (t < 16)%nat -> W t = M t) /\
  (forall t, (16 <= t < 80)%nat -> W t = rot_left 1 (N.lxor (N.lxor (W (t - 3)%nat) (W (t - 8)%nat)) (N.lxor (W (t - 14)%nat) (W (t - 16)%nat)))).
Proof.
  intros _. assert (X : forall n, exists W, (forall t, (t < 16)%nat -> W t = M t) /\
    (forall t, (16 <= t < 16 + n)%nat -> W t = rot_left 1 (N.lxor (N.lxor (W (t - 3)%nat) (W (t - 8)%nat)) (N.lxor (W (t - 14)%nat) (W (t - 16)%nat))))).
  { induction n as [|n (W & H1 & H2)].
    - exists M. split; [reflexivity|]. intros t T. lia.
    - set (x := (16 + n)%nat). exists (fun t => if (t =? x)%nat then rot_left 1 (N.lxor (N.lxor (W (x - 3)%nat) (W (x - 8)%nat)) (N.lxor (W (x - 14)%nat) (W (x - 16)%nat))) else W t).
      split.
      + intros t T. destruct (Nat.eqb_spec t x) as [->|N]; [lia|]. now apply H1.
      + intros t T. assert (Q : forall k, (0 < k <= 16)%nat -> (t - k =? x)%nat = false) by (intros; apply Nat.eqb_neq; lia). rewrite !Q by lia.
        destruct (Nat.eqb_spec t x) as [->|N]; [reflexivity|]. apply H2. lia. }
  destruct (X 64%nat) as (W & H1 & H2). exists W. split; [exact H1|]. intros t T. apply H2. lia.
Qed.

(** Words of a list of octets. *)
Lemma big_endian_app l x : big_endian (l ++ [x]) = 256 * big_endian l + x.
Proof. unfold big_endian. now rewrite fold_left_app. Qed.
Lemma word4 a b c d : big_endian [a; b; c; d] = a * 16777216 + b * 65536 + c * 256 + d.
Proof. unfold big_endian. cbn [fold_left]. lia. Qed.
Lemma words_nth n : forall l t, length l = (4 * n)%nat -> (t < n)%nat -> nth t (words l) 0 = word_at l (4 * t).
Proof.
  induction n as [|n IH]; intros l t L T; [lia|]. destruct l as [|a [|b [|c [|d l]]]]; try (cbn in L; lia). cbn [words]. destruct t as [|t].
  - cbn [nth]. unfold word_at. change (4 * 0)%nat with 0%nat. cbn [skipn firstn]. now rewrite word4.
  - cbn [nth]. rewrite IH; [|cbn [length] in L; lia|lia]. unfold word_at. now replace (4 * S t)%nat with (S (S (S (S (4 * t))))) by lia.
Qed.
Lemma words_length n : forall l, length l = (4 * n)%nat -> length (words l) = n.
Proof.
  induction n as [|n IH]; intros l L; [destruct l; [reflexivity|cbn in L; lia]|]. destruct l as [|a [|b [|c [|d l]]]]; try (cbn in L; lia). cbn [words length].
  now rewrite IH by (cbn [length] in L; lia).
Qed.
Lemma word_small p i : octets p -> word_at p i < 2 ^ 32.
Proof.
  intros O. unfold word_at. assert (O' : octets (firstn 4 (skipn i p))).
  { apply Forall_forall. intros x I. unfold octets in O. rewrite Forall_forall in O. apply O. rewrite <- (firstn_skipn i p). apply in_or_app. right.
    rewrite <- (firstn_skipn 4 (skipn i p)). apply in_or_app. now left. }
  assert (L := firstn_le_length 4 (skipn i p)). set (l := firstn 4 (skipn i p)) in *. clearbody l. unfold octets in O'. change (2 ^ 32) with 4294967296.
  destruct l as [|a [|b [|c [|d [|e l]]]]]; [..|cbn in L; lia]; repeat match goal with H : Forall _ (_ :: _) |- _ => inversion H; clear H; subst end; unfold big_endian; cbn [fold_left]; lia.
Qed.
Lemma list_nth (l : list N) n : length l = n -> l = map (fun t => nth t l 0) (seq 0 n).
Proof.
  revert n. induction l as [|x l IH]; intros n <-; [reflexivity|]. cbn [length seq map nth]. f_equal. rewrite <- seq_shift, map_map. now apply IH.
Qed.
Lemma nth_first (l : list N) : forall n t, (t < n)%nat -> nth t (firstn n l) 0 = nth t l 0.
Proof. induction l as [|x l IH]; intros [|n] [|t] T; try lia; try reflexivity. cbn [firstn nth]. apply IH. lia. Qed.
Lemma nth_skip (l : list N) : forall i t, nth t (skipn i l) 0 = nth (i + t) l 0.
Proof. induction l as [|x l IH]; intros [|i] t; try reflexivity; [now destruct t|]. cbn [skipn Nat.add nth]. apply IH. Qed.
Lemma nth_block (l : list N) i t : (t < 16)%nat -> nth t (firstn 16 (skipn i l)) 0 = nth (i + t) l 0.
Proof. intros T. now rewrite nth_first, nth_skip. Qed.

Lemma sum_spec s r : Regs (plus32 (ra (reg s)) (ra (reg r))) (plus32 (rb (reg s)) (rb (reg r))) (plus32 (rc (reg s)) (rc (reg r))) (plus32 (rd (reg s)) (rd (reg r))) (plus32 (re (reg s)) (re (reg r))) =
  reg (St5 (add32 (sA s) (sA r)) (add32 (sB s) (sB r)) (add32 (sC s) (sC r)) (add32 (sD s) (sD r)) (add32 (sE s) (sE r))).
Proof. reflexivity. Qed.
Lemma block_spec p n i s : octets p -> length p = (64 * n)%nat -> (i < n)%nat -> small s ->
  let s' := block s (firstn 16 (skipn (16 * i) (words p))) in
  small s' /\ forall h', hashed_block p i (reg s) h' <-> h' = reg s'.
Proof.
  intros O L I Sm. cbv zeta. set (ws := firstn 16 (skipn (16 * i) (words p))).
  assert (LW : length (words p) = (16 * n)%nat) by (apply words_length; lia).
  assert (EW : ws = map (fun t => word_at p (64 * i + 4 * t)) (seq 0 16)).
  { rewrite (list_nth ws 16) at 1.
    - apply map_ext_in. intros t T. apply in_seq in T. unfold ws. rewrite nth_block by lia. rewrite (words_nth (16 * n)) by lia. f_equal. lia.
    - unfold ws. rewrite firstn_length, skipn_length. lia. }
  assert (EQ : forall W, msg_schedule p i W -> schedule 64 (rev ws) = map W (seq 0 80)).
  { intros W (H1 & H2). rewrite EW. replace (map _ (seq 0 16)) with (map W (seq 0 16)).
    - apply schedule_spec; [|exact H2]. intros t T. rewrite H1 by exact T. now apply word_small.
    - apply map_ext_in. intros t T. apply in_seq in T. now rewrite H1 by lia. }
  destruct (schedule_exists (fun t => word_at p (64 * i + 4 * t)) (fun t _ => word_small p _ O)) as (W0 & W1 & W2).
  assert (HW : msg_schedule p i W0) by (split; assumption).
  split.
  - unfold block, small. cbn [sA sB sC sD sE]. repeat split; apply add32_below.
  - intros h'. split.
    + intros (W & R & HS & R0 & RS & ->). unfold block. rewrite (EQ _ HS). destruct (rounds_spec W 80 0 s R Sm R0) as [_ E]; [intros t T; apply RS; lia|].
      cbn [Nat.add] in E. change (N.of_nat 0) with 0 in E. rewrite E. apply sum_spec.
    + intros ->. destruct (rounds_states W0 80 0 s Sm) as (R & R0 & RS). exists W0, R. split; [exact HW|]. split; [exact R0|]. split; [intros t T; apply RS; lia|].
      unfold block. rewrite (EQ _ HW). destruct (rounds_spec W0 80 0 s R Sm R0 RS) as [_ E]. cbn [Nat.add] in E. change (N.of_nat 0) with 0 in E. rewrite E. symmetry. apply sum_spec.
Qed.

Lemma blocks_spec p n : octets p -> length p = (64 * n)%nat -> forall k i s, (i + k = n)%nat -> small s ->
  let s' := blocks k (skipn (16 * i) (words p)) s in small s' /\
  (forall H, H i = reg s -> (forall j, (i <= j < n)%nat -> hashed_block p j (H j) (H (S j))) -> H n = reg s') /\
  (exists H, H i = reg s /\ (forall j, (i <= j < n)%nat -> hashed_block p j (H j) (H (S j)))).
Proof.
  intros O L. induction k as [|k IH]; intros i s I Sm; cbn [blocks].
  - assert (i = n) by lia. subst i. split; [exact Sm|]. split; [intros H E _; exact E|]. exists (fun _ => reg s). split; [reflexivity|]. intros j J. lia.
  - destruct (block_spec p n i s O L ltac:(lia) Sm) as [S1 S2]. cbv zeta in S1, S2. set (s1 := block s (firstn 16 (skipn (16 * i) (words p)))) in *.
    replace (skipn 16 (skipn (16 * i) (words p))) with (skipn (16 * S i) (words p)).
    2:{ replace (16 * S i)%nat with (16 * i + 16)%nat by lia. generalize (16 * i)%nat as a, (words p) as w. clear. induction a as [|a IH]; intros w; [reflexivity|]. destruct w; [now rewrite skipn_nil|]. apply IH. }
    destruct (IH (S i) s1 ltac:(lia) S1) as (B1 & B2 & (H & H0 & HS)). split; [exact B1|]. split.
    + intros G G0 GS. apply B2; [|intros j J; apply GS; lia]. apply S2. rewrite <- G0. apply GS. lia.
    + exists (fun j => if (j =? i)%nat then reg s else H j). split; [now rewrite Nat.eqb_refl|]. intros j J. replace (S j =? i)%nat with false by (symmetry; apply Nat.eqb_neq; lia).
      destruct (Nat.eqb_spec j i) as [->|N].
      * rewrite H0. now apply S2.
      * apply HS. lia.
Qed.

(** Big endian representation is unique. *)
Lemma big_endian_inj : forall a b, length a = length b -> octets a -> octets b -> big_endian a = big_endian b -> a = b.
Proof.
  intros a. induction a as [|x a IH] using rev_ind; intros b L Oa Ob E.
  - destruct b; [reflexivity|discriminate].
  - destruct b as [|y b _] using rev_ind; [rewrite app_length in L; cbn in L; lia|]. rewrite !app_length in L. cbn in L. rewrite !big_endian_app in E.
    apply Forall_app in Oa as [Oa Ox]. apply Forall_app in Ob as [Ob Oy]. inversion Ox; inversion Oy; subst. f_equal; [apply IH; try assumption; lia|f_equal; lia].
Qed.
Lemma be4_spec x : x < 2 ^ 32 -> length (be4 x) = 4%nat /\ octets (be4 x) /\ big_endian (be4 x) = x.
Proof.
  intros H. change (2 ^ 32) with 4294967296 in H. split; [reflexivity|]. split.
  - unfold be4, octets. repeat constructor; apply N.mod_lt; discriminate.
  - unfold be4. rewrite word4.
    replace (x / 16777216) with (x / 256 / 256 / 256) by (rewrite !N.div_div by discriminate; reflexivity).
    replace (x / 65536) with (x / 256 / 256) by (rewrite !N.div_div by discriminate; reflexivity).
    assert (D1 := N.div_mod x 256 ltac:(discriminate)). assert (D2 := N.div_mod (x / 256) 256 ltac:(discriminate)). assert (D3 := N.div_mod (x / 256 / 256) 256 ltac:(discriminate)).
    assert (D4 : x / 256 / 256 / 256 < 256). { rewrite !N.div_div by discriminate. apply N.div_lt_upper_bound; [discriminate|]. exact H. }
    rewrite (N.mod_small _ _ D4). lia.
Qed.
Lemma be4_is x l : x < 2 ^ 32 -> (length l = 4%nat /\ octets l) -> x = big_endian l -> l = be4 x.
Proof. intros H (L & O) ->. destruct (be4_spec _ H) as (L' & O' & E). apply big_endian_inj; [now rewrite L|assumption..|now symmetry]. Qed.

Lemma big_endian_cat a b : big_endian (a ++ b) = big_endian a * 256 ^ N.of_nat (length b) + big_endian b.
Proof.
  induction b as [|x b IH] using rev_ind; [rewrite app_nil_r; cbn; lia|]. rewrite app_assoc, !big_endian_app, IH, app_length. cbn [length].
  replace (N.of_nat (length b + 1)) with (N.succ (N.of_nat (length b))) by lia. rewrite N.pow_succ_r'. lia.
Qed.

(** Padding. *)
Lemma zeros_repeat n : Sha1.zeros n = repeat 0 n.
Proof. induction n as [|n IH]; [reflexivity|]. cbn. now rewrite IH. Qed.
Lemma pad_spec m : octets m -> 8 * N.of_nat (length m) < 2 ^ 64 -> (forall p, padded m p <-> p = sha1_pad m) /\ octets (sha1_pad m) /\ exists n, length (sha1_pad m) = (64 * n)%nat.
Proof.
  intros O H. unfold sha1_pad. set (len := N.of_nat (length m)) in *. change 18446744073709551616 with (2 ^ 64). rewrite (N.mod_small (8 * len)) by exact H. change w32 with (2 ^ 32).
  set (k := N.to_nat ((119 - len mod 64) mod 64)). rewrite zeros_repeat. set (l8 := be4 (8 * len / 2 ^ 32) ++ be4 ((8 * len) mod 2 ^ 32)).
  destruct (be4_spec (8 * len / 2 ^ 32)) as (A1 & A2 & A3). { apply N.div_lt_upper_bound; [discriminate|]. exact H. }
  destruct (be4_spec ((8 * len) mod 2 ^ 32)) as (B1 & B2 & B3). { apply N.mod_lt. discriminate. }
  assert (L8 : length l8 = 8%nat) by reflexivity.
  assert (O8 : octets l8) by (apply Forall_app; now split).
  assert (V8 : big_endian l8 = 8 * len).
  { unfold l8. rewrite big_endian_cat, A3, B3, B1. change (256 ^ N.of_nat 4) with (2 ^ 32). symmetry. rewrite (N.mul_comm _ (2 ^ 32)). apply N.div_mod. discriminate. }
  assert (K : (k < 64)%nat). { unfold k. assert (X := N.mod_lt (119 - len mod 64) 64 ltac:(discriminate)). lia. }
  assert (KM : ((length m + 9 + k) mod 64 = 0)%nat).
  { apply Nat2N.inj. rewrite Nat2N.inj_mod. rewrite !Nat2N.inj_add. unfold k. rewrite N2Nat.id. fold len. change (N.of_nat 9) with 9. change (N.of_nat 64) with 64. change (N.of_nat 0) with 0.
    assert (X := N.mod_lt len 64 ltac:(discriminate)). rewrite (N.div_mod len 64) at 1 by discriminate. set (r := len mod 64) in *. clearbody r.
    rewrite <- !N.add_assoc, N.mul_comm, N.add_comm, N.mod_add by discriminate. rewrite N.add_assoc, N.add_mod_idemp_r by discriminate.
    replace (r + 9 + (119 - r)) with 128 by lia. reflexivity. }
  assert (LP : forall k' l, length (m ++ [0x80] ++ repeat 0 k' ++ l) = (length m + 1 + k' + length l)%nat) by (intros; rewrite !app_length, repeat_length; cbn [length]; lia).
  change (128 :: repeat 0 k ++ l8) with ([0x80] ++ repeat 0 k ++ l8). split; [|split].
  - intros p. split.
    + intros (k' & l & -> & K' & L & Ol & V & M). rewrite LP, L in M. assert (l = l8) by (apply big_endian_inj; [now rewrite L|assumption..|now rewrite V8]). subst l.
      assert (k' = k); [|now subst]. replace (length m + 1 + k' + 8)%nat with (length m + 9 + k')%nat in M by lia.
      assert (D1 := Nat.div_mod (length m + 9 + k) 64 ltac:(discriminate)). assert (D2 := Nat.div_mod (length m + 9 + k') 64 ltac:(discriminate)). rewrite KM in D1. rewrite M in D2. lia.
    + intros ->. exists k, l8. repeat (split; [assumption||reflexivity|]). rewrite LP, L8. now replace (length m + 1 + k + 8)%nat with (length m + 9 + k)%nat by lia.
  - repeat (apply Forall_app; split); try assumption; [repeat constructor|]. apply Forall_forall. intros x I. apply repeat_spec in I. subst. reflexivity.
  - exists ((length m + 9 + k) / 64)%nat. rewrite LP, L8. assert (D1 := Nat.div_mod (length m + 9 + k) 64 ltac:(discriminate)). rewrite KM in D1. lia.
Qed.

Lemma sha1_exact_bytes m d : octets m -> 8 * N.of_nat (length m) < 2 ^ 64 -> is_sha1 m d <-> d = sha1_bytes m.
Proof.
  intros O H. destruct (pad_spec m O H) as (P & OP & (n & L)). assert (SI : small sha1_init) by (repeat split; reflexivity).
  destruct (blocks_spec (sha1_pad m) n OP L n 0 sha1_init ltac:(lia) SI) as (B1 & B2 & (H3 & H4 & H5)). cbv zeta in B1, B2. change (skipn (16 * 0) (words (sha1_pad m))) with (words (sha1_pad m)) in *.
  assert (EN : Nat.div (length (sha1_pad m)) 64 = n) by (rewrite L, Nat.mul_comm; apply Nat.div_mul; discriminate).
  unfold sha1_bytes. rewrite EN. set (s := blocks n (words (sha1_pad m)) sha1_init) in *. destruct B1 as (S1 & S2 & S3 & S4 & S5). split.
  - intros (p & n' & Hh & a & b & c & e & f & HP & Lp & H0 & HS & -> & F & HN). apply P in HP. subst p. assert (n' = n) by lia. subst n'.
    rewrite (B2 Hh H0) in HN by (intros j J; apply HS; lia). unfold reg in HN. injection HN as E1 E2 E3 E4 E5.
    inversion F as [|? ? Fa F1]; subst. inversion F1 as [|? ? Fb F2]; subst. inversion F2 as [|? ? Fc F3]; subst. inversion F3 as [|? ? Fe F4]; subst. inversion F4 as [|? ? Ff F5]; subst.
    now rewrite <- (be4_is _ _ S1 Fa E1), <- (be4_is _ _ S2 Fb E2), <- (be4_is _ _ S3 Fc E3), <- (be4_is _ _ S4 Fe E4), <- (be4_is _ _ S5 Ff E5).
  - intros ->. exists (sha1_pad m), n, H3, (be4 (sA s)), (be4 (sB s)), (be4 (sC s)), (be4 (sD s)), (be4 (sE s)).
    destruct (be4_spec _ S1) as (La & Oa & Ea). destruct (be4_spec _ S2) as (Lb & Ob & Eb). destruct (be4_spec _ S3) as (Lc & Oc & Ec). destruct (be4_spec _ S4) as (Ld & Od & Ed). destruct (be4_spec _ S5) as (Le & Oe & Ee).
    split; [now apply P|]. split; [exact L|]. split; [exact H4|]. split; [intros i I; apply H5; lia|]. split; [reflexivity|]. split.
    + do 5 (constructor; [split; assumption|]). constructor.
    + rewrite Ea, Eb, Ec, Ed, Ee. apply B2; [exact H4|]. intros j J. apply H5. lia.
Qed.
