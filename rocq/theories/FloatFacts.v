From Verif Require Import GoStr GoStrFacts JsonStr JsonStrFacts Json JsonFacts Float.
Local Open Scope Z_scope.

Lemma flt_eqb_eq x y : flt_eqb x y = true <-> x = y.
Proof.
  destruct x as [|a|a m e], y as [|b|b m' e']; cbn; try (split; congruence).
  - rewrite Bool.eqb_true_iff. split; congruence.
  - rewrite !andb_true_iff, Bool.eqb_true_iff, N.eqb_eq, Z.eqb_eq. split; [intros [[-> ->] ->]; reflexivity | intros H; injection H; auto].
Qed.

(** * Decimal digits *)
Fixpoint digits_only (s : string) : bool := match s with EmptyString => true | String c s' => is_digit c && digits_only s' end.

Lemma digit_ascii_ok n : (n < 10)%N -> is_digit (digit_ascii n) = true /\ dval (digit_ascii n) = n.
Proof.
  intros H. unfold is_digit, dval, digit_ascii, bt. rewrite N_ascii_embedding by lia.
  split; [apply andb_true_iff; split; apply N.leb_le; lia | lia].
Qed.

Lemma N_of_digits_acc_app a b acc : N_of_digits_acc (a ++ b)%string acc = N_of_digits_acc b (N_of_digits_acc a acc).
Proof. revert acc. induction a as [|c a IH]; intros acc; cbn; [reflexivity | apply IH]. Qed.

Lemma N_of_digits_zeros k : forall acc, N_of_digits_acc (zeros k) acc = (acc * 10 ^ N.of_nat k)%N.
Proof.
  induction k as [|k IH]; intros acc; [cbn; lia|].
  cbn [zeros N_of_digits_acc]. rewrite IH. replace (dval "0") with 0%N by reflexivity.
  rewrite Nat2N.inj_succ, N.pow_succ_r'. lia.
Qed.

Lemma digits_only_app a b : digits_only (a ++ b)%string = digits_only a && digits_only b.
Proof. induction a as [|c a IH]; cbn; [reflexivity | now rewrite IH, andb_assoc]. Qed.
Lemma digits_only_zeros k : digits_only (zeros k) = true.
Proof. induction k; cbn; auto. Qed.

Lemma pos_digits_spec f : forall n acc, (n < 10 ^ N.of_nat f)%N -> (0 < f)%nat ->
  exists d, pos_digits f n acc = (d ++ acc)%string /\ digits_only d = true /\ d <> "" /\
    (forall a, N_of_digits_acc d a = a * 10 ^ N.of_nat (String.length d) + n)%N /\
    (n = 0%N -> d = "0") /\ (n <> 0%N -> exists c r, d = String c r /\ Ascii.eqb c "0" = false).
Proof.
  induction f as [|f IH]; intros n acc H F; [lia|]. cbn [pos_digits].
  destruct (n <? 10)%N eqn:E.
  - apply N.ltb_lt in E. exists (String (digit_ascii n) ""). destruct (digit_ascii_ok n E) as [D1 D2].
    repeat split.
    + cbn. now rewrite D1.
    + discriminate.
    + intros a. cbn [N_of_digits_acc String.length]. rewrite D2. change (10 ^ N.of_nat 1)%N with 10%N. lia.
    + intros ->. reflexivity.
    + intros Hn. do 2 eexists. split; [reflexivity|]. apply Ascii.eqb_neq. intros Q.
      apply Hn. rewrite <- D2, Q. reflexivity.
  - apply N.ltb_ge in E. destruct f as [|f']; [cbn in H; lia|].
    destruct (IH (n / 10)%N (String (digit_ascii (n mod 10)) acc)) as (d & E1 & E2 & E3 & E4 & E5 & E6).
    { apply N.div_lt_upper_bound; [lia|]. rewrite Nat2N.inj_succ, N.pow_succ_r' in H. exact H. }
    { lia. }
    assert (M : (n mod 10 < 10)%N) by (apply N.mod_lt; discriminate).
    destruct (digit_ascii_ok _ M) as [D1 D2].
    exists (d ++ String (digit_ascii (n mod 10)) "")%string.
    assert (Q : (n / 10 <> 0)%N).
    { intros Q. assert (D := N.div_mod n 10 ltac:(discriminate)). rewrite Q in D. lia. }
    destruct (E6 Q) as (c & r & -> & Hc).
    repeat split.
    + rewrite E1, sapp_assoc. reflexivity.
    + rewrite digits_only_app, E2. cbn [digits_only]. now rewrite D1.
    + discriminate.
    + intros a. rewrite N_of_digits_acc_app, E4, slength_app. cbn [N_of_digits_acc]. rewrite D2.
      change (String.length (String (digit_ascii (n mod 10)) "")) with 1%nat.
      rewrite Nat2N.inj_add, N.pow_add_r. change (10 ^ N.of_nat 1)%N with 10%N.
      rewrite (N.div_mod n 10) at 3 by discriminate. lia.
    + intros Hn. subst n. exfalso. apply Q. reflexivity.
    + intros _. cbn [String.append]. eauto.
Qed.

Lemma size_bound n : (n < 10 ^ N.of_nat (S (N.to_nat (N.size n))))%N.
Proof.
  rewrite Nat2N.inj_succ, N2Nat.id.
  assert (H : (n < 2 ^ N.size n)%N) by apply N.size_gt.
  assert (L : (2 ^ N.size n <= 10 ^ N.size n)%N) by (apply N.pow_le_mono_l; lia).
  assert (L2 : (10 ^ N.size n <= 10 ^ N.succ (N.size n))%N) by (apply N.pow_le_mono_r; lia). lia.
Qed.

Lemma N_to_string_spec n : let d := N_to_string n in
  digits_only d = true /\ d <> "" /\ (forall a, N_of_digits_acc d a = a * 10 ^ N.of_nat (String.length d) + n)%N /\
  (n = 0%N -> d = "0") /\ (n <> 0%N -> exists c r, d = String c r /\ Ascii.eqb c "0" = false).
Proof.
  cbv zeta. unfold N_to_string.
  destruct (pos_digits_spec _ n "" (size_bound n) ltac:(lia)) as (d & -> & H). rewrite sapp_nil_r. exact H.
Qed.

Lemma N_of_to n : N_of_digits (N_to_string n) = n.
Proof. unfold N_of_digits. destruct (N_to_string_spec n) as (_ & _ & H & _). rewrite H. lia. Qed.

Lemma N_to_string_inj n m : N_to_string n = N_to_string m -> n = m.
Proof. intros H. rewrite <- (N_of_to n), <- (N_of_to m). now rewrite H. Qed.

(** * Lexemes *)
Definition stops (r : string) : Prop := match r with EmptyString => True | String c _ => is_digit c = false end.
Lemma take_digits_app d r : digits_only d = true -> stops r -> take_digits (d ++ r)%string = (d, r).
Proof.
  induction d as [|c d IH]; intros H S.
  - cbn [String.append]. destruct r as [|c r]; [reflexivity|]. cbn in S. cbn [take_digits]. now rewrite S.
  - cbn [digits_only] in H. apply andb_true_iff in H as [H1 H2]. cbn [String.append take_digits]. now rewrite H1, IH.
Qed.
Lemma take_digits_all d : digits_only d = true -> take_digits d = (d, "").
Proof. intros H. rewrite <- (sapp_nil_r d) at 1. now apply take_digits_app. Qed.

Definition int_ok (ip : string) : bool :=
  negb (is_empty ip || (match ip with String c (String _ _) => Ascii.eqb c "0" | _ => false end)) && digits_only ip.

Lemma digit_not c : is_digit c = true -> Ascii.eqb c "-" = false /\ Ascii.eqb c "+" = false.
Proof.
  intros H. assert (D : forallb (fun c => negb (is_digit c) || (negb (Ascii.eqb c "-") && negb (Ascii.eqb c "+"))) all_ascii = true) by (vm_compute; reflexivity).
  assert (F := ascii_sweep _ D c). cbv beta in F. rewrite H in F. cbn [negb orb] in F.
  rewrite andb_true_iff, !negb_true_iff in F. exact F.
Qed.

(** shape of the number texts written by the encoder *)
Definition sgn (neg : bool) (s : string) : string := if neg then String "-" s else s.

Lemma lex_num_sgn neg ip s : int_ok ip = true -> stops s ->
  lex_num (sgn neg (ip ++ s)) =
  match lex_frac s with
  | None => None
  | Some (fp, s3) => match lex_exp s3 with None => None | Some ex => Some (neg, ip, fp, ex) end
  end.
Proof.
  intros H S. unfold int_ok in H. apply andb_true_iff in H as [H1 H2]. apply negb_true_iff in H1.
  assert (E : (let '(neg0, s1) := match sgn neg (ip ++ s) with
     | String c s1 => if Ascii.eqb c "-" then (true, s1) else (false, sgn neg (ip ++ s))
     | EmptyString => (false, sgn neg (ip ++ s)) end in (neg0, s1)) = (neg, (ip ++ s)%string)).
  { destruct neg; [reflexivity|]. cbn [sgn].
    destruct ip as [|c ip]; [discriminate H1|]. cbn [String.append].
    cbn [digits_only] in H2. apply andb_true_iff in H2 as [Hc _]. now rewrite (proj1 (digit_not _ Hc)). }
  unfold lex_num.
  destruct (match sgn neg (ip ++ s) with
     | String c s1 => if Ascii.eqb c "-" then (true, s1) else (false, sgn neg (ip ++ s))
     | EmptyString => (false, sgn neg (ip ++ s)) end) as [neg0 s1]. injection E as -> ->.
  rewrite take_digits_app by assumption. rewrite H1. reflexivity.
Qed.

Lemma lex_frac_dot fp s : digits_only fp = true -> fp <> "" -> stops s ->
  lex_frac (String "." (fp ++ s)) = Some (fp, s).
Proof.
  intros H N S. cbn [lex_frac]. replace (Ascii.eqb "." ".") with true by reflexivity.
  rewrite take_digits_app by assumption. destruct fp; [contradiction | reflexivity].
Qed.

Lemma lex_exp_ok (neg : bool) d : digits_only d = true -> d <> "" ->
  lex_exp (String "e" ((if neg then "-" else "+") ++ d)) = Some (neg, d).
Proof.
  intros H N. destruct neg; cbn; rewrite take_digits_all by assumption; destruct d; try contradiction; reflexivity.
Qed.

Lemma int_ok_N n : int_ok (N_to_string n) = true.
Proof.
  destruct (N_to_string_spec n) as (H1 & H2 & _ & H4 & H5). unfold int_ok. rewrite H1, andb_true_r.
  destruct (N.eq_dec n 0) as [E|E]; [now rewrite (H4 E)|].
  destruct (H5 E) as (c & r & -> & Hc). cbn. destruct r; [reflexivity | now rewrite Hc].
Qed.

(** * Integers *)
Lemma lex_int neg n : lex_num (sgn neg (N_to_string n)) = Some (neg, N_to_string n, "", (false, "")).
Proof.
  rewrite <- (sapp_nil_r (N_to_string n)) at 1. now rewrite lex_num_sgn by (apply int_ok_N || exact I).
Qed.

Lemma Z_to_string_sgn z : Z_to_string z = sgn (z <? 0) (N_to_string (Z.to_N (Z.abs z))).
Proof. destruct z; reflexivity. Qed.

Lemma parse_int_ok z : int64_ok z = true -> parse_int (Z_to_string z) = Some z.
Proof.
  intros H. unfold parse_int. rewrite Z_to_string_sgn, lex_int, N_of_to.
  assert (E : (if z <? 0 then - Z.of_N (Z.to_N (Z.abs z)) else Z.of_N (Z.to_N (Z.abs z))) = z).
  { rewrite Z2N.id by lia. destruct (Z.ltb_spec z 0); lia. }
  now rewrite E, H.
Qed.

Lemma num_ok_int z : num_ok (Z_to_string z) = true.
Proof. unfold num_ok. now rewrite Z_to_string_sgn, lex_int. Qed.

Lemma Z_to_string_inj a b : Z_to_string a = Z_to_string b -> a = b.
Proof.
  rewrite !Z_to_string_sgn. intros H.
  assert (A := lex_int (a <? 0) (Z.to_N (Z.abs a))). assert (B := lex_int (b <? 0) (Z.to_N (Z.abs b))).
  rewrite H in A. rewrite A in B. injection B as E1 E2. apply N_to_string_inj in E2.
  destruct (Z.ltb_spec a 0), (Z.ltb_spec b 0); try discriminate; lia.
Qed.

(** * Floats *)
Lemma strip10_pow f : forall m e k, canonical m e = true -> m <> 0%N -> (k < f)%nat ->
  strip10 f (m * 10 ^ N.of_nat k)%N (e - Z.of_nat k) = (m, e).
Proof.
  induction f as [|f IH]; intros m e k C Hm L; [lia|]. cbn [strip10].
  assert (P : (10 ^ N.of_nat k <> 0)%N) by (apply N.pow_nonzero; discriminate).
  destruct (N.eqb_spec (m * 10 ^ N.of_nat k) 0) as [E|_]; [exfalso; nia|].
  destruct k as [|k].
  - change (10 ^ N.of_nat 0)%N with 1%N. rewrite N.mul_1_r. unfold canonical in C.
    destruct (N.eqb_spec m 0); [contradiction|]. apply negb_true_iff in C. rewrite C. f_equal. lia.
  - rewrite Nat2N.inj_succ, N.pow_succ_r'. rewrite N.mul_assoc, (N.mul_comm m 10), <- N.mul_assoc, N.mul_comm.
    rewrite N.mod_mul by discriminate. cbn [N.eqb]. change (0 =? 0)%N with true. cbv iota.
    rewrite N.div_mul by discriminate. replace (e - Z.of_nat (S k) + 1) with (e - Z.of_nat k) by lia. apply IH; auto. lia.
Qed.

Lemma norm10_pow m e k : canonical m e = true -> m <> 0%N ->
  norm10 (m * 10 ^ N.of_nat k)%N (e - Z.of_nat k) = (m, e).
Proof.
  intros C H. unfold norm10. apply strip10_pow; auto.
  assert (B : (N.of_nat k < N.size (m * 10 ^ N.of_nat k))%N); [|lia].
  assert (P : (2 ^ N.of_nat k <= m * 10 ^ N.of_nat k)%N).
  { assert (2 ^ N.of_nat k <= 10 ^ N.of_nat k)%N by (apply N.pow_le_mono_l; lia). nia. }
  destruct (N.lt_ge_cases (N.of_nat k) (N.size (m * 10 ^ N.of_nat k))) as [Q|Q]; [exact Q|exfalso].
  assert (S1 := N.size_gt (m * 10 ^ N.of_nat k)).
  assert (S2 : (2 ^ N.size (m * 10 ^ N.of_nat k) <= 2 ^ N.of_nat k)%N) by (apply N.pow_le_mono_r; lia). lia.
Qed.
Lemma norm10_id m e : canonical m e = true -> m <> 0%N -> norm10 m e = (m, e).
Proof. intros C H. assert (E := norm10_pow m e 0 C H). change (10 ^ N.of_nat 0)%N with 1%N in E. rewrite N.mul_1_r, Z.sub_0_r in E. exact E. Qed.

Lemma split_at_spec n : forall s a b, split_at n s = (a, b) -> (n <= String.length s)%nat ->
  s = (a ++ b)%string /\ String.length a = n.
Proof.
  induction n as [|n IH]; intros s a b H L.
  - cbn in H. destruct s; injection H as <- <-; auto.
  - destruct s as [|c s]; [cbn in L; lia|]. cbn [split_at] in H. destruct (split_at n s) as [x y] eqn:E.
    injection H as <- <-. destruct (IH _ _ _ E) as [-> <-]; [cbn in L; lia|]. auto.
Qed.

Lemma length_zeros k : String.length (zeros k) = k.
Proof. induction k; cbn; congruence. Qed.

Lemma dec_fmt neg m e : canonical m e = true ->
  dec_of_lexeme (sgn neg (fmt_abs m e)) = Some (neg, m, e).
Proof.
  intros C. unfold fmt_abs.
  destruct (N.eqb_spec m 0) as [->|Hm].
  { assert (e = 0) by (unfold canonical in C; cbn in C; now apply Z.eqb_eq). subst e. destruct neg; reflexivity. }
  destruct (N_to_string_spec m) as (D1 & D2 & D3 & _ & D5). destruct (D5 Hm) as (c0 & r0 & Ed & Hc0).
  set (d := N_to_string m) in *.
  assert (Dm : N_of_digits d = m) by apply N_of_to.
  assert (Ld : (1 <= String.length d)%nat) by (rewrite Ed; cbn; lia).
  set (n := Z.of_nat (String.length d)) in *.
  set (dp := n + e).
  assert (Ic : is_digit c0 = true /\ digits_only r0 = true).
  { rewrite Ed in D1. cbn [digits_only] in D1. now apply andb_true_iff in D1. }
  destruct Ic as [Ic Ir].
  destruct ((dp <? -5) || (21 <? dp)) eqn:E1.
  - destruct (split_at 1 d) as [a b] eqn:Es. rewrite Ed in Es. cbn in Es.
    replace (match r0 with "" | _ => ("", r0) end) with ("", r0) in Es by (destruct r0; reflexivity).
    injection Es as <- <-.
    destruct (N_to_string_spec (Z.to_N (Z.abs (dp - 1)))) as (X1 & X2 & _).
    set (xs := N_to_string (Z.to_N (Z.abs (dp - 1)))) in *.
    set (T := ("e" ++ (if (dp - 1 <? 0)%Z then "-" else "+") ++ xs)%string).
    assert (HT : lex_exp T = Some (dp - 1 <? 0, xs)) by (apply lex_exp_ok; assumption).
    assert (L : lex_num (sgn neg (String c0 "" ++ (if is_empty r0 then "" else "." ++ r0) ++ T)) =
                Some (neg, String c0 "", r0, (dp - 1 <? 0, xs))).
    { rewrite lex_num_sgn.
      - destruct (is_empty r0) eqn:Er.
        + apply is_empty_true in Er. subst r0. cbn [String.append]. unfold T at 1. cbn [String.append lex_frac].
          change (Ascii.eqb "e" ".") with false. cbv iota. fold T. change (String "e" ((if (dp - 1 <? 0)%Z then "-" else "+") ++ xs)) with T. now rewrite HT.
        + cbn [String.append]. rewrite lex_frac_dot; [now rewrite HT | assumption | intros ->; discriminate | reflexivity].
      - unfold int_ok. cbn. now rewrite Ic.
      - destruct (is_empty r0); reflexivity. }
    unfold dec_of_lexeme. cbn [String.append] in L. cbn [String.append]. fold T.
    change (String "e" ((if (dp - 1 <? 0)%Z then "-" else "+") ++ xs)) with T.
    rewrite L. replace (String c0 "" ++ r0)%string with d by (rewrite Ed; reflexivity). rewrite Dm.
    unfold xs at 1 2. rewrite N_of_to, Z2N.id by lia.
    assert (Lr : Z.of_nat (String.length r0) = n - 1) by (subst n; rewrite Ed; cbn [String.length]; lia).
    replace ((if dp - 1 <? 0 then - Z.abs (dp - 1) else Z.abs (dp - 1)) - Z.of_nat (String.length r0)) with e
      by (rewrite Lr; destruct (Z.ltb_spec (dp - 1) 0); lia).
    rewrite norm10_id by assumption. reflexivity.
  - destruct (Z.leb_spec dp 0) as [E2|E2].
    + set (k := Z.to_nat (- dp)).
      assert (L : lex_num (sgn neg ("0." ++ zeros k ++ d)) = Some (neg, "0", (zeros k ++ d)%string, (false, ""))).
      { change ("0." ++ zeros k ++ d)%string with ("0" ++ String "." (zeros k ++ d))%string.
        rewrite lex_num_sgn by reflexivity. rewrite <- (sapp_nil_r (zeros k ++ d)) at 1.
        rewrite lex_frac_dot; [reflexivity | | | exact I].
        - now rewrite digits_only_app, digits_only_zeros, D1.
        - rewrite Ed. destruct (zeros k); discriminate. }
      unfold dec_of_lexeme. rewrite L. cbn [N_of_digits_acc N_of_digits].
      replace (N_of_digits ("0" ++ zeros k ++ d)) with m.
      2:{ unfold N_of_digits. rewrite !N_of_digits_acc_app, N_of_digits_zeros. cbn [N_of_digits_acc].
          replace (dval "0") with 0%N by reflexivity. cbn [N.add N.mul]. symmetry. exact Dm. }
      rewrite slength_app, length_zeros.
      replace (Z.of_N 0 - Z.of_nat (k + String.length d)) with e
        by (unfold k; rewrite Nat2Z.inj_add; rewrite Z2Nat.id by lia; fold n; lia).
      change (Z.of_N (N_of_digits_acc "" 0)) with 0 in *.
      replace (0 - Z.of_nat (k + String.length d)) with e
        by (unfold k; rewrite Nat2Z.inj_add; rewrite Z2Nat.id by lia; fold n; lia).
      rewrite norm10_id by assumption. reflexivity.
    + destruct (Z.leb_spec n dp) as [E3|E3].
      * set (k := Z.to_nat (dp - n)).
        assert (I : int_ok (d ++ zeros k) = true).
        { unfold int_ok. rewrite digits_only_app, D1, digits_only_zeros, Ed, andb_true_r. cbn.
          destruct (r0 ++ zeros k)%string; [reflexivity | now rewrite Hc0]. }
        assert (L : lex_num (sgn neg (d ++ zeros k)) = Some (neg, (d ++ zeros k)%string, "", (false, ""))).
        { rewrite <- (sapp_nil_r (d ++ zeros k)) at 1. now rewrite lex_num_sgn by (exact I || exact Logic.I). }
        unfold dec_of_lexeme. rewrite L, sapp_nil_r. cbn [String.length].
        replace (N_of_digits (d ++ zeros k)) with (m * 10 ^ N.of_nat k)%N.
        2:{ unfold N_of_digits in *. now rewrite N_of_digits_acc_app, N_of_digits_zeros, Dm. }
        change (Z.of_N (N_of_digits "") - Z.of_nat 0) with 0.
        replace 0 with (e - Z.of_nat k) by (unfold k; rewrite Z2Nat.id by lia; lia).
        rewrite norm10_pow by assumption. reflexivity.
      * destruct (split_at (Z.to_nat dp) d) as [a b] eqn:Es.
        apply split_at_spec in Es as [Eab La]; [|lia].
        assert (Da : digits_only a = true /\ digits_only b = true).
        { rewrite Eab, digits_only_app in D1. now apply andb_true_iff. }
        destruct Da as [Da Db].
        assert (Lb : Z.of_nat (String.length b) = n - dp).
        { subst n. rewrite Eab, slength_app, La. lia. }
        assert (Ia : int_ok a = true).
        { unfold int_ok. rewrite Da, andb_true_r. destruct a as [|ca a]; [cbn in La; lia|].
          rewrite Eab in Ed. cbn in Ed. injection Ed as -> _. cbn. destruct a; [reflexivity | now rewrite Hc0]. }
        assert (L : lex_num (sgn neg (a ++ "." ++ b)) = Some (neg, a, b, (false, ""))).
        { rewrite lex_num_sgn by (exact Ia || reflexivity). rewrite <- (sapp_nil_r b) at 1.
          change ("." ++ b ++ "")%string with (String "." (b ++ "")).
          rewrite lex_frac_dot; [reflexivity | assumption | | exact I].
          intros ->. cbn in Lb. lia. }
        unfold dec_of_lexeme. rewrite L, <- Eab, Dm.
        replace (Z.of_N (N_of_digits "") - Z.of_nat (String.length b)) with e by (change (Z.of_N (N_of_digits "")) with 0; lia).
        rewrite norm10_id by assumption. reflexivity.
Qed.

Lemma fmt_float_ok rnd f s : is_f64 rnd f = true -> fmt_float f = Some s ->
  parse_float rnd s = Some f /\ num_ok s = true.
Proof.
  destruct f as [| |neg m e]; try discriminate. cbn [is_f64 fmt_float]. intros H E.
  apply andb_true_iff in H as [C R].
  assert (E' : s = sgn neg (fmt_abs m e)) by (destruct neg; cbn in E; injection E as <-; reflexivity).
  assert (D := dec_fmt neg m e C). rewrite <- E' in D. split.
  - unfold parse_float. rewrite D. destruct (rnd neg m e) as [g|]; [|discriminate].
    apply flt_eqb_eq in R. now subst.
  - unfold num_ok. unfold dec_of_lexeme in D. destruct (lex_num s); [reflexivity | discriminate].
Qed.
