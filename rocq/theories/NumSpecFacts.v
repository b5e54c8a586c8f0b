(** Lemmas: the number reader of Json.v and Float.v against NumSpec. *)
From Verif Require Import GoStr GoStrFacts JsonStr JsonStrFacts Json JsonFacts Float FloatFacts TimeSpec TimeSpecFacts NumSpec.
Local Open Scope Z_scope.

Lemma take_digits_inv s d r : take_digits s = (d, r) -> s = (d ++ r)%string /\ digits_only d = true /\ stops r.
Proof.
  revert d r. induction s as [|c s IH]; intros d r H; cbn [take_digits] in H.
  - injection H as <- <-. repeat split.
  - destruct (is_digit c) eqn:E.
    + destruct (take_digits s) as [d0 r0]. injection H as <- <-. destruct (IH _ _ eq_refl) as (A & B & C). subst s.
      split; [reflexivity|]. split; [cbn; now rewrite E, B|exact C].
    + injection H as <- <-. repeat split. exact E.
Qed.

Lemma dchar_digit x : 0 <= x < 10 -> is_digit (dchar x) = true /\ dval (dchar x) = Z.to_N x.
Proof.
  intros H. unfold is_digit, dval, dchar, bt. rewrite N_ascii_embedding by lia. split; [|lia].
  apply andb_true_iff. split; apply N.leb_le; lia.
Qed.
Lemma digit_dchar c : is_digit c = true -> exists x, 0 <= x < 10 /\ c = dchar x /\ dval c = Z.to_N x.
Proof.
  unfold is_digit, dval, dchar, bt. intros E. apply andb_true_iff in E as [E1 E2]. apply N.leb_le in E1, E2.
  exists (Z.of_N (N_of_ascii c - 48)). split; [lia|]. rewrite N2Z.id. split; [|reflexivity].
  replace (48 + (N_of_ascii c - 48))%N with (N_of_ascii c) by lia. now rewrite ascii_N_embedding.
Qed.

Lemma digits_len k : forall n, String.length (digits k n) = k.
Proof. induction k as [|k IH]; intros n; [reflexivity|]. rewrite digits_front. cbn [String.length]. now rewrite IH. Qed.
Lemma digits_digits k n : digits_only (digits k n) = true.
Proof.
  revert n. induction k as [|k IH]; intros n; [reflexivity|]. rewrite digits_front. cbn [digits_only]. rewrite IH.
  destruct (dchar_digit (n / 10 ^ Z.of_nat k mod 10) ltac:(apply Z.mod_pos_bound; lia)) as [-> _]. reflexivity.
Qed.
Lemma digits_val k : forall n acc, 0 <= n < 10 ^ Z.of_nat k ->
  Z.of_N (N_of_digits_acc (digits k n) acc) = Z.of_N acc * 10 ^ Z.of_nat k + n.
Proof.
  induction k as [|k IH]; intros n acc H.
  - cbn in H. cbn. lia.
  - rewrite Nat2Z.inj_succ, Z.pow_succ_r in H by lia. cbn [digits]. rewrite N_of_digits_acc_app. cbn [N_of_digits_acc].
    destruct (dchar_digit (n mod 10) ltac:(apply Z.mod_pos_bound; lia)) as [_ ->].
    rewrite N2Z.inj_add, N2Z.inj_mul, IH by (split; [apply Z.div_pos; lia|apply Z.div_lt_upper_bound; lia]).
    rewrite Z2N.id by (apply Z.mod_pos_bound; lia). rewrite Nat2Z.inj_succ, Z.pow_succ_r by lia. Z.div_mod_to_equations. lia.
Qed.
Lemma digits_of d : digits_only d = true -> exists n, 0 <= n < 10 ^ Z.of_nat (String.length d) /\
  d = digits (String.length d) n /\ Z.of_N (N_of_digits d) = n.
Proof.
  intros D. assert (X : exists n, 0 <= n < 10 ^ Z.of_nat (String.length d) /\ d = digits (String.length d) n).
  { induction d as [|c d IH]; [exists 0; cbn; repeat split; lia|]. cbn [digits_only] in D. apply andb_true_iff in D as [D1 D2].
    destruct (IH D2) as (n & Hn & E). destruct (digit_dchar c D1) as (x & Hx & Ec & _).
    exists (x * 10 ^ Z.of_nat (String.length d) + n). split.
    - cbn [String.length]. rewrite Nat2Z.inj_succ, Z.pow_succ_r by lia. nia.
    - cbn [String.length]. rewrite digits_front' by assumption. now rewrite <- E, <- Ec. }
  destruct X as (n & Hn & E). exists n. split; [exact Hn|]. split; [exact E|].
  rewrite E. unfold N_of_digits. rewrite digits_val by exact Hn. cbn. lia.
Qed.
Lemma digits_value k n : 0 <= n < 10 ^ Z.of_nat k -> Z.of_N (N_of_digits (digits k n)) = n.
Proof. intros H. unfold N_of_digits. rewrite digits_val by exact H. cbn. lia. Qed.
Lemma digits_ne k n : (0 < k)%nat -> digits k n <> ""%string.
Proof. intros H E. assert (L := digits_len k n). rewrite E in L. cbn in L. lia. Qed.

Lemma digits_of' d : digits_only d = true -> d <> ""%string -> exists k n, (0 < k)%nat /\ 0 <= n < 10 ^ Z.of_nat k /\
  d = digits k n /\ Z.of_N (N_of_digits d) = n /\ k = String.length d.
Proof.
  intros D N. destruct (digits_of d D) as (n & H1 & H2 & H3). exists (String.length d), n. split; [destruct d; [congruence|cbn; lia]|]. repeat split; try assumption; apply H1.
Qed.

(** ** The parts of a number *)
Lemma lex_exp_inv s en eds : lex_exp s = Some (en, eds) ->
  exponent (if en then - Z.of_N (N_of_digits eds) else Z.of_N (N_of_digits eds)) s /\ (eds = ""%string <-> s = ""%string).
Proof.
  destruct s as [|c s1]; [intros Q; injection Q as <- <-; split; [constructor|tauto]|]. cbn [lex_exp].
  destruct (Ascii.eqb c "e" || Ascii.eqb c "E") eqn:E; [|discriminate].
  assert (Ec : (String c "" = "e" \/ String c "" = "E")%string).
  { apply orb_true_iff in E as [E|E]; apply Ascii.eqb_eq in E; subst c; auto. }
  assert (K : forall b s2, (let '(ds, r) := take_digits s2 in if is_empty ds || negb (is_empty r) then None else Some (b, ds)) = Some (en, eds) ->
     b = en /\ exists k n, (0 < k)%nat /\ 0 <= n < 10 ^ Z.of_nat k /\ s2 = digits k n /\ Z.of_N (N_of_digits eds) = n /\ eds <> ""%string).
  { intros b s2 H. destruct (take_digits s2) as [ds r] eqn:Et. apply take_digits_inv in Et as (-> & Dt & _).
    destruct (is_empty ds) eqn:Ed; [discriminate|]. destruct (is_empty r) eqn:Er; [|discriminate]. apply is_empty_true in Er. subst r.
    cbn [orb negb] in H. assert (Q1 := f_equal (fun o => match o with Some (x, _) => x | None => b end) H). cbn in Q1.
    assert (Q2 := f_equal (fun o => match o with Some (_, x) => x | None => ds end) H). cbn in Q2. subst en eds. split; [reflexivity|].
    assert (Nd : ds <> ""%string) by (intros ->; discriminate Ed).
    destruct (digits_of' _ Dt Nd) as (k & n & H1 & H2 & H3 & H4 & _). exists k, n. rewrite sapp_nil_r. auto. }
  intros H.
  assert (G : exponent (if en then - Z.of_N (N_of_digits eds) else Z.of_N (N_of_digits eds)) (String c s1) /\ eds <> ""%string).
  { destruct s1 as [|d s2].
    - apply K in H as (_ & k & n & H1 & _ & H3 & _). exfalso. apply (digits_ne k n H1). now symmetry.
    - destruct (Ascii.eqb_spec d "+") as [->|N1]; [|destruct (Ascii.eqb_spec d "-") as [->|N2]]; apply K in H as (<- & k & n & H1 & H2 & H3 & H4 & H5); (split; [|exact H5]); rewrite H4, H3.
      + change (String c (String "+" (digits k n))) with (String c "" ++ "+" ++ digits k n)%string. constructor; auto.
      + change (String c (String "-" (digits k n))) with (String c "" ++ "-" ++ digits k n)%string. constructor; auto.
      + change (String c (digits k n)) with (String c "" ++ "" ++ digits k n)%string. constructor; auto. }
  destruct G as [G1 G2]. split; [exact G1|]. split; [congruence|discriminate].
Qed.

Lemma lex_exp_of x et : exponent x et -> exists en eds, lex_exp et = Some (en, eds) /\
  x = (if en then - Z.of_N (N_of_digits eds) else Z.of_N (N_of_digits eds)) /\ (eds = ""%string <-> et = ""%string).
Proof.
  intros H. destruct H as [|e sg k x He Hs Hk Hx|e k x He Hk Hx].
  - exists false, ""%string. split; [reflexivity|]. split; [reflexivity|tauto].
  - exists false, (digits k x). assert (Nd := digits_ne k x Hk). split; [|split; [now rewrite digits_value|split; [contradiction|]]].
    + assert (T : forall r, r = digits k x -> (let '(ds, r0) := take_digits r in if is_empty ds || negb (is_empty r0) then None else Some (false, ds)) = Some (false, digits k x)).
      { intros r ->. rewrite take_digits_all by apply digits_digits. destruct (digits k x); [congruence|reflexivity]. }
      destruct He as [->| ->], Hs as [->| ->]; cbn [String.append lex_exp]; cbn [Ascii.eqb Bool.eqb orb].
      all: try exact (T _ eq_refl).
      all: destruct k as [|k]; [lia|]; rewrite digits_front; rewrite digits_front in T;
        destruct (dchar_digit (x / 10 ^ Z.of_nat k mod 10) ltac:(apply Z.mod_pos_bound; lia)) as [Dc _];
        destruct (digit_not _ Dc) as [-> ->]; exact (T _ eq_refl).
    + destruct He as [->| ->]; discriminate.
  - exists true, (digits k x). assert (Nd := digits_ne k x Hk). split; [|split; [now rewrite digits_value|split; [contradiction|]]].
    + destruct He as [->| ->]; cbn; rewrite take_digits_all by apply digits_digits; destruct (digits k x); try congruence; reflexivity.
    + destruct He as [->| ->]; discriminate.
Qed.

Lemma exponent_stops x et : exponent x et -> stops et.
Proof. intros [|e sg k y [->| ->] _ _ _|e k y [->| ->] _ _]; exact I || reflexivity. Qed.

Lemma lex_frac_inv s fp r : lex_frac s = Some (fp, r) -> exists ft, s = (ft ++ r)%string /\
  frac (Z.of_N (N_of_digits fp)) (String.length fp) ft /\ digits_only fp = true /\ (fp = ""%string <-> ft = ""%string).
Proof.
  assert (X : Some (""%string, s) = Some (fp, r) -> exists ft, s = (ft ++ r)%string /\
    frac (Z.of_N (N_of_digits fp)) (String.length fp) ft /\ digits_only fp = true /\ (fp = ""%string <-> ft = ""%string)).
  { intros Q. injection Q as <- <-. exists ""%string. split; [reflexivity|]. split; [constructor|]. split; [reflexivity|tauto]. }
  destruct s as [|c s1]; [exact X|]. cbn [lex_frac]. destruct (Ascii.eqb_spec c ".") as [->|N]; [|exact X]. clear X.
  destruct (take_digits s1) as [ds r0] eqn:Et. apply take_digits_inv in Et as (-> & Dt & _). destruct (is_empty ds) eqn:Ed; [discriminate|].
  intros Q. assert (Q1 := f_equal (fun o => match o with Some (x, _) => x | None => ds end) Q). cbn in Q1.
  assert (Q2 := f_equal (fun o => match o with Some (_, x) => x | None => r0 end) Q). cbn in Q2. subst fp r.
  assert (Nd : ds <> ""%string) by (intros ->; discriminate Ed). destruct (digits_of' _ Dt Nd) as (k & n & H1 & H2 & H3 & H4 & ->).
  exists ("." ++ digits (String.length ds) n)%string. rewrite <- H3. split; [reflexivity|]. rewrite H4. split; [rewrite H3 at 2; now constructor|]. split; [exact Dt|]. split; [congruence|discriminate].
Qed.
Lemma lex_frac_of b kf ft x et : frac b kf ft -> exponent x et -> exists fp, lex_frac (ft ++ et) = Some (fp, et) /\
  Z.of_N (N_of_digits fp) = b /\ String.length fp = kf /\ digits_only fp = true /\ (fp = ""%string <-> ft = ""%string).
Proof.
  intros F X. destruct F as [|k b Hk Hb].
  - exists ""%string. split; [|repeat split; auto]. cbn [String.append]. destruct X as [|e sg k y [->| ->] _ _ _|e k y [->| ->] _ _]; reflexivity.
  - exists (digits k b). assert (Nd := digits_ne k b Hk). split; [|rewrite digits_value by assumption; rewrite digits_len; repeat split; try apply digits_digits; [contradiction|discriminate]].
    change (("." ++ digits k b) ++ et)%string with (String "." (digits k b ++ et)). apply lex_frac_dot; [apply digits_digits|exact Nd|]. eapply exponent_stops; eauto.
Qed.
Lemma frac_stops b kf ft x et : frac b kf ft -> exponent x et -> stops (ft ++ et).
Proof. intros F X. destruct F; [eapply exponent_stops; eauto|reflexivity]. Qed.

(** ** Whole numbers *)
Definition sign (neg : bool) : string := if neg then "-"%string else ""%string.
Lemma sgn_sign neg s : sgn neg s = (sign neg ++ s)%string.
Proof. now destruct neg. Qed.

Lemma lex_num_inv l neg ip fp en eds : lex_num l = Some (neg, ip, fp, (en, eds)) ->
  exists ft et, l = (sign neg ++ ip ++ ft ++ et)%string /\ digits_only ip = true /\ ip <> ""%string /\
    frac (Z.of_N (N_of_digits fp)) (String.length fp) ft /\ digits_only fp = true /\ (fp = ""%string <-> ft = ""%string) /\
    exponent (if en then - Z.of_N (N_of_digits eds) else Z.of_N (N_of_digits eds)) et /\ (eds = ""%string <-> et = ""%string).
Proof.
  unfold lex_num. intros H.
  assert (K : forall b s1, (let '(ip, s2) := take_digits s1 in
      if is_empty ip || (match ip with String c (String _ _) => Ascii.eqb c "0" | _ => false end) then None
      else match lex_frac s2 with None => None | Some (fp, s3) => match lex_exp s3 with None => None | Some ex => Some (b : bool, ip, fp, ex) end end)
      = Some (neg, ip, fp, (en, eds)) -> b = neg /\ exists ft et, s1 = (ip ++ ft ++ et)%string /\ digits_only ip = true /\ ip <> ""%string /\
    frac (Z.of_N (N_of_digits fp)) (String.length fp) ft /\ digits_only fp = true /\ (fp = ""%string <-> ft = ""%string) /\
    exponent (if en then - Z.of_N (N_of_digits eds) else Z.of_N (N_of_digits eds)) et /\ (eds = ""%string <-> et = ""%string)).
  { clear H. intros b s1 H. destruct (take_digits s1) as [ip0 s2] eqn:Et. apply take_digits_inv in Et as (-> & Ht & _).
    destruct (is_empty ip0) eqn:Ei; [discriminate|]. cbn [orb] in H. destruct (match ip0 with String c (String _ _) => Ascii.eqb c "0" | _ => false end); [discriminate|].
    destruct (lex_frac s2) as [[fp0 s3]|] eqn:Ef; [|discriminate]. destruct (lex_exp s3) as [[en0 eds0]|] eqn:Ee; [|discriminate].
    assert (Q : (b, ip0, fp0, (en0, eds0)) = (neg, ip, fp, (en, eds))) by congruence.
    assert (b = neg) by congruence. assert (ip0 = ip) by congruence. assert (fp0 = fp) by congruence. assert (en0 = en) by congruence. assert (eds0 = eds) by congruence.
    subst. clear Q H. split; [reflexivity|]. apply lex_exp_inv in Ee as [E1 E2]. apply lex_frac_inv in Ef as (ft & -> & F1 & F2 & F3).
    exists ft, s3. repeat split; try tauto. intros ->. discriminate Ei. }
  destruct l as [|c s1].
  - apply K in H as (_ & ft & et & Q & _ & Ni & _). destruct ip; [congruence|discriminate].
  - destruct (Ascii.eqb_spec c "-") as [->|N].
    + apply K in H as (<- & ft & et & -> & R). exists ft, et. split; [reflexivity|exact R].
    + apply K in H as (<- & ft & et & Q & R). exists ft, et. split; [exact Q|exact R].
Qed.

Lemma lex_num_of neg ip b kf ft x et : num_ok (sign neg ++ ip ++ ft ++ et)%string = true -> digits_only ip = true -> ip <> ""%string -> frac b kf ft -> exponent x et ->
  exists fp en eds, lex_num (sign neg ++ ip ++ ft ++ et)%string = Some (neg, ip, fp, (en, eds)) /\
    Z.of_N (N_of_digits fp) = b /\ String.length fp = kf /\ digits_only fp = true /\ (fp = ""%string <-> ft = ""%string) /\
    x = (if en then - Z.of_N (N_of_digits eds) else Z.of_N (N_of_digits eds)) /\ (eds = ""%string <-> et = ""%string).
Proof.
  intros O D Ni F X. assert (S := frac_stops _ _ _ _ _ F X).
  destruct (lex_frac_of _ _ _ _ _ F X) as (fp & F1 & F2 & F3 & F4 & F5). destruct (lex_exp_of _ _ X) as (en & eds & X1 & X2 & X3).
  assert (I : int_ok ip = true).
  { unfold int_ok. rewrite D, andb_true_r. apply negb_true_iff. destruct ip as [|c ip]; [congruence|]. cbn [is_empty orb].
    destruct ip as [|c' ip]; [reflexivity|]. destruct (Ascii.eqb_spec c "0") as [->|]; [exfalso|reflexivity].
    unfold num_ok, lex_num in O. cbn [digits_only] in D.
    destruct neg; cbn [sign String.append] in O; cbn [Ascii.eqb Bool.eqb] in O;
    change (String "0" (String c' (ip ++ ft ++ et))) with (String "0" (String c' ip) ++ (ft ++ et))%string in O;
    rewrite take_digits_app in O by (exact D || exact S); cbn in O; discriminate. }
  exists fp, en, eds. rewrite <- sgn_sign, lex_num_sgn by assumption. rewrite F1, X1. split; [reflexivity|]. repeat (split; [assumption|]). assumption.
Qed.

(** ** Integers *)
Lemma parse_int_exact l z : num_ok l = true -> (parse_int l = Some z <-> int_text l z /\ -9223372036854775808 <= z <= 9223372036854775807).
Proof.
  intros O. unfold parse_int. split.
  - destruct (lex_num l) as [[[[neg ip] fp] [en eds]]|] eqn:L; [|discriminate]. destruct fp; [|discriminate]. destruct eds; [|discriminate]. cbv zeta.
    intros H. set (z' := if neg then _ else _) in H. destruct (int64_ok z') eqn:R; [|discriminate].
    assert (Q := f_equal (fun o => match o with Some x => x | None => 0 end) H). cbn in Q. subst z. unfold int64_ok in R. apply andb_true_iff in R as [R1 R2]. apply Z.leb_le in R1, R2.
    split; [|lia]. clear H R1 R2. apply lex_num_inv in L as (ft & et & -> & D & Ni & _ & _ & F & _ & X).
    destruct F as [F _]. destruct X as [X _]. rewrite F, X by reflexivity. cbn [String.append]. rewrite sapp_nil_r.
    destruct (digits_of' _ D Ni) as (k & n & H1 & H2 & H3 & H4 & _). subst z'. rewrite H4, H3. destruct neg; cbn [sign]; [now constructor|cbn [String.append]; now constructor].
  - intros [H R]. assert (G : exists neg k n, (0 < k)%nat /\ 0 <= n < 10 ^ Z.of_nat k /\ l = (sign neg ++ digits k n ++ "" ++ "")%string /\ z = if neg then - n else n).
    { destruct H as [k n H1 H2|k n H1 H2]; [exists false, k, n|exists true, k, n]; cbn [String.append]; rewrite sapp_nil_r; repeat split; try assumption; apply H2. }
    destruct G as (neg & k & n & H1 & H2 & -> & ->).
    destruct (lex_num_of neg (digits k n) 0 0 "" 0 "" O (digits_digits _ _) (digits_ne _ _ H1) fr_none ex_none) as (fp & en & eds & L & _ & _ & _ & F & _ & X).
    rewrite L. destruct F as [_ F]. rewrite (F eq_refl). destruct X as [_ X]. rewrite (X eq_refl). cbv zeta. rewrite digits_value by exact H2.
    unfold int64_ok. destruct R as [R1 R2]. apply Z.leb_le in R1, R2. now rewrite R1, R2.
Qed.

(** ** Floats *)
Lemma strip10_spec f : forall m e, (m < 10 ^ N.of_nat f)%N -> exists i, let '(m', e') := strip10 (S f) m e in
  lowest m' e' /\ m = (m' * 10 ^ N.of_nat i)%N /\ (m' <> 0%N -> e' = e + Z.of_nat i).
Proof.
  induction f as [|f IH]; intros m e H.
  - change (10 ^ N.of_nat 0)%N with 1%N in H. assert (m = 0%N) by lia. subst. exists 0%nat. cbn. split; [left; auto|]. split; [reflexivity|congruence].
  - cbn [strip10]. destruct (N.eqb_spec m 0) as [->|N0]; [exists 0%nat; split; [left; auto|]; split; [reflexivity|congruence]|].
    destruct (N.eqb_spec (m mod 10) 0) as [E|E].
    + destruct (IH (m / 10)%N (e + 1)) as (i & X).
      { apply N.div_lt_upper_bound; [lia|]. rewrite Nat2N.inj_succ, N.pow_succ_r' in H. exact H. }
      cbn [strip10] in X. destruct (if (m / 10 =? 0)%N then _ else _) as [m' e']. destruct X as (X1 & X2 & X3).
      exists (S i). split; [exact X1|]. split.
      * rewrite Nat2N.inj_succ, N.pow_succ_r'. assert (D := N.div_mod m 10 ltac:(discriminate)). rewrite E, X2 in D. lia.
      * intros Nm. rewrite (X3 Nm). lia.
    + exists 0%nat. split; [now right|]. split; [change (10 ^ N.of_nat 0)%N with 1%N; lia|intros _; lia].
Qed.
Lemma norm10_spec m e m' e' : norm10 m e = (m', e') -> lowest m' e' /\ exists i, m = (m' * 10 ^ N.of_nat i)%N /\ (m' <> 0%N -> e' = e + Z.of_nat i).
Proof.
  unfold norm10. intros H. destruct (strip10_spec (N.to_nat (N.size m)) m e) as (i & X).
  - rewrite N2Nat.id. eapply N.lt_le_trans; [apply N.size_gt|]. apply N.pow_le_mono_l. lia.
  - rewrite H in X. destruct X as (X1 & X2 & X3). split; [exact X1|]. eauto.
Qed.
Lemma lowest_inj m i m' i' : (m mod 10 <> 0)%N -> (m' mod 10 <> 0)%N -> (m * 10 ^ N.of_nat i = m' * 10 ^ N.of_nat i')%N -> m = m' /\ i = i'.
Proof.
  revert i'. induction i as [|i IH]; intros [|i'] H H' E.
  - split; [|reflexivity]. change (10 ^ N.of_nat 0)%N with 1%N in E. lia.
  - exfalso. apply H. rewrite Nat2N.inj_succ, N.pow_succ_r' in E. change (10 ^ N.of_nat 0)%N with 1%N in E. rewrite N.mul_1_r in E. rewrite E.
    replace (m' * (10 * 10 ^ N.of_nat i'))%N with (m' * 10 ^ N.of_nat i' * 10)%N by lia. apply N.mod_mul. discriminate.
  - exfalso. apply H'. rewrite Nat2N.inj_succ, N.pow_succ_r' in E. change (10 ^ N.of_nat 0)%N with 1%N in E. rewrite N.mul_1_r in E. rewrite <- E.
    replace (m * (10 * 10 ^ N.of_nat i))%N with (m * 10 ^ N.of_nat i * 10)%N by lia. apply N.mod_mul. discriminate.
  - rewrite !Nat2N.inj_succ, !N.pow_succ_r' in E. destruct (IH i' H H') as [-> ->]; [lia|]. split; reflexivity.
Qed.

Lemma digits_cat a b : digits_only a = true -> digits_only b = true ->
  Z.of_N (N_of_digits (a ++ b)) = Z.of_N (N_of_digits a) * 10 ^ Z.of_nat (String.length b) + Z.of_N (N_of_digits b).
Proof.
  intros A B. unfold N_of_digits. rewrite N_of_digits_acc_app. destruct (digits_of b B) as (n & H1 & H2 & H3).
  rewrite H2 at 1. rewrite digits_val by exact H1. unfold N_of_digits in H3. now rewrite H3.
Qed.

Lemma dec_exact l neg m e : num_ok l = true -> (dec_of_lexeme l = Some (neg, m, e) <-> number_text l neg m e).
Proof.
  intros O. unfold dec_of_lexeme. split.
  - destruct (lex_num l) as [[[[neg0 ip] fp] [en eds]]|] eqn:L; [|discriminate]. cbv zeta.
    apply lex_num_inv in L as (ft & et & -> & D & Ni & F1 & F2 & F3 & X1 & X2).
    destruct (norm10 _ _) as [m0 e0] eqn:Nm. intros Q. assert (neg0 = neg) by congruence. assert (m0 = m) by congruence. assert (e0 = e) by congruence. subst. clear Q.
    apply norm10_spec in Nm as (Lo & i & E1 & E2).
    destruct (digits_of' _ D Ni) as (k & a & H1 & H2 & H3 & H4 & _).
    rewrite H3. change (sign neg) with (if neg then "-" else "")%string. eapply nt with (i := i); [exact H1|exact H2|exact F1|exact X1|exact Lo| |].
    + rewrite <- H4. rewrite <- digits_cat by assumption. rewrite E1. rewrite N2Z.inj_mul, N2Z.inj_pow. now rewrite nat_N_Z.
    + intros Nz. rewrite (E2 Nz). reflexivity.
  - intros H. destruct H as [neg k a b kf ft x et m e i Hk Ha F X Lo E1 E2].
    destruct (lex_num_of neg (digits k a) b kf ft x et O (digits_digits _ _) (digits_ne _ _ Hk) F X) as (fp & en & eds & L & F1 & F2 & F3 & F4 & X1 & X2).
    change (if neg then "-"%string else ""%string) with (sign neg). rewrite L. cbv zeta.
    destruct (norm10 _ _) as [m0 e0] eqn:Nm. apply norm10_spec in Nm as (Lo0 & i0 & N1 & N2).
    rewrite <- X1, F2 in N2.
    assert (C := digits_cat _ _ (digits_digits k a) F3). rewrite digits_value, F1, F2, E1, N1 in C by exact Ha.
    assert (P : (m0 * 10 ^ N.of_nat i0 = m * 10 ^ N.of_nat i)%N).
    { apply N2Z.inj. rewrite C. rewrite N2Z.inj_mul, N2Z.inj_pow. now rewrite nat_N_Z. }
    clear C N1 L.
    assert (Pi : (0 < 10 ^ N.of_nat i)%N) by (assert (10 ^ N.of_nat i <> 0)%N by (apply N.pow_nonzero; discriminate); lia).
    assert (Pi0 : (0 < 10 ^ N.of_nat i0)%N) by (assert (10 ^ N.of_nat i0 <> 0)%N by (apply N.pow_nonzero; discriminate); lia).
    destruct Lo as [[-> ->]|Lo].
    + assert (m0 = 0%N) by nia. subst. destruct Lo0 as [[_ ->]|Lo0]; [reflexivity|]. exfalso. now apply Lo0.
    + assert (m <> 0%N) by (intros ->; now apply Lo). destruct Lo0 as [[-> ->]|Lo0]; [exfalso; nia|].
      assert (m0 <> 0%N) by (intros ->; now apply Lo0). destruct (lowest_inj _ _ _ _ Lo0 Lo P) as [-> ->]. rewrite N2, E2 by assumption. reflexivity.
Qed.

Lemma parse_float_exact rnd l f : num_ok l = true -> (parse_float rnd l = Some f <-> exists neg m e, number_text l neg m e /\ rnd neg m e = Some f).
Proof.
  intros O. unfold parse_float. split.
  - destruct (dec_of_lexeme l) as [[[neg m] e]|] eqn:D; [|discriminate]. intros R. exists neg, m, e. split; [now apply dec_exact|exact R].
  - intros (neg & m & e & H & R). apply (dec_exact _ _ _ _ O) in H. now rewrite H.
Qed.
