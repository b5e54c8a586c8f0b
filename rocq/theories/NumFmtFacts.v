(** Number formatting of the canonicalizer agrees with ECMAScript. *)
From Verif Require Import GoStr GoStrFacts JsonStr JsonStrFacts Json JsonFacts Float FloatFacts NumFmt CanonSpec.
From Coq Require Import Lia.
Local Open Scope Z_scope.

Lemma digits_bounds s : digits_only s = true -> forall acc,
  (acc * 10 ^ N.of_nat (String.length s) <= N_of_digits_acc s acc < (acc + 1) * 10 ^ N.of_nat (String.length s))%N.
Proof.
  induction s as [|c s IH]; intros D acc; cbn [N_of_digits_acc String.length].
  - cbn. lia.
  - cbn [digits_only] in D. apply andb_true_iff in D as [D1 D2]. specialize (IH D2 (acc * 10 + dval c)%N).
    rewrite Nat2N.inj_succ, N.pow_succ_r by lia.
    assert (V : (dval c <= 9)%N) by (unfold is_digit in D1; unfold dval; apply andb_true_iff in D1 as [_ X]; apply N.leb_le in X; lia).
    set (p := (10 ^ N.of_nat (String.length s))%N) in *. nia.
Qed.
Lemma digits_magnitude m : m <> 0%N -> exists k, String.length (N_to_string m) = S k /\ (10 ^ N.of_nat k <= m < 10 ^ N.of_nat (S k))%N.
Proof.
  intros H. destruct (N_to_string_spec m) as (D1 & _ & _ & _ & D5). destruct (D5 H) as (c & r & E & Nc).
  assert (V := N_of_to m). rewrite E in *. exists (String.length r). split; [reflexivity|].
  cbn [digits_only] in D1. apply andb_true_iff in D1 as [Dc Dr].
  unfold N_of_digits in V. cbn [N_of_digits_acc] in V. assert (B := digits_bounds r Dr (0 * 10 + dval c)%N). rewrite V in B.
  assert (1 <= dval c <= 9)%N.
  { unfold is_digit in Dc. apply andb_true_iff in Dc as [X Y]. apply N.leb_le in X, Y. unfold dval. split; [|lia].
    assert (bt c <> 48%N); [|lia]. intros Q. assert (c = "0"%char) as ->; [|discriminate Nc].
    unfold bt in Q. rewrite <- (ascii_N_embedding c), Q. reflexivity. }
  rewrite Nat2N.inj_succ, N.pow_succ_r by lia. set (p := (10 ^ N.of_nat (String.length r))%N) in *. nia.
Qed.

(** Comparison with a power of ten. *)
Lemma dec_ltb_pow m e x : m <> 0%N -> dec_ltb m e 1 x = (Z.of_nat (String.length (N_to_string m)) + e <=? x).
Proof.
  intros H. destruct (digits_magnitude m H) as (k & -> & B1 & B2). unfold dec_ltb.
  assert (B1' : 10 ^ Z.of_nat k <= Z.of_N m).
  { replace (10 ^ Z.of_nat k) with (Z.of_N (10 ^ N.of_nat k)) by (rewrite N2Z.inj_pow, nat_N_Z; reflexivity). lia. }
  assert (B2' : Z.of_N m < 10 ^ Z.of_nat (S k)).
  { replace (10 ^ Z.of_nat (S k)) with (Z.of_N (10 ^ N.of_nat (S k))) by (rewrite N2Z.inj_pow, nat_N_Z; reflexivity). lia. }
  clear B1 B2. change (Z.of_N 1) with 1. rewrite Z.mul_1_l. destruct (Z_le_gt_dec e x) as [L|G].
  - rewrite Z.min_l by lia. rewrite Z.sub_diag, Z.pow_0_r, Z.mul_1_r.
    destruct (Z.leb_spec (Z.of_nat (S k) + e) x) as [Q|Q].
    + apply Z.ltb_lt. assert (10 ^ Z.of_nat (S k) <= 10 ^ (x - e)) by (apply Z.pow_le_mono_r; lia). lia.
    + apply Z.ltb_ge. assert (10 ^ (x - e) <= 10 ^ Z.of_nat k) by (apply Z.pow_le_mono_r; lia). lia.
  - rewrite Z.min_r by lia. rewrite Z.sub_diag, Z.pow_0_r.
    assert (0 < 10 ^ (e - x)) by (apply Z.pow_pos_nonneg; lia).
    assert (0 < 10 ^ Z.of_nat k) by (apply Z.pow_pos_nonneg; lia).
    destruct (Z.leb_spec (Z.of_nat (S k) + e) x); [lia|]. apply Z.ltb_ge. nia.
Qed.

(** * The exponent cleanup *)
Definition no_e (s : string) : bool := forallb (fun c => negb (Ascii.eqb c "e")) (list_ascii_of_string s).
Lemma no_e_app a b : no_e (a ++ b) = no_e a && no_e b.
Proof. unfold no_e. induction a as [|c a IH]; cbn; [reflexivity|]. now rewrite IH, andb_assoc. Qed.
Lemma digits_no_e s : digits_only s = true -> no_e s = true.
Proof.
  induction s as [|c s IH]; [reflexivity|]. cbn [digits_only]. intros H. apply andb_true_iff in H as [H1 H2].
  unfold no_e. cbn [list_ascii_of_string forallb]. fold (no_e s). rewrite (IH H2), andb_true_r. destruct (Ascii.eqb_spec c "e") as [->|]; [discriminate H1|reflexivity].
Qed.
Lemma cut_no_e s : no_e s = true -> cut_e s = None.
Proof.
  induction s as [|c s IH]; [reflexivity|]. unfold no_e. cbn [list_ascii_of_string forallb]. fold (no_e s). intros H. apply andb_true_iff in H as [H1 H2].
  cbn [cut_e]. apply negb_true_iff in H1. rewrite H1. now rewrite (IH H2).
Qed.
Lemma cut_at_e a b : no_e a = true -> cut_e (a ++ String "e" b) = Some (a, b).
Proof.
  induction a as [|c s IH]; [reflexivity|]. unfold no_e. cbn [list_ascii_of_string forallb append]. fold (no_e s). intros H. apply andb_true_iff in H as [H1 H2].
  cbn [cut_e]. apply negb_true_iff in H1. rewrite H1. now rewrite (IH H2).
Qed.

Lemma split_digits n s a b : digits_only s = true -> split_at n s = (a, b) -> digits_only a = true /\ digits_only b = true.
Proof.
  revert s a b. induction n as [|n IH]; intros s a b D E.
  - cbn in E. destruct s; injection E as <- <-; auto.
  - destruct s as [|c s]; [injection E as <- <-; auto|]. cbn [split_at] in E. destruct (split_at n s) as [x y] eqn:X. injection E as <- <-.
    cbn [digits_only] in D. apply andb_true_iff in D as [D1 D2]. destruct (IH _ _ _ D2 X). cbn [digits_only]. now rewrite D1.
Qed.
Lemma format_f_no_e m e : no_e (format_f m e) = true.
Proof.
  unfold format_f. destruct (N_to_string_spec m) as (D & _). destruct (_ <=? 0).
  - rewrite !no_e_app, (digits_no_e _ D), (digits_no_e _ (digits_only_zeros _)). reflexivity.
  - destruct (_ <=? _).
    + rewrite no_e_app, (digits_no_e _ D), (digits_no_e _ (digits_only_zeros _)). reflexivity.
    + destruct (split_at _ _) as [a b] eqn:E. destruct (split_digits _ _ _ _ D E). rewrite !no_e_app, (digits_no_e a), (digits_no_e b) by assumption. reflexivity.
Qed.

Lemma sapp_assoc3 (a b c : string) : ((a ++ b) ++ c)%string = (a ++ b ++ c)%string.
Proof. induction a as [|x a IH]; cbn; [reflexivity|now rewrite IH]. Qed.

Lemma small_digit x : (x < 10)%N -> exists c, N_to_string x = String c "" .
Proof.
  intros H. destruct (N.eq_dec x 0) as [->|N]; [eexists; reflexivity|].
  destruct (digits_magnitude x N) as (k & E & B1 & B2). destruct k as [|k].
  - destruct (N_to_string x) as [|c [|]]; try discriminate. eauto.
  - exfalso. rewrite Nat2N.inj_succ, N.pow_succ_r in B1 by lia. assert (10 ^ N.of_nat k <> 0)%N by (apply N.pow_nonzero; lia). lia.
Qed.

Theorem number_to_json_es6 : forall neg m e, number_to_json (FFin neg m e) = Some (es6 neg m e, true).
Proof.
  intros neg m e. unfold number_to_json, es6. destruct (N.eqb_spec m 0) as [->|H]; [reflexivity|].
  rewrite !dec_ltb_pow by assumption. destruct (N_to_string_spec m) as (D & _ & _ & _ & D5).
  destruct (digits_magnitude m H) as (k0 & Lk & _). unfold format_f, format_e, es6_digits.
  set (d := N_to_string m) in *. set (k := Z.of_nat (String.length d)). assert (1 <= k) by (unfold k; rewrite Lk; lia).
  set (n := k + e).
  assert (G : forall t, clean_exponent (if (n <=? 21) && negb (n <=? -6)
      then if n <=? 0 then ("0." ++ zeros (Z.to_nat (- n)) ++ d)%string else if k <=? n then (d ++ zeros (Z.to_nat (n - k)))%string
           else let '(a, b) := split_at (Z.to_nat n) d in (a ++ "." ++ b)%string
      else let '(a, b) := split_at 1 d in
        (a ++ (if is_empty b then "" else "." ++ b) ++ "e" ++ (if (n - 1 <? 0)%Z then "-" else "+") ++
         (if (Z.abs (n - 1) <? 10)%Z then "0" ++ N_to_string (Z.to_N (Z.abs (n - 1))) else N_to_string (Z.to_N (Z.abs (n - 1)))))%string) = Some t <->
     t = es6_digits d n).
  2: { fold n in G. specialize (G (es6_digits d n)). unfold es6_digits in G. fold k in G. destruct G as [_ G]. rewrite (G eq_refl). reflexivity. }
  intros t. unfold es6_digits. fold k.
  destruct ((n <=? 21) && negb (n <=? -6)) eqn:F.
  - apply andb_true_iff in F as [F1 F2]. apply negb_true_iff in F2. apply Z.leb_le in F1. apply Z.leb_gt in F2.
    unfold clean_exponent. rewrite cut_no_e.
    2: { assert (X := format_f_no_e m e). exact X. }
    rewrite (proj2 (Z.leb_le n 21) F1), !andb_true_r.
    destruct (Z.leb_spec n 0) as [L|L].
    + destruct (Z.leb_spec k n); [lia|]. destruct (Z.ltb_spec 0 n); [lia|]. destruct (Z.ltb_spec (-6) n); [|lia]. cbn [andb]. split; congruence.
    + destruct (Z.leb_spec k n); [split; congruence|]. destruct (Z.ltb_spec 0 n); [|lia]. split; congruence.
  - assert (Q : n <= -6 \/ 21 < n).
    { apply andb_false_iff in F as [F|F]; [right; now apply Z.leb_gt|left; apply negb_false_iff in F; now apply Z.leb_le]. }
    replace ((k <=? n) && (n <=? 21)) with false by (symmetry; apply andb_false_iff; destruct Q; [left; apply Z.leb_gt; lia|right; apply Z.leb_gt; lia]).
    replace ((0 <? n) && (n <=? 21)) with false by (symmetry; apply andb_false_iff; destruct Q; [left; apply Z.ltb_ge; lia|right; apply Z.leb_gt; lia]).
    replace ((-6 <? n) && (n <=? 0)) with false by (symmetry; apply andb_false_iff; destruct Q; [left; apply Z.ltb_ge; lia|right; apply Z.leb_gt; lia]).
    destruct (D5 H) as (c & r & Ed & _).
    assert (Es : split_at 1 d = (String c "", r)) by (rewrite Ed; cbn; destruct r; reflexivity). rewrite Es.
    set (x := Z.to_N (Z.abs (n - 1))). set (sg := (if (n - 1 <? 0)%Z then "-" else "+")%string).
    assert (Sg : exists g, sg = String g "") by (unfold sg; destruct (n - 1 <? 0); eauto). destruct Sg as (g & Sg).
    assert (Dr : digits_only (String c "") = true /\ digits_only r = true).
    { rewrite Ed in D. cbn [digits_only] in *. apply andb_true_iff in D as [-> ->]. auto. } destruct Dr as [Dc Dr].
    set (mant := (String c "" ++ (if is_empty r then "" else "." ++ r))%string).
    assert (NM : no_e mant = true).
    { unfold mant. rewrite no_e_app, (digits_no_e _ Dc). destruct (is_empty r); [reflexivity|]. now rewrite no_e_app, (digits_no_e _ Dr). }
    assert (NE : exists z y, mant = String z y) by (unfold mant; cbn; eauto). destruct NE as (z & y & NE).
    replace (if k =? 1 then (d ++ "e" ++ sg ++ N_to_string x)%string else (String c "" ++ "." ++ r ++ "e" ++ sg ++ N_to_string x)%string)
      with (mant ++ String "e" (String g (N_to_string x)))%string.
    2: { rewrite Sg. unfold k. rewrite Ed. unfold mant. destruct r as [|c1 r]; [reflexivity|]. cbn [String.length is_empty String.eqb].
         destruct (Z.eqb_spec (Z.of_nat (S (S (String.length r)))) 1); [lia|]. cbn [append]. rewrite ?sapp_assoc3. reflexivity. }
    assert (W : forall tl, (String c "" ++ (if is_empty r then "" else "." ++ r) ++ "e" ++ sg ++ tl)%string = (mant ++ String "e" (String g tl))%string).
    { intros tl. unfold mant. rewrite Sg, sapp_assoc3. reflexivity. }
    rewrite W. unfold clean_exponent. rewrite cut_at_e by assumption. rewrite NE, <- NE.
    destruct (Z.ltb_spec (Z.abs (n - 1)) 10) as [Sm|Bg].
    + cbn [append Ascii.eqb]. split; [intros X; injection X as <-|intros ->]; reflexivity.
    + assert (Xn : x <> 0%N) by (unfold x; lia). destruct (N_to_string_spec x) as (_ & _ & _ & _ & X5). destruct (X5 Xn) as (c' & r' & Ex & Nc').
      rewrite Ex, Nc'. split; congruence.
Qed.

(** The text is that of encoding/json, except for the sign of zero. *)
Lemma es6_fmt neg m e : m <> 0%N -> es6 neg m e = sgn neg (fmt_abs m e).
Proof.
  intros H. unfold es6, fmt_abs. destruct (N.eqb_spec m 0); [contradiction|]. clear n.
  destruct (N_to_string_spec m) as (D & _ & _ & _ & D5). destruct (D5 H) as (c & r & Ed & _).
  set (d := N_to_string m) in *. set (n := Z.of_nat (String.length d) + e).
  assert (1 <= Z.of_nat (String.length d)) by (rewrite Ed; cbn [String.length]; lia).
  assert (G : es6_digits d n = (if (n <? -5) || (21 <? n) then let '(a, b) := split_at 1 d in
    (a ++ (if is_empty b then "" else "." ++ b) ++ "e" ++ (if (n - 1 <? 0)%Z then "-" else "+") ++ N_to_string (Z.to_N (Z.abs (n - 1))))%string
    else if n <=? 0 then ("0." ++ zeros (Z.to_nat (- n)) ++ d)%string
    else if Z.of_nat (String.length d) <=? n then (d ++ zeros (Z.to_nat (n - Z.of_nat (String.length d))))%string
    else let '(a, b) := split_at (Z.to_nat n) d in (a ++ "." ++ b)%string)).
  2: { rewrite G. now destruct neg. }
  unfold es6_digits. destruct ((n <? -5) || (21 <? n)) eqn:F.
  - assert (Q : n <= -6 \/ 21 < n) by (apply orb_true_iff in F as [F|F]; apply Z.ltb_lt in F; lia).
    replace ((Z.of_nat (String.length d) <=? n) && (n <=? 21)) with false by (symmetry; apply andb_false_iff; destruct Q; [left; apply Z.leb_gt; lia|right; apply Z.leb_gt; lia]).
    replace ((0 <? n) && (n <=? 21)) with false by (symmetry; apply andb_false_iff; destruct Q; [left; apply Z.ltb_ge; lia|right; apply Z.leb_gt; lia]).
    replace ((-6 <? n) && (n <=? 0)) with false by (symmetry; apply andb_false_iff; destruct Q; [left; apply Z.ltb_ge; lia|right; apply Z.leb_gt; lia]).
    rewrite Ed. replace (split_at 1 (String c r)) with (String c "", r) by (cbn; destruct r; reflexivity).
    destruct r as [|c1 r]; [reflexivity|]. cbn [String.length is_empty String.eqb].
    destruct (Z.eqb_spec (Z.of_nat (S (S (String.length r)))) 1); [lia|]. cbn [append]. rewrite ?sapp_assoc3. reflexivity.
  - apply orb_false_iff in F as [F1 F2]. apply Z.ltb_ge in F1, F2.
    rewrite (proj2 (Z.leb_le n 21)) by lia. rewrite !andb_true_r.
    destruct (Z.leb_spec n 0) as [L|L].
    + destruct (Z.leb_spec (Z.of_nat (String.length d)) n); [lia|]. destruct (Z.ltb_spec 0 n); [lia|]. destruct (Z.ltb_spec (-6) n); [|lia]. reflexivity.
    + destruct (Z.leb_spec (Z.of_nat (String.length d)) n); [reflexivity|]. destruct (Z.ltb_spec 0 n); [|lia]. reflexivity.
Qed.
