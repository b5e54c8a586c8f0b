(** Base64.v against B64Spec.v. *)
From Verif Require Import GoStr GoStrFacts IdentFacts Base64 Base64Facts B64Spec.

Lemma odd_mod2 n m : (n mod 2 = m mod 2)%N -> N.odd n = N.odd m.
Proof. rewrite <- !N.bit0_mod, !N.bit0_odd. destruct (N.odd n), (N.odd m); cbn; congruence. Qed.
Lemma bits_len k : forall n, length (bits k n) = k.
Proof. induction k as [|k IH]; intros n; [reflexivity|]. cbn [bits]. rewrite app_length, IH. cbn. lia. Qed.
Lemma bits_app a b : forall x y, (y < 2 ^ N.of_nat b)%N -> bits (a + b) (x * 2 ^ N.of_nat b + y) = bits a x ++ bits b y.
Proof.
  induction b as [|b IH]; intros x y H.
  - cbn [N.of_nat] in *. change (2 ^ 0)%N with 1%N in *. replace y with 0%N by lia. rewrite Nat.add_0_r, app_nil_r. f_equal. lia.
  - rewrite Nat.add_succ_r. cbn [bits]. rewrite Nat2N.inj_succ, N.pow_succ_r' in *. rewrite app_assoc. f_equal.
    + replace (x * (2 * 2 ^ N.of_nat b) + y)%N with (x * 2 ^ N.of_nat b * 2 + y)%N by lia. rewrite N.div_add_l by lia.
      apply IH. apply N.div_lt_upper_bound; lia.
    + f_equal. apply odd_mod2. replace (x * (2 * 2 ^ N.of_nat b) + y)%N with (y + x * 2 ^ N.of_nat b * 2)%N by lia.
      now rewrite N.mod_add by lia.
Qed.
Lemma bits_split a b n : bits (a + b) n = bits a (n / 2 ^ N.of_nat b) ++ bits b (n mod 2 ^ N.of_nat b).
Proof.
  assert (P : (2 ^ N.of_nat b <> 0)%N) by (apply N.pow_nonzero; lia).
  rewrite <- bits_app by (apply N.mod_lt; exact P). f_equal. rewrite (N.div_mod n (2 ^ N.of_nat b) P) at 1. lia.
Qed.
Lemma bits_inj k : forall n m, (n < 2 ^ N.of_nat k)%N -> (m < 2 ^ N.of_nat k)%N -> bits k n = bits k m -> n = m.
Proof.
  induction k as [|k IH]; intros n m Hn Hm E.
  - cbn in Hn, Hm. lia.
  - cbn [bits] in E. rewrite Nat2N.inj_succ, N.pow_succ_r' in *. apply app_inj_tail in E as [E1 E2].
    apply IH in E1; [|apply N.div_lt_upper_bound; lia|apply N.div_lt_upper_bound; lia].
    assert (D := N.div_mod n 2 ltac:(lia)). assert (D' := N.div_mod m 2 ltac:(lia)).
    assert (M : (n mod 2 = m mod 2)%N) by (rewrite <- !N.bit0_mod, !N.bit0_odd, E2; reflexivity). lia.
Qed.
Lemma byte_bits_inj b : forall b' x x', length x = length x' -> byte_bits b ++ x = byte_bits b' ++ x' -> b = b'.
Proof.
  assert (L : forall b, length (byte_bits b) = (8 * String.length b)%nat).
  { clear. induction b as [|c b IH]; [reflexivity|]. unfold byte_bits in *. cbn [list_ascii_of_string flat_map String.length]. rewrite app_length, bits_len, IH. lia. }
  induction b as [|c b IH]; intros b' x x' Lx E; destruct b' as [|c' b'].
  - reflexivity.
  - apply (f_equal (@length _)) in E. rewrite !app_length, !L in E. cbn [String.length] in E. lia.
  - apply (f_equal (@length _)) in E. rewrite !app_length, !L in E. cbn [String.length] in E. lia.
  - unfold byte_bits in E. cbn [list_ascii_of_string flat_map] in E. rewrite <- !app_assoc in E.
    assert (Q : bits 8 (N_of_ascii c) = bits 8 (N_of_ascii c') /\ byte_bits b ++ x = byte_bits b' ++ x').
    { assert (F := f_equal (firstn 8) E). assert (S := f_equal (skipn 8) E).
      rewrite !firstn_app, !firstn_all2, !bits_len, !Nat.sub_diag in F by (rewrite bits_len; lia). cbn [firstn] in F. rewrite !app_nil_r in F.
      rewrite !skipn_app, !skipn_all2, !bits_len, !Nat.sub_diag in S by (rewrite bits_len; lia). cbn [skipn app] in S. now split. }
    destruct Q as [Q1 Q2]. apply bits_inj in Q1; [|exact (N_ascii_bounded c)|exact (N_ascii_bounded c')].
    f_equal; [|now apply (IH b' x x')]. rewrite <- (ascii_N_embedding c), <- (ascii_N_embedding c'). now f_equal.
Qed.

Lemma sextet_char n : (n < 64)%N -> sextet (b64_char n) (bits 6 n).
Proof.
  intros H. assert (X : forallb (fun i => match nth_error table i with Some c => Ascii.eqb c (b64_char (N.of_nat i)) | None => false end) (seq 0 64) = true) by (vm_compute; reflexivity).
  rewrite forallb_forall in X. specialize (X (N.to_nat n) ltac:(apply in_seq; lia)).
  destruct (nth_error table (N.to_nat n)) as [c|] eqn:E; [|discriminate]. apply Ascii.eqb_eq in X. rewrite N2Nat.id in X. subst c.
  replace (bits 6 n) with (bits 6 (N.of_nat (N.to_nat n))) by now rewrite N2Nat.id. now constructor.
Qed.
(** The decoder's table is the inverse. *)
Lemma b64_val_spec c n : b64_val c = Some n <-> (n < 64)%N /\ c = b64_char n.
Proof.
  split.
  - intros H.
    assert (X : forallb (fun i => match b64_val (ascii_of_nat i) with Some n => (n <? 64)%N && Ascii.eqb (ascii_of_nat i) (b64_char n) | None => true end) (seq 0 256) = true) by (vm_compute; reflexivity).
    rewrite forallb_forall in X. specialize (X (nat_of_ascii c) ltac:(apply in_seq; split; [lia|apply nat_ascii_bounded])).
    rewrite ascii_nat_embedding, H in X. apply andb_true_iff in X as [X1 X2]. split; [now apply N.ltb_lt|now apply Ascii.eqb_eq].
  - intros [H ->]. exact (proj1 (b64_char_props n H)).
Qed.
Lemma b64_val_sextet c ss : sextet c ss -> exists n, b64_val c = Some n /\ (n < 64)%N /\ ss = bits 6 n.
Proof.
  intros [i c' E]. assert (L : (i < 64)%nat) by (change 64%nat with (length table); apply nth_error_Some; congruence).
  exists (N.of_nat i). split; [|split; [lia|reflexivity]]. apply b64_val_spec. split; [lia|].
  assert (X : forallb (fun i => match nth_error table i with Some c => Ascii.eqb c (b64_char (N.of_nat i)) | None => false end) (seq 0 64) = true) by (vm_compute; reflexivity).
  rewrite forallb_forall in X. specialize (X i ltac:(apply in_seq; lia)). rewrite E in X. now apply Ascii.eqb_eq in X.
Qed.
Lemma val_sextet c n : b64_val c = Some n -> sextet c (bits 6 n).
Proof. intros H. apply b64_val_spec in H as [H ->]. now apply sextet_char. Qed.

Lemma strip_without t : strip_nl t = without_breaks t.
Proof.
  unfold without_breaks. induction t as [|c t IH]; [reflexivity|]. cbn [strip_nl list_ascii_of_string filter existsb]. unfold is_nl. rewrite orb_false_r.
  destruct (Ascii.eqb c "010" || Ascii.eqb c "013"); cbn [negb]; [exact IH|]. cbn [string_of_list_ascii]. now rewrite IH.
Qed.

(** Two bytes' worth of bits meet in a character. *)
Lemma b8_62 x : bits 8 x = bits 6 (x / 4) ++ bits 2 (x mod 4).
Proof. exact (bits_split 6 2 x). Qed.
Lemma b8_44 x : bits 8 x = bits 4 (x / 16) ++ bits 4 (x mod 16).
Proof. exact (bits_split 4 4 x). Qed.
Lemma b8_26 x : bits 8 x = bits 2 (x / 64) ++ bits 6 (x mod 64).
Proof. exact (bits_split 2 6 x). Qed.
Lemma b6_24 x y : (y < 16)%N -> bits 6 (x * 16 + y) = bits 2 x ++ bits 4 y.
Proof. exact (bits_app 2 4 x y). Qed.
Lemma b6_42 x y : (y < 4)%N -> bits 6 (x * 4 + y) = bits 4 x ++ bits 2 y.
Proof. exact (bits_app 4 2 x y). Qed.
Lemma six_24 n : bits 6 n = bits 2 (n / 16) ++ bits 4 (n mod 16).
Proof. exact (bits_split 2 4 n). Qed.
Lemma six_42 n : bits 6 n = bits 4 (n / 4) ++ bits 2 (n mod 4).
Proof. exact (bits_split 4 2 n). Qed.
Lemma eight_62 x y : (y < 4)%N -> bits 8 (x * 4 + y) = bits 6 x ++ bits 2 y.
Proof. exact (bits_app 6 2 x y). Qed.
Lemma eight_44 x y : (y < 16)%N -> bits 8 (x * 16 + y) = bits 4 x ++ bits 4 y.
Proof. exact (bits_app 4 4 x y). Qed.
Lemma eight_26 x y : (y < 64)%N -> bits 8 (x * 64 + y) = bits 2 x ++ bits 6 y.
Proof. exact (bits_app 2 6 x y). Qed.

Lemma div_lt x k m : (x < k * m)%N -> k <> 0%N -> (x / k < m)%N.
Proof. intros. apply N.div_lt_upper_bound; lia. Qed.

Lemma base64_step c1 c2 c3 c4 s1 s2 s3 s4 x y z b spare t : sextet c1 s1 -> sextet c2 s2 -> sextet c3 s3 -> sextet c4 s4 ->
  s1 ++ s2 ++ s3 ++ s4 = bits 8 (N_of_ascii x) ++ bits 8 (N_of_ascii y) ++ bits 8 (N_of_ascii z) ->
  base64 b spare t -> base64 (String x (String y (String z b))) spare (String c1 (String c2 (String c3 (String c4 t)))).
Proof.
  intros H1 H2 H3 H4 E (cs & ss & p & F & C & Ls & Hp & L & ->). exists (c1 :: c2 :: c3 :: c4 :: cs), (s1 :: s2 :: s3 :: s4 :: ss), p.
  split; [repeat (constructor; [assumption|]); exact F|]. split; [|split; [exact Ls|split; [exact Hp|split; [|reflexivity]]]].
  - cbn [concat]. rewrite C. unfold byte_bits. cbn [list_ascii_of_string flat_map]. rewrite !app_assoc. do 2 f_equal. rewrite <- !app_assoc. exact E.
  - cbn [length]. replace (S (S (S (S (length cs)))) + p)%nat with (length cs + p + 1 * 4)%nat by lia. rewrite Nat.mod_add by lia. exact L.
Qed.

Lemma encode_base64 b : exists spare, base64 b spare (b64_encode b) /\ (forall x, In x spare -> x = false).
Proof.
  induction b as [|a|a b|a b c s IH] using string_ind3.
  - exists []. split; [|intros ? []]. exists [], [], 0%nat. split; [constructor|]. repeat split; cbn; lia.
  - exists (bits 4 0). split; [|cbn; intuition]. cbn [b64_encode].
    assert (Ha := N_ascii_bounded a). set (x := N_of_ascii a) in *.
    exists [b64_char (x / 4); b64_char (x mod 4 * 16)], [bits 6 (x / 4); bits 6 (x mod 4 * 16)], 2%nat.
    split; [repeat constructor; apply sextet_char; [now apply div_lt_64|apply mod4_16]|]. split; [|repeat split; cbn; lia].
    unfold byte_bits. cbn [concat list_ascii_of_string flat_map]. rewrite !app_nil_r. fold x. rewrite b8_62, <- app_assoc. f_equal.
    replace (x mod 4 * 16)%N with (x mod 4 * 16 + 0)%N by lia. rewrite b6_24 by lia. reflexivity.
  - exists (bits 2 0). split; [|cbn; intuition]. cbn [b64_encode].
    assert (Ha := N_ascii_bounded a). assert (Hb := N_ascii_bounded b). set (x := N_of_ascii a) in *. set (y := N_of_ascii b) in *.
    exists [b64_char (x / 4); b64_char (x mod 4 * 16 + y / 16); b64_char (y mod 16 * 4)], [bits 6 (x / 4); bits 6 (x mod 4 * 16 + y / 16); bits 6 (y mod 16 * 4)], 1%nat.
    split; [repeat constructor; apply sextet_char; [now apply div_lt_64|now apply mid1|apply mid2']|]. split; [|repeat split; cbn; lia].
    unfold byte_bits. cbn [concat list_ascii_of_string flat_map]. rewrite !app_nil_r. fold x y. rewrite (b8_62 x), (b8_44 y), <- !app_assoc. f_equal.
    rewrite b6_24 by (apply div_lt; lia). rewrite <- app_assoc. do 2 f_equal.
    replace (y mod 16 * 4)%N with (y mod 16 * 4 + 0)%N by lia. rewrite b6_42 by lia. reflexivity.
  - destruct IH as (spare & IH & Z). exists spare. split; [|exact Z]. cbn [b64_encode].
    assert (Ha := N_ascii_bounded a). assert (Hb := N_ascii_bounded b). assert (Hc := N_ascii_bounded c).
    set (x := N_of_ascii a) in *. set (y := N_of_ascii b) in *. set (z := N_of_ascii c) in *.
    eapply base64_step; [apply sextet_char; now apply div_lt_64|apply sextet_char; now apply mid1|apply sextet_char; now apply mid2|apply sextet_char; apply mod64| |exact IH].
    fold x y z. rewrite (b8_62 x), (b8_44 y), (b8_26 z), b6_24, b6_42 by (apply div_lt; lia). now rewrite <- !app_assoc.
Qed.

Lemma N_ascii_small n : (n < 256)%N -> N_of_ascii (ascii_of_N n) = n.
Proof. exact (N_ascii_embedding n). Qed.

(** Decoding texts of the right form succeeds with the bytes carried. *)
Lemma list_ind4 {A} (P : list A -> Prop) : P [] -> (forall a, P [a]) -> (forall a b, P [a; b]) -> (forall a b c, P [a; b; c]) ->
  (forall a b c d l, P l -> P (a :: b :: c :: d :: l)) -> forall l, P l.
Proof. intros H0 H1 H2 H3 H4. fix IH 1. intros [|a [|b [|c [|d l]]]]; [exact H0|apply H1|apply H2|apply H3|apply H4, IH]. Qed.
Lemma quanta_ok cs : forall ss p, Forall2 sextet cs ss -> (p < 4)%nat -> Nat.modulo (length cs + p) 4 = 0%nat -> p <> 3%nat ->
  exists b spare, b64_quanta (string_of_list_ascii (cs ++ repeat pad p)) = Some b /\ concat ss = byte_bits b ++ spare /\ (length spare < 6)%nat.
Proof.
  induction cs as [|c1|c1 c2|c1 c2 c3|c1 c2 c3 c4 cs IH] using list_ind4; intros ss p F Hp L N3.
  - cbn [length] in L. assert (p = 0%nat) by (destruct p as [|[|[|[|]]]]; cbn in L; lia). subst. inversion F; subst. exists ""%string, []. now repeat split; cbn; lia.
  - cbn [length] in L. destruct p as [|[|[|[|]]]]; cbn in L; lia.
  - cbn [length] in L. assert (p = 2%nat) by (destruct p as [|[|[|[|]]]]; cbn in L; lia). subst.
    inversion F as [|? s1 ? ? S1 F1]; subst. inversion F1 as [|? s2 ? ? S2 F2]; subst. inversion F2; subst.
    destruct (b64_val_sextet _ _ S1) as (x & V1 & X1 & ->). destruct (b64_val_sextet _ _ S2) as (y & V2 & X2 & ->).
    cbn [app repeat string_of_list_ascii b64_quanta]. rewrite V1, V2.
    exists (String (ascii_of_N (x * 4 + y / 16)) ""), (bits 4 (y mod 16)). split; [reflexivity|]. split; [|rewrite bits_len; lia].
    assert (Y : (y / 16 < 4)%N) by (apply div_lt; lia).
    unfold byte_bits. cbn [concat list_ascii_of_string flat_map]. rewrite !app_nil_r. rewrite N_ascii_small by lia.
    rewrite eight_62 by exact Y. rewrite (six_24 y). now rewrite <- !app_assoc.
  - cbn [length] in L. assert (p = 1%nat) by (destruct p as [|[|[|[|]]]]; cbn in L; lia). subst.
    inversion F as [|? s1 ? ? S1 F1]; subst. inversion F1 as [|? s2 ? ? S2 F2]; subst. inversion F2 as [|? s3 ? ? S3 F3]; subst. inversion F3; subst.
    destruct (b64_val_sextet _ _ S1) as (x & V1 & X1 & ->). destruct (b64_val_sextet _ _ S2) as (y & V2 & X2 & ->). destruct (b64_val_sextet _ _ S3) as (z & V3 & X3 & ->).
    cbn [app repeat string_of_list_ascii b64_quanta]. rewrite V1, V2, V3.
    exists (String (ascii_of_N (x * 4 + y / 16)) (String (ascii_of_N (y mod 16 * 16 + z / 4)) "")), (bits 2 (z mod 4)). split; [reflexivity|]. split; [|rewrite bits_len; lia].
    assert (Y : (y / 16 < 4)%N) by (apply div_lt; lia). assert (Zl : (z / 4 < 16)%N) by (apply div_lt; lia). assert (Ym : (y mod 16 < 16)%N) by (apply N.mod_lt; lia).
    unfold byte_bits. cbn [concat list_ascii_of_string flat_map]. rewrite !app_nil_r. rewrite !N_ascii_small by lia.
    rewrite eight_62, eight_44 by assumption. rewrite (six_24 y), (six_42 z). now rewrite <- !app_assoc.
  - inversion F as [|? s1 ? ? S1 F1]; subst. inversion F1 as [|? s2 ? ? S2 F2]; subst. inversion F2 as [|? s3 ? ? S3 F3]; subst. inversion F3 as [|? s4 ? ss' S4 F4]; subst.
    destruct (b64_val_sextet _ _ S1) as (x & V1 & X1 & ->). destruct (b64_val_sextet _ _ S2) as (y & V2 & X2 & ->).
    destruct (b64_val_sextet _ _ S3) as (z & V3 & X3 & ->). destruct (b64_val_sextet _ _ S4) as (w & V4 & X4 & ->).
    assert (L' : Nat.modulo (length cs + p) 4 = 0%nat).
    { cbn [length] in L. replace (S (S (S (S (length cs)))) + p)%nat with (length cs + p + 1 * 4)%nat in L by lia. rewrite Nat.mod_add in L by lia. exact L. }
    destruct (IH _ _ F4 Hp L' N3) as (b & spare & Q & C & Ls).
    cbn [app string_of_list_ascii b64_quanta]. rewrite V1, V2, V3, V4. rewrite Q. eexists _, spare. split; [reflexivity|]. split; [|exact Ls].
    assert (Y : (y / 16 < 4)%N) by (apply div_lt; lia). assert (Zl : (z / 4 < 16)%N) by (apply div_lt; lia). assert (Ym : (y mod 16 < 16)%N) by (apply N.mod_lt; lia).
    assert (Zm : (z mod 4 < 4)%N) by (apply N.mod_lt; lia).
    cbn [concat]. rewrite C. unfold byte_bits. cbn [list_ascii_of_string flat_map]. rewrite !N_ascii_small by lia.
    rewrite eight_62, eight_44, eight_26 by assumption. rewrite (six_24 y), (six_42 z). now rewrite <- !app_assoc.
Qed.

Lemma string_ind4 (P : string -> Prop) : P ""%string -> (forall a, P (String a "")) -> (forall a b, P (String a (String b ""))) -> (forall a b c, P (String a (String b (String c "")))) ->
  (forall a b c d s, P s -> P (String a (String b (String c (String d s))))) -> forall s, P s.
Proof. intros H0 H1 H2 H3 H4. fix IH 1. intros [|a [|b [|c [|d l]]]]; [exact H0|apply H1|apply H2|apply H3|apply H4, IH]. Qed.
Lemma quanta_inv t : forall b, b64_quanta t = Some b ->
  exists cs ss p, Forall2 sextet cs ss /\ (p < 3)%nat /\ Nat.modulo (length cs + p) 4 = 0%nat /\ t = string_of_list_ascii (cs ++ repeat pad p).
Proof.
  induction t as [|c1|c1 c2|c1 c2 c3|c1 c2 c3 c4 t IH] using string_ind4; intros b E; cbn [b64_quanta] in E; try discriminate.
  - exists [], [], 0%nat. split; [constructor|]. repeat split; cbn; lia.
  - destruct (b64_val c1) as [x|] eqn:V1; [|discriminate]. destruct (b64_val c2) as [y|] eqn:V2; [|discriminate].
    apply val_sextet in V1, V2. destruct (b64_val c3) as [z|] eqn:V3.
    + apply val_sextet in V3. destruct (b64_val c4) as [w|] eqn:V4.
      * apply val_sextet in V4. destruct (b64_quanta t) as [r|] eqn:Q; [|discriminate].
        destruct (IH r eq_refl) as (cs & ss & p & F & Hp & L & ->). exists (c1 :: c2 :: c3 :: c4 :: cs), (bits 6 x :: bits 6 y :: bits 6 z :: bits 6 w :: ss), p.
        split; [repeat (constructor; [assumption|]); exact F|]. split; [exact Hp|]. split; [|reflexivity].
        cbn [length]. replace (S (S (S (S (length cs)))) + p)%nat with (length cs + p + 1 * 4)%nat by lia. rewrite Nat.mod_add by lia. exact L.
      * destruct (Ascii.eqb c4 pad && is_empty t) eqn:G; [|discriminate]. apply andb_true_iff in G as [G1 G2]. apply Ascii.eqb_eq in G1. subst c4.
        destruct t; [|discriminate]. exists [c1; c2; c3], [bits 6 x; bits 6 y; bits 6 z], 1%nat.
        split; [repeat (constructor; [assumption|]); constructor|]. repeat split; lia.
    + destruct (Ascii.eqb c3 pad && Ascii.eqb c4 pad && is_empty t) eqn:G; [|discriminate]. rewrite !andb_true_iff in G. destruct G as [[G0 G1] G2].
      apply Ascii.eqb_eq in G0, G1. subst c3 c4. destruct t; [|discriminate]. exists [c1; c2], [bits 6 x; bits 6 y], 2%nat.
      split; [repeat (constructor; [assumption|]); constructor|]. repeat split; lia.
Qed.

Lemma sextets_len cs ss : Forall2 sextet cs ss -> length (concat ss) = (6 * length cs)%nat.
Proof. induction 1 as [|c s cs ss [i c' _] F IH]; [reflexivity|]. cbn [concat length]. rewrite app_length, bits_len, IH. lia. Qed.
Lemma byte_bits_len b : length (byte_bits b) = (8 * String.length b)%nat.
Proof. induction b as [|c b IH]; [reflexivity|]. unfold byte_bits in *. cbn [list_ascii_of_string flat_map String.length]. rewrite app_length, bits_len, IH. lia. Qed.

Lemma decode_exact t b : b64_decode t = Some b <-> exists spare, base64 b spare (without_breaks t).
Proof.
  unfold b64_decode. rewrite strip_without. generalize (without_breaks t). clear t. intros t. split.
  - intros E. destruct (quanta_inv t b E) as (cs & ss & p & F & Hp & L & ->).
    destruct (quanta_ok cs ss p F ltac:(lia) L ltac:(lia)) as (b' & spare & Q & C & Ls). rewrite E in Q. injection Q as <-.
    exists spare, cs, ss, p. repeat split; auto.
  - intros (spare & cs & ss & p & F & C & Ls & Hp & L & ->).
    assert (N3 : p <> 3%nat).
    { intros ->. assert (X := f_equal (@length _) C). rewrite app_length, (sextets_len _ _ F), byte_bits_len in X.
      assert (D := Nat.div_mod (length cs + 3) 4 ltac:(lia)). rewrite L in D. lia. }
    destruct (quanta_ok cs ss p F Hp L N3) as (b' & spare' & Q & C' & Ls').
    replace b with b'; [exact Q|]. rewrite C in C'. symmetry. apply byte_bits_inj with spare spare'; [|exact C'].
    apply (f_equal (@length _)) in C'. rewrite !app_length, !byte_bits_len in C'. lia.
Qed.
