From Verif Require Import GoStr GoStrFacts Base64Facts JsonStr.
Local Open Scope N_scope.

Definition all_ascii : list ascii := map ascii_of_nat (seq 0 256).
Lemma all_ascii_in c : In c all_ascii.
Proof.
  apply in_map_iff. exists (nat_of_ascii c). split; [apply ascii_nat_embedding|].
  apply in_seq. assert (H := nat_ascii_bounded c). lia.
Qed.
Lemma ascii_sweep (f : ascii -> bool) : forallb f all_ascii = true -> forall c, f c = true.
Proof. intros H c. rewrite forallb_forall in H. apply H, all_ascii_in. Qed.

Lemma utf8b_spec s : utf8b s = true <-> utf8 s.
Proof.
  split.
  - assert (H : forall n s, (String.length s <= n)%nat -> utf8b s = true -> utf8 s).
    { clear. induction n as [|n IH]; intros s L H.
      - destruct s; [constructor | cbn in L; lia].
      - destruct s as [|a s1]; [constructor|]. cbn [utf8b] in H. cbn in L.
        destruct (bt a <? 128) eqn:E1.
        { apply utf8_1; [now apply N.ltb_lt | apply IH; [lia | exact H]]. }
        destruct s1 as [|b s2]; [discriminate|]. cbn in L.
        destruct (ok2 a b) eqn:E2.
        { apply utf8_2; [exact E2 | apply IH; [lia | exact H]]. }
        destruct s2 as [|c s3]; [discriminate|]. cbn in L.
        destruct (ok3 a b c) eqn:E3.
        { apply utf8_3; [exact E3 | apply IH; [lia | exact H]]. }
        destruct s3 as [|d s4]; [discriminate|]. cbn in L.
        destruct (ok4 a b c d) eqn:E4; [|discriminate].
        apply utf8_4; [exact E4 | apply IH; [lia | exact H]]. }
    intros Hs. exact (H _ s (le_n _) Hs).
  - assert (A2 : forall a b, ok2 a b = true -> bt a <? 128 = false).
    { intros a b H. unfold ok2 in H. rewrite !andb_true_iff, !N.leb_le in H. apply N.ltb_ge. lia. }
    assert (A3 : forall a b c, ok3 a b c = true -> (bt a <? 128) = false /\ ok2 a b = false).
    { intros a b c H. unfold ok3 in H. rewrite !andb_true_iff, !orb_true_iff, !andb_true_iff, !N.leb_le, !N.eqb_eq in H.
      split; [apply N.ltb_ge; lia|]. unfold ok2.
      rewrite (proj2 (N.leb_gt (bt a) 223)) by lia. now rewrite andb_false_r. }
    assert (A4 : forall a b c d, ok4 a b c d = true -> (bt a <? 128) = false /\ ok2 a b = false /\ ok3 a b c = false).
    { intros a b c d H. unfold ok4 in H. rewrite !andb_true_iff, !orb_true_iff, !andb_true_iff, !N.leb_le, !N.eqb_eq in H.
      split; [apply N.ltb_ge; lia|]. unfold ok2, ok3. split.
      - rewrite (proj2 (N.leb_gt (bt a) 223)) by lia. now rewrite andb_false_r.
      - rewrite (proj2 (N.eqb_neq (bt a) 224)), (proj2 (N.eqb_neq (bt a) 237)) by lia.
        rewrite (proj2 (N.leb_gt (bt a) 236)), (proj2 (N.leb_gt (bt a) 239)) by lia.
        rewrite !andb_false_r. reflexivity. }
    induction 1 as [|a s H _ IH|a b s H _ IH|a b c s H _ IH|a b c d s H _ IH]; cbn [utf8b].
    + reflexivity.
    + apply N.ltb_lt in H. now rewrite H.
    + now rewrite (A2 _ _ H), H.
    + destruct (A3 _ _ _ H) as [-> ->]. now rewrite H.
    + destruct (A4 _ _ _ _ H) as (-> & -> & ->). now rewrite H.
Qed.

Lemma ok2_hi a b : ok2 a b = true -> (bt a <? 128) = false.
Proof. intros H. unfold ok2 in H. rewrite !andb_true_iff, !N.leb_le in H. apply N.ltb_ge. lia. Qed.
Lemma ok3_hi a b c : ok3 a b c = true -> (bt a <? 128) = false /\ ok2 a b = false.
Proof.
  intros H. unfold ok3 in H. rewrite !andb_true_iff, !orb_true_iff, !andb_true_iff, !N.leb_le, !N.eqb_eq in H.
  split; [apply N.ltb_ge; lia|]. unfold ok2.
  rewrite (proj2 (N.leb_gt (bt a) 223)) by lia. now rewrite andb_false_r.
Qed.
Lemma ok4_hi a b c d : ok4 a b c d = true -> (bt a <? 128) = false /\ ok2 a b = false /\ ok3 a b c = false.
Proof.
  intros H. unfold ok4 in H. rewrite !andb_true_iff, !orb_true_iff, !andb_true_iff, !N.leb_le, !N.eqb_eq in H.
  split; [apply N.ltb_ge; lia|]. unfold ok2, ok3. split.
  - rewrite (proj2 (N.leb_gt (bt a) 223)) by lia. now rewrite andb_false_r.
  - rewrite (proj2 (N.eqb_neq (bt a) 224)), (proj2 (N.eqb_neq (bt a) 237)) by lia.
    rewrite (proj2 (N.leb_gt (bt a) 236)), (proj2 (N.leb_gt (bt a) 239)) by lia.
    rewrite !andb_false_r. reflexivity.
Qed.

Lemma hi_not_special a : (bt a <? 128) = false ->
  Ascii.eqb a bs = false /\ ((bt a <? 32) || Ascii.eqb a qt) = false.
Proof.
  intros H. assert (D : forallb (fun a => (bt a <? 128) || (negb (Ascii.eqb a bs) && negb ((bt a <? 32) || Ascii.eqb a qt))) all_ascii = true)
    by (vm_compute; reflexivity).
  assert (E := ascii_sweep _ D a). cbv beta in E. rewrite H in E. cbn [orb] in E.
  apply andb_true_iff in E as [E1 E2]. now rewrite negb_true_iff in E1, E2.
Qed.

(** One escaped ASCII byte decodes to itself. *)
Definition one_esc_ok (a : ascii) : bool :=
  negb (bt a <? 128) ||
  match esc_ascii a with
  | String x "" => Ascii.eqb x a && negb (Ascii.eqb a bs) && negb ((bt a <? 32) || Ascii.eqb a qt)
  | String b0 (String e "") => Ascii.eqb b0 bs && negb (bt e =? 117) &&
      match esc1 e with Some x => Ascii.eqb x a | None => false end
  | String b0 (String e (String h1 (String h2 (String h3 (String h4 ""))))) =>
      Ascii.eqb b0 bs && (bt e =? 117) &&
      match hex4 h1 h2 h3 h4 with
      | Some v => negb (is_surr v) && String.eqb (enc_rune v) (String a "")
      | None => false
      end
  | _ => false
  end.
Lemma one_esc_all : forallb one_esc_ok all_ascii = true.
Proof. vm_compute. reflexivity. Qed.

Lemma unq_esc_ascii a r : bt a < 128 -> unq (esc_ascii a ++ r)%string = app_opt (String a "") (unq r).
Proof.
  intros H. apply N.ltb_lt in H. assert (E := ascii_sweep _ one_esc_all a). unfold one_esc_ok in E.
  rewrite H in E. cbn [negb orb] in E.
  destruct (esc_ascii a) as [|x0 [|x1 [|x2 [|x3 [|x4 [|x5 [|]]]]]]]; try discriminate E.
  - rewrite !andb_true_iff, !negb_true_iff in E. destruct E as [[E1 E2] E3].
    apply Ascii.eqb_eq in E1. subst x0. cbn [String.append unq]. now rewrite E2, E3, H.
  - rewrite !andb_true_iff, !negb_true_iff in E. destruct E as [[E1 E2] E3].
    cbn [String.append unq]. rewrite E1, E2.
    destruct (esc1 x1) as [y|]; [|discriminate]. apply Ascii.eqb_eq in E3. now subst y.
  - rewrite !andb_true_iff in E. destruct E as [[E1 E2] E3].
    cbn [String.append unq]. rewrite E1, E2.
    destruct (hex4 x2 x3 x4 x5) as [v|]; [|discriminate].
    apply andb_true_iff in E3 as [E3 E4]. apply negb_true_iff in E3. rewrite E3.
    apply String.eqb_eq in E4. now rewrite E4.
Qed.

Lemma unq_esc3 a b c r : ok3 a b c = true ->
  unq (esc3 a b c ++ r)%string = app_opt (String a (String b (String c ""))) (unq r).
Proof.
  intros H. destruct (ok3_hi _ _ _ H) as [H1 H2]. destruct (hi_not_special _ H1) as [H3 H4].
  unfold esc3. destruct ((bt a =? 226) && (bt b =? 128) && ((bt c =? 168) || (bt c =? 169))) eqn:E.
  - rewrite !andb_true_iff, orb_true_iff, !N.eqb_eq in E. destruct E as [[Ea Eb] Ec].
    assert (Ea' : a = ch 226) by (unfold ch; rewrite <- Ea; symmetry; apply ascii_N_embedding).
    assert (Eb' : b = ch 128) by (unfold ch; rewrite <- Eb; symmetry; apply ascii_N_embedding).
    destruct Ec as [Ec|Ec].
    + assert (Ec' : c = ch 168) by (unfold ch; rewrite <- Ec; symmetry; apply ascii_N_embedding).
      subst. reflexivity.
    + assert (Ec' : c = ch 169) by (unfold ch; rewrite <- Ec; symmetry; apply ascii_N_embedding).
      subst. reflexivity.
  - cbn [String.append unq]. now rewrite H3, H4, H1, H2, H.
Qed.

(** Reading back what was written, for well formed UTF-8. *)
Lemma unq_quote_app s : utf8 s -> forall r, unq (quote s ++ r)%string = app_opt s (unq r).
Proof.
  induction 1 as [|a s H _ IH|a b s H _ IH|a b c s H _ IH|a b c d s H _ IH]; intros r.
  - cbn. destruct (unq r); reflexivity.
  - cbn [quote]. rewrite (proj2 (N.ltb_lt _ _) H), sapp_assoc, unq_esc_ascii by exact H.
    rewrite IH. destruct (unq r); reflexivity.
  - cbn [quote]. rewrite (ok2_hi _ _ H), H. cbn [String.append unq].
    destruct (hi_not_special _ (ok2_hi _ _ H)) as [-> ->]. rewrite (ok2_hi _ _ H), H, IH.
    destruct (unq r); reflexivity.
  - cbn [quote]. destruct (ok3_hi _ _ _ H) as [H1 H2]. rewrite H1, H2, H, sapp_assoc, unq_esc3 by exact H.
    rewrite IH. destruct (unq r); reflexivity.
  - cbn [quote]. destruct (ok4_hi _ _ _ _ H) as (H1 & H2 & H3). rewrite H1, H2, H3, H. cbn [String.append unq].
    destruct (hi_not_special _ H1) as [-> ->]. rewrite H1, H2, H3, H, IH.
    destruct (unq r); reflexivity.
Qed.

Lemma unq_quote s : utf8 s -> unq (quote s) = Some s.
Proof.
  intros H. rewrite <- (sapp_nil_r (quote s)), unq_quote_app by exact H. cbn. now rewrite sapp_nil_r.
Qed.

Lemma quote_inj s t : utf8 s -> utf8 t -> quote s = quote t -> s = t.
Proof. intros Hs Ht E. apply unq_quote in Hs, Ht. congruence. Qed.

(** Decoded text is always well formed UTF-8, and so is encoded text. *)
Lemma utf8_app s t : utf8 s -> utf8 t -> utf8 (s ++ t)%string.
Proof.
  intros Hs Ht. induction Hs; cbn [String.append]; try (now constructor); exact Ht.
Qed.

Lemma utf8_repl : utf8 repl.
Proof. apply utf8b_spec. reflexivity. Qed.

Lemma bt_ch n : n < 256 -> bt (ch n) = n.
Proof. apply N_ascii_embedding. Qed.

Lemma cont_ch n : is_cont (ch (128 + n mod 64)) = true.
Proof.
  unfold is_cont. assert (M : n mod 64 < 64) by (apply N.mod_lt; discriminate).
  generalize dependent (n mod 64). intros x M. rewrite bt_ch by lia.
  apply andb_true_iff. split; apply N.leb_le; lia.
Qed.

Lemma utf8_enc_rune r : utf8 (enc_rune r).
Proof.
  unfold enc_rune.
  destruct (r <? 128) eqn:E1; [apply N.ltb_lt in E1; apply utf8_1; [rewrite bt_ch; lia | constructor]|].
  apply N.ltb_ge in E1.
  destruct (r <? 2048) eqn:E2.
  { apply N.ltb_lt in E2. apply utf8_2; [|constructor]. unfold ok2. rewrite cont_ch, andb_true_r.
    assert (2 <= r / 64) by (apply N.div_le_lower_bound; lia).
    assert (r / 64 < 32) by (apply N.div_lt_upper_bound; lia). rewrite bt_ch by lia.
    apply andb_true_iff. split; apply N.leb_le; lia. }
  apply N.ltb_ge in E2.
  destruct (((55296 <=? r) && (r <=? 57343)) || (1114112 <=? r)) eqn:E3; [apply utf8_repl|].
  rewrite orb_false_iff, andb_false_iff, !N.leb_gt in E3. destruct E3 as [E3 E4].
  assert (C : forall x, x < 64 -> bt (ch (128 + x)) = 128 + x) by (intros; apply bt_ch; lia).
  destruct (r <? 65536) eqn:E5.
  { apply N.ltb_lt in E5. apply utf8_3; [|constructor]. unfold ok3. rewrite cont_ch. cbn [andb].
    assert (Q : r / 4096 < 16) by (apply N.div_lt_upper_bound; lia).
    rewrite (bt_ch (224 + r / 4096)) by lia.
    assert (M : r / 64 mod 64 < 64) by (apply N.mod_lt; discriminate).
    assert (CC := cont_ch (r / 64)). rewrite CC, !andb_true_r. rewrite (C _ M).
    assert (D := N.div_mod r 64 ltac:(lia)). assert (D2 := N.div_mod (r / 64) 64 ltac:(lia)).
    rewrite N.div_div in D2 by lia. change (64 * 64) with 4096 in D2.
    assert (M0 : r mod 64 < 64) by (apply N.mod_lt; discriminate).
    rewrite !orb_true_iff, !andb_true_iff, !N.eqb_eq, !N.leb_le.
    set (y := r mod 64) in *. clearbody y.
    set (q := r / 4096) in *. set (x := r / 64 mod 64) in *. clearbody q x. clear CC. set (z := r / 64) in *. clearbody z.
    destruct (N.eq_dec q 0); [left; left; left; lia|].
    destruct (N.eq_dec q 13); [left; right; lia|].
    destruct (N.lt_ge_cases q 13); [left; left; right; lia | right; lia]. }
  apply N.ltb_ge in E5. apply utf8_4; [|constructor]. unfold ok4. rewrite !cont_ch. cbn [andb].
  rewrite !andb_true_r.
  assert (Q : r / 262144 < 5) by (apply N.div_lt_upper_bound; lia).
  rewrite (bt_ch (240 + r / 262144)) by lia.
  assert (M : r / 4096 mod 64 < 64) by (apply N.mod_lt; discriminate). rewrite (C _ M).
  assert (D := N.div_mod r 4096 ltac:(lia)). assert (D2 := N.div_mod (r / 4096) 64 ltac:(lia)).
  rewrite N.div_div in D2 by lia. change (4096 * 64) with 262144 in D2.
  assert (M0 : r mod 4096 < 4096) by (apply N.mod_lt; discriminate).
  rewrite !orb_true_iff, !andb_true_iff, !N.eqb_eq, !N.leb_le.
  set (y := r mod 4096) in *. clearbody y.
  set (q := r / 262144) in *. set (x := r / 4096 mod 64) in *. clearbody q x. set (z := r / 4096) in *. clearbody z.
  destruct (N.eq_dec q 0); [left; left; lia|].
  destruct (N.eq_dec q 4); [right; lia | left; right; lia].
Qed.

Lemma app_opt_some p r t : app_opt p r = Some t -> exists u, r = Some u /\ t = (p ++ u)%string.
Proof. destruct r; cbn; [intros H; injection H as <-; eauto | discriminate]. Qed.

Lemma unq_utf8 s : forall t, unq s = Some t -> utf8 t.
Proof.
  assert (H : forall n s, (String.length s <= n)%nat -> forall t, unq s = Some t -> utf8 t); [|eauto].
  clear s. induction n as [|n IH]; intros s L t H.
  { destruct s; [injection H as <-; constructor | cbn in L; lia]. }
  destruct s as [|a s1]; [injection H as <-; constructor|].
  cbn [unq] in H. cbn [String.length] in L.
  assert (G : forall p r, utf8 p -> (String.length r <= n)%nat -> app_opt p (unq r) = Some t -> utf8 t).
  { intros p r Hp Lr E. apply app_opt_some in E as (u & E & ->). apply utf8_app; [exact Hp|]. eapply IH; eassumption. }
  destruct (Ascii.eqb a bs).
  { destruct s1 as [|e s2]; [discriminate|]. cbn [String.length] in L.
    destruct (bt e =? 117).
    - destruct s2 as [|h1 [|h2 [|h3 [|h4 r]]]]; try discriminate. cbn [String.length] in L.
      destruct (hex4 h1 h2 h3 h4) as [v|]; [|discriminate].
      destruct (is_surr v).
      + assert (R : app_opt repl (unq r) = Some t -> utf8 t) by (apply G; [apply utf8_repl | lia]).
        destruct r as [|b1 [|b2 [|g1 [|g2 [|g3 [|g4 r']]]]]]; try (exact (R H)).
        cbn [String.length] in L.
        destruct (Ascii.eqb b1 bs && (bt b2 =? 117)); [|exact (R H)].
        destruct (hex4 g1 g2 g3 g4) as [w|]; [|exact (R H)].
        destruct (dec_pair v w) as [cp|]; [|exact (R H)].
        eapply G; [apply utf8_enc_rune | | exact H]. lia.
      + eapply G; [apply utf8_enc_rune | | exact H]. lia.
    - destruct (esc1 e) as [x|] eqn:Ex; [|discriminate].
      eapply G; [| |exact H]; [|lia].
      apply utf8_1; [|constructor].
      assert (D : forallb (fun e => match esc1 e with Some x => bt x <? 128 | None => true end) all_ascii = true)
        by (vm_compute; reflexivity).
      assert (F := ascii_sweep _ D e). cbv beta in F. rewrite Ex in F. now apply N.ltb_lt. }
  destruct ((bt a <? 32) || Ascii.eqb a qt); [discriminate|].
  destruct (bt a <? 128) eqn:E1.
  { eapply G; [| |exact H]; [|lia]. apply utf8_1; [now apply N.ltb_lt | constructor]. }
  assert (R : app_opt repl (unq s1) = Some t -> utf8 t) by (apply G; [apply utf8_repl | lia]).
  destruct s1 as [|b s2]; [exact (R H)|]. cbn [String.length] in L.
  destruct (ok2 a b) eqn:E2.
  { eapply G; [| |exact H]; [|lia]. apply utf8_2; [exact E2 | constructor]. }
  destruct s2 as [|c s3]; [exact (R H)|]. cbn [String.length] in L.
  destruct (ok3 a b c) eqn:E3.
  { eapply G; [| |exact H]; [|lia]. apply utf8_3; [exact E3 | constructor]. }
  destruct s3 as [|d s4]; [exact (R H)|]. cbn [String.length] in L.
  destruct (ok4 a b c d) eqn:E4; [|exact (R H)].
  eapply G; [| |exact H]; [|lia]. apply utf8_4; [exact E4 | constructor].
Qed.

(** Every byte of written text is printable or non-ASCII, and a quotation mark
    only appears escaped; the scanner (JsonText) relies on [unq] being defined. *)
Lemma quote_nil_iff s : quote s = "" <-> s = "".
Proof.
  split; [|now intros ->]. destruct s as [|a s1]; [reflexivity|]. intros H. exfalso.
  cbn [quote] in H.
  assert (D : forallb (fun a => negb (String.eqb (esc_ascii a) "")) all_ascii = true) by (vm_compute; reflexivity).
  assert (F := ascii_sweep _ D a). cbv beta in F.
  destruct (bt a <? 128); [destruct (esc_ascii a); [discriminate F | discriminate H]|].
  destruct s1 as [|b s2]; [discriminate|]. destruct (ok2 a b); [discriminate|].
  destruct s2 as [|c s3]; [discriminate|].
  destruct (ok3 a b c).
  { unfold esc3 in H. destruct (_ && _) in H; discriminate. }
  destruct s3 as [|d s4]; [discriminate|]. destruct (ok4 a b c d); discriminate.
Qed.

Lemma utf8_ascii s : (forall c, In c (list_ascii_of_string s) -> bt c < 128) -> utf8 s.
Proof.
  induction s as [|c s IH]; intros H; [constructor|].
  apply utf8_1; [apply H; now left | apply IH; intros; apply H; now right].
Qed.

(** Text without special characters is written as it is. *)
Definition plain_char (c : ascii) : bool :=
  (bt c <? 128) && String.eqb (esc_ascii c) (String c "").
Fixpoint plain (s : string) : bool :=
  match s with EmptyString => true | String c s' => plain_char c && plain s' end.
Lemma quote_plain s : plain s = true -> quote s = s.
Proof.
  induction s as [|c s IH]; intros H; [reflexivity|].
  cbn [plain] in H. apply andb_true_iff in H as [H1 H2]. unfold plain_char in H1.
  apply andb_true_iff in H1 as [H1 H3]. cbn [quote]. rewrite H1.
  apply String.eqb_eq in H3. now rewrite H3, (IH H2).
Qed.
Lemma plain_utf8 s : plain s = true -> utf8 s.
Proof.
  induction s as [|c s IH]; intros H; [constructor|].
  cbn [plain] in H. apply andb_true_iff in H as [H1 H2]. unfold plain_char in H1.
  apply andb_true_iff in H1 as [H1 H3]. apply utf8_1; [now apply N.ltb_lt | auto].
Qed.
