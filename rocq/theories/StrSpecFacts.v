(** JsonStr.v against StrSpec.v. *)
From Verif Require Import GoStr GoStrFacts Base64Facts JsonStr JsonStrFacts StrSpec.
Local Open Scope N_scope.

Lemma code_inj a b : code a = code b -> a = b.
Proof. intros H. rewrite <- (ascii_N_embedding a), <- (ascii_N_embedding b). unfold code in H. now rewrite H. Qed.
Lemma code_lt a : code a < 256.
Proof. apply N_ascii_bounded. Qed.
Lemma code_ch n : n < 256 -> code (ch n) = n.
Proof. apply N_ascii_embedding. Qed.

Ltac okb H := unfold ok2, ok3, ok4, is_cont in H; rewrite ?andb_true_iff, ?orb_true_iff, ?andb_true_iff, ?N.leb_le, ?N.eqb_eq in H; unfold bt in H; fold (code) in H.
Lemma ok2_char a b : ok2 a b = true <-> exists n, utf8_char (String a (String b "")) n.
Proof.
  split.
  - intros H. okb H. change N_of_ascii with code in H. exists ((code a - 192) * 64 + (code b - 128)). eapply u8_2; [| | | |reflexivity|]; lia.
  - intros (n & H). inversion H; subst. unfold ok2, is_cont, bt. change N_of_ascii with code. rewrite !andb_true_iff, !N.leb_le. lia.
Qed.
Lemma ok3_char a b c : ok3 a b c = true <-> exists n, utf8_char (String a (String b (String c ""))) n.
Proof.
  split.
  - intros H. okb H. change N_of_ascii with code in H. exists ((code a - 224) * 4096 + (code b - 128) * 64 + (code c - 128)). unfold surrogate. eapply u8_3; [| | | | | |reflexivity| |]; unfold surrogate; lia.
  - intros (n & H). inversion H; subst. unfold surrogate in *. unfold ok3, is_cont, bt. change N_of_ascii with code. rewrite !andb_true_iff, !orb_true_iff, !andb_true_iff, !N.leb_le, !N.eqb_eq. lia.
Qed.
Lemma ok4_char a b c d : ok4 a b c d = true <-> exists n, utf8_char (String a (String b (String c (String d "")))) n.
Proof.
  split.
  - intros H. okb H. change N_of_ascii with code in H. exists ((code a - 240) * 262144 + (code b - 128) * 4096 + (code c - 128) * 64 + (code d - 128)). eapply u8_4; [| | | | | | | |reflexivity|]; lia.
  - intros (n & H). inversion H; subst. unfold ok4, is_cont, bt. change N_of_ascii with code. rewrite !andb_true_iff, !orb_true_iff, !andb_true_iff, !N.leb_le, !N.eqb_eq. lia.
Qed.

Lemma char_fun w n m : utf8_char w n -> utf8_char w m -> n = m.
Proof. intros A B. inversion A; subst; inversion B; subst; try reflexivity; try lia. Qed.
Lemma char_inj w w' n : utf8_char w n -> utf8_char w' n -> w = w'.
Proof.
  intros A B. inversion A; subst; inversion B; subst; unfold surrogate in *; try (exfalso; lia); try reflexivity.
  all: repeat match goal with |- String _ _ = String _ _ => f_equal end; try reflexivity; apply code_inj; lia.
Qed.
(** No encoding starts another. *)
Lemma char_prefix w w' n m r r' : utf8_char w n -> utf8_char w' m -> (w ++ r)%string = (w' ++ r')%string -> w = w' /\ r = r'.
Proof.
  intros A B E. inversion A; subst; inversion B; subst; cbn [String.append] in E; injection E; intros; subst; try (exfalso; lia); auto.
Qed.
Lemma enc_char n : n <= 1114111 -> ~ surrogate n -> utf8_char (enc_rune n) n.
Proof.
  intros L S. unfold enc_rune, surrogate in *.
  destruct (N.ltb_spec n 128); [rewrite <- (code_ch n) at 2 by lia; apply u8_1; rewrite code_ch; lia|].
  destruct (N.ltb_spec n 2048).
  { assert (D := N.div_mod n 64 ltac:(lia)). assert (M := N.mod_lt n 64 ltac:(lia)). set (q := n / 64) in *. set (m := n mod 64) in *. clearbody q m.
    apply u8_2 with q m; try (rewrite code_ch; lia); lia. }
  destruct (((55296 <=? n) && (n <=? 57343)) || (1114112 <=? n)) eqn:E.
  { rewrite orb_true_iff, andb_true_iff, !N.leb_le in E. lia. }
  clear E.
  assert (D := N.div_mod n 64 ltac:(lia)). assert (M := N.mod_lt n 64 ltac:(lia)).
  assert (D' := N.div_mod (n / 64) 64 ltac:(lia)). assert (M' := N.mod_lt (n / 64) 64 ltac:(lia)). rewrite N.div_div in D' by lia. change (64 * 64) with 4096 in D'.
  destruct (N.ltb_spec n 65536).
  { set (q := n / 4096) in *. set (m := n mod 64) in *. set (p := n / 64 mod 64) in *. set (o := n / 64) in *. clearbody q m p o.
    apply u8_3 with q p m; unfold surrogate; try (rewrite code_ch; lia); lia. }
  assert (D'' := N.div_mod (n / 4096) 64 ltac:(lia)). assert (M'' := N.mod_lt (n / 4096) 64 ltac:(lia)). rewrite N.div_div in D'' by lia. change (4096 * 64) with 262144 in D''.
  set (q1 := n / 262144) in *. set (q2 := n / 4096 mod 64) in *. set (q3 := n / 64 mod 64) in *. set (q4 := n mod 64) in *. set (o1 := n / 64) in *. set (o2 := n / 4096) in *. clearbody q1 q2 q3 q4 o1 o2.
  apply u8_4 with q1 q2 q3 q4; try (rewrite code_ch; lia); lia.
Qed.
Lemma repl_char : utf8_char repl replacement.
Proof. apply (enc_char 65533); [lia|unfold surrogate; lia]. Qed.
Lemma string_fun s l : utf8_string s l -> forall m, utf8_string s m -> l = m.
Proof.
  induction 1 as [|w n s l A _ IH]; intros m B.
  - inversion B as [|w n s l A _ E]; [reflexivity|]. exfalso. inversion A; subst; discriminate.
  - inversion B as [E|w' n' s' l' A' B' E]; [exfalso; inversion A; subst; discriminate|].
    destruct (char_prefix _ _ _ _ _ _ A' A E) as [-> ->]. f_equal; [eapply char_fun; eauto|auto].
Qed.
Lemma string_inj l : forall s t, utf8_string s l -> utf8_string t l -> s = t.
Proof.
  induction l as [|n l IH]; intros s t A B; inversion A; inversion B; subst; [reflexivity|]. f_equal; [eapply char_inj; eauto|auto].
Qed.

Lemma hexval_digit c n : hexval c = Some n <-> hex_digit c n.
Proof.
  assert (X : forallb (fun c => forallb (fun k => Bool.eqb (match hexval c with Some m => N.eqb m (N.of_nat k) | None => false end)
     ((match nth_error (list_ascii_of_string "0123456789abcdef") k with Some d => Ascii.eqb d c | None => false end) ||
      (match nth_error (list_ascii_of_string "0123456789ABCDEF") k with Some d => Ascii.eqb d c | None => false end))) (seq 0 17) &&
     match hexval c with Some m => m <? 16 | None => true end) all_ascii = true) by (vm_compute; reflexivity).
  apply (fun X => ascii_sweep _ X c) in X. apply andb_true_iff in X as [X Y]. rewrite forallb_forall in X. unfold hex_digit. split.
  - intros H. rewrite H in *. apply N.ltb_lt in Y. specialize (X (N.to_nat n) ltac:(apply in_seq; lia)). rewrite N2Nat.id, N.eqb_refl in X. apply Bool.eqb_prop in X. symmetry in X.
    apply orb_true_iff in X as [X|X]; [left|right]; (destruct (nth_error _ _); [|discriminate X]); apply Ascii.eqb_eq in X; now subst.
  - intros H. assert (L : (N.to_nat n < 16)%nat).
    { destruct H as [H|H]; apply (f_equal (fun o => match o with Some _ => true | None => false end)) in H; destruct (Nat.lt_ge_cases (N.to_nat n) 16) as [?|G]; auto;
      rewrite (proj2 (nth_error_None _ _)) in H by (cbn; lia); discriminate H. }
    specialize (X (N.to_nat n) ltac:(apply in_seq; lia)). rewrite N2Nat.id in X. apply Bool.eqb_prop in X.
    replace ((_ || _)%bool) with true in X by (symmetry; apply orb_true_iff; destruct H as [H|H]; [left|right]; rewrite H; apply Ascii.eqb_refl).
    destruct (hexval c) as [m|]; [|discriminate X]. apply N.eqb_eq in X. now subst.
Qed.
Lemma hex4_text a b c d n : hex4 a b c d = Some n <-> hex_text (String a (String b (String c (String d "")))) n.
Proof.
  unfold hex4, hex_text. split.
  - destruct (hexval a) as [x|] eqn:A; [|discriminate]. destruct (hexval b) as [y|] eqn:B; [|discriminate]. destruct (hexval c) as [z|] eqn:C; [|discriminate]. destruct (hexval d) as [w|] eqn:D; [|discriminate].
    intros H. exists a, b, c, d, x, y, z, w. rewrite <- !hexval_digit. repeat split; try assumption. assert (Q : ((x * 16 + y) * 16 + z) * 16 + w = n) by congruence. lia.
  - intros (a' & b' & c' & d' & x & y & z & w & E & A & B & C & D & ->). injection E as <- <- <- <-. apply hexval_digit in A, B, C, D. rewrite A, B, C, D. f_equal. lia.
Qed.
Lemma hex_text_form s n : hex_text s n -> exists a b c d, s = String a (String b (String c (String d ""))) /\ hex4 a b c d = Some n.
Proof. intros H. assert (H' := H). destruct H' as (a & b & c & d & x & y & z & w & -> & _). exists a, b, c, d. split; [reflexivity|now apply hex4_text]. Qed.

Lemma esc1_escapes e x : esc1 e = Some x <-> exists n, In (e, n) short_escapes /\ x = ch n.
Proof.
  assert (X : forallb (fun e => match find (fun en => Ascii.eqb (fst en) e) short_escapes, esc1 e with Some (_, n), Some x => Ascii.eqb x (ch n) | None, None => true | _, _ => false end) all_ascii = true) by (vm_compute; reflexivity).
  apply (fun X => ascii_sweep _ X e) in X. cbv beta in X. split.
  - intros H. rewrite H in X. destruct (find _ _) as [[e' n]|] eqn:F; [|discriminate X]. apply find_some in F as [I F]. cbn in F. apply Ascii.eqb_eq in F as ->. apply Ascii.eqb_eq in X as ->. eauto.
  - intros (n & I & ->). repeat (destruct I as [I|I]; [injection I as <- <-; reflexivity|]). destruct I.
Qed.
Lemma short_not_u e n : In (e, n) short_escapes -> (bt e =? 117) = false /\ n < 128.
Proof. intros I. repeat (destruct I as [I|I]; [injection I as <- <-; split; reflexivity|]). destruct I. Qed.

Lemma no_char a r : 128 <= code a -> (forall b s, r = String b s -> ok2 a b = false) -> (forall b c s, r = String b (String c s) -> ok3 a b c = false) ->
  (forall b c d s, r = String b (String c (String d s)) -> ok4 a b c d = false) -> forall w n r', utf8_char w n -> String a r <> (w ++ r')%string.
Proof.
  intros A H2 H3 H4 w n r' U E. inversion U; subst; cbn [String.append] in E; injection E; intros; subst.
  - lia.
  - specialize (H2 _ _ eq_refl). rewrite (proj2 (ok2_char _ _)) in H2 by eauto. discriminate.
  - specialize (H3 _ _ _ eq_refl). rewrite (proj2 (ok3_char _ _ _)) in H3 by eauto. discriminate.
  - specialize (H4 _ _ _ _ eq_refl). rewrite (proj2 (ok4_char _ _ _ _)) in H4 by eauto. discriminate.
Qed.
Lemma ltb_code a : (bt a <? 128) = false -> 128 <= code a.
Proof. apply N.ltb_ge. Qed.

(** *** Reading a string *)
Lemma unq_sound : forall k s, (String.length s <= k)%nat -> forall t, unq s = Some t -> str_means s t.
Proof.
  induction k as [|k IH]; intros s L t H.
  { destruct s; [injection H as <-; exists []; split; constructor | cbn in L; lia]. }
  destruct s as [|a s1]; [injection H as <-; exists []; split; constructor|].
  cbn [unq] in H. cbn [String.length] in L.
  assert (G : forall raw p n r, utf8_char p n -> (forall l, str_text r l -> str_text raw (n :: l)) -> (String.length r <= k)%nat -> app_opt p (unq r) = Some t -> str_means raw t).
  { intros raw p n r Hp HS Lr E. apply app_opt_some in E as (u & E & ->). apply IH in E as (l & A & B); [|exact Lr]. exists (n :: l). split; [auto|now constructor]. }
  destruct (Ascii.eqb a bs) eqn:Ea.
  { apply Ascii.eqb_eq in Ea as ->. destruct s1 as [|e s2]; [discriminate|]. cbn [String.length] in L.
    destruct (bt e =? 117) eqn:Eu.
    - assert (e = "u"%char) as -> by (apply N.eqb_eq in Eu; apply code_inj; exact Eu).
      destruct s2 as [|h1 [|h2 [|h3 [|h4 r]]]]; try discriminate. cbn [String.length] in L.
      destruct (hex4 h1 h2 h3 h4) as [v|] eqn:Hv; [|discriminate]. apply hex4_text in Hv. assert (Lv : v <= 65535).
      { apply hex_text_form in Hv as (? & ? & ? & ? & E & Hx). injection E as <- <- <- <-. unfold hex4 in Hx. 
        assert (B : forall c x, hexval c = Some x -> x < 16).
        { intros c x Hc. assert (X : forallb (fun c => match hexval c with Some m => m <? 16 | None => true end) all_ascii = true) by (vm_compute; reflexivity).
          apply (fun X => ascii_sweep _ X c) in X. cbv beta in X. rewrite Hc in X. now apply N.ltb_lt. }
        destruct (hexval h1) eqn:X1; [|discriminate]. destruct (hexval h2) eqn:X2; [|discriminate]. destruct (hexval h3) eqn:X3; [|discriminate]. destruct (hexval h4) eqn:X4; [|discriminate].
        apply B in X1, X2, X3, X4. assert (Q : ((n * 16 + n0) * 16 + n1) * 16 + n2 = v) by congruence. lia. }
      change (str_means (u_escape (String h1 (String h2 (String h3 (String h4 "")))) ++ r) t).
      destruct (is_surr v) eqn:Sv.
      + assert (S : surrogate v) by (unfold is_surr in Sv; rewrite andb_true_iff, N.leb_le, N.ltb_lt in Sv; unfold surrogate; lia).
        assert (R : (forall h' lo r', v <= 56319 -> hex_text h' lo -> 56320 <= lo <= 57343 -> r <> (u_escape h' ++ r')%string) -> app_opt repl (unq r) = Some t -> str_means (u_escape (String h1 (String h2 (String h3 (String h4 "")))) ++ r) t).
        { intros NP. eapply G; [apply repl_char| |lia]. intros l A. exact (st_lone _ v _ _ Hv S NP A). }
        assert (NF : forall h' lo r', v <= 56319 -> hex_text h' lo -> 56320 <= lo <= 57343 -> r = (u_escape h' ++ r')%string ->
          exists g1 g2 g3 g4, r = String bs (String "u" (String g1 (String g2 (String g3 (String g4 r'))))) /\ hex4 g1 g2 g3 g4 = Some lo).
        { intros h' lo r' _ Hh _ ->. apply hex_text_form in Hh as (g1 & g2 & g3 & g4 & -> & Hh). exists g1, g2, g3, g4. split; [reflexivity|exact Hh]. }
        destruct r as [|b1 [|b2 [|g1 [|g2 [|g3 [|g4 r']]]]]]; try (apply R; [intros h' lo r'' E1 E2 E3 E; destruct (NF _ _ _ E1 E2 E3 E) as (? & ? & ? & ? & Q & _); discriminate Q|exact H]).
        cbn [String.length] in L.
        destruct (Ascii.eqb b1 bs && (bt b2 =? 117)) eqn:Eb.
        2:{ apply R; [|exact H]. intros h' lo r'' E1 E2 E3 E. destruct (NF _ _ _ E1 E2 E3 E) as (? & ? & ? & ? & Q & _). injection Q as -> -> _. discriminate Eb. }
        apply andb_true_iff in Eb as [Eb1 Eb2]. apply Ascii.eqb_eq in Eb1 as ->. assert (b2 = "u"%char) as -> by (apply N.eqb_eq in Eb2; apply code_inj; exact Eb2).
        destruct (hex4 g1 g2 g3 g4) as [w|] eqn:Hw.
        2:{ apply R; [|exact H]. intros h' lo r'' E1 E2 E3 E. destruct (NF _ _ _ E1 E2 E3 E) as (? & ? & ? & ? & Q & Hx). injection Q; intros; subst. congruence. }
        destruct (dec_pair v w) as [cp|] eqn:Dp.
        2:{ apply R; [|exact H]. intros h' lo r'' E1 E2 E3 E. destruct (NF _ _ _ E1 E2 E3 E) as (? & ? & ? & ? & Q & Hx). injection Q; intros; subst. unfold surrogate in S. unfold dec_pair in Dp.
            assert (w = lo) by congruence. subst. replace ((55296 <=? v) && (v <? 56320) && (56320 <=? lo) && (lo <? 57344)) with true in Dp; [discriminate Dp|].
            symmetry. rewrite !andb_true_iff, !N.leb_le, !N.ltb_lt. lia. }
        unfold dec_pair in Dp. destruct ((55296 <=? v) && (v <? 56320) && (56320 <=? w) && (w <? 57344)) eqn:Eq; [|discriminate]. rewrite !andb_true_iff, !N.leb_le, !N.ltb_lt in Eq.
        apply hex4_text in Hw. assert (cp = (v - 55296) * 1024 + (w - 56320) + 65536) by congruence. subst cp.
        eapply (G _ _ ((v - 55296) * 1024 + (w - 56320) + 65536)); [apply enc_char; [lia|unfold surrogate; lia]| | |exact H]; [|lia]. intros l A.
        replace ((v - 55296) * 1024 + (w - 56320) + 65536) with (65536 + (v - 55296) * 1024 + (w - 56320)) by lia.
        exact (st_pair _ _ (String g1 (String g2 (String g3 (String g4 "")))) _ _ _ Hv ltac:(lia) Hw ltac:(lia) A).
      + assert (S : ~ surrogate v) by (unfold is_surr in Sv; rewrite andb_false_iff, N.leb_gt, N.ltb_ge in Sv; unfold surrogate; lia).
        eapply (G _ _ v); [apply enc_char; [lia|exact S]| | |exact H]; [|lia]. intros l A. now apply st_u.
    - destruct (esc1 e) as [x|] eqn:Ex; [|discriminate]. apply esc1_escapes in Ex as (n & I & ->). destruct (short_not_u _ _ I) as [_ Ln].
      eapply (G _ _ n); [| | |exact H]; [|intros l A; now apply st_escape|lia]. rewrite <- (code_ch n) at 2 by lia. constructor. rewrite code_ch; lia. }
  destruct ((bt a <? 32) || Ascii.eqb a qt) eqn:Es; [discriminate|]. apply orb_false_iff in Es as [Es1 Es2]. apply N.ltb_ge in Es1.
  assert (N34 : code a <> 34) by (intros E; apply (code_inj _ qt) in E; subst; discriminate).
  assert (N92 : code a <> 92) by (intros E; apply (code_inj _ bs) in E; subst; discriminate).
  destruct (bt a <? 128) eqn:E1.
  { apply N.ltb_lt in E1. eapply G; [apply u8_1; exact E1| | |exact H]; [|lia]. intros l A. exact (st_char _ _ _ _ (u8_1 a E1) Es1 N34 N92 A). }
  apply ltb_code in E1.
  assert (R : (forall w n r', utf8_char w n -> String a s1 <> (w ++ r')%string) -> app_opt repl (unq s1) = Some t -> str_means (String a s1) t).
  { intros NC. eapply G; [apply repl_char| |lia]. intros l A. exact (st_byte _ _ _ E1 NC A). }
  assert (BIG : forall w n r, utf8_char w n -> (128 <= n) -> (String.length r <= k)%nat -> app_opt w (unq r) = Some t -> str_means (w ++ r) t).
  { intros w n r U B Lr. eapply G; [exact U| |exact Lr]. intros l A. apply st_char; auto; lia. }
  destruct s1 as [|b s2]; [apply R; [apply no_char; auto; discriminate|exact H]|]. cbn [String.length] in L.
  destruct (ok2 a b) eqn:E2.
  { apply ok2_char in E2 as (n & U). apply (BIG _ n s2 U); [inversion U; lia|lia|exact H]. }
  destruct s2 as [|c s3]; [apply R; [apply no_char; auto; intros; try discriminate; congruence|exact H]|]. cbn [String.length] in L.
  destruct (ok3 a b c) eqn:E3.
  { apply ok3_char in E3 as (n & U). apply (BIG _ n s3 U); [inversion U; lia|lia|exact H]. }
  destruct s3 as [|d s4]; [apply R; [apply no_char; auto; intros; try discriminate; congruence|exact H]|]. cbn [String.length] in L.
  destruct (ok4 a b c d) eqn:E4.
  { apply ok4_char in E4 as (n & U). apply (BIG _ n s4 U); [inversion U; lia|lia|exact H]. }
  apply R; [apply no_char; auto; intros; congruence|exact H].
Qed.

Lemma unq_u a b c d r : unq (u_escape (String a (String b (String c (String d "")))) ++ r)%string =
  match hex4 a b c d with
  | None => None
  | Some v =>
      if is_surr v then
        match r with
        | String b1 (String b2 (String g1 (String g2 (String g3 (String g4 r'))))) =>
            if Ascii.eqb b1 bs && (bt b2 =? 117) then
              match hex4 g1 g2 g3 g4 with
              | Some w => match dec_pair v w with Some cp => app_opt (enc_rune cp) (unq r') | None => app_opt repl (unq r) end
              | None => app_opt repl (unq r)
              end
            else app_opt repl (unq r)
        | _ => app_opt repl (unq r)
        end
      else app_opt (enc_rune v) (unq r)
  end.
Proof. reflexivity. Qed.
Lemma unq_pair a b c d a' b' c' d' hi lo r : hex4 a b c d = Some hi -> 55296 <= hi <= 56319 -> hex4 a' b' c' d' = Some lo -> 56320 <= lo <= 57343 ->
  unq (u_escape (String a (String b (String c (String d "")))) ++ u_escape (String a' (String b' (String c' (String d' "")))) ++ r)%string =
  app_opt (enc_rune (65536 + (hi - 55296) * 1024 + (lo - 56320))) (unq r).
Proof.
  intros H1 L1 H2 L2. rewrite unq_u, H1. unfold u_escape. cbn [String.append].
  assert (is_surr hi = true) as -> by (unfold is_surr; rewrite andb_true_iff, N.leb_le, N.ltb_lt; lia). rewrite H2. unfold dec_pair.
  replace ((55296 <=? hi) && (hi <? 56320) && (56320 <=? lo) && (lo <? 57344)) with true by (symmetry; rewrite !andb_true_iff, !N.leb_le, !N.ltb_lt; lia).
  change (Ascii.eqb backslash bs && (bt "u" =? 117)) with true. cbv iota. f_equal. f_equal. lia.
Qed.
Lemma unq_lone a b c d n r : hex4 a b c d = Some n -> surrogate n ->
  (forall h' lo r', n <= 56319 -> hex_text h' lo -> 56320 <= lo <= 57343 -> r <> (u_escape h' ++ r')%string) ->
  unq (u_escape (String a (String b (String c (String d "")))) ++ r)%string = app_opt repl (unq r).
Proof.
  intros Hh S NP. rewrite unq_u, Hh. assert (is_surr n = true) as -> by (unfold is_surr, surrogate in *; rewrite andb_true_iff, N.leb_le, N.ltb_lt; lia).
  generalize (app_opt repl (unq r)). intros X.
  destruct r as [|b1 [|b2 [|g1 [|g2 [|g3 [|g4 r']]]]]]; try reflexivity.
  destruct (Ascii.eqb b1 bs && (bt b2 =? 117)) eqn:Eb; [|reflexivity].
  apply andb_true_iff in Eb as [Eb1 Eb2]. apply Ascii.eqb_eq in Eb1 as ->. assert (b2 = "u"%char) as -> by (apply N.eqb_eq in Eb2; apply code_inj; exact Eb2).
  destruct (hex4 g1 g2 g3 g4) as [w|] eqn:Hw; [|reflexivity]. unfold dec_pair.
  destruct ((55296 <=? n) && (n <? 56320) && (56320 <=? w) && (w <? 57344)) eqn:Eq; [|reflexivity]. exfalso.
  rewrite !andb_true_iff, !N.leb_le, !N.ltb_lt in Eq. apply hex4_text in Hw. eapply NP; [|exact Hw| |reflexivity]; lia.
Qed.
Lemma unq_complete raw l : str_text raw l -> exists t, unq raw = Some t /\ utf8_string t l.
Proof.
  induction 1 as [|w n r l U A B C _ (t & IH & V)|a r l A NC _ (t & IH & V)|e n r l I _ (t & IH & V)|h n r l Hh S _ (t & IH & V)|h hi h' lo r l Hh Hi Hh' Lo _ (t & IH & V)|h n r l Hh S NP _ (t & IH & V)].
  - exists ""%string. split; [reflexivity|constructor].
  - exists (w ++ t)%string. split; [|now constructor]. inversion U as [a L|a b x y m Q1 Q2 Q3 Q4 Q5 Q6|a b c x y z m Q1 Q2 Q3 Q4 Q5 Q6 Q7 Q8 Q9|a b c d x y z v m Q1 Q2 Q3 Q4 Q5 Q6 Q7 Q8 Q9 Q10]; subst; cbn [String.append unq].
    + assert (Ascii.eqb a bs = false) as -> by (apply Ascii.eqb_neq; intros ->; now apply C).
      assert (Ascii.eqb a qt = false) as -> by (apply Ascii.eqb_neq; intros ->; now apply B).
      unfold bt. change N_of_ascii with code. rewrite (proj2 (N.ltb_ge (code a) 32)) by lia. rewrite (proj2 (N.ltb_lt (code a) 128)) by lia. cbn [orb]. now rewrite IH.
    + assert (O : ok2 a b = true) by (apply ok2_char; eauto). assert (Hi := ok2_hi _ _ O). destruct (hi_not_special a Hi) as [-> ->]. rewrite Hi, O, IH. reflexivity.
    + assert (O : ok3 a b c = true) by (apply ok3_char; eauto). destruct (ok3_hi _ _ _ O) as [Hi Hj]. destruct (hi_not_special a Hi) as [-> ->]. rewrite Hi, Hj, O, IH. reflexivity.
    + assert (O : ok4 a b c d = true) by (apply ok4_char; eauto). destruct (ok4_hi _ _ _ _ O) as (Hi & Hj & Hk). destruct (hi_not_special a Hi) as [-> ->]. rewrite Hi, Hj, Hk, O, IH. reflexivity.
  - exists (repl ++ t)%string. split; [|constructor; [apply repl_char|exact V]]. cbn [unq].
    assert (Hi : (bt a <? 128) = false) by (apply N.ltb_ge; exact A). destruct (hi_not_special a Hi) as [-> ->]. rewrite Hi.
    destruct r as [|b s2]; [now rewrite IH|].
    destruct (ok2 a b) eqn:E2; [exfalso; apply ok2_char in E2 as (n & U); now apply (NC _ _ s2 U)|].
    destruct s2 as [|c s3]; [now rewrite IH|].
    destruct (ok3 a b c) eqn:E3; [exfalso; apply ok3_char in E3 as (n & U); now apply (NC _ _ s3 U)|].
    destruct s3 as [|d s4]; [now rewrite IH|].
    destruct (ok4 a b c d) eqn:E4; [exfalso; apply ok4_char in E4 as (n & U); now apply (NC _ _ s4 U)|]. now rewrite IH.
  - destruct (short_not_u _ _ I) as [Nu Ln]. exists (String (ch n) t). split; [|].
    + cbn [unq]. change (Ascii.eqb backslash bs) with true. cbv iota. rewrite Nu. rewrite (proj2 (esc1_escapes e (ch n))) by eauto. now rewrite IH.
    + apply (u8_cons (String (ch n) "") n); [|exact V]. rewrite <- (code_ch n) at 2 by lia. constructor. rewrite code_ch; lia.
  - apply hex_text_form in Hh as (a & b & c & d & -> & Hh). exists (enc_rune n ++ t)%string. split.
    + rewrite unq_u, Hh.
      assert (is_surr n = false) as -> by (unfold is_surr, surrogate in *; rewrite andb_false_iff, N.leb_gt, N.ltb_ge; lia). now rewrite IH.
    + constructor; [|exact V]. apply enc_char; [|exact S]. apply hex4_text in Hh. destruct Hh as (? & ? & ? & ? & x & y & z & w & _ & A & B & C & D & ->).
      assert (X : forall c x, hex_digit c x -> x < 16).
      { intros cc xx Hc. apply hexval_digit in Hc. assert (X : forallb (fun c => match hexval c with Some m => m <? 16 | None => true end) all_ascii = true) by (vm_compute; reflexivity).
        apply (fun X => ascii_sweep _ X cc) in X. cbv beta in X. rewrite Hc in X. now apply N.ltb_lt. }
      apply X in A, B, C, D. lia.
  - apply hex_text_form in Hh as (a & b & c & d & -> & Hh). apply hex_text_form in Hh' as (a' & b' & c' & d' & -> & Hh').
    exists (enc_rune (65536 + (hi - 55296) * 1024 + (lo - 56320)) ++ t)%string. split.
    + now rewrite (unq_pair _ _ _ _ _ _ _ _ _ _ _ Hh Hi Hh' Lo), IH.
    + constructor; [|exact V]. apply enc_char; [lia|unfold surrogate; lia].
  - apply hex_text_form in Hh as (a & b & c & d & -> & Hh). exists (repl ++ t)%string. split; [|constructor; [apply repl_char|exact V]].
    now rewrite (unq_lone _ _ _ _ _ _ Hh S NP), IH.
Qed.

Lemma unq_exact raw s : unq raw = Some s <-> str_means raw s.
Proof.
  split; [eapply unq_sound; reflexivity|]. intros (l & A & B). apply unq_complete in A as (t & E & C). now rewrite (string_inj _ _ _ B C).
Qed.

(** *** Writing a string *)
Lemma utf8_spec s : utf8 s <-> exists l, utf8_string s l.
Proof.
  split.
  - induction 1 as [|a s L _ (l & IH)|a b s O _ (l & IH)|a b c s O _ (l & IH)|a b c d s O _ (l & IH)].
    + exists []. constructor.
    + exists (code a :: l). exact (u8_cons _ _ _ _ (u8_1 a L) IH).
    + apply ok2_char in O as (n & O). exists (n :: l). exact (u8_cons _ _ _ _ O IH).
    + apply ok3_char in O as (n & O). exists (n :: l). exact (u8_cons _ _ _ _ O IH).
    + apply ok4_char in O as (n & O). exists (n :: l). exact (u8_cons _ _ _ _ O IH).
  - intros (l & H). induction H as [|w n s l U _ IH]; [constructor|]. assert (V := U). destruct U; cbn [String.append].
    + now apply utf8_1.
    + apply utf8_2; [apply ok2_char; eauto|exact IH].
    + apply utf8_3; [apply ok3_char; eauto|exact IH].
    + apply utf8_4; [apply ok4_char; eauto|exact IH].
Qed.

Lemma bytes_of_chars s l : utf8_string s l -> byte_chars s l.
Proof. induction 1; now constructor. Qed.
Lemma bytes_fun s l l' : byte_chars s l -> byte_chars s l' -> l = l'.
Proof.
  intros H. revert l'. induction H as [|w n s l U H IH|a s l NC H IH]; intros l' H'.
  - inversion H' as [|w n s l U H0 E|]; [reflexivity|]. exfalso. destruct U; discriminate E.
  - inversion H' as [E|w' n' s' l0 U' H0 E|a s' l0 NC H0 E]; subst.
    + exfalso. destruct U; discriminate E.
    + destruct (char_prefix _ _ _ _ _ _ U' U E) as [-> ->]. rewrite (char_fun _ _ _ U' U). f_equal. auto.
    + exfalso. exact (NC _ _ _ U E).
  - inversion H' as [E|w' n' s' l0 U' H0 E|a' s' l0 NC' H0 E]; subst.
    + exfalso. symmetry in E. exact (NC _ _ _ U' E).
    + f_equal. auto.
Qed.

Lemma safe_app a b : safe_text a -> safe_text b -> safe_text (a ++ b)%string.
Proof.
  intros (l & A & B) (l' & C & D). exists (l ++ l'). split; [|now apply Forall_app]. clear B D.
  induction A as [|w n s l U _ IH]; [exact C|]. cbn [app]. rewrite sapp_assoc. now constructor.
Qed.
Lemma safe_nil : safe_text "".
Proof. exists []. split; constructor. Qed.
Definition safe_ascii (c : ascii) : bool := (32 <=? code c) && (code c <? 128) && negb (existsb (N.eqb (code c)) [38; 60; 62]).
Fixpoint all_safe (s : string) : bool := match s with EmptyString => true | String c s' => safe_ascii c && all_safe s' end.
Lemma all_safe_text s : all_safe s = true -> safe_text s.
Proof.
  induction s as [|c s IH]; intros H; [exact safe_nil|]. cbn [all_safe] in H. apply andb_true_iff in H as [A B].
  change (String c s) with (String c "" ++ s)%string. apply safe_app; [|auto]. unfold safe_ascii in A. rewrite !andb_true_iff, N.leb_le, N.ltb_lt, negb_true_iff in A.
  destruct A as [[A1 A2] A3]. exists [code c]. split; [exact (u8_cons _ _ "" [] (u8_1 c A2) u8_nil)|]. constructor; [|constructor]. split; [exact A1|].
  intros I. assert (X : existsb (N.eqb (code c)) [38; 60; 62] = true); [|congruence]. apply existsb_exists. exists (code c). rewrite N.eqb_refl. split; [|reflexivity].
  cbn in I |- *. lia.
Qed.
Lemma safe_char_text w n : utf8_char w n -> safe_char n -> safe_text w.
Proof. intros U S. exists [n]. split; [rewrite <- (sapp_nil_r w); constructor; [exact U|constructor]|constructor; [exact S|constructor]]. Qed.

Lemma esc_ascii_safe a : bt a < 128 -> safe_text (esc_ascii a).
Proof.
  intros L. apply all_safe_text. assert (X : forallb (fun a => negb (bt a <? 128) || all_safe (esc_ascii a)) all_ascii = true) by (vm_compute; reflexivity).
  apply (fun X => ascii_sweep _ X a) in X. cbv beta in X. rewrite (proj2 (N.ltb_lt _ _) L) in X. exact X.
Qed.
Lemma esc3_safe a b c n : utf8_char (String a (String b (String c ""))) n -> safe_text (esc3 a b c).
Proof.
  intros U. unfold esc3. destruct ((bt a =? 226) && (bt b =? 128) && ((bt c =? 168) || (bt c =? 169))) eqn:E.
  - apply andb_true_iff in E as [_ E]. apply orb_true_iff in E. apply all_safe_text.
    destruct E as [E|E]; apply N.eqb_eq in E; rewrite E; reflexivity.
  - apply (safe_char_text _ n U). inversion U as [| |? ? ? x y z m Q1 Q2 Q3 Q4 Q5 Q6 Q7 Q8 Q9|]; subst. split; [lia|]. intros I.
    unfold bt in E. change N_of_ascii with code in E. rewrite Q1, Q2, Q3 in E. rewrite !andb_false_iff, orb_false_iff, !N.eqb_neq in E. cbn in I. lia.
Qed.

Lemma quote_reads : forall k s, (String.length s <= k)%nat -> exists t l, unq (quote s) = Some t /\ byte_chars s l /\ utf8_string t l /\ safe_text (quote s).
Proof.
  induction k as [|k IH]; intros s L.
  { destruct s; [exists ""%string, []; repeat split; try constructor; apply safe_nil | cbn in L; lia]. }
  destruct s as [|a s1]; [exists ""%string, []; repeat split; try constructor; apply safe_nil|]. cbn [String.length] in L. cbn [quote].
  destruct (bt a <? 128) eqn:E1.
  { apply N.ltb_lt in E1. destruct (IH s1 ltac:(lia)) as (t & l & A & B & C & D). exists (String a "" ++ t)%string, (code a :: l).
    rewrite unq_esc_ascii, A by exact E1. split; [reflexivity|]. split; [exact (bc_char _ _ _ _ (u8_1 a E1) B)|]. split; [exact (u8_cons _ _ _ _ (u8_1 a E1) C)|].
    apply safe_app; [now apply esc_ascii_safe|exact D]. }
  destruct (hi_not_special a E1) as [N1 N2].
  assert (R : (forall w n r, utf8_char w n -> String a s1 <> (w ++ r)%string) -> exists t l, unq (esc_fffd ++ quote s1) = Some t /\ byte_chars (String a s1) l /\ utf8_string t l /\ safe_text (esc_fffd ++ quote s1)).
  { intros NC. destruct (IH s1 ltac:(lia)) as (t & l & A & B & C & D). exists (repl ++ t)%string, (replacement :: l). split; [|split; [now constructor|split; [constructor; [apply repl_char|exact C]|]]].
    - unfold esc_fffd. cbn [String.append unq]. change (Ascii.eqb bs bs) with true. cbv iota. change (bt "u" =? 117) with true. cbv iota.
      change (hex4 "f" "f" "f" "d") with (Some 65533). cbv iota. change (is_surr 65533) with false. cbv iota. rewrite A. reflexivity.
    - apply safe_app; [apply all_safe_text; reflexivity|exact D]. }
  assert (BIG : forall w n r, utf8_char w n -> 128 <= n -> (forall x, unq (w ++ x) = app_opt w (unq x)) -> n <> 8232 -> n <> 8233 -> (String.length r <= k)%nat ->
    exists t l, unq (w ++ quote r) = Some t /\ byte_chars (w ++ r) l /\ utf8_string t l /\ safe_text (w ++ quote r)).
  { intros w n r U Ln Hu X1 X2 Lr. destruct (IH r Lr) as (t & l & A & B & C & D). exists (w ++ t)%string, (n :: l). rewrite Hu, A. split; [reflexivity|]. split; [now constructor|]. split; [now constructor|].
    apply safe_app; [|exact D]. apply (safe_char_text _ n U). split; [lia|]. cbn. lia. }
  assert (E1' := ltb_code _ E1).
  destruct s1 as [|b s2]; [apply R; apply no_char; auto; discriminate|]. cbn [String.length] in L.
  destruct (ok2 a b) eqn:E2.
  { assert (O := E2). apply ok2_char in O as (n & U). assert (128 <= n < 2048) by (inversion U; lia). apply (BIG (String a (String b "")) n s2 U); try lia.
    intros x. cbn [String.append unq]. now rewrite N1, N2, E1, E2. }
  destruct s2 as [|c s3]; [apply R; apply no_char; auto; intros; try discriminate; congruence|]. cbn [String.length] in L.
  destruct (ok3 a b c) eqn:E3.
  { assert (O := E3). apply ok3_char in O as (n & U). destruct (IH s3 ltac:(lia)) as (t & l & A & B & C & D). exists (String a (String b (String c "")) ++ t)%string, (n :: l).
    rewrite unq_esc3, A by exact E3. split; [reflexivity|]. split; [exact (bc_char _ _ _ _ U B)|]. split; [exact (u8_cons _ _ _ _ U C)|].
    apply safe_app; [now apply (esc3_safe a b c n)|exact D]. }
  destruct s3 as [|d s4]; [apply R; apply no_char; auto; intros; try discriminate; congruence|]. cbn [String.length] in L.
  destruct (ok4 a b c d) eqn:E4.
  { assert (O := E4). apply ok4_char in O as (n & U). assert (65536 <= n) by (inversion U; lia). apply (BIG (String a (String b (String c (String d "")))) n s4 U); try lia.
    intros x. cbn [String.append unq]. now rewrite N1, N2, E1, E2, E3, E4. }
  apply R; apply no_char; auto; intros; congruence.
Qed.
Lemma quote_exact s : exists l, byte_chars s l /\ str_text (quote s) l /\ safe_text (quote s).
Proof.
  destruct (quote_reads _ s (le_n _)) as (t & l & A & B & C & D). exists l. split; [exact B|]. split; [|exact D].
  apply unq_exact in A as (l' & A1 & A2). now rewrite (string_fun _ _ C _ A2).
Qed.
