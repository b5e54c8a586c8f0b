(** Lemmas: canonical JSON tells the texts of objects apart. *)
From Coq Require Import QArith Qabs Qpower Lqa Lia Permutation.
From Verif Require Import GoStr GoStrFacts Base64 Base64Facts JsonStr JsonStrFacts NumSpec NumSpecFacts StrSpec StrSpecFacts Json JsonFacts JsonSpec JsonSpecFacts Float FloatFacts NumFmtFacts
  Consts Enums GoTypes Schema GoVal GoValFacts Time TimeFacts Codec CodecSpec CodecFacts CodecRound TextSpec StructFacts TextFacts AnyOrderFacts SettleFacts
  Double DoubleFacts DoubleSpec DoubleReal CanonSpec IjsonSpec IjsonFacts OrderSpec FingerSpec.
From Verif Require PropIdText.
Close Scope Q_scope.

(** ** Safe integers *)
Section Ints.
Local Open Scope Q_scope.
Lemma safe_double k : (0 <= k <= 2 ^ 53)%Z -> is_double (inject_Z k).
Proof.
  intros K. destruct (Z.eq_dec k (2 ^ 53)) as [->|N].
  - exists 1%Z, 53%Z. split; [split; lia|]. reflexivity.
  - exists k, 0%Z. split; [split; lia|]. change (Qpower 2 0) with 1. now rewrite Qmult_1_r.
Qed.
Lemma decimal_int m e : (0 <= e)%Z -> decimal m e == inject_Z (Z.of_N m * 10 ^ e).
Proof. intros E. unfold decimal. rewrite inject_Z_mult, Zpower_Qpower by exact E. reflexivity. Qed.
Lemma Qabs_self x y : x == y -> Qabs (x - y) == 0.
Proof. intros ->. setoid_replace (y - y) with 0 by ring. reflexivity. Qed.
Lemma Qabs_0 x : Qabs x <= 0 -> x == 0.
Proof. intros H. apply Qabs_Qle_condition in H. lra. Qed.
(** An integer below 2^53 is its own shortest decimal. *)
Lemma safe_shortest neg m e : lowest m e -> (0 <= e)%Z -> (Z.of_N m * 10 ^ e < 2 ^ 53)%Z -> stands_for neg (inject_Z (Z.of_N m * 10 ^ e)) (FFin neg m e).
Proof.
  intros L E B. set (k := (Z.of_N m * 10 ^ e)%Z) in *. assert (K0 : (0 <= k)%Z) by (unfold k; apply Z.mul_nonneg_nonneg; [lia|apply Z.pow_nonneg; lia]).
  assert (D := safe_double k ltac:(lia)). assert (V := decimal_int m e E). fold k in V.
  split; [exact D|]. split; [change 0 with (inject_Z 0); now rewrite <- Zle_Qle|]. exists m, e. split; [reflexivity|].
  split; [|split; [exact L|]].
  - split; [|split; [exact D|]].
    + unfold in_range. rewrite V, Qabs_pos by (change 0 with (inject_Z 0); now rewrite <- Zle_Qle). apply Qlt_trans with (inject_Z (2 ^ 53)); [now rewrite <- Zlt_Qlt|reflexivity].
    + intros z Z. rewrite (Qabs_self _ _ V). split; [apply Qabs_nonneg|]. intros Q. left. symmetry in Q. assert (X : Qabs (decimal m e - z) <= 0) by (rewrite Q; apply Qle_refl). apply Qabs_0 in X. rewrite V in X. lra.
  - intros m' e' (R & _ & N). split.
    + intros n M'. destruct (N.lt_ge_cases m (10 ^ n)) as [|M]; [assumption|exfalso].
      assert (P : (0 < m)%N). { assert (X : (0 < 10 ^ n)%N) by (apply N.neq_0_lt_0, N.pow_nonzero; lia). lia. }
      assert (L' : (m mod 10 <> 0)%N) by (destruct L as [[-> _]|L]; [lia|exact L]).
      assert (T : forall x, (0 <= x)%Z -> (1 <= 10 ^ x)%Z) by (intros x X; apply (Z.pow_le_mono_r 10 0 x); lia).
      assert (MN : (10 ^ Z.of_N n <= Z.of_N m)%Z) by (change 10%Z with (Z.of_N 10); rewrite <- N2Z.inj_pow; lia).
      assert (MN' : (Z.of_N m' < 10 ^ Z.of_N n)%Z) by (change 10%Z with (Z.of_N 10); rewrite <- N2Z.inj_pow; lia).
      destruct (Z_le_gt_dec 0 e') as [E'|E'].
      * assert (V' := decimal_int m' e' E'). set (k' := (Z.of_N m' * 10 ^ e')%Z) in *.
        assert (K0' : (0 <= k')%Z) by (unfold k'; apply Z.mul_nonneg_nonneg; [lia|apply Z.pow_nonneg; lia]).
        destruct (Z_le_gt_dec k' (2 ^ 53)) as [B'|B'].
        -- destruct (N _ (safe_double k' ltac:(lia))) as [X _]. rewrite (Qabs_self _ _ V') in X. apply Qabs_0 in X. rewrite V' in X.
           assert (Q : inject_Z k == inject_Z k') by lra. apply (proj1 (inject_Z_injective k k')) in Q. unfold k, k' in Q.
           destruct (Z_le_gt_dec e' e) as [C|C].
           { assert (X1 : (10 ^ e' <= 10 ^ e)%Z) by (apply Z.pow_le_mono_r; lia). assert (T1 := T e' E').
             assert (X2 := Z.mul_le_mono_nonneg_l _ _ (Z.of_N m) ltac:(lia) X1). assert (X3 : (Z.of_N m' * 10 ^ e' < Z.of_N m * 10 ^ e')%Z) by (apply Z.mul_lt_mono_pos_r; [lia|exact (Z.lt_le_trans _ _ _ MN' MN)]).
             rewrite Q in X2. exact (Z.lt_irrefl _ (Z.lt_le_trans _ _ _ X3 X2)). }
           replace e' with (e + (1 + (e' - e - 1)))%Z in Q by lia. rewrite Z.pow_add_r, (Z.pow_add_r 10 1) in Q by lia. assert (T1 := T e E).
           assert (Q1 : (Z.of_N m = Z.of_N m' * 10 ^ (e' - e - 1) * 10)%Z).
           { apply (Z.mul_reg_r _ _ (10 ^ e)); [lia|]. rewrite Q. ring. }
           assert (Y : (Z.of_N m mod 10 = 0)%Z) by (rewrite Q1; apply Z.mod_mul; lia). apply L'. apply N2Z.inj. rewrite N2Z.inj_mod. exact Y.
        -- destruct (N _ (safe_double (2 ^ 53) ltac:(lia))) as [X _]. rewrite V' in X.
           rewrite !Qabs_pos in X by (unfold Qminus; rewrite <- inject_Z_opp, <- inject_Z_plus; change 0 with (inject_Z 0); rewrite <- Zle_Qle; lia).
           unfold Qminus in X; rewrite <- !inject_Z_opp, <- !inject_Z_plus, <- Zle_Qle in X. lia.
      * destruct (N _ (safe_double 0 ltac:(lia))) as [X _].
        assert (Y : decimal m' e' * 10 < inject_Z k).
        { apply Qlt_le_trans with (inject_Z (10 ^ Z.of_N n)).
          - assert (Z : decimal m' e' * 10 <= inject_Z (Z.of_N m')).
            { unfold decimal. setoid_replace (inject_Z (Z.of_N m')) with (inject_Z (Z.of_N m') * 1) at 2 by ring. rewrite <- Qmult_assoc. 
              rewrite !(Qmult_comm (inject_Z (Z.of_N m'))). apply Qmult_le_compat_r; [|change 0 with (inject_Z 0); rewrite <- Zle_Qle; lia].
              assert (W : Qpower 10 e' * 10 == Qpower 10 (e' + 1)) by (rewrite Qpower_plus by (intros W; discriminate W); reflexivity).
              rewrite W. replace (e' + 1)%Z with (- (- e' - 1))%Z by lia. rewrite Qpower_opp. 
              assert (W1 : 1 <= Qpower 10 (- e' - 1)). { change 10 with (inject_Z 10). rewrite <- Zpower_Qpower by lia. change 1 with (inject_Z 1). rewrite <- Zle_Qle. apply T. lia. }
              apply Qle_shift_inv_r; [lra|]. lra. }
            eapply Qle_lt_trans; [exact Z|]. rewrite <- Zlt_Qlt. exact MN'.
          - rewrite <- Zle_Qle. unfold k. assert (T1 := T e E). assert (X2 := Z.mul_le_mono_nonneg_l _ _ (Z.of_N m) ltac:(lia) T1). lia. }
        assert (Y0 := decimal_nonneg m' e'). rewrite (Qabs_pos (decimal m' e' - inject_Z 0)) in X by (change (inject_Z 0) with 0; lra).
        rewrite Qabs_neg in X by lra. change (inject_Z 0) with 0 in X. lra.
    + intros _. rewrite (Qabs_self _ _ V). split; [apply Qabs_nonneg|]. intros Q. left. symmetry in Q.
      assert (X : Qabs (decimal m' e' - inject_Z k) <= 0) by (rewrite Q; apply Qle_refl). apply Qabs_0 in X. rewrite V. lra.
Qed.
End Ints.

Lemma int_can z : (Z.abs z < 2 ^ 53)%Z -> exists m e, json_num go_rnd (Z_to_string z) (FFin (z <? 0)%Z m e) /\ fmt_float (FFin (z <? 0)%Z m e) = Some (Z_to_string z) /\ (m = 0%N -> z = 0%Z /\ e = 0%Z).
Proof.
  intros B. assert (F := int_float go_rnd z). unfold parse_float in F. assert (O := num_ok_int z). unfold int_to_float in F.
  destruct (norm10 (Z.to_N (Z.abs z)) 0) as [m e] eqn:E. apply norm10_spec in E as (L & i & V & X).
  assert (E0 : (m = 0%N /\ e = 0%Z /\ z = 0%Z) \/ (m <> 0%N /\ e = Z.of_nat i)).
  { destruct (N.eq_dec m 0) as [->|M]; [left|right; rewrite (X M); split; [exact M|lia]]. destruct L as [[_ ->]|L]; [|now destruct L]. repeat split. lia. }
  assert (W : (Z.of_N m * 10 ^ e = Z.abs z)%Z).
  { destruct E0 as [(-> & -> & ->)|(M & ->)]; [reflexivity|]. rewrite <- (Z2N.id (Z.abs z)) by lia. rewrite V, N2Z.inj_mul, N2Z.inj_pow, nat_N_Z. reflexivity. }
  assert (P : (0 <= e)%Z) by (destruct E0 as [(_ & -> & _)|(_ & ->)]; lia).
  assert (SS := safe_shortest (z <? 0)%Z m e L P ltac:(lia)). apply go_rnd_own in SS. rewrite SS in F. exists m, e. split; [|split].
  - destruct (dec_of_lexeme (Z_to_string z)) as [[[n0 m0] e0]|] eqn:D; [|discriminate].
    split; [now apply num_ok_exact|]. exists n0, m0, e0. split; [now apply dec_exact|exact F].
  - rewrite Z_to_string_sgn. cbn [fmt_float]. assert (FA : fmt_abs m e = N_to_string (Z.to_N (Z.abs z))).
    { destruct E0 as [(-> & -> & ->)|(M & ->)]; [reflexivity|]. rewrite V, PropIdText.digits_shift by exact M. unfold fmt_abs. destruct (N.eqb_spec m 0) as [|_]; [contradiction|].
      destruct (digits_magnitude m M) as (k & K & L1 & L2). rewrite K.
      assert (T : (Z.of_nat (S k) + Z.of_nat i <= 21)%Z).
      { destruct (Z_le_gt_dec (Z.of_nat (S k) + Z.of_nat i) 21) as [|C]; [assumption|exfalso].
        assert (Y : (10 ^ (Z.of_nat k) * 10 ^ Z.of_nat i <= Z.of_N m * 10 ^ Z.of_nat i)%Z).
        { apply Z.mul_le_mono_nonneg_r; [apply Z.pow_nonneg; lia|]. apply N2Z.inj_le in L1. rewrite N2Z.inj_pow, nat_N_Z in L1. exact L1. }
        rewrite <- Z.pow_add_r in Y by lia. assert (Y1 : (10 ^ 21 <= 10 ^ (Z.of_nat k + Z.of_nat i))%Z) by (apply Z.pow_le_mono_r; lia).
        change (10 ^ 21)%Z with 1000000000000000000000%Z in Y1. change (2 ^ 53)%Z with 9007199254740992%Z in B. lia. }
      destruct (Z.ltb_spec (Z.of_nat (S k) + Z.of_nat i) (-5)); [lia|]. destruct (Z.ltb_spec 21 (Z.of_nat (S k) + Z.of_nat i)); [lia|]. cbn [orb].
      destruct (Z.leb_spec (Z.of_nat (S k) + Z.of_nat i) 0); [lia|]. destruct (Z.leb_spec (Z.of_nat (S k)) (Z.of_nat (S k) + Z.of_nat i)); [|lia].
      replace (Z.to_nat (Z.of_nat (S k) + Z.of_nat i - Z.of_nat (S k))) with i by lia. reflexivity. }
    rewrite FA. destruct (z <? 0)%Z; reflexivity.
  - intros ->. destruct E0 as [(_ & -> & ->)|(M & _)]; [auto|congruence].
Qed.

(** ** Values of texts *)
(** [can j a]: the syntax tree [j], printed without blanks, has the value [a] and
    every string and number in it is spelled as the encoder does. *)
Inductive can : json -> cval -> Prop :=
| cn_null : can JNull CNull
| cn_bool b : can (JBool b) (CBool b)
| cn_num l neg m e : json_num go_rnd l (FFin neg m e) -> fmt_float (FFin neg m e) = Some l -> (m = 0%N -> neg = false /\ e = 0%Z) -> can (JNum l) (CNum (FFin neg m e))
| cn_str s : utf8b s = true -> can (JStr (quote s)) (CStr s)
| cn_arr l vs : Forall2 can l vs -> can (JArr l) (CArr vs)
| cn_obj l vs : Forall2 (fun kj kv => fst kj = fst kv /\ utf8b (fst kj) = true /\ can (snd kj) (snd kv)) l vs -> can (JObj l) (CObj vs).
Definition canj (j : json) : Prop := exists a, can j a.
Lemma canj_arr l : Forall canj l -> canj (JArr l).
Proof.
  intros H. assert (X : exists vs, Forall2 can l vs). { induction H as [|j l (a & A) _ (vs & V)]; [exists []; constructor|]. exists (a :: vs). now constructor. }
  destruct X as (vs & X). exists (CArr vs). now constructor.
Qed.
Lemma canj_obj l : Forall (fun kv => utf8b (fst kv) = true /\ canj (snd kv)) l -> canj (JObj l).
Proof.
  intros H. assert (X : exists vs, Forall2 (fun kj kv => fst kj = fst kv /\ utf8b (fst kj) = true /\ can (snd kj) (snd kv)) l vs).
  { induction H as [|[k j] l (U & a & A) _ (vs & V)]; [exists []; constructor|]. exists ((k, a) :: vs). constructor; auto. }
  destruct X as (vs & X). exists (CObj vs). now constructor.
Qed.

(** The printed text has the value. *)
Lemma utf8_clean s : utf8b s = true -> clean_str (quote s) s.
Proof. intros U. destruct (quote_clean s) as (x & C & X). now rewrite (X U) in C. Qed.
Notation jcr := (jc (json_num go_rnd) clean_str).
Lemma can_jc j : forall a, can j a -> jcr a (print j).
Proof.
  induction j as [|b|l|r|l IH|l IH] using json_ind'; intros a H; inversion H; subst; cbn [print].
  - constructor.
  - destruct b; constructor.
  - now constructor.
  - constructor. now apply utf8_clean.
  - destruct l as [|x l]; [inversion H1; subst; exact (jc_arr0 _ _ "" blank_nil)|]. apply (jc_arr _ _ _ (join "," (map print (x :: l)))). clear H.
    revert vs H1. revert x IH. induction l as [|y l IHl]; intros x IH vs H1; inversion H1 as [|? v ? vs' A B]; subst; inversion IH as [|? ? I1 I2]; subst.
    + inversion B; subst. apply jce1. now apply I1.
    + apply jce2; [now apply I1|]. now apply IHl.
  - destruct l as [|x l]; [inversion H1; subst; exact (jc_obj0 _ _ "" blank_nil)|]. clear H. set (g := fun kv : string * json => (q (quote (fst kv)) ++ ":" ++ print (snd kv))%string).
    apply (jc_obj _ _ _ (join "," (map g (x :: l)))).
    revert vs H1. revert x IH. induction l as [|y l IHl]; intros x IH vs H1; inversion H1 as [|? [k' v] ? vs' (Q & U & A) B]; subst; inversion IH as [|? ? I1 I2]; subst; cbn [fst snd] in *; subst k'.
    + inversion B; subst. apply jcm1; [now apply utf8_clean|]. now apply I1.
    + apply jcm2; [now apply utf8_clean|now apply I1|]. now apply IHl.
Qed.
Lemma can_ijson ms a : can (JObj ms) a -> ijson_text go_rnd a (print (JObj ms)).
Proof.
  intros H. split; [inversion H; exact I|]. exists "", (print (JObj ms)), "". repeat split; try apply IjsonFacts.blank_nil; [now apply can_jc|]. cbn [append]. now rewrite sapp_nil_r.
Qed.

(** Equal values: the trees differ in the order of members only. *)
Definition tells (j : json) : Prop := forall a j' a', can j a -> can j' a' -> veq a a' -> reordered j j'.
Lemma tells_list l : Forall tells l -> forall l' va vb, Forall2 can l va -> veq_list va vb -> Forall2 can l' vb ->
  exists ll : list (json * json), l = map fst ll /\ l' = map snd ll /\ forall x y, In (x, y) ll -> reordered x y.
Proof.
  intros T. induction T as [|x l Tx Tl IH]; intros l' va vb F W F'; inversion F; subst; inversion W; subst; inversion F'; subst; [exists []; repeat split; intros x y []|].
  match goal with X : Forall2 can l ?p, Y : veq_list ?p ?r, Z : Forall2 can ?s ?r |- _ => destruct (IH _ _ _ X Y Z) as (ll & E1 & E2 & R) end. subst.
  match goal with X : can x ?p, Y : veq ?p ?r, Z : can ?s ?r |- _ => assert (Q := Tx _ _ _ X Z Y); exists ((x, s) :: ll) end.
  repeat split. intros u w [U|I]; [injection U as <- <-; exact Q|auto].
Qed.
Definition can_mem (kj : string * json) (kv : string * cval) : Prop := fst kj = fst kv /\ utf8b (fst kj) = true /\ can (snd kj) (snd kv).
Lemma can_mems_split l vs : Forall2 can_mem l vs -> map fst l = map fst vs /\ Forall2 can (map snd l) (map snd vs).
Proof. induction 1 as [|x y l vs (A & B & C) _ (IH1 & IH2)]; [split; [reflexivity|constructor]|]. cbn [map]. split; [now rewrite A, IH1|now constructor]. Qed.
Lemma zip_names (l l' : list (string * json)) (ll : list (json * json)) : map fst l = map fst l' -> map snd l = map fst ll -> map snd l' = map snd ll ->
  exists tl : list (string * json * json), l = map (fun m => (fst (fst m), snd (fst m))) tl /\ l' = map (fun m => (fst (fst m), snd m)) tl /\ (forall k x y, In (k, x, y) tl -> In (x, y) ll).
Proof.
  revert l' ll. induction l as [|[k x] l IH]; intros [|[k' x'] l'] [|[y y'] ll] A B C; try discriminate; [exists []; repeat split; intros ? ? ? []|].
  cbn [map fst snd] in *. injection A as A1 A2. injection B as B1 B2. injection C as C1 C2. subst. destruct (IH l' ll A2 B2 C2) as (tl & E1 & E2 & R). subst. exists ((k', y, y') :: tl).
  repeat split. intros k u w [Q|I]; [injection Q as <- <- <-; now left|right; eauto].
Qed.
Lemma Forall2_turn {A B} (R : A -> B -> Prop) l l' : Forall2 R l l' -> Forall2 (fun y x => R x y) l' l.
Proof. induction 1; constructor; auto. Qed.
Lemma can_veq j : tells j.
Proof.
  induction j as [|b|l|r|l IH|l IH] using json_ind'; intros a j' a' A A' V; inversion A; subst; inversion V; subst; try (inversion A'; subst; try constructor; fail).
  - inversion A'; subst. match goal with X : fmt_float ?f = Some ?a, Y : fmt_float ?f = Some ?b |- _ => assert (a = b) by congruence; subst; constructor end.
  - inversion A'; subst. repeat match goal with X : 0%N = 0%N -> _ |- _ => destruct (X eq_refl) as [? ?]; clear X end. subst.
    match goal with X : fmt_float ?f = Some ?a, Y : fmt_float ?f = Some ?b |- _ => assert (a = b) by congruence; subst; constructor end.
  - match goal with X : ~ container _ |- _ => destruct X; exact Logic.I end.
  - inversion A'; subst. match goal with X : Forall2 can l ?p, Y : veq_list ?p ?r, Z : Forall2 can ?s ?r |- _ => destruct (tells_list l IH _ _ _ X Y Z) as (ll & E1 & E2 & R) end.
    subst. now constructor.
  - match goal with X : ~ container _ |- _ => destruct X; exact Logic.I end.
  - inversion A'; subst. match goal with X : Forall2 _ l ?p, P : Permutation ?p ?p1, N : map fst ?p1 = map fst ?r, Y : veq_list (map snd ?p1) (map snd ?r), Z : Forall2 _ ?s ?r |- _ =>
      rename X into F; rename P into PP; rename N into NN; rename Y into W; rename Z into F' end.
    apply Forall2_turn in F. destruct (Permutation_Forall2 PP F) as (lp & P1 & F1). apply Forall2_turn in F1.
    destruct (can_mems_split _ _ F1) as [K1 C1]. destruct (can_mems_split _ _ F') as [K2 C2].
    assert (IH1 : Forall tells (map snd lp)).
    { rewrite Forall_forall in *. intros x I. apply in_map_iff in I as (kx & <- & I). apply IH. apply (Permutation_in _ (Permutation_sym P1) I). }
    destruct (tells_list _ IH1 _ _ _ C1 W C2) as (ll & E1 & E2 & R).
    destruct (zip_names lp _ ll ltac:(rewrite K1, K2; exact NN) E1 E2) as (tl & T1 & T2 & T3).
    apply (ro_obj tl); [rewrite <- T1; exact P1|rewrite <- T2; reflexivity|]. intros k x y I. eauto.
Qed.

(** ** What the encoder makes *)
(** Strings are UTF-8, floats are float64 values other than the negative zero,
    integers are safe; no raw JSON. *)
Fixpoint exact_value (v : gval) : bool :=
  match v with
  | VStr s => utf8b s
  | VFloat f => is_f64 go_rnd f && match f with FFin true 0 _ => false | _ => true end
  | VInt z => (Z.abs z <? 2 ^ 53)%Z
  | VPtr w => exact_value w
  | VSlice l => forallb exact_value l
  | VMap l => forallb (fun kv => exact_value (snd kv)) l
  | VStruct l => forallb (fun kv => exact_value (snd kv)) l
  | VDyn _ w => exact_value w
  | VRaw _ => false
  | _ => true
  end.
Lemma canj_plain s : plain s = true -> canj (JStr s).
Proof. intros H. rewrite <- (quote_plain s H). exists (CStr s). constructor. now apply SettleFacts.plain_utf8. Qed.
Lemma enc_can : forall v t j, tags_apart t = true -> exact_value v = true -> names_apart v = true -> enc t v = Ok j -> canj j.
Proof.
  induction v using gval_ind'; intros t0 jo T G N E; cbn [enc] in E; cbn [exact_value] in G; cbn [names_apart] in N.
  - injection E as <-. exists (CStr s). now constructor.
  - assert (jo = JNum (Z_to_string z)) as -> by congruence. apply Z.ltb_lt in G. destruct (int_can z G) as (m & e & A & B & C). eexists. econstructor; [exact A|exact B|].
    intros M. destruct (C M) as [-> ->]. auto.
  - injection E as <-. exists (CBool b). constructor.
  - destruct (fmt_float f) as [s|] eqn:F; [|discriminate]. injection E as <-. apply andb_true_iff in G as [G Z].
    destruct f as [| |neg m e]; try discriminate F. destruct (fmt_float_ok go_rnd _ s G F) as [P O]. exists (CNum (FFin neg m e)). constructor; [|exact F|].
    + split; [now apply num_ok_exact|]. unfold parse_float in P. destruct (dec_of_lexeme s) as [[[n0 m0] e0]|] eqn:D; [|discriminate].
      exists n0, m0, e0. split; [now apply dec_exact|exact P].
    + intros ->. destruct neg; [discriminate Z|]. split; [reflexivity|]. cbn [is_f64] in G. apply andb_true_iff in G as [G _]. unfold canonical in G. cbn in G. now apply Z.eqb_eq in G.
  - destruct t0; try discriminate. assert (jo = JStr (enum_string name n)) as -> by congruence. apply canj_plain, enum_plain.
  - assert (jo = JStr (ts_string t)) as -> by congruence. apply canj_plain, plain_ts_all.
  - assert (jo = JStr (b64_encode s)) as -> by congruence. apply canj_plain, plain_b64.
  - injection E as <-. exists CNull. constructor.
  - destruct t0; try discriminate. exact (IHv t0 jo T G N E).
  - destruct t0; try discriminate. apply bind_ok in E as (js & E1 & E). injection E as <-. apply canj_arr. rewrite forallb_forall in *. rewrite Forall_forall in H.
    eapply enc_list_all; [|eassumption]. intros x j I. exact (H _ I t0 j T (G _ I) (N _ I)).
  - rewrite andb_true_iff in N. destruct N as [_ N]. rewrite forallb_forall in *. rewrite Forall_forall in H.
    assert (X : forall k x, In (k, x) l -> utf8b k = true /\ names_apart x = true) by (intros k x I; specialize (N _ I); now apply andb_true_iff in N).
    destruct t0; try discriminate; apply bind_ok in E as (js & E1 & E); injection E as <-; apply canj_obj;
      apply (enc_mems_all (fun kv => utf8b (fst kv) = true /\ canj (snd kv))) in E1 as [A B]; try exact A.
    + intros k x j I F. split; [now apply X in I|]. apply (H _ I t0); [exact T|exact (G _ I)|now apply X in I|exact F].
    + intros k x j I F. split; [now apply X in I|]. apply (H _ I GIface); [exact T|exact (G _ I)|now apply X in I|exact F].
  - destruct t0; try discriminate. apply bind_ok in E as (js & E1 & E). injection E as <-. cbn [tags_apart] in T. apply andb_true_iff in T as [D T].
    rewrite forallb_forall in *. rewrite Forall_forall in H. apply canj_obj.
    rewrite Forall_forall. intros [k x] I. destruct (enc_fields_In _ _ _ _ E1 _ _ I) as (m & t & n & v & H1 & -> & H3 & H4 & H5).
    assert (I1 := in_combine_l _ _ _ _ H1). assert (I2 := in_combine_r _ _ _ _ H1). specialize (T _ I1). cbn [fst snd] in T. apply andb_true_iff in T as [T1 T2].
    cbn [fst snd]. split; [exact T1|]. exact (H _ I2 t x T2 (G _ I2) (N _ I2) H5).
  - apply andb_true_iff in N as [N1 N2]. exact (IHv t jo N1 G N2 E).
  - discriminate.
Qed.
Lemma marshal_can t v j : tags_apart t = true -> exact_value v = true -> names_apart v = true -> marshal t v = Ok j -> canj j.
Proof.
  intros T G N E. unfold marshal in E. destruct (mem_str (ty_name t) helper_types); [|eapply enc_can; eauto].
  unfold enc_obj in E. apply bind_ok in E as (m & Q & E). apply bind_ok in E as (js & Q' & E). injection E as <-.
  eapply (value_entry utf8b tags_apart (fun x => exact_value x && names_apart x)) in Q; auto.
  - apply (enc_map_all (entry utf8b tags_apart (fun x => exact_value x && names_apart x)) (fun kv => utf8b (fst kv) = true /\ canj (snd kv))) in Q' as [A B]; [| |exact Q].
    + now apply canj_obj.
    + intros k t0 v0 j0 (K & Tp & V) E0. cbn [fst snd] in *. apply andb_true_iff in V as [V1 V2]. split; [exact K|]. eapply enc_can; eauto.
  - intros n fs m0 t0 H I. cbn [tags_apart] in H. apply andb_true_iff in H as [_ H]. rewrite forallb_forall in H. specialize (H _ I). now apply andb_true_iff in H.
  - intros l k x H I. apply andb_true_iff in H as [H1 H2]. cbn [exact_value names_apart] in *. rewrite forallb_forall in *. specialize (H1 _ I). specialize (H2 _ I). cbn [snd] in *. now rewrite H1, H2.
  - intros l k x H I. apply andb_true_iff in H as [H1 H2]. cbn [exact_value names_apart] in *. apply andb_true_iff in H2 as [_ H2]. rewrite forallb_forall in *.
    specialize (H1 _ I). specialize (H2 _ I). cbn [fst snd] in *. apply andb_true_iff in H2 as [U H2]. now rewrite H1, H2.
  - now rewrite G, N.
Qed.

(** Well-formed values with safe numbers are such values. *)
Lemma wf_exact : forall v t, wf go_rnd t v = true -> safe_numbers v = true -> exact_value v = true.
Proof.
  induction v using gval_ind'; intros t0 W S; cbn [wf exact_value safe_numbers] in *; try reflexivity; try discriminate.
  - destruct t0; try discriminate. exact W.
  - exact S.
  - destruct t0; try discriminate. rewrite W. destruct f as [| |[] [|] ?]; try reflexivity. discriminate S.
  - destruct t0; try discriminate. apply andb_true_iff in W as [_ W]. eauto.
  - destruct t0; try discriminate. rewrite forallb_forall in *. rewrite Forall_forall in H. intros x I. eapply H; eauto.
  - rewrite forallb_forall in *. rewrite Forall_forall in H. intros [k x] I. specialize (S _ I). cbn [snd] in *.
    destruct t0; try discriminate; apply andb_true_iff in W as [_ W]; rewrite forallb_forall in W; specialize (W _ I); cbn [fst snd] in W; apply andb_true_iff in W as [_ W].
    + exact (H _ I _ W S).
    + destruct x; try discriminate W. apply andb_true_iff in W as [W _]. apply andb_true_iff in W as [_ W]. exact (H _ I GIface W S).
  - destruct t0; try discriminate. apply andb_true_iff in W as [_ W]. rewrite forallb_forall in *. rewrite Forall_forall in H.
    assert (X : forall l fs, wf_fields (wf go_rnd) fs l = true -> forall k x, In (k, x) l -> exists t, wf go_rnd t x = true).
    { clear. induction l as [|[k x] l IH]; intros fs W k' x' I; [destruct I|]. destruct fs as [|[m t] fs]; [discriminate|]. cbn [wf_fields] in W. fold (wf_fields (wf go_rnd)) in W.
      apply andb_true_iff in W as [W1 W2]. apply andb_true_iff in W1 as [_ W1]. destruct I as [Q|I]; [injection Q as <- <-; eauto|eauto]. }
    intros [k x] I. destruct (X _ _ W _ _ I) as (t & Wt). exact (H _ I t Wt (S _ I)).
  - destruct t0; try discriminate. eauto.
Qed.
