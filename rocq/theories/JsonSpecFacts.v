(** Lemmas: the JSON reader of Json.v against JsonSpec. *)
From Verif Require Import GoStr GoStrFacts JsonStr JsonStrFacts Json JsonFacts Float FloatFacts TimeSpec TimeSpecFacts NumSpec NumSpecFacts StrSpec StrSpecFacts JsonSpec.

Lemma ws_blank s : ws s <-> blank s.
Proof.
  assert (X : forallb (fun c => Bool.eqb (is_ws c) (existsb (N.eqb (code c)) [32; 9; 10; 13]%N)) all_ascii = true) by (vm_compute; reflexivity).
  assert (Y : forall c, is_ws c = true <-> In (code c) [32; 9; 10; 13]%N).
  { intros c. apply (fun X => ascii_sweep _ X c) in X. apply Bool.eqb_prop in X. rewrite X, existsb_exists. split.
    - intros (n & A & B). apply N.eqb_eq in B. now subst.
    - intros H. exists (code c). split; [exact H|apply N.eqb_refl]. }
  unfold ws, blank. split; intros H c I; apply Y, H, I.
Qed.

Section Num.
Local Open Scope Z_scope.
Lemma int_ok_digits k a : 0 <= a < 10 ^ Z.of_nat (S k) -> (int_ok (digits (S k) a) = true <-> k = 0%nat \/ 10 ^ Z.of_nat k <= a).
Proof.
  intros H. unfold int_ok. rewrite digits_digits, andb_true_r, negb_true_iff, orb_false_iff.
  assert (Ni : is_empty (digits (S k) a) = false) by (assert (Z := digits_ne (S k) a ltac:(lia)); destruct (digits (S k) a); [congruence|reflexivity]).
  rewrite Ni. rewrite digits_front. destruct k as [|k]; [cbn [digits]; intuition|]. rewrite digits_front.
  assert (P : 0 < 10 ^ Z.of_nat (S k)) by (apply Z.pow_pos_nonneg; lia).
  assert (Q : 0 <= a / 10 ^ Z.of_nat (S k) < 10).
  { split; [apply Z.div_pos; lia|]. apply Z.div_lt_upper_bound; [lia|]. rewrite (Nat2Z.inj_succ (S k)), Z.pow_succ_r in H by lia. lia. }
  rewrite Z.mod_small by exact Q. split.
  - intros [_ E]. right. destruct (Z.le_gt_cases (10 ^ Z.of_nat (S k)) a) as [L|L]; [exact L|exfalso].
    rewrite Z.div_small in E by lia. discriminate E.
  - intros [E|L]; [discriminate|]. split; [reflexivity|]. apply Ascii.eqb_neq. intros E.
    assert (1 <= a / 10 ^ Z.of_nat (S k)) by (apply Z.div_le_lower_bound; lia).
    destruct (dchar_digit _ Q) as [_ D]. rewrite E in D. assert (Z0 : dval "0" = 0%N) by reflexivity. rewrite Z0 in D. lia.
Qed.

Lemma num_ok_exact l : num_ok l = true <-> json_number l.
Proof.
  split.
  - intros O. unfold num_ok in O. destruct (lex_num l) as [[[[neg ip] fp] [en eds]]|] eqn:E; [|discriminate].
    destruct (lex_num_inv _ _ _ _ _ _ E) as (ft & et & -> & D & Ni & F & _ & _ & X & _).
    destruct (digits_of' _ D Ni) as (k & n & K & R & Ed & _ & _). destruct k as [|k]; [lia|].
    rewrite Ed. apply jn with (b := Z.of_N (N_of_digits fp)) (kf := String.length fp) (x := if en then - Z.of_N (N_of_digits eds) else Z.of_N (N_of_digits eds)); try assumption.
    apply int_ok_digits; [exact R|]. rewrite <- Ed.
    unfold int_ok. rewrite D, andb_true_r. apply negb_true_iff. destruct ip as [|c ip]; [congruence|]. cbn [is_empty orb].
    destruct ip as [|c' ip]; [reflexivity|]. destruct (Ascii.eqb_spec c "0") as [->|]; [exfalso|reflexivity].
    assert (S := frac_stops _ _ _ _ _ F X).
    unfold lex_num in E. destruct neg; cbn [sign String.append] in E; cbn [Ascii.eqb Bool.eqb] in E;
    change (String "0" (String c' (ip ++ ft ++ et))) with (String "0" (String c' ip) ++ (ft ++ et))%string in E;
    rewrite take_digits_app in E by (exact D || exact S); cbn in E; discriminate.
  - intros [neg k a b kf ft x et H K F X]. assert (I := proj2 (int_ok_digits k a H) K). assert (S := frac_stops _ _ _ _ _ F X).
    destruct (lex_frac_of _ _ _ _ _ F X) as (fp & F1 & _). destruct (lex_exp_of _ _ X) as (en & eds & X1 & _).
    change (if neg then "-"%string else ""%string) with (sign neg). unfold num_ok. rewrite <- sgn_sign, lex_num_sgn by assumption. now rewrite F1, X1.
Qed.
End Num.

Scheme vt_ind2 := Induction for value_text Sort Prop
  with et_ind2 := Induction for elements_text Sort Prop
  with mt_ind2 := Induction for members_text Sort Prop.
Combined Scheme vt_mut from vt_ind2, et_ind2, mt_ind2.
Scheme jv_ind2 := Induction for jval Sort Prop
  with je_ind2 := Induction for jelems Sort Prop
  with jm_ind2 := Induction for jmems Sort Prop.
Combined Scheme jv_mut from jv_ind2, je_ind2, jm_ind2.

Lemma jval_text : (forall j t, jval j t -> value_text j t) /\ (forall l t, jelems l t -> elements_text l t) /\ (forall l t, jmems l t -> members_text l t).
Proof.
  apply jv_mut; intros; try (constructor; fail); repeat match goal with H : ws _ |- _ => apply ws_blank in H | H : unq _ = Some _ |- _ => apply unq_exact in H end.
  - constructor. now apply num_ok_exact.
  - econstructor; eauto.
  - now apply (vt_arr0 w).
  - now apply (vt_arr l s).
  - now apply (vt_obj0 w).
  - now apply (vt_obj l s).
  - now constructor.
  - now apply (et_cons j l w1 s w2 t).
  - now apply (mt_one k raw j w1 w2 w3 s w4).
  - now apply (mt_cons k raw j l w1 w2 w3 s w4 t).
Qed.
Lemma text_jval : (forall j t, value_text j t -> jval j t) /\ (forall l t, elements_text l t -> jelems l t) /\ (forall l t, members_text l t -> jmems l t).
Proof.
  apply vt_mut; intros; try (constructor; fail); repeat match goal with H : blank _ |- _ => apply ws_blank in H | H : str_means _ _ |- _ => apply unq_exact in H end.
  - constructor. now apply num_ok_exact.
  - econstructor; eauto.
  - now apply (jv_arr0 w).
  - now apply (jv_arr l s).
  - now apply (jv_obj0 w).
  - now apply (jv_obj l s).
  - now constructor.
  - now apply (je_cons j l w1 s w2 t).
  - now apply (jm_one k raw j w1 w2 w3 s w4).
  - now apply (jm_cons k raw j l w1 w2 w3 s w4 t).
Qed.

Lemma json_exact s j : parse_json s = Some j <-> json_text j s.
Proof.
  rewrite parse_json_iff. unfold jtext, json_text. split; intros (w1 & t & w2 & A & B & C & D); exists w1, t, w2.
  - repeat split; try (now apply ws_blank); [now apply jval_text|exact D].
  - repeat split; try (now apply ws_blank); [now apply text_jval|exact D].
Qed.
