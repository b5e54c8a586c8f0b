From Verif Require Import GoStr GoStrFacts JsonStr JsonStrFacts Json.

(** Nested induction *)
Section JsonInd.
  Variable P : json -> Prop.
  Hypothesis Hnull : P JNull.
  Hypothesis Hbool : forall b, P (JBool b).
  Hypothesis Hnum : forall l, P (JNum l).
  Hypothesis Hstr : forall r, P (JStr r).
  Hypothesis Harr : forall l, Forall P l -> P (JArr l).
  Hypothesis Hobj : forall l, Forall (fun kv => P (snd kv)) l -> P (JObj l).
  Fixpoint json_ind' (j : json) : P j :=
    match j with
    | JNull => Hnull
    | JBool b => Hbool b
    | JNum l => Hnum l
    | JStr r => Hstr r
    | JArr l => Harr l ((fix go l : Forall P l :=
        match l with [] => Forall_nil _ | x :: l' => Forall_cons _ (json_ind' x) (go l') end) l)
    | JObj l => Hobj l ((fix go l : Forall (fun kv => P (snd kv)) l :=
        match l with [] => Forall_nil _ | x :: l' => Forall_cons _ (json_ind' (snd x)) (go l') end) l)
    end.
End JsonInd.

Scheme jval_mut := Induction for jval Sort Prop
  with jelems_mut := Induction for jelems Sort Prop
  with jmems_mut := Induction for jmems Sort Prop.
Combined Scheme jgram_ind from jval_mut, jelems_mut, jmems_mut.

(** * Characters *)
Lemma ws_nil : ws "".
Proof. intros c []. Qed.
Lemma ws_cons c s : is_ws c = true -> ws s -> ws (String c s).
Proof. intros H1 H2 d [<-|Hd]; auto. Qed.
Lemma ws_inv c s : ws (String c s) -> is_ws c = true /\ ws s.
Proof. intros H. split; [apply H; now left | intros d Hd; apply H; now right]. Qed.

Lemma skip_ws_app w s : ws w -> skip_ws (w ++ s)%string = skip_ws s.
Proof.
  induction w as [|c w IH]; intros H; [reflexivity|].
  apply ws_inv in H as [H1 H2]. cbn [String.append skip_ws]. now rewrite H1, IH.
Qed.

Lemma skip_ws_split s : exists w, ws w /\ s = (w ++ skip_ws s)%string.
Proof.
  induction s as [|c s (w & Hw & E)]; [exists ""; split; [apply ws_nil | reflexivity]|].
  cbn [skip_ws]. destruct (is_ws c) eqn:Ec.
  - exists (String c w). split; [now apply ws_cons|]. cbn. now rewrite <- E.
  - exists "". split; [apply ws_nil | reflexivity].
Qed.

Lemma skip_ws_id c s : is_ws c = false -> skip_ws (String c s) = String c s.
Proof. intros H. cbn. now rewrite H. Qed.

Lemma expect_some c s r : expect c s = Some r <-> s = String c r.
Proof.
  destruct s as [|d s]; cbn; [split; discriminate|].
  destruct (Ascii.eqb c d) eqn:E.
  - apply Ascii.eqb_eq in E. subst. split; [intros H; injection H as <-; reflexivity | intros H; injection H as <-; reflexivity].
  - split; [discriminate|]. intros H. injection H as -> ->. rewrite Ascii.eqb_refl in E. discriminate.
Qed.

Lemma strip_prefix_some p s r : strip_prefix p s = Some r <-> s = (p ++ r)%string.
Proof.
  revert s. induction p as [|a p IH]; intros s; cbn.
  - split; [intros H; injection H as ->; reflexivity | intros ->; reflexivity].
  - destruct s as [|b s]; [split; discriminate|].
    destruct (Ascii.eqb a b) eqn:E.
    + apply Ascii.eqb_eq in E. subst b. rewrite IH. split; [intros -> ; reflexivity | intros H; injection H as ->; reflexivity].
    + split; [discriminate|]. intros H. injection H as -> ->. rewrite Ascii.eqb_refl in E. discriminate.
Qed.

(** * Strings *)
Lemma bs_qt : Ascii.eqb bs qt = false.
Proof. reflexivity. Qed.

(** Text the decoder accepts is scanned up to its end. *)
Lemma scan_unq raw : forall x, unq raw = Some x -> forall r, scan_str (raw ++ String qt r)%string = Some (raw, r).
Proof.
  assert (H : forall n raw, (String.length raw <= n)%nat -> forall x, unq raw = Some x ->
              forall r, scan_str (raw ++ String qt r)%string = Some (raw, r)); [|eauto].
  clear raw. induction n as [|n IH]; intros s L x Hx r.
  { destruct s; [reflexivity | cbn in L; lia]. }
  destruct s as [|a s1]; [reflexivity|]. cbn [unq] in Hx. cbn [String.length] in L.
  assert (PL : forall c t y, Ascii.eqb c qt = false -> Ascii.eqb c bs = false -> unq t = Some y ->
    (String.length t <= n)%nat -> scan_str (String c t ++ String qt r)%string = Some (String c t, r)).
  { intros c t y C1 C2 Hy Lt. cbn [String.append scan_str]. rewrite C1, C2. now rewrite (IH t Lt _ Hy). }
  destruct (Ascii.eqb a bs) eqn:Ea.
  - destruct s1 as [|e s2]; [discriminate|]. cbn [String.length] in L.
    cbn [String.append scan_str]. apply Ascii.eqb_eq in Ea. subst a. rewrite bs_qt, Ascii.eqb_refl.
    assert (G : exists y, unq s2 = Some y).
    { destruct (bt e =? 117)%N eqn:Eu.
      - destruct s2 as [|h1 [|h2 [|h3 [|h4 r0]]]]; try discriminate Hx.
        destruct (hex4 h1 h2 h3 h4) as [v|] eqn:Eh; [|discriminate].
        assert (U : exists y, unq r0 = Some y).
        { assert (Q : app_opt repl (unq r0) = Some x -> exists y, unq r0 = Some y)
            by (intros Q; apply app_opt_some in Q as (u & Q & _); eauto).
          destruct (is_surr v).
          - destruct r0 as [|b1 [|b2 [|g1 [|g2 [|g3 [|g4 r']]]]]]; try (exact (Q Hx)).
            destruct (Ascii.eqb b1 bs && (bt b2 =? 117)%N) eqn:Eb; [|exact (Q Hx)].
            destruct (hex4 g1 g2 g3 g4) as [w|] eqn:Eg; [|exact (Q Hx)].
            destruct (dec_pair v w) as [cp|] eqn:Ed; [|exact (Q Hx)].
            apply app_opt_some in Hx as (u & Hu & _).
            apply andb_true_iff in Eb as [Eb1 Eb2].
            cbn [unq]. rewrite Eb1, Eb2, Eg.
            destruct (is_surr w) eqn:Ew.
            + (* a second surrogate half *)
              assert (Z : exists y, app_opt repl (unq r') = Some y) by (rewrite Hu; eexists; reflexivity).
              destruct r' as [|c1 [|c2 [|i1 [|i2 [|i3 [|i4 r'']]]]]]; try exact Z.
              destruct (Ascii.eqb c1 bs && (bt c2 =? 117)%N); [|exact Z].
              destruct (hex4 i1 i2 i3 i4) as [w'|]; [|exact Z].
              destruct (dec_pair w w') as [cp'|] eqn:Ed'; [|exact Z].
              exfalso. unfold dec_pair in Ed, Ed'.
              destruct (_ && _) eqn:E1 in Ed; [|discriminate]. destruct (_ && _) eqn:E2 in Ed'; [|discriminate].
              rewrite !andb_true_iff, ?N.leb_le, ?N.ltb_lt in E1, E2. lia.
            + rewrite Hu. eexists; reflexivity.
          - apply app_opt_some in Hx as (u & Hu & _). eauto. }
        destruct U as (y & Hy).
        assert (HH : forall c z, hexval c = Some z -> Ascii.eqb c bs = false /\ (bt c <? 32)%N || Ascii.eqb c qt = false /\ (bt c <? 128)%N = true).
        { intros c z Hc.
          assert (D : forallb (fun c => match hexval c with Some _ => negb (Ascii.eqb c bs) && negb ((bt c <? 32)%N || Ascii.eqb c qt) && (bt c <? 128)%N | None => true end) all_ascii = true)
            by (vm_compute; reflexivity).
          assert (F := ascii_sweep _ D c). cbv beta in F. rewrite Hc in F.
          rewrite !andb_true_iff, !negb_true_iff in F. tauto. }
        unfold hex4 in Eh.
        destruct (hexval h1) as [z1|] eqn:E1; [|discriminate]. destruct (hexval h2) as [z2|] eqn:E2; [|discriminate].
        destruct (hexval h3) as [z3|] eqn:E3; [|discriminate]. destruct (hexval h4) as [z4|] eqn:E4; [|discriminate].
        destruct (HH _ _ E1) as (A1 & B1 & C1). destruct (HH _ _ E2) as (A2 & B2 & C2).
        destruct (HH _ _ E3) as (A3 & B3 & C3). destruct (HH _ _ E4) as (A4 & B4 & C4).
        cbn [unq]. rewrite A1, B1, C1, A2, B2, C2, A3, B3, C3, A4, B4, C4, Hy. eexists; reflexivity.
      - destruct (esc1 e); [|discriminate]. apply app_opt_some in Hx as (u & Hu & _). eauto. }
    destruct G as (y & Hy). assert (L2 : (String.length s2 <= n)%nat) by lia.
    now rewrite (IH s2 L2 _ Hy).
  - destruct ((bt a <? 32)%N || Ascii.eqb a qt) eqn:E0; [discriminate|].
    apply orb_false_iff in E0 as [_ Eq].
    assert (K : forall p, app_opt p (unq s1) = Some x -> scan_str (String a s1 ++ String qt r)%string = Some (String a s1, r)).
    { intros p Hp. apply app_opt_some in Hp as (u & Hu & _). apply (PL a s1 u); auto. lia. }
    destruct (bt a <? 128)%N; [exact (K _ Hx)|].
    destruct s1 as [|b s2]; [exact (K _ Hx)|]. cbn [String.length] in L.
    assert (CH : forall c, is_cont c = true -> Ascii.eqb c qt = false /\ Ascii.eqb c bs = false).
    { intros c Hc. assert (D : forallb (fun c => negb (is_cont c) || (negb (Ascii.eqb c qt) && negb (Ascii.eqb c bs))) all_ascii = true) by (vm_compute; reflexivity).
      assert (F := ascii_sweep _ D c). cbv beta in F. rewrite Hc in F. cbn [negb orb] in F.
      rewrite andb_true_iff, !negb_true_iff in F. exact F. }
    destruct (ok2 a b) eqn:E2.
    { apply app_opt_some in Hx as (u & Hu & _).
      assert (Cb : is_cont b = true) by (unfold ok2 in E2; now apply andb_true_iff in E2).
      destruct (CH _ Cb) as [Cq Cs].
      cbn [String.append scan_str]. rewrite Eq, Ea, Cq, Cs. now rewrite (IH s2 ltac:(lia) _ Hu). }
    destruct s2 as [|c s3]; [exact (K _ Hx)|]. cbn [String.length] in L.
    destruct (ok3 a b c) eqn:E3.
    { apply app_opt_some in Hx as (u & Hu & _).
      assert (Cb : is_cont b = true /\ is_cont c = true).
      { unfold ok3 in E3. unfold is_cont in *. rewrite !andb_true_iff, !orb_true_iff, !andb_true_iff, !N.leb_le, ?N.eqb_eq in *. lia. }
      destruct Cb as [Cb Cc]. destruct (CH _ Cb) as [Cq Cs]. destruct (CH _ Cc) as [Cq' Cs'].
      cbn [String.append scan_str]. rewrite Eq, Ea, Cq, Cs, Cq', Cs'. now rewrite (IH s3 ltac:(lia) _ Hu). }
    destruct s3 as [|d s4]; [exact (K _ Hx)|]. cbn [String.length] in L.
    destruct (ok4 a b c d) eqn:E4; [|exact (K _ Hx)].
    apply app_opt_some in Hx as (u & Hu & _).
    assert (Cb : is_cont b = true /\ is_cont c = true /\ is_cont d = true).
    { unfold ok4 in E4. unfold is_cont in *. rewrite !andb_true_iff, !orb_true_iff, !andb_true_iff, !N.leb_le, ?N.eqb_eq in *. lia. }
    destruct Cb as (Cb & Cc & Cd). destruct (CH _ Cb) as [Cq Cs]. destruct (CH _ Cc) as [Cq' Cs']. destruct (CH _ Cd) as [Cq'' Cs''].
    cbn [String.append scan_str]. rewrite Eq, Ea, Cq, Cs, Cq', Cs', Cq'', Cs''. now rewrite (IH s4 ltac:(lia) _ Hu).
Qed.

Lemma scan_split s : forall raw r, scan_str s = Some (raw, r) -> s = (raw ++ String qt r)%string.
Proof.
  assert (H : forall n s, (String.length s <= n)%nat -> forall raw r, scan_str s = Some (raw, r) -> s = (raw ++ String qt r)%string); [|eauto].
  clear s. induction n as [|n IH]; intros s L raw r H; (destruct s as [|c s1]; [discriminate|]); cbn [String.length] in L; [lia|].
  cbn [scan_str] in H. destruct (Ascii.eqb c qt) eqn:E1.
  { injection H as <- <-. apply Ascii.eqb_eq in E1. now subst. }
  destruct (Ascii.eqb c bs).
  - destruct s1 as [|d s2]; [discriminate|]. cbn [String.length] in L.
    destruct (scan_str s2) as [[x r0]|] eqn:E; [|discriminate]. injection H as <- <-.
    apply IH in E; [|lia]. cbn. now rewrite E.
  - destruct (scan_str s1) as [[x r0]|] eqn:E; [|discriminate]. injection H as <- <-.
    apply IH in E; [|lia]. cbn. now rewrite E.
Qed.

(** * Numbers *)
Definition no_num (r : string) : Prop := match r with EmptyString => True | String c _ => is_numch c = false end.

Fixpoint all_num (s : string) : bool :=
  match s with EmptyString => true | String c s' => is_numch c && all_num s' end.

Lemma take_num_app l r : all_num l = true -> no_num r -> take_num (l ++ r)%string = (l, r).
Proof.
  induction l as [|c l IH]; intros H Hr.
  - cbn [String.append]. destruct r as [|c r]; [reflexivity|]. cbn in Hr. cbn. now rewrite Hr.
  - cbn [all_num] in H. apply andb_true_iff in H as [H1 H2]. cbn [String.append take_num].
    rewrite H1, IH by assumption. reflexivity.
Qed.

Lemma take_num_split s l r : take_num s = (l, r) -> s = (l ++ r)%string /\ all_num l = true /\ no_num r.
Proof.
  revert l r. induction s as [|c s IH]; intros l r H; cbn [take_num] in H.
  - injection H as <- <-. repeat split.
  - destruct (is_numch c) eqn:E.
    + destruct (take_num s) as [d r0]. injection H as <- <-.
      destruct (IH _ _ eq_refl) as (A & B & C). subst s. repeat split; [|exact C].
      cbn. now rewrite E, B.
    + injection H as <- <-. repeat split. exact E.
Qed.

Lemma take_digits_split s d r : take_digits s = (d, r) -> s = (d ++ r)%string /\ all_num d = true.
Proof.
  revert d r. induction s as [|c s IH]; intros d r H; cbn [take_digits] in H.
  - injection H as <- <-. auto.
  - destruct (is_digit c) eqn:E.
    + destruct (take_digits s) as [d0 r0]. injection H as <- <-.
      destruct (IH _ _ eq_refl) as (A & B). subst s. split; [reflexivity|].
      cbn. unfold is_numch. now rewrite E, B.
    + injection H as <- <-. auto.
Qed.

Lemma all_num_app a b : all_num (a ++ b)%string = all_num a && all_num b.
Proof. induction a as [|c a IH]; cbn; [reflexivity | now rewrite IH, andb_assoc]. Qed.

Lemma lex_exp_all s x : lex_exp s = Some x -> all_num s = true.
Proof.
  destruct s as [|c s1]; [reflexivity|]. cbn [lex_exp].
  destruct (Ascii.eqb c "e" || Ascii.eqb c "E") eqn:E; [|discriminate].
  assert (Ec : is_numch c = true) by (unfold is_numch; apply orb_true_iff in E as [->| ->]; now rewrite ?orb_true_r).
  assert (K : forall b s2, (let '(ds, r) := take_digits s2 in if is_empty ds || negb (is_empty r) then None else Some (b, ds)) = Some x -> all_num s2 = true).
  { intros b s2 H. destruct (take_digits s2) as [ds r] eqn:Et. apply take_digits_split in Et as [-> Ht].
    destruct (is_empty r) eqn:Er; [|rewrite orb_true_r in H; discriminate]. apply is_empty_true in Er. subst r.
    now rewrite all_num_app, Ht. }
  cbn [all_num]. rewrite Ec. cbn [andb].
  destruct s1 as [|d s2]; [discriminate|].
  destruct (Ascii.eqb d "+") eqn:Ep.
  { intros H. cbn [all_num]. unfold is_numch. rewrite Ep, ?orb_true_r. cbn. exact (K _ _ H). }
  destruct (Ascii.eqb d "-") eqn:Em.
  { intros H. cbn [all_num]. unfold is_numch. rewrite Em, ?orb_true_r. cbn. exact (K _ _ H). }
  intros H. exact (K _ _ H).
Qed.

Lemma lex_frac_all s ds r : lex_frac s = Some (ds, r) -> all_num r = true -> all_num s = true.
Proof.
  destruct s as [|c s1]; [reflexivity|]. cbn [lex_frac].
  destruct (Ascii.eqb c ".") eqn:E.
  - destruct (take_digits s1) as [d0 r0] eqn:Et. apply take_digits_split in Et as [-> Ht].
    destruct (is_empty d0); [discriminate|]. intros H Hr. injection H as <- <-.
    cbn [all_num]. rewrite all_num_app, Ht, Hr. unfold is_numch. now rewrite E, ?orb_true_r.
  - intros H Hr. injection H as <- <-. exact Hr.
Qed.

Lemma num_ok_all l : num_ok l = true -> all_num l = true /\ l <> "".
Proof.
  unfold num_ok, lex_num. intros H. split.
  2:{ intros ->. discriminate H. }
  assert (K : forall b s1, match (let '(ip, s2) := take_digits s1 in
      if is_empty ip || (match ip with String c (String _ _) => Ascii.eqb c "0" | _ => false end) then None
      else match lex_frac s2 with None => None | Some (fp, s3) => match lex_exp s3 with None => None | Some ex => Some (b : bool, ip, fp, ex) end end)
      with Some _ => true | None => false end = true -> all_num s1 = true).
  { intros b s1 K. destruct (take_digits s1) as [ip s2] eqn:Et. apply take_digits_split in Et as [-> Ht].
    destruct (_ || _); [discriminate|].
    destruct (lex_frac s2) as [[fp s3]|] eqn:Ef; [|discriminate].
    destruct (lex_exp s3) as [ex|] eqn:Ee; [|discriminate].
    apply lex_exp_all in Ee. apply (lex_frac_all _ _ _ Ef) in Ee. now rewrite all_num_app, Ht, Ee. }
  destruct l as [|c s1]; [reflexivity|].
  destruct (Ascii.eqb c "-") eqn:Ec.
  - cbn [all_num]. apply K in H. rewrite H. unfold is_numch. now rewrite Ec, ?orb_true_r.
  - exact (K _ _ H).
Qed.

Lemma numch_facts c : is_numch c = true -> is_ws c = false /\ Ascii.eqb c "{" = false /\ Ascii.eqb c "[" = false /\
  Ascii.eqb c qt = false /\ Ascii.eqb c "n" = false /\ Ascii.eqb c "t" = false /\ Ascii.eqb c "f" = false.
Proof.
  intros H. assert (D : forallb (fun c => negb (is_numch c) || (negb (is_ws c) && negb (Ascii.eqb c "{") && negb (Ascii.eqb c "[") &&
    negb (Ascii.eqb c qt) && negb (Ascii.eqb c "n") && negb (Ascii.eqb c "t") && negb (Ascii.eqb c "f"))) all_ascii = true)
    by (vm_compute; reflexivity).
  assert (F := ascii_sweep _ D c). cbv beta in F. rewrite H in F. cbn [negb orb] in F.
  rewrite !andb_true_iff, !negb_true_iff in F. tauto.
Qed.

(** * Soundness *)
Lemma sapp_cons a s t : (String a s ++ t)%string = String a (s ++ t)%string.
Proof. reflexivity. Qed.

Lemma p_sound n :
  (forall s j r, p_val n s = Some (j, r) -> exists w t, ws w /\ jval j t /\ s = (w ++ t ++ r)%string) /\
  (forall s l r, p_elems n s = Some (l, r) -> exists t, jelems l t /\ s = (t ++ String "]" r)%string) /\
  (forall s l r, p_mems n s = Some (l, r) -> exists t, jmems l t /\ s = (t ++ String "}" r)%string).
Proof.
  induction n as [|n (IHv & IHe & IHm)]; [repeat split; discriminate|].
  repeat split; intros s.
  - intros j r H. cbn [p_val] in H. destruct (skip_ws_split s) as (w & Hw & Es).
    destruct (skip_ws s) as [|c r0]; [discriminate|].
    assert (K : forall t, jval j t -> String c r0 = (t ++ r)%string -> exists w t, ws w /\ jval j t /\ s = (w ++ t ++ r)%string).
    { intros t Ht E. exists w, t. repeat split; try assumption. now rewrite Es, E. }
    destruct (Ascii.eqb c "{") eqn:E1.
    { apply Ascii.eqb_eq in E1. subst c.
      destruct (expect "}" (skip_ws r0)) as [r'|] eqn:Ee.
      - injection H as <- <-. apply expect_some in Ee. destruct (skip_ws_split r0) as (w' & Hw' & Er0).
        rewrite Ee in Er0. apply (K (String "{" (w' ++ "}"))); [now constructor|].
        now rewrite Er0, sapp_cons, sapp_assoc.
      - destruct (p_mems n r0) as [[l r']|] eqn:Em; [|discriminate]. injection H as <- <-.
        apply IHm in Em as (t & Ht & Er0). apply (K (String "{" (t ++ "}"))); [now constructor|].
        now rewrite Er0, sapp_cons, sapp_assoc. }
    destruct (Ascii.eqb c "[") eqn:E2.
    { apply Ascii.eqb_eq in E2. subst c.
      destruct (expect "]" (skip_ws r0)) as [r'|] eqn:Ee.
      - injection H as <- <-. apply expect_some in Ee. destruct (skip_ws_split r0) as (w' & Hw' & Er0).
        rewrite Ee in Er0. apply (K (String "[" (w' ++ "]"))); [now constructor|].
        now rewrite Er0, sapp_cons, sapp_assoc.
      - destruct (p_elems n r0) as [[l r']|] eqn:Em; [|discriminate]. injection H as <- <-.
        apply IHe in Em as (t & Ht & Er0). apply (K (String "[" (t ++ "]"))); [now constructor|].
        now rewrite Er0, sapp_cons, sapp_assoc. }
    destruct (Ascii.eqb c qt) eqn:E3.
    { apply Ascii.eqb_eq in E3. subst c.
      destruct (scan_str r0) as [[raw r']|] eqn:Es0; [|discriminate].
      destruct (unq raw) as [x|] eqn:Eu; [|discriminate]. injection H as <- <-.
      apply scan_split in Es0. apply (K (q raw)); [econstructor; eassumption|].
      unfold q. rewrite Es0, sapp_cons, sapp_assoc. reflexivity. }
    destruct (Ascii.eqb c "n") eqn:E4.
    { apply Ascii.eqb_eq in E4. subst c. destruct (strip_prefix "ull" r0) as [r'|] eqn:Ep; [|discriminate].
      injection H as <- <-. apply strip_prefix_some in Ep. apply (K "null"); [constructor | now rewrite Ep]. }
    destruct (Ascii.eqb c "t") eqn:E5.
    { apply Ascii.eqb_eq in E5. subst c. destruct (strip_prefix "rue" r0) as [r'|] eqn:Ep; [|discriminate].
      injection H as <- <-. apply strip_prefix_some in Ep. apply (K "true"); [constructor | now rewrite Ep]. }
    destruct (Ascii.eqb c "f") eqn:E6.
    { apply Ascii.eqb_eq in E6. subst c. destruct (strip_prefix "alse" r0) as [r'|] eqn:Ep; [|discriminate].
      injection H as <- <-. apply strip_prefix_some in Ep. apply (K "false"); [constructor | now rewrite Ep]. }
    destruct (take_num (String c r0)) as [l r'] eqn:Et. destruct (num_ok l) eqn:En; [|discriminate].
    injection H as <- <-. apply take_num_split in Et as (Et & _). apply (K l); [now constructor | exact Et].
  - intros l r H. cbn [p_elems] in H.
    destruct (p_val n s) as [[j r0]|] eqn:Ev; [|discriminate].
    apply IHv in Ev as (w & t & Hw & Ht & Es). destruct (skip_ws_split r0) as (w' & Hw' & Er).
    destruct (skip_ws r0) as [|c r1]; [discriminate|].
    destruct (Ascii.eqb c "]") eqn:E1.
    { apply Ascii.eqb_eq in E1. subst c. injection H as <- <-.
      exists (w ++ t ++ w')%string. split; [now constructor|]. now rewrite Es, Er, !sapp_assoc. }
    destruct (Ascii.eqb c ",") eqn:E2; [|discriminate]. apply Ascii.eqb_eq in E2. subst c.
    destruct (p_elems n r1) as [[l' r2]|] eqn:Ee; [|discriminate]. injection H as <- <-.
    apply IHe in Ee as (t' & Ht' & Er1). exists (w ++ t ++ w' ++ String "," t')%string.
    split; [now constructor|]. rewrite Es, Er, Er1, !sapp_assoc. reflexivity.
  - intros l r H. cbn [p_mems] in H. destruct (skip_ws_split s) as (w & Hw & Es).
    destruct (expect qt (skip_ws s)) as [r0|] eqn:Ex; [|discriminate]. apply expect_some in Ex. rewrite Ex in Es.
    destruct (scan_str r0) as [[raw r1]|] eqn:Er; [|discriminate]. apply scan_split in Er.
    destruct (unq raw) as [k|] eqn:Eu; [|discriminate].
    destruct (skip_ws_split r1) as (w2 & Hw2 & Er1).
    destruct (expect ":" (skip_ws r1)) as [r2|] eqn:Ec; [|discriminate]. apply expect_some in Ec. rewrite Ec in Er1.
    destruct (p_val n r2) as [[j r3]|] eqn:Ev; [|discriminate]. apply IHv in Ev as (w3 & t & Hw3 & Ht & Er2).
    destruct (skip_ws_split r3) as (w4 & Hw4 & Er3).
    destruct (skip_ws r3) as [|c r4]; [discriminate|].
    destruct (Ascii.eqb c "}") eqn:E1.
    { apply Ascii.eqb_eq in E1. subst c. injection H as <- <-.
      exists (w ++ q raw ++ w2 ++ String ":" (w3 ++ t ++ w4))%string. split; [now constructor|].
      subst s r0 r1 r2 r3. unfold q. repeat (rewrite ?sapp_assoc; cbn [String.append]). reflexivity. }
    destruct (Ascii.eqb c ",") eqn:E2; [|discriminate]. apply Ascii.eqb_eq in E2. subst c.
    destruct (p_mems n r4) as [[l' r5]|] eqn:Ee; [|discriminate]. injection H as <- <-.
    apply IHm in Ee as (t' & Ht' & Er4).
    exists (w ++ q raw ++ w2 ++ String ":" (w3 ++ t ++ w4 ++ String "," t'))%string.
    split; [now constructor|].
    subst s r0 r1 r2 r3 r4. unfold q. repeat (rewrite ?sapp_assoc; cbn [String.append]). reflexivity.
Qed.

(** * Completeness *)
Lemma jval_head j t : jval j t -> exists c t', t = String c t' /\ is_ws c = false /\ Ascii.eqb c "]" = false /\ Ascii.eqb c "}" = false.
Proof.
  intros H. destruct H; try (do 2 eexists; repeat split; reflexivity).
  destruct (num_ok_all _ H) as [Ha Hn]. destruct l as [|c l]; [contradiction|].
  exists c, l. cbn [all_num] in Ha. apply andb_true_iff in Ha as [Hc _].
  split; [reflexivity|].
  assert (D : forallb (fun c => negb (is_numch c) || (negb (is_ws c) && negb (Ascii.eqb c "]") && negb (Ascii.eqb c "}"))) all_ascii = true)
    by (vm_compute; reflexivity).
  assert (F := ascii_sweep _ D c). cbv beta in F. rewrite Hc in F. cbn [negb orb] in F.
  rewrite !andb_true_iff, !negb_true_iff in F. tauto.
Qed.

Lemma ws_no_num w r : ws w -> no_num r -> no_num (w ++ r)%string.
Proof.
  destruct w as [|c w]; [auto|]. intros H _. apply ws_inv in H as [H _]. cbn.
  assert (D : forallb (fun c => negb (is_ws c) || negb (is_numch c)) all_ascii = true) by (vm_compute; reflexivity).
  assert (F := ascii_sweep _ D c). cbv beta in F. rewrite H in F. now apply negb_true_iff in F.
Qed.

Lemma expect_ne c d s : Ascii.eqb c d = false -> expect c (String d s) = None.
Proof. intros H. cbn. now rewrite H. Qed.

Local Opaque Ascii.eqb.

Lemma p_complete :
  (forall j t, jval j t -> forall n r w, ws w -> no_num r -> (2 * String.length t <= n)%nat ->
     p_val n (w ++ t ++ r)%string = Some (j, r)) /\
  (forall l t, jelems l t -> forall n r, (2 * String.length t + 1 <= n)%nat ->
     p_elems n (t ++ String "]" r)%string = Some (l, r)) /\
  (forall l t, jmems l t -> forall n r, (2 * String.length t + 1 <= n)%nat ->
     p_mems n (t ++ String "}" r)%string = Some (l, r)).
Proof.
  apply (jgram_ind
    (fun j t _ => forall n r w, ws w -> no_num r -> (2 * String.length t <= n)%nat ->
       p_val n (w ++ t ++ r)%string = Some (j, r))
    (fun l t _ => forall n r, (2 * String.length t + 1 <= n)%nat ->
       p_elems n (t ++ String "]" r)%string = Some (l, r))
    (fun l t _ => forall n r, (2 * String.length t + 1 <= n)%nat ->
       p_mems n (t ++ String "}" r)%string = Some (l, r))).
  - intros n r w Hw _ L. destruct n; [cbn in L; lia|]. cbn [p_val]. rewrite skip_ws_app by exact Hw. reflexivity.
  - intros n r w Hw _ L. destruct n; [cbn in L; lia|]. cbn [p_val]. rewrite skip_ws_app by exact Hw. reflexivity.
  - intros n r w Hw _ L. destruct n; [cbn in L; lia|]. cbn [p_val]. rewrite skip_ws_app by exact Hw. reflexivity.
  - intros l Hl n r w Hw Hr L. destruct (num_ok_all _ Hl) as [Ha Hn].
    destruct n; [destruct l; [contradiction | cbn in L; lia]|].
    cbn [p_val]. rewrite skip_ws_app by exact Hw.
    assert (T := take_num_app l r Ha Hr).
    destruct l as [|c l]; [contradiction|]. cbn [String.append].
    assert (Hc : is_numch c = true) by (cbn [all_num] in Ha; now apply andb_true_iff in Ha).
    destruct (numch_facts _ Hc) as (F1 & F2 & F3 & F4 & F5 & F6 & F7).
    rewrite (skip_ws_id _ _ F1), F2, F3, F4, F5, F6, F7.
    cbn [String.append] in T. rewrite T, Hl. reflexivity.
  - intros raw x Hx n r w Hw Hr L. destruct n; [cbn in L; lia|].
    cbn [p_val]. rewrite skip_ws_app by exact Hw. unfold q. rewrite sapp_cons, sapp_assoc.
    rewrite skip_ws_id by reflexivity. cbn [String.append].
    change (Ascii.eqb qt "{") with false. change (Ascii.eqb qt "[") with false. change (Ascii.eqb qt qt) with true.
    cbv iota. rewrite (scan_unq _ _ Hx), Hx. reflexivity.
  - intros w0 Hw0 n r w Hw Hr L. destruct n; [cbn in L; lia|].
    cbn [p_val]. rewrite skip_ws_app by exact Hw. rewrite sapp_cons, sapp_assoc.
    rewrite skip_ws_id by reflexivity.
    change (Ascii.eqb "[" "{") with false. change (Ascii.eqb "[" "[") with true. cbv iota.
    rewrite skip_ws_app by exact Hw0. reflexivity.
  - intros l s Hs IH n r w Hw Hr L. destruct n; [cbn in L; lia|].
    cbn [p_val]. rewrite skip_ws_app by exact Hw. rewrite sapp_cons, sapp_assoc.
    rewrite skip_ws_id by reflexivity.
    change (Ascii.eqb "[" "{") with false. change (Ascii.eqb "[" "[") with true. cbv iota.
    cbn [String.append]. cbn [String.length] in L. rewrite slength_app in L. cbn [String.length] in L.
    assert (E : expect "]" (skip_ws (s ++ String "]" r)) = None).
    { inversion Hs as [j w1 s0 w2 A B C | j l0 w1 s0 w2 t0 A B C D]; subst;
      rewrite !sapp_assoc, skip_ws_app by assumption;
      destruct (jval_head _ _ B) as (c & t' & -> & Hc & Hc1 & Hc2);
      cbn [String.append]; rewrite skip_ws_id by exact Hc; apply expect_ne; now rewrite Ascii.eqb_sym. }
    rewrite E, IH by lia. reflexivity.
  - intros w0 Hw0 n r w Hw Hr L. destruct n; [cbn in L; lia|].
    cbn [p_val]. rewrite skip_ws_app by exact Hw. rewrite sapp_cons, sapp_assoc.
    rewrite skip_ws_id by reflexivity.
    change (Ascii.eqb "{" "{") with true. cbv iota.
    rewrite skip_ws_app by exact Hw0. reflexivity.
  - intros l s Hs IH n r w Hw Hr L. destruct n; [cbn in L; lia|].
    cbn [p_val]. rewrite skip_ws_app by exact Hw. rewrite sapp_cons, sapp_assoc.
    rewrite skip_ws_id by reflexivity.
    change (Ascii.eqb "{" "{") with true. cbv iota.
    cbn [String.append]. cbn [String.length] in L. rewrite slength_app in L. cbn [String.length] in L.
    assert (E : expect "}" (skip_ws (s ++ String "}" r)) = None).
    { inversion Hs; subst; rewrite !sapp_assoc, skip_ws_app by assumption; reflexivity. }
    rewrite E, IH by lia. reflexivity.
  - intros j w1 s w2 Hw1 Hs IH Hw2 n r L. destruct n; [cbn in L; lia|]. cbn [p_elems].
    rewrite !slength_app in L. rewrite !sapp_assoc.
    destruct (jval_head _ _ Hs) as (c0 & t0 & E0 & _).
    assert (Hn : no_num (w2 ++ String "]" r)) by (apply ws_no_num; [assumption | reflexivity]).
    rewrite IH by (assumption || lia). rewrite skip_ws_app by assumption. reflexivity.
  - intros j l w1 s w2 t Hw1 Hs IH Hw2 Ht IHt n r L. destruct n; [cbn in L; lia|]. cbn [p_elems].
    rewrite !slength_app in L. cbn [String.length] in L. rewrite !sapp_assoc.
    assert (Hn : no_num (w2 ++ String "," t ++ String "]" r)) by (apply ws_no_num; [assumption | reflexivity]).
    rewrite IH by (assumption || lia). rewrite skip_ws_app by assumption. cbn [String.append skip_ws].
    change (is_ws ",") with false. cbv iota.
    change (Ascii.eqb "," "]") with false. change (Ascii.eqb "," ",") with true. cbv iota.
    rewrite IHt by lia. reflexivity.
  - intros k raw j w1 w2 w3 s w4 H1 Hk H2 H3 Hs IH H4 n r L. destruct n; [cbn in L; lia|]. cbn [p_mems].
    unfold q in *. repeat (rewrite ?slength_app in L; cbn [String.length] in L).
    rewrite !sapp_assoc, skip_ws_app by assumption.
    repeat (cbn [String.append]; rewrite ?sapp_assoc). rewrite skip_ws_id by reflexivity.
    replace (expect qt (String qt (raw ++ String qt (w2 ++ String ":" (w3 ++ s ++ w4 ++ String "}" r)))))
      with (Some (raw ++ String qt (w2 ++ String ":" (w3 ++ s ++ w4 ++ String "}" r)))%string) by reflexivity.
    rewrite (scan_unq _ _ Hk), Hk, skip_ws_app by assumption.
    rewrite skip_ws_id by reflexivity.
    replace (expect ":" (String ":" (w3 ++ s ++ w4 ++ String "}" r)))
      with (Some (w3 ++ s ++ w4 ++ String "}" r)%string) by reflexivity.
    assert (Hn : no_num (w4 ++ String "}" r)) by (apply ws_no_num; [assumption | reflexivity]).
    rewrite IH by (assumption || lia). rewrite skip_ws_app by assumption. reflexivity.
  - intros k raw j l w1 w2 w3 s w4 t H1 Hk H2 H3 Hs IH H4 Ht IHt n r L. destruct n; [cbn in L; lia|]. cbn [p_mems].
    unfold q in *. repeat (rewrite ?slength_app in L; cbn [String.length] in L).
    rewrite !sapp_assoc, skip_ws_app by assumption.
    repeat (cbn [String.append]; rewrite ?sapp_assoc). rewrite skip_ws_id by reflexivity.
    set (R := (w4 ++ String "," (t ++ String "}" r))%string).
    replace (expect qt (String qt (raw ++ String qt (w2 ++ String ":" (w3 ++ s ++ R)))))
      with (Some (raw ++ String qt (w2 ++ String ":" (w3 ++ s ++ R)))%string) by reflexivity.
    rewrite (scan_unq _ _ Hk), Hk, skip_ws_app by assumption.
    rewrite skip_ws_id by reflexivity.
    replace (expect ":" (String ":" (w3 ++ s ++ R))) with (Some (w3 ++ s ++ R)%string) by reflexivity.
    assert (Hn : no_num R) by (apply ws_no_num; [assumption | reflexivity]).
    rewrite IH by (assumption || lia). subst R. rewrite skip_ws_app by assumption. cbn [skip_ws].
    change (is_ws ",") with false. cbv iota.
    change (Ascii.eqb "," "}") with false. change (Ascii.eqb "," ",") with true. cbv iota.
    rewrite IHt by lia. reflexivity.
Qed.

Local Transparent Ascii.eqb.

(** The parser recognises exactly the JSON grammar. *)
Lemma parse_json_iff s j : parse_json s = Some j <-> jtext j s.
Proof.
  unfold parse_json. split.
  - intros H. destruct (p_val (fuel_for s) s) as [[j' r]|] eqn:E; [|discriminate].
    destruct (is_empty (skip_ws r)) eqn:Er; [|discriminate]. injection H as <-.
    apply is_empty_true in Er. apply (proj1 (p_sound _)) in E as (w & t & Hw & Ht & Es).
    destruct (skip_ws_split r) as (w2 & Hw2 & Er2). rewrite Er, sapp_nil_r in Er2. subst r.
    exists w, t, w2. auto.
  - intros (w1 & t & w2 & H1 & H2 & Ht & ->).
    assert (R : p_val (fuel_for (w1 ++ t ++ w2)) (w1 ++ t ++ w2)%string = Some (j, w2)).
    { apply (proj1 p_complete); try assumption.
      - rewrite <- (sapp_nil_r w2). apply ws_no_num; [exact H2 | exact I].
      - unfold fuel_for. rewrite !slength_app. lia. }
    rewrite R. rewrite <- (sapp_nil_r w2), skip_ws_app by exact H2. reflexivity.
Qed.

(** Printed text is grammatical. *)
Lemma print_jval j : json_okb j = true -> jval j (print j).
Proof.
  induction j as [|b|l|r|l IH|l IH] using json_ind'; intros H.
  - constructor.
  - destruct b; constructor.
  - now constructor.
  - cbn [json_okb] in H. destruct (unq r) eqn:E; [|discriminate]. econstructor. eassumption.
  - cbn [print json_okb] in *. destruct l as [|j0 l]; [apply (jv_arr0 ""), ws_nil|].
    apply (jv_arr (j0 :: l) (join "," (map print (j0 :: l)))).
    revert j0 IH H. induction l as [|j1 l IHl]; intros j0 IH H; cbn [forallb] in H; apply andb_true_iff in H as [H0 H1];
      inversion IH as [|? ? P0 P1]; subst.
    + cbn [map join]. assert (E := je_one j0 "" (print j0) "" ws_nil (P0 H0) ws_nil). cbn [String.append] in E.
      now rewrite sapp_nil_r in E.
    + change (join "," (map print (j0 :: j1 :: l))) with (print j0 ++ "," ++ join "," (map print (j1 :: l)))%string.
      apply (je_cons j0 (j1 :: l) "" (print j0) ""); [apply ws_nil | auto | apply ws_nil | now apply IHl].
  - cbn [print json_okb] in *. destruct l as [|[k0 j0] l]; [apply (jv_obj0 ""), ws_nil|].
    set (f := fun kv : string * json => (q (quote (fst kv)) ++ ":" ++ print (snd kv))%string).
    apply (jv_obj ((k0, j0) :: l) (join "," (map f ((k0, j0) :: l)))).
    revert k0 j0 IH H. induction l as [|[k1 j1] l IHl]; intros k0 j0 IH H; cbn [forallb fst snd] in H;
      rewrite !andb_true_iff in H; destruct H as [[U0 H0] H1]; inversion IH as [|? ? P0 P1]; subst;
      apply utf8b_spec, unq_quote in U0; cbn [snd] in P0.
    + cbn [map join]. assert (E := jm_one k0 (quote k0) j0 "" "" "" (print j0) "" ws_nil U0 ws_nil ws_nil (P0 H0) ws_nil).
      cbn [String.append] in E. now rewrite sapp_nil_r in E.
    + change (join "," (map f ((k0, j0) :: (k1, j1) :: l))) with (f (k0, j0) ++ "," ++ join "," (map f ((k1, j1) :: l)))%string.
      assert (E := jm_cons k0 (quote k0) j0 ((k1, j1) :: l) "" "" "" (print j0) "" (join "," (map f ((k1, j1) :: l)))
        ws_nil U0 ws_nil ws_nil (P0 H0) ws_nil).
      cbn [String.append] in E. unfold f at 1. cbn [fst snd]. rewrite !sapp_assoc. cbn [String.append].
      apply E, IHl; [exact P1|]. cbn [forallb fst snd]. now rewrite !andb_true_iff.
Qed.

Lemma parse_print j : json_okb j = true -> parse_json (print j) = Some j.
Proof.
  intros H. apply parse_json_iff. exists "", (print j), "". repeat split; try apply ws_nil.
  - now apply print_jval.
  - cbn. now rewrite sapp_nil_r.
Qed.

(** Parsed trees are lexically valid. *)
Lemma jval_ok : (forall j t, jval j t -> json_okb j = true) /\
  (forall l t, jelems l t -> forallb json_okb l = true) /\
  (forall l t, jmems l t -> forallb (fun kv => utf8b (fst kv) && json_okb (snd kv)) l = true).
Proof.
  apply (jgram_ind (fun j _ _ => json_okb j = true) (fun l _ _ => forallb json_okb l = true)
    (fun l _ _ => forallb (fun kv => utf8b (fst kv) && json_okb (snd kv)) l = true)); try reflexivity; try (intros; assumption).
  - intros raw x H. cbn. now rewrite H.
  - intros. cbn. now rewrite H.
  - intros. cbn [forallb]. now rewrite H, H0.
  - intros. cbn [forallb fst snd]. rewrite H. apply unq_utf8, utf8b_spec in e. now rewrite e.
  - intros. cbn [forallb fst snd]. rewrite H, H0. apply unq_utf8, utf8b_spec in e. now rewrite e.
Qed.

Lemma parse_ok s j : parse_json s = Some j -> json_okb j = true.
Proof. intros H. apply parse_json_iff in H as (w1 & t & w2 & _ & _ & H & _). exact (proj1 jval_ok _ _ H). Qed.
