(** The canonicalizer on arbitrary bytes: it ends and stays within the input. *)
From Verif Require Import GoStr GoStrFacts JsonStr JsonStrFacts Json JsonFacts Float FloatFacts NumFmt Canon CanonSpec NumFmtFacts CanonFacts.
From Coq Require Import Lia.
Local Open Scope nat_scope.

(** The number of bytes still to be read. *)
Definition left_ (s : cst) : nat := String.length (c_rest s).
(** [mono s s']: nothing was put back, an error stays. *)
Definition mono (s s' : cst) : Prop := left_ s' <= left_ s /\ (c_err s <> None -> c_err s' <> None).
Lemma mono_refl s : mono s s. Proof. split; auto. Qed.
Lemma mono_trans a b c : mono a b -> mono b c -> mono a c.
Proof. intros [H1 H2] [H3 H4]. split; [lia|auto]. Qed.
Lemma set_err_mono m s : mono s (set_err m s).
Proof. destruct s as [p r [x|]]; split; cbn; auto; discriminate. Qed.
Lemma ascii_check_err c e : e <> None -> ascii_check c e <> None.
Proof. destruct e; cbn; auto. Qed.
Lemma next_char_mono s : mono s (snd (next_char s)).
Proof.
  destruct s as [p [|c r] e]; cbn [next_char c_rest].
  - apply set_err_mono.
  - split; [unfold left_; cbn; lia|]. cbn. apply ascii_check_err.
Qed.
Lemma scan_from_spec r : forall p e, let (c, s') := scan_from p r e in
  mono (CSt p r e) s' /\ is_ws c = false /\
  ((left_ s' < String.length r /\ exists p', c_pre s' = String c p') \/ (c = qt /\ c_err s' <> None)).
Proof.
  induction r as [|c r IH]; intros p e; cbn [scan_from].
  - split; [apply set_err_mono|]. split; [reflexivity|]. right. split; [reflexivity|]. destruct e; discriminate.
  - destruct (is_ws c) eqn:W.
    + specialize (IH (String c p) (ascii_check c e)). destruct (scan_from (String c p) r (ascii_check c e)) as [d s'].
      destruct IH as ([M1 M2] & Wd & L). unfold left_ in *. cbn [c_rest c_err] in *. split; [split; cbn [c_rest c_err left_ String.length]|].
      * unfold left_. cbn [c_rest String.length]. lia.
      * intros H. apply M2. now apply ascii_check_err.
      * split; [exact Wd|]. destruct L as [[L P]|L]; [left; split; [cbn [String.length]; lia|exact P]|right; exact L].
    + split; [split; [unfold left_; cbn; lia|cbn; apply ascii_check_err]|]. split; [exact W|]. left. split; [unfold left_; cbn; lia|cbn; eauto].
Qed.
Lemma scan_spec s c s' : scan s = (c, s') -> mono s s' /\ is_ws c = false /\
  ((left_ s' < left_ s /\ exists p', c_pre s' = String c p') \/ (c = qt /\ c_err s' <> None)).
Proof.
  destruct s as [p r e]. unfold scan. cbn [c_pre c_rest c_err]. intros E. assert (H := scan_from_spec r p e). rewrite E in H. exact H.
Qed.
Lemma scan_mono s : mono s (snd (scan s)).
Proof. destruct (scan s) as [c s'] eqn:E. apply scan_spec in E. apply E. Qed.
Lemma scan_for_mono c s : mono s (scan_for c s).
Proof.
  unfold scan_for. destruct (scan s) as [d s'] eqn:E. apply scan_spec in E as [E _]. destruct (Ascii.eqb d c); [exact E|]. eapply mono_trans; [exact E|apply set_err_mono].
Qed.
Lemma test_next_mono s : mono s (snd (test_next s)).
Proof.
  unfold test_next. destruct (scan s) as [d s'] eqn:E. apply scan_spec in E as [[_ E] _]. split; [reflexivity|exact E].
Qed.
Lemma get_u_mono s : mono s (snd (get_u s)).
Proof.
  unfold get_u. destruct (next_char s) as [c1 s1] eqn:E1. destruct (next_char s1) as [c2 s2] eqn:E2. destruct (next_char s2) as [c3 s3] eqn:E3. destruct (next_char s3) as [c4 s4] eqn:E4.
  assert (M : mono s s4).
  { assert (M1 := next_char_mono s). assert (M2 := next_char_mono s1). assert (M3 := next_char_mono s2). assert (M4 := next_char_mono s3).
    rewrite E1 in M1. rewrite E2 in M2. rewrite E3 in M3. rewrite E4 in M4. cbn [snd] in *. eauto using mono_trans. }
  destruct (c_err s4); [exact M|]. destruct (hex4 c1 c2 c3 c4); [exact M|]. eapply mono_trans; [exact M|apply set_err_mono].
Qed.

(** The run ends, without reading backwards. *)
Definition ends {A} (s : cst) (o : out A) : Prop := exists a s', o = Done a s' /\ mono s s'.
Lemma ends_oapp s p o : ends s o -> ends s (oapp p o).
Proof. intros (a & s' & -> & M). exists (p ++ a)%string, s'. auto. Qed.
Lemma ends_mono {A} s s1 (o : out A) : mono s s1 -> ends s1 o -> ends s o.
Proof. intros M (a & s' & -> & M'). exists a, s'. split; [reflexivity|]. eapply mono_trans; eauto. Qed.
Lemma quoted_ends n : forall s, left_ s < n -> ends s (quoted n s).
Proof.
  induction n as [|n IH]; intros s L; [lia|]. cbn [quoted]. destruct (c_err s) eqn:Es; [exists ""%string, s; split; [reflexivity|apply mono_refl]|].
  destruct (c_rest s) as [|c r] eqn:Er; [eexists _, _; split; [reflexivity|apply next_char_mono]|].
  set (s1 := CSt (String c (c_pre s)) r None).
  assert (M1 : mono s s1) by (split; [unfold left_, s1; rewrite Er; cbn; lia|rewrite Es; congruence]).
  assert (L1 : left_ s1 < n) by (unfold left_, s1 in *; rewrite Er in L; cbn in *; lia).
  assert (K : forall s2, mono s1 s2 -> ends s (quoted n s2)).
  { intros s2 M2. eapply ends_mono; [eapply mono_trans; eauto|]. apply IH. destruct M2. lia. }
  destruct (Ascii.eqb c qt); [exists ""%string, s1; auto|].
  destruct (bt c <? 32)%N; [apply K; apply set_err_mono|].
  destruct (Ascii.eqb c bs); [|apply ends_oapp; apply K; apply mono_refl].
  assert (Me := next_char_mono s1). destruct (next_char s1) as [e s2]. cbn [snd] in Me.
  destruct (Ascii.eqb e "u").
  - assert (Mu := get_u_mono s2). destruct (get_u s2) as [u s3]. cbn [snd] in Mu.
    destruct (is_surr u); [|apply ends_oapp; apply K; eauto using mono_trans].
    assert (M3 := next_char_mono s3). destruct (next_char s3) as [b1 s4]. cbn [snd] in M3.
    destruct (negb (Ascii.eqb b1 bs)); [apply K; eauto 6 using mono_trans, set_err_mono|].
    assert (M4 := next_char_mono s4). destruct (next_char s4) as [b2 s5]. cbn [snd] in M4.
    destruct (negb (Ascii.eqb b2 "u")); [apply K; eauto 7 using mono_trans, set_err_mono|].
    assert (M5 := get_u_mono s5). destruct (get_u s5) as [w s6]. cbn [snd] in M5. apply ends_oapp. apply K. eauto 7 using mono_trans.
  - destruct (Ascii.eqb e "/"); [apply ends_oapp; apply K; exact Me|].
    destruct (binary_of e); [apply ends_oapp; apply K; exact Me|apply K; eauto using mono_trans, set_err_mono].
Qed.
Lemma parse_quoted_ends s : ends s (parse_quoted s).
Proof. unfold parse_quoted. apply quoted_ends. unfold left_. lia. Qed.

Lemma token_ends n : forall s, S (left_ s) < n \/ (c_err s <> None /\ 0 < n) -> ends s (token n s).
Proof.
  induction n as [|n IH]; intros s L; [lia|]. cbn [token]. destruct (c_err s) eqn:Es; [exists ""%string, s; split; [reflexivity|apply mono_refl]|].
  destruct L as [L|[L _]]; [|congruence].
  assert (M := test_next_mono s). destruct (test_next s) as [c s1] eqn:Et. cbn [snd] in M.
  assert (R : c_rest s1 = c_rest s) by (unfold test_next in Et; destruct (scan s); injection Et as <- <-; reflexivity).
  destruct (_ || _ || _); [exists ""%string, s1; auto|].
  assert (M1 := next_char_mono s1). destruct (next_char s1) as [d s2] eqn:En. cbn [snd] in M1.
  destruct (is_ws d); [exists ""%string, s2; eauto using mono_trans|].
  apply ends_oapp. eapply ends_mono; [eapply mono_trans; [exact M|exact M1]|]. apply IH.
  unfold next_char in En. destruct (c_rest s1) as [|x r] eqn:Er1.
  - injection En as <- <-. right. split; [destruct s1 as [? ? [y|]]; discriminate|]. unfold left_ in L. lia.
  - left. injection En as <- <-. unfold left_ in *. rewrite <- R in L. cbn in *. lia.
Qed.
(** The first character of a token is read or an error is set. *)
Lemma token_first n p c r e : is_ws c = false -> S (S (String.length r)) < n -> exists a s',
  token n (CSt p (String c r) e) = Done a s' /\ mono (CSt p (String c r) e) s' /\ (a = ""%string \/ left_ s' <= String.length r) /\ (e <> None -> c_err s' <> None).
Proof.
  intros W L. destruct (token_ends n (CSt p (String c r) e)) as (a & s' & E & M); [left; unfold left_; cbn; lia|].
  exists a, s'. split; [exact E|]. split; [exact M|]. split; [|apply M].
  destruct n as [|n]; [lia|]. cbn [token c_err] in E. destruct e; [injection E as <- <-; now left|].
  destruct (test_next (CSt p (String c r) None)) as [d s1] eqn:Et.
  assert (R : c_rest s1 = String c r) by (unfold test_next in Et; destruct (scan _) in Et; injection Et as <- <-; reflexivity).
  destruct (_ || _ || _); [injection E as <- <-; now left|]. unfold next_char in E. rewrite R in E. rewrite W in E. right.
  destruct (token_ends n (CSt (String c (c_pre s1)) r (ascii_check c (c_err s1)))) as (a2 & s2 & E2 & M2).
  { left. unfold left_. cbn. lia. }
  rewrite E2 in E. cbn in E. injection E as <- <-. destruct M2 as [M2 _]. exact M2.
Qed.

Section Total.
Variable pf : string -> flt * bool.
Lemma number_total f : exists t ok, number_to_json f = Some (t, ok).
Proof. destruct f as [| |neg m e]; [eexists _, _; reflexivity..|]. rewrite number_to_json_es6. eauto. Qed.
Lemma simple_ends c p r e : is_ws c = false -> exists t s', simple pf (CSt (String c p) r e) = Done t s' /\
  left_ s' <= S (String.length r) /\ (left_ s' <= String.length r \/ c_err s' <> None) /\ (e <> None -> c_err s' <> None).
Proof.
  intros W. unfold simple. cbn [c_pre c_rest c_err].
  destruct (token_first (S (S (String.length (String c r)))) p c r e W) as (a & s1 & -> & [M1 M2] & F & Er); [cbn; lia|]. cbn [obind].
  set (s2 := if is_empty a then set_err "Missing argument" s1 else s1).
  assert (H2 : left_ s2 = left_ s1 /\ (left_ s2 <= String.length r \/ c_err s2 <> None) /\ (e <> None -> c_err s2 <> None)).
  { unfold s2. destruct (is_empty a) eqn:Ea.
    - split; [reflexivity|]. split; [right|intros _]; destruct s1 as [? ? [y|]]; discriminate.
    - split; [reflexivity|]. split; [|exact Er]. destruct F as [->|F]; [discriminate|now left]. }
  destruct H2 as (H2 & H3 & H4). unfold left_ in M1. cbn [c_rest String.length] in M1. fold (left_ s1) in M1.
  assert (K : forall s3, mono s2 s3 -> left_ s3 <= S (String.length r) /\ (left_ s3 <= String.length r \/ c_err s3 <> None) /\ (e <> None -> c_err s3 <> None)).
  { intros s3 [K1 K2]. split; [lia|]. split; [destruct H3; [left; lia|right; auto]|auto]. }
  destruct (mem_str a literals); [exists a, s2; split; [reflexivity|apply K; apply mono_refl]|].
  destruct (pf a) as [f ok]. destruct (number_total f) as (t & ok' & ->). eexists _, _. split; [reflexivity|]. apply K.
  destruct ok, ok'; eauto using mono_refl, mono_trans, set_err_mono.
Qed.

Lemma elements_S n next s : elements pf (S n) next s =
      match c_err s with
      | Some _ => Done "]"%string (snd (scan s))
      | None =>
          let (c, s1) := test_next s in
          if Ascii.eqb c "]" then Done "]"%string (snd (scan s1))
          else
            let s2 := if next then scan_for "," s1 else s1 in
            obind (element pf n s2) (fun x s3 =>
              oapp (if next then "," ++ x else x)%string (elements pf n true s3))
      end.
Proof. reflexivity. Qed.
Lemma members_S n next l s : members pf (S n) next l s =
      match c_err s with
      | Some _ => Done l (snd (scan s))
      | None =>
          let (c, s1) := test_next s in
          if Ascii.eqb c "}" then Done l (snd (scan s1))
          else
            let s2 := if next then scan_for "," s1 else s1 in
            let s3 := scan_for qt s2 in
            obind (parse_quoted s3) (fun name s4 =>
              match c_err s4 with
              | Some _ => Done l (snd (scan s4))
              | None =>
                  let key := utf16_encode (runes name) in
                  let s5 := scan_for ":" s4 in
                  obind (element pf n s5) (fun v s6 =>
                    let (l', dup) := insert_nv (name, key, v) l in
                    members pf n true l' (if dup then set_err "Duplicate key" s6 else s6))
              end)
      end.
Proof. reflexivity. Qed.
(** The run ends and reads at least a byte, or an error is set. *)
Definition ends_prog {A} (s : cst) (o : out A) : Prop :=
  exists a s', o = Done a s' /\ mono s s' /\ (left_ s' < left_ s \/ c_err s' <> None).
Lemma total n :
  (forall s, 2 * left_ s + 2 <= n -> ends_prog s (element pf n s)) /\
  (forall next s, 2 * left_ s + 3 <= n \/ (c_err s <> None /\ 0 < n) -> ends s (elements pf n next s)) /\
  (forall next l s, 2 * left_ s + 3 <= n \/ (c_err s <> None /\ 0 < n) -> ends s (members pf n next l s)).
Proof.
  induction n as [|n (IHe & IHa & IHm)].
  { split; [|split]; intros; lia. }
  split; [|split].
  - intros s L. change (element pf (S n) s) with (let (c, s1) := scan s in
      if Ascii.eqb c "{" then obind (members pf n false [] s1) (fun l s2 => Done (write_object l) s2)
      else if Ascii.eqb c qt then obind (parse_quoted s1) (fun x s2 => Done (decorate x) s2)
      else if Ascii.eqb c "[" then oapp "[" (elements pf n false s1)
      else simple pf s1).
    destruct (scan s) as [c s1] eqn:E. apply scan_spec in E as (M & W & H).
    assert (Pr : forall s', mono s1 s' -> mono s s' /\ (left_ s' < left_ s \/ c_err s' <> None)).
    { intros s' M'. split; [eapply mono_trans; eauto|]. destruct M' as [M1 M2]. destruct H as [[H _]|[_ H]]; [left; lia|right; auto]. }
    destruct (Ascii.eqb_spec c "{") as [->|N1].
    { destruct H as [[H _]|[H _]]; [|discriminate]. destruct (IHm false [] s1) as (a & s2 & -> & M2); [lia|]. exists (write_object a), s2. split; [reflexivity|]. now apply Pr. }
    destruct (Ascii.eqb c qt) eqn:Eq.
    { destruct (parse_quoted_ends s1) as (a & s2 & -> & M2). exists (decorate a), s2. split; [reflexivity|]. now apply Pr. }
    destruct H as [[H (p' & P)]|[H _]]; [|subst c; rewrite Ascii.eqb_refl in Eq; discriminate].
    destruct (Ascii.eqb_spec c "[") as [->|N2].
    { destruct (IHa false s1) as (a & s2 & -> & M2); [lia|]. exists ("[" ++ a)%string, s2. split; [reflexivity|]. now apply Pr. }
    destruct s1 as [p1 r1 e1]. cbn [c_pre] in P. subst p1. destruct (simple_ends c p' r1 e1 W) as (t & s2 & -> & S1 & S2 & S3).
    exists t, s2. split; [reflexivity|]. unfold left_ in H at 1. cbn [c_rest] in H. split; [split; [lia|]|destruct S2; [left; lia|now right]].
    intros Es. apply S3. now apply M.
  - intros next s L. rewrite elements_S. destruct (c_err s) eqn:Es.
    { eexists _, _. split; [reflexivity|apply scan_mono]. }
    destruct L as [L|[L _]]; [|congruence]. assert (M := test_next_mono s). destruct (test_next s) as [c s1]. cbn [snd] in M.
    destruct (Ascii.eqb c "]"); [eexists _, _; split; [reflexivity|eapply mono_trans; [exact M|apply scan_mono]]|].
    cbv zeta. set (s2 := if next then scan_for "," s1 else s1). assert (M2 : mono s s2) by (unfold s2; destruct next; eauto using mono_trans, scan_for_mono).
    destruct (IHe s2) as (a & s3 & -> & M3 & P3); [destruct M2; lia|]. cbn [obind]. apply ends_oapp. eapply ends_mono; [eapply mono_trans; [exact M2|exact M3]|].
    apply IHa. destruct M2. destruct P3; [left; lia|right; split; [assumption|lia]].
  - intros next l s L. rewrite members_S. destruct (c_err s) eqn:Es.
    { eexists _, _. split; [reflexivity|apply scan_mono]. }
    destruct L as [L|[L _]]; [|congruence]. assert (M := test_next_mono s). destruct (test_next s) as [c s1]. cbn [snd] in M.
    destruct (Ascii.eqb c "}"); [eexists _, _; split; [reflexivity|eapply mono_trans; [exact M|apply scan_mono]]|].
    cbv zeta. set (s2 := if next then scan_for "," s1 else s1). assert (M2 : mono s s2) by (unfold s2; destruct next; eauto using mono_trans, scan_for_mono).
    assert (M3 : mono s (scan_for qt s2)) by eauto using mono_trans, scan_for_mono.
    destruct (parse_quoted_ends (scan_for qt s2)) as (k & s4 & -> & M4). cbn [obind]. assert (M4' : mono s s4) by eauto using mono_trans.
    destruct (c_err s4); [eexists _, _; split; [reflexivity|eapply mono_trans; [exact M4'|apply scan_mono]]|].
    assert (M5 : mono s (scan_for ":" s4)) by eauto using mono_trans, scan_for_mono.
    destruct (IHe (scan_for ":" s4)) as (a & s6 & -> & M6 & P6); [destruct M5; lia|]. cbn [obind].
    destruct (insert_nv _ _) as [l' d]. assert (M7 : mono s6 (if d then set_err "Duplicate key" s6 else s6)) by (destruct d; [apply set_err_mono|apply mono_refl]).
    eapply ends_mono; [eapply mono_trans; [exact M5|eapply mono_trans; [exact M6|exact M7]]|]. apply IHm.
    destruct M5, M7. destruct P6; [left; lia|right; split; [auto|lia]].
Qed.
Lemma transform_total data : transform pf data <> Panic.
Proof.
  unfold transform, transform_run. set (s := CSt "" data None). assert (M := test_next_mono s). destruct (test_next s) as [c s1]. cbn [snd] in M.
  set (n := 2 * String.length data + 3). assert (Ls : left_ s = String.length data) by reflexivity.
  assert (H : exists t s2, (if Ascii.eqb c "[" then oapp "[" (elements pf n false (snd (scan s1)))
         else obind (members pf n false [] (scan_for "{" s1)) (fun l s2 => Done (write_object l) s2)) = Done t s2).
  { destruct (total n) as (_ & Ta & Tm). destruct (Ascii.eqb c "[").
    - destruct (Ta false (snd (scan s1))) as (a & s2 & -> & _); [left; destruct M, (scan_mono s1); unfold n; lia|]. cbn. eauto.
    - destruct (Tm false [] (scan_for "{" s1)) as (a & s2 & -> & _); [left; destruct M, (scan_for_mono "{" s1); unfold n; lia|]. cbn. eauto. }
  destruct H as (t & s2 & ->). cbn [obind]. destruct (c_err _); discriminate.
Qed.
End Total.
