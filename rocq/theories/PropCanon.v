(** Properties of the canonicalizer: C48-C53, C58, C67, C68. *)
From Verif Require Import GoStr GoStrFacts JsonStr JsonStrFacts Json JsonFacts Float FloatFacts NumFmt NumSpec NumSpecFacts StrSpec StrSpecFacts JsonSpec JsonSpecFacts Canon CanonSpec NumFmtFacts CanonFacts CanonParse CanonTotal CanonUnique CanonSound CanonValue.
From Coq Require Import Permutation Sorted Lia.
Local Open Scope N_scope.

Section Text.
Variable pf : string -> flt * bool.

Lemma skip_ws_all w : ws w -> skip_ws w = ""%string.
Proof. intros W. rewrite <- (sapp_nil w). rewrite skip_ws_app by exact W. reflexivity. Qed.
Lemma transform_arr l s w1 w2 : ws w1 -> ws w2 ->
  (forall n pre, (2 * String.length (s ++ String "]" w2) + 3 <= n)%nat ->
     (exists t pre', oapp "[" (elements pf n false (CSt pre (s ++ String "]" w2) None)) = Done t (CSt pre' w2 None) /\ jcs (CArr l) t /\ keyfree (CArr l)) \/
     (failed (elements pf n false (CSt pre (s ++ String "]" w2) None)) /\ ~ keyfree (CArr l))) ->
  (exists t, transform pf (w1 ++ String "[" (s ++ "]") ++ w2) = Ok t /\ jcs (CArr l) t /\ keyfree (CArr l)) \/
  (exists e, transform pf (w1 ++ String "[" (s ++ "]") ++ w2) = Err e /\ ~ keyfree (CArr l)).
Proof.
  intros W1 W2 H. cbn [append]. rewrite sapp_assoc. cbn [append]. unfold transform, transform_run.
  set (N := (2 * String.length (w1 ++ String "[" (s ++ String "]" w2)) + 3)%nat).
  rewrite test_ws; [|exact W1|reflexivity|reflexivity]. rewrite Ascii.eqb_refl.
  destruct (scan_ws w1 W1 "" "[" (s ++ String "]" w2) eq_refl eq_refl) as (p & ->). cbn [snd].
  destruct (H N (String "[" p)) as [(t & p' & E & Jt & D)|[(a & s' & E & X) D]].
  { unfold N. rewrite !slen_app. cbn [String.length]. rewrite slen_app. cbn [String.length]. lia. }
  - left. rewrite E. cbn [obind c_rest]. rewrite skip_ws_all by exact W2. cbn. eauto.
  - right. rewrite E. cbn [oapp obind]. destruct (c_err s') as [x|] eqn:Ex; [|congruence]. exists x. split; [|exact D].
    destruct (is_empty (skip_ws (c_rest s'))); cbn; now rewrite Ex.
Qed.
Lemma transform_obj l s w1 w2 : ws w1 -> ws w2 ->
  (forall n pre, (2 * String.length (s ++ String "}" w2) + 3 <= n)%nat ->
     (exists acc pre', members pf n false [] (CSt pre (s ++ String "}" w2) None) = Done acc (CSt pre' w2 None) /\ jcs (CObj l) (write_object acc) /\ keyfree (CObj l)) \/
     (failed (members pf n false [] (CSt pre (s ++ String "}" w2) None)) /\ ~ keyfree (CObj l))) ->
  (exists t, transform pf (w1 ++ String "{" (s ++ "}") ++ w2) = Ok t /\ jcs (CObj l) t /\ keyfree (CObj l)) \/
  (exists e, transform pf (w1 ++ String "{" (s ++ "}") ++ w2) = Err e /\ ~ keyfree (CObj l)).
Proof.
  intros W1 W2 H. cbn [append]. rewrite sapp_assoc. cbn [append]. unfold transform, transform_run.
  set (N := (2 * String.length (w1 ++ String "{" (s ++ String "}" w2)) + 3)%nat).
  rewrite test_ws; [|exact W1|reflexivity|reflexivity]. change (Ascii.eqb "{" "[") with false. cbv beta iota.
  destruct (scan_for_ws w1 "" "{" (s ++ String "}" w2) W1 eq_refl eq_refl) as (p & ->).
  destruct (H N (String "{" p)) as [(t & p' & E & Jt & D)|[(a & s' & E & X) D]].
  { unfold N. rewrite !slen_app. cbn [String.length]. rewrite slen_app. cbn [String.length]. lia. }
  - left. rewrite E. cbn [obind c_rest]. rewrite skip_ws_all by exact W2. cbn. eauto.
  - right. rewrite E. cbn [oapp obind]. destruct (c_err s') as [x|] eqn:Ex; [|congruence]. exists x. split; [|exact D].
    destruct (is_empty (skip_ws (c_rest s'))); cbn; now rewrite Ex.
Qed.
Lemma transform_text v s : lax_text pf v s ->
  (exists t, transform pf s = Ok t /\ jcs v t /\ keyfree v) \/ (exists e, transform pf s = Err e /\ ~ keyfree v).
Proof.
  intros [C (w1 & t & w2 & W1 & W2 & J & ->)]. apply ws_blank in W1, W2. destruct (parse_main pf) as (_ & Pe & Pm).
  destruct J as [| | |l neg m e O|raw x H|w W|l s H|w W|l s H]; try now destruct C.
  - apply transform_arr; [exact W1|exact W2|]. intros n pre L. left. apply ws_blank in W.
    destruct (elements_end pf n false w pre w2 W) as (p' & ->); [lia|]. exists "[]"%string, p'. split; [reflexivity|]. split; [apply (jcs_arr [] []); constructor|constructor; constructor].
  - apply transform_arr; [exact W1|exact W2|]. intros n pre L.
    destruct (Pe l s H n false ""%string pre w2 ws_nil L) as [(ts & p' & -> & _ & Jt & D)|[E D]].
    + left. cbn [oapp obind append]. exists (String "[" (join "," ts ++ "]")), p'. split; [reflexivity|]. split; [now apply jcs_arr|now constructor].
    + right. split; [exact E|]. intros X. inversion X. tauto.
  - apply transform_obj; [exact W1|exact W2|]. intros n pre L. left. apply ws_blank in W.
    destruct (members_end pf n false [] w pre w2 W) as (p' & ->); [lia|]. exists [], p'. split; [reflexivity|]. split; [apply (jcs_obj [] [] []); constructor|constructor; constructor].
  - apply transform_obj; [exact W1|exact W2|]. intros n pre L.
    destruct (Pm l s H n false ""%string pre w2 [] [] ws_nil) with (3 := L) as [(acc & p' & -> & R & D1 & D2)|[E D]].
    + exists []. repeat split; constructor.
    + constructor.
    + left. exists acc, p'. split; [reflexivity|]. split; [now apply acc_write|now constructor].
    + right. split; [exact E|]. intros X. inversion X. apply D. split; assumption.
Qed.
Lemma transform_lax v s t : lax_text pf v s -> jcs v t -> transform pf s = Ok t.
Proof.
  intros C J. destruct (transform_text v s C) as [(t1 & -> & J1 & _)|(e & _ & N)]; [f_equal; eapply jcs_unique; eauto|].
  destruct N. eapply (proj1 jcs_keyfree); eauto.
Qed.
End Text.
Lemma transform_ijson rnd pf v s : float_parser rnd pf -> ijson_text rnd v s ->
  (exists t, transform pf s = Ok t /\ jcs v t /\ dup_free v) \/ (exists e, transform pf s = Err e /\ ~ dup_free v).
Proof.
  intros P C. assert (D : dup_free v <-> keyfree v) by (destruct C as [_ (w1 & t & w2 & _ & _ & J & _)]; now apply (proj1 (ijson_names rnd)) in J).
  destruct (transform_text pf v s (ijson_lax rnd pf v s P C)) as [(t & E & J & K)|(e & E & K)]; [left; exists t|right; exists e]; tauto.
Qed.

(** C48 *)
Theorem canonical_text : forall rnd pf v s, float_parser rnd pf -> ijson_text rnd v s -> dup_free v ->
  exists t, transform pf s = Ok t /\ jcs v t /\ forall t', jcs v t' -> t' = t.
Proof.
  intros rnd pf v s P C D. destruct (transform_ijson rnd pf v s P C) as [(t & E & J & _)|(e & _ & N)]; [|contradiction].
  exists t. split; [exact E|]. split; [exact J|]. intros t' J'. eapply jcs_unique; eauto.
Qed.
Print Assumptions canonical_text.

(** C51 *)
Theorem duplicates_rejected : forall rnd pf v s, float_parser rnd pf -> ijson_text rnd v s ->
  ((exists t, transform pf s = Ok t) <-> dup_free v) /\
  ((exists e, transform pf s = Err e) <-> ~ dup_free v).
Proof.
  intros rnd pf v s P C. destruct (transform_ijson rnd pf v s P C) as [(t & E & J & D)|(e & E & N)]; rewrite E; repeat split; try tauto; try (intros [x X]; discriminate); eauto.
Qed.
Print Assumptions duplicates_rejected.

(** C67 *)
Theorem canonicalizer_exact : forall pf s t, transform pf s = Ok t <-> exists v, lax_text pf v s /\ jcs v t.
Proof.
  intros pf s t. split; [apply transform_sound|]. intros (v & C & J). now apply (transform_lax pf v).
Qed.
Print Assumptions canonicalizer_exact.
Theorem other_texts_rejected : forall pf s, (forall v t, lax_text pf v s -> ~ jcs v t) <-> exists e, transform pf s = Err e.
Proof.
  intros pf s. assert (X := canonicalizer_exact pf s). assert (T := transform_total pf s). split.
  - intros H. destruct (transform pf s) as [t|e|]; [|eauto|congruence]. destruct (proj1 (X t) eq_refl) as (v & C & J). now apply H in J.
  - intros [e E] v t C J. rewrite E in X. assert (Y : Err e = Ok t) by (apply X; eauto). discriminate.
Qed.
Print Assumptions other_texts_rejected.

(** C50 *)
Theorem same_value_same_canonical_text : forall pf v v' s s', lax_text pf v s -> lax_text pf v' s' -> veq v v' ->
  forall t, transform pf s = Ok t <-> transform pf s' = Ok t.
Proof.
  intros pf v v' s s' C C' V t. destruct (proj1 veq_key v v' V) as [D1 D2]. assert (S := proj1 veq_canon v v' V).
  destruct (transform_text pf v s C) as [(t1 & -> & J & D)|(e & -> & N)]; destruct (transform_text pf v' s' C') as [(t2 & -> & J' & D')|(e' & -> & N')]; try tauto.
  - rewrite (S t1 t2 J J'). tauto.
  - split; discriminate.
Qed.
Print Assumptions same_value_same_canonical_text.
Theorem canonical_text_iff_same_value : forall rnd pf v v' s s', float_parser rnd pf -> ijson_text rnd v s -> ijson_text rnd v' s' -> dup_free v -> dup_free v' ->
  (transform pf s = transform pf s' <-> veq v v').
Proof.
  intros rnd pf v v' s s' P C C' D D'. split.
  - intros E. destruct (transform_ijson rnd pf v s P C) as [(t & E1 & J & _)|(e & _ & N)]; [|contradiction].
    destruct (transform_ijson rnd pf v' s' P C') as [(t' & E1' & J' & _)|(e & _ & N)]; [|contradiction].
    assert (t = t') by congruence. subst t'. eapply (canon_injective rnd); eauto; [now apply (parser_fine rnd pf)|apply P].
  - intros V. assert (X := same_value_same_canonical_text pf v v' s s' (ijson_lax rnd pf v s P C) (ijson_lax rnd pf v' s' P C') V).
    destruct (transform_ijson rnd pf v s P C) as [(t & E1 & _)|(e & _ & N)]; [|contradiction]. rewrite E1. symmetry. now apply X.
Qed.
Print Assumptions canonical_text_iff_same_value.
Theorem text_denotes_one_value : forall rnd v v' s, ijson_text rnd v s -> ijson_text rnd v' s -> v = v'.
Proof. exact ijson_value_unique. Qed.
Print Assumptions text_denotes_one_value.

(** C49 *)
Theorem canonicalization_idempotent : forall rnd pf s t, float_parser rnd pf -> transform pf s = Ok t -> transform pf t = Ok t.
Proof.
  intros rnd pf s t P E. apply canonicalizer_exact in E as (v & C & J). destruct (canon_lax rnd pf v s t P C J) as (v' & C' & J' & _).
  apply canonicalizer_exact. eauto.
Qed.
Print Assumptions canonicalization_idempotent.
(** The output denotes the value of the input. *)
Theorem canonicalization_keeps_value : forall rnd pf v s t, float_parser rnd pf -> ijson_text rnd v s -> transform pf s = Ok t ->
  exists v', ijson_text rnd v' t /\ veq v v' /\ dup_free v'.
Proof.
  intros rnd pf v s t P C E. destruct (transform_ijson rnd pf v s P C) as [(t1 & E1 & J & _)|(e & E1 & _)]; [|congruence].
  assert (t1 = t) by congruence. subst t1. destruct (canon_ijson rnd (parser_fine rnd pf P) (proj2 (proj2 P)) v s t C J) as (v' & C' & J' & V).
  exists v'. split; [exact C'|]. split; [exact V|]. destruct (transform_ijson rnd pf v' t P C') as [(t1 & _ & _ & D)|(e & Et & _)]; [exact D|].
  assert (X := canonicalization_idempotent rnd pf s t P E). congruence.
Qed.
Print Assumptions canonicalization_keeps_value.

(** C52 *)
Theorem numbers_as_ecmascript : forall neg m e,
  number_to_json (FFin neg m e) = Some (es6 neg m e, true) /\
  number_to_json FNaN = Some ("null"%string, false) /\ number_to_json (FInf neg) = Some ("null"%string, false).
Proof. intros neg m e. split; [apply number_to_json_es6|]. split; reflexivity. Qed.
Print Assumptions numbers_as_ecmascript.

(** C53: [Panic] stands for an index out of range and for a loop that does not
    end within a number of steps linear in the input. *)
Theorem canonicalizer_total : forall pf data, transform pf data <> Panic.
Proof. intros. apply transform_total. Qed.
Print Assumptions canonicalizer_total.

(** C58: escapes of unpaired surrogates.  A surrogate that is not followed by
    another \u escape is rejected; followed by one that does not complete the
    pair, both are replaced by U+FFFD. *)
Definition unpaired (raw : string) : Prop :=
  exists a x h n b, raw = (a ++ u_escape h ++ b)%string /\ lax_str a x /\ hex_text h n /\ surrogate n /\
    forall h' n' c, b = (u_escape h' ++ c)%string -> hex_text h' n' -> ~ (n <= 56319 /\ 56320 <= n' <= 57343).
Theorem unpaired_surrogates_rejected_refuted : forall pf, exists raw t, unpaired raw /\ transform pf ("[" ++ in_quotes raw ++ "]") = Ok t.
Proof.
  intros pf. exists (u_escape "d800" ++ u_escape "0041")%string, ("[" ++ in_quotes (enc_rune 65533) ++ "]")%string. split; [|vm_compute; reflexivity].
  exists ""%string, ""%string, "d800"%string, 55296, (u_escape "0041"). split; [reflexivity|]. split; [constructor|].
  split; [apply hex4_text; reflexivity|]. split; [unfold surrogate; lia|].
  intros h' n' c E H. apply hex_text_form in H as (k1 & k2 & k3 & k4 & -> & H). unfold u_escape in E. cbn [append] in E. injection E as <- <- <- <- _. vm_compute in H. injection H as <-. lia.
Qed.
Print Assumptions unpaired_surrogates_rejected_refuted.
Lemma quoted_surrogate a x : strval a x -> forall h1 h2 h3 h4 v b pre n, hex4 h1 h2 h3 h4 = Some v -> is_surr v = true ->
  (forall r, b <> String bs (String "u" r)) -> (S (S (String.length a)) < n)%nat ->
  exists y s', quoted n (CSt pre (a ++ String bs (String "u" (String h1 (String h2 (String h3 (String h4 b)))))) None) = Done y s' /\ c_err s' <> None.
Proof.
  assert (K : forall p o, (exists y s', o = Done y s' /\ c_err s' <> None) -> exists y s', oapp p o = Done y s' /\ c_err s' <> None).
  { intros p o (y & s' & -> & H). exists (p ++ y)%string, s'. auto. }
  induction 1 as [|c s x B Nb Nq H IH|e b' s x Hin H IH|k1 k2 k3 k4 u s x Hv Sv H IH|k1 k2 k3 k4 g1 g2 g3 g4 u w s x Hv Sv Hw H IH];
    intros h1 h2 h3 h4 v b pre n Hx Sx Nx L; cbn [String.length] in L; (destruct n as [|n]; [lia|]); cbn [quoted c_err c_rest c_pre append].
  - change (Ascii.eqb bs qt) with false. change (bt bs <? 32) with false. rewrite Ascii.eqb_refl. unfold next_char at 1. cbn [c_rest c_pre c_err].
    change (ascii_check "u" None) with (@None string). rewrite Ascii.eqb_refl.
    destruct (get_u_hex _ _ _ _ _ (String "u" (String bs pre)) b Hx) as (p1 & ->). rewrite Sx.
    destruct n as [|n]; [lia|].
    assert (Q : forall m s, exists y s', quoted (S n) (set_err m s) = Done y s' /\ c_err s' <> None).
    { intros m s. cbn [quoted]. destruct (c_err (set_err m s)) eqn:Em; [|destruct s as [? ? [|]]; discriminate]. exists ""%string, (set_err m s). rewrite Em. split; [reflexivity|discriminate]. }
    destruct b as [|b1 b]; unfold next_char; cbn [c_rest c_pre c_err].
    + change (Ascii.eqb qt bs) with false. cbn [negb]. apply Q.
    + destruct (Ascii.eqb_spec b1 bs) as [->|]; cbn [negb]; [|apply Q]. destruct b as [|b2 b]; cbn [c_rest c_pre c_err].
      * change (Ascii.eqb qt "u") with false. cbn [negb]. apply Q.
      * destruct (Ascii.eqb_spec b2 "u") as [->|]; cbn [negb]; [|apply Q]. exfalso. now apply (Nx b).
  - apply Ascii.eqb_neq in Nb, Nq. rewrite Nq. destruct (N.ltb_spec (bt c) 32); [lia|]. rewrite Nb. apply K. eapply IH; eauto. lia.
  - change (Ascii.eqb bs qt) with false. change (bt bs <? 32) with false. rewrite Ascii.eqb_refl. unfold next_char. cbn [c_rest c_pre c_err].
    destruct (esc_facts _ _ Hin) as (F1 & F2 & F3). rewrite F1, F2. destruct (Ascii.eqb e "/"); [subst b'|rewrite F3]; apply K; eapply IH; eauto; lia.
  - change (Ascii.eqb bs qt) with false. change (bt bs <? 32) with false. rewrite Ascii.eqb_refl. unfold next_char at 1. cbn [c_rest c_pre c_err].
    change (ascii_check "u" None) with (@None string). rewrite Ascii.eqb_refl.
    match goal with |- context[CSt ?p (String k1 (String k2 (String k3 (String k4 ?r)))) None] => destruct (get_u_hex _ _ _ _ _ p r Hv) as (p1 & ->) end. rewrite Sv.
    apply K. eapply IH; eauto. lia.
  - change (Ascii.eqb bs qt) with false. change (bt bs <? 32) with false. rewrite Ascii.eqb_refl. unfold next_char at 1. cbn [c_rest c_pre c_err].
    change (ascii_check "u" None) with (@None string). rewrite Ascii.eqb_refl.
    match goal with |- context[CSt ?p (String k1 (String k2 (String k3 (String k4 ?r)))) None] => destruct (get_u_hex _ _ _ _ _ p r Hv) as (p1 & ->) end.
    rewrite Sv. unfold next_char. cbn [c_rest c_pre c_err].
    change (ascii_check bs None) with (@None string). rewrite Ascii.eqb_refl. cbn [negb c_rest c_pre c_err].
    change (ascii_check "u" None) with (@None string). rewrite Ascii.eqb_refl. cbn [negb].
    match goal with |- context[CSt ?p (String g1 (String g2 (String g3 (String g4 ?r)))) None] => destruct (get_u_hex _ _ _ _ _ p r Hw) as (p2 & ->) end.
    destruct (dec_pair u w); apply K; eapply IH; eauto; lia.
Qed.
(** Missing from the full claim: the surrogates followed by a \u escape that
    does not complete the pair, and strings other than the first of an array. *)
Theorem unpaired_surrogates_rejected_partial : forall pf a x h n b, lax_str a x -> hex_text h n -> surrogate n ->
  (forall r, b <> String backslash (String "u" r)) -> exists e, transform pf ("[" ++ String "034" (a ++ u_escape h ++ b)) = Err e.
Proof.
  intros pf a x h v b Ha Hh Hs Hb. apply lax_strval in Ha. apply surr_spec in Hs. apply hex_text_form in Hh as (h1 & h2 & h3 & h4 & -> & Hv).
  change backslash with bs in Hb. change "034"%char with qt. unfold u_escape. cbn [append]. change backslash with bs.
  unfold transform, transform_run. set (N := (2 * _ + 3)%nat).
  assert (LN : (10 < N)%nat) by (unfold N; cbn [append String.length]; rewrite slen_app; cbn [String.length]; lia). clearbody N.
  cbn [append]. destruct N as [|[|n]]; [lia|lia|]. set (rest := (a ++ _)%string).
  change (test_next (CSt "" (String "[" (String qt rest)) None)) with ("["%char, CSt "" (String "[" (String qt rest)) None). cbv beta iota. rewrite Ascii.eqb_refl.
  change (snd (scan (CSt "" (String "[" (String qt rest)) None))) with (CSt "[" (String qt rest) None).
  rewrite elements_S. cbn [c_err]. change (test_next (CSt "[" (String qt rest) None)) with (qt, CSt "[" (String qt rest) None). cbv beta iota zeta.
  change (Ascii.eqb qt "]") with false. cbv beta iota.
  assert (El : exists t s', element pf (S n) (CSt "[" (String qt rest) None) = Done t s' /\ c_err s' <> None).
  { change (element pf (S n) (CSt "[" (String qt rest) None)) with (obind (parse_quoted (CSt (String qt "[") rest None)) (fun x s2 => Done (decorate x) s2)).
    unfold parse_quoted. cbn [c_rest]. destruct (quoted_surrogate a x Ha h1 h2 h3 h4 v b (String qt "[") (S (S (String.length rest))) Hv Hs Hb) as (y & s' & E & X).
    { unfold rest. rewrite slen_app. cbn [String.length]. lia. }
    fold rest in E. rewrite E. exists (decorate y), s'. auto. }
  destruct El as (t & s' & -> & X). cbn [obind]. destruct s' as [p r [z|]]; [|now destruct X].
  rewrite elements_S. cbn [c_err]. unfold scan. cbn [c_pre c_rest c_err]. destruct (scan_from_err r p z) as (p' & r' & ->).
  cbn [oapp obind c_rest]. exists z. destruct (is_empty _); reflexivity.
Qed.
Print Assumptions unpaired_surrogates_rejected_partial.


(** C68: texts that are no JSON.  strconv.ParseFloat takes more than the JSON
    numbers, 01 for instance, and so does the canonicalizer. *)
Theorem non_json_rejected_refuted : forall pf, pf "01"%string = (FFin false 1 0, true) ->
  exists s t, transform pf s = Ok t /\ forall j, ~ json_text j s.
Proof.
  intros pf H. exists "[01]"%string, "[1]"%string. split.
  - apply canonicalizer_exact. exists (CArr [CNum (FFin false 1 0)]). split.
    + split; [exact I|]. exists ""%string, "[01]"%string, ""%string. split; [intros c []|]. split; [intros c []|]. split; [|reflexivity].
      apply (jc_arr _ _ _ "01"%string). apply (jce_one _ _ _ ""%string "01"%string ""%string); [intros c []| |intros c []]. apply jc_num. split; [|exact H].
      split; [|split].
      * exists "0"%char, "1"%string. split; [reflexivity|]. intros [X|[X|[X|[]]]]; discriminate.
      * intros c [<-|[<-|[]]]; (split; [reflexivity|]); split; cbn; intuition discriminate.
      * cbn. intuition discriminate.
    + apply (jcs_arr _ ["1"%string]). constructor; [apply (jcs_num false 1 0)|constructor].
  - intros j J. apply json_exact in J. vm_compute in J. discriminate.
Qed.
Print Assumptions non_json_rejected_refuted.
(** Missing from the full claim: words that are no JSON numbers. *)
Theorem non_json_rejected_partial : forall pf s t, transform pf s = Ok t -> (exists j, json_text j s) \/ odd_word pf s.
Proof.
  intros pf s t E. apply canonicalizer_exact in E as (v & [_ (w1 & x & w2 & W1 & W2 & J & ->)] & _).
  destruct (proj1 (lax_json pf) v x J) as [(j & T)|O]; [left|right; now apply odd_in]. exists j, w1, x, w2. auto.
Qed.
Print Assumptions non_json_rejected_partial.

(** * Cases *)
(** A rounding: exact decimals without trailing zeros. *)
Fixpoint strip0 (n : nat) (m : N) (e : Z) : N * Z :=
  if m =? 0 then (0, 0%Z)
  else match n with
       | O => (m, e)
       | S n' => if m mod 10 =? 0 then strip0 n' (m / 10) (e + 1)%Z else (m, e)
       end.
Definition exact_rnd (neg : bool) (m : N) (e : Z) : option flt :=
  let (m', e') := strip0 (N.to_nat (N.log2 m)) m e in Some (FFin neg m' e').
Lemma strip0_canonical n : forall m e, m < 2 ^ (N.of_nat n + 1) -> let (m', e') := strip0 n m e in canonical m' e' = true.
Proof.
  induction n as [|n IH]; intros m e L; cbn [strip0].
  - destruct (N.eqb_spec m 0) as [->|H]; [reflexivity|]. cbn in L. assert (m = 1) as -> by lia. reflexivity.
  - destruct (N.eqb_spec m 0) as [->|H]; [reflexivity|]. destruct (N.eqb_spec (m mod 10) 0) as [H0|H0].
    + apply IH. apply N.div_lt_upper_bound; [lia|]. rewrite Nat2N.inj_succ in L. replace (N.succ (N.of_nat n) + 1) with (N.succ (N.of_nat n + 1)) in L by lia. rewrite N.pow_succ_r' in L. lia.
    + unfold canonical. destruct (N.eqb_spec m 0); [contradiction|]. destruct (N.eqb_spec (m mod 10) 0); [contradiction|reflexivity].
Qed.
Lemma strip0_id n m e : canonical m e = true -> strip0 n m e = (m, e).
Proof.
  unfold canonical. destruct n; cbn [strip0]; destruct (N.eqb_spec m 0) as [->|H]; intros C; try (apply Z.eqb_eq in C; now subst); [reflexivity|].
  apply negb_true_iff in C. now rewrite C.
Qed.
Lemma exact_rnd_lowest neg m e f : exact_rnd neg m e = Some f -> exists m' e', f = FFin neg m' e' /\ lowest m' e' /\ exact_rnd neg m' e' = Some f.
Proof.
  intros H. unfold exact_rnd in H. assert (C := strip0_canonical (N.to_nat (N.log2 m)) m e).
  destruct (strip0 (N.to_nat (N.log2 m)) m e) as [m' e']. injection H as <-. exists m', e'. split; [reflexivity|].
  assert (Cm : canonical m' e' = true).
  { apply C. rewrite N2Nat.id. destruct (N.eq_dec m 0) as [->|Hm]; [reflexivity|]. rewrite N.add_1_r. apply N.log2_spec. lia. }
  split; [now apply lowest_canonical|]. unfold exact_rnd. now rewrite strip0_id by exact Cm.
Qed.
(** A parser that takes 01, too. *)
Definition odd_other (s : string) : flt * bool := if String.eqb s "01" then (FFin false 1 0, true) else (FNaN, false).
Notation case_pf := (go_parse_float exact_rnd odd_other).
Example case_parser : float_parser exact_rnd case_pf.
Proof.
  split; [|split; [|reflexivity]].
  - intros l f (J & n & m & e & T & R). unfold go_parse_float, parse_float. apply num_ok_exact in J. rewrite J. apply (dec_exact _ _ _ _ J) in T. now rewrite T, R.
  - intros l neg m e. unfold go_parse_float, parse_float. destruct (num_ok l).
    + destruct (dec_of_lexeme l) as [[[n m0] e0]|]; [|discriminate]. destruct (exact_rnd n m0 e0) as [f|] eqn:R; [|discriminate]. intros H. injection H as ->.
      apply exact_rnd_lowest in R as (m' & e' & E & L & R). injection E as -> -> ->. auto.
    + unfold odd_other. destruct (String.eqb l "01"); [|discriminate]. intros H. injection H as <- <- <-. split; [right; vm_compute; discriminate|reflexivity].
Qed.
(** [{"b": [1.50e1, "A" as an escape], "a": -0}] *)
Definition case_src : string := ("{ " ++ in_quotes "b" ++ ": [1.50e1 ," ++ in_quotes (u_escape "0041") ++ "]," ++ in_quotes "a" ++ ":-0}")%string.
Definition case_val : cval := CObj [("b"%string, CArr [CNum (FFin false 15 0); CStr "A"]); ("a"%string, CNum (FFin true 0 0))].
Ltac blanks := first [assumption | solve [intros ? []] | solve [intros ? [<-|[]]; left; reflexivity]].
Lemma case_char c : 32 <= code c < 128 -> code c <> 34 -> code c <> 92 -> clean_str (String c "") (String c "").
Proof. intros L N1 N2. exists [code c]. split; [apply (ct_char (String c "") (code c) "" []); try lia; [now apply u8_1|constructor]|apply (u8_cons (String c "") (code c) "" []); [now apply u8_1|constructor]]. Qed.
Lemma case_u h n : hex_text h n -> n < 128 -> clean_str (u_escape h) (String (ascii_of_N n) "").
Proof.
  intros H L. assert (C : code (ascii_of_N n) = n) by (apply N_ascii_embedding; lia). exists [n].
  split; [rewrite <- (sapp_nil (u_escape h)); apply (ct_u h n "" []); [exact H|unfold surrogate; lia|constructor]|].
  apply (u8_cons (String (ascii_of_N n) "") n "" []); [|constructor]. rewrite <- C at 2. apply u8_1. lia.
Qed.
Lemma case_num l neg m e : num_ok l = true -> parse_float exact_rnd l = Some (FFin neg m e) -> json_num exact_rnd l (FFin neg m e).
Proof.
  intros O F. split; [now apply num_ok_exact|]. unfold parse_float in F. destruct (dec_of_lexeme l) as [[[n m0] e0]|] eqn:D; [|discriminate].
  exists n, m0, e0. split; [now apply dec_exact|exact F].
Qed.
Example case_text : ijson_text exact_rnd case_val case_src.
Proof.
  split; [exact I|]. exists ""%string, case_src, ""%string. split; [blanks|]. split; [blanks|]. split; [|reflexivity].
  apply (jc_obj _ _ _ (" " ++ in_quotes "b" ++ "" ++ String ":" (" " ++ (String "[" (("" ++ "1.50e1" ++ " " ++ String "," ("" ++ in_quotes (u_escape "0041") ++ "")) ++ "]")) ++ "" ++ String "," ("" ++ in_quotes "a" ++ "" ++ String ":" ("" ++ "-0" ++ "")))))%string.
  apply jcm_cons; try blanks.
  - apply case_char; vm_compute; intuition discriminate.
  - apply jc_arr. apply jce_cons; try blanks; [apply jc_num; apply case_num; vm_compute; reflexivity|]. apply jce_one; try blanks. apply jc_str.
    apply (case_u "0041" 65); [apply hex4_text; reflexivity|reflexivity].
  - apply jcm_one; try blanks; [apply case_char; vm_compute; intuition discriminate|]. apply jc_num; apply case_num; vm_compute; reflexivity.
Qed.
Example case_dup_free : dup_free case_val.
Proof. constructor; [cbn; repeat constructor; cbn; intuition discriminate|]. cbn. repeat constructor. Qed.
Definition case_out : string := ("{" ++ in_quotes "a" ++ ":0," ++ in_quotes "b" ++ ":[15," ++ in_quotes "A" ++ "]}")%string.
Example case_canonical : transform case_pf case_src = Ok case_out /\ transform case_pf case_out = Ok case_out.
Proof. vm_compute. auto. Qed.
Example case_veq : veq case_val (CObj [("a"%string, CNum (FFin false 0 0)); ("b"%string, CArr [CNum (FFin false 15 0); CStr "A"])]).
Proof. eapply veq_obj; [apply perm_swap|reflexivity|]. cbn [map snd]. repeat (constructor; try apply veq_refl). Qed.
(** Two spellings of the same name. *)
Definition dup_src : string := ("{" ++ in_quotes "a" ++ ":0," ++ in_quotes (u_escape "0061") ++ ":1}")%string.
Example case_dup : exists v e, ijson_text exact_rnd v dup_src /\ ~ dup_free v /\ transform case_pf dup_src = Err e.
Proof.
  exists (CObj [("a"%string, CNum (FFin false 0 0)); ("a"%string, CNum (FFin false 1 0))]), "Duplicate key"%string. split; [|split; [|vm_compute; reflexivity]].
  - split; [exact I|]. exists ""%string, dup_src, ""%string. split; [blanks|]. split; [blanks|]. split; [|reflexivity].
    apply (jc_obj _ _ _ ("" ++ in_quotes "a" ++ "" ++ String ":" ("" ++ "0" ++ "" ++ String "," ("" ++ in_quotes (u_escape "0061") ++ "" ++ String ":" ("" ++ "1" ++ "")))))%string.
    apply jcm_cons; try blanks.
    + apply case_char; vm_compute; intuition discriminate.
    + apply jc_num; apply case_num; vm_compute; reflexivity.
    + apply jcm_one; try blanks; [apply (case_u "0061" 97); [apply hex4_text; reflexivity|reflexivity]|]. apply jc_num; apply case_num; vm_compute; reflexivity.
  - intros H. inversion H as [| | | | |? N _]; subst. inversion N as [|? ? N1 _]; subst. apply N1. now left.
Qed.
Example case_lax : lax_text case_pf case_val case_src.
Proof. apply (ijson_lax exact_rnd); [exact case_parser|exact case_text]. Qed.
(** Texts that the canonicalizer does not take. *)
Example case_rejected : forall s, In s ["[1}"; "[1,]"; "[1 2]"; "{1:2}"; "[1] x"; "1"; ""; "[01e]"]%string -> exists e, transform case_pf s = Err e.
Proof. intros s H. repeat (destruct H as [<-|H]; [eexists; vm_compute; reflexivity|]). destruct H. Qed.
Example case_odd : case_pf "01"%string = (FFin false 1 0, true) /\ transform case_pf "[01]" = Ok "[1]"%string.
Proof. vm_compute. auto. Qed.
Example case_numbers : es6 false 1 21 = "1e+21"%string /\ es6 true 15 (-1) = "-1.5"%string /\ es6 false 1 (-7) = "1e-7"%string /\ es6 false 123 (-8) = "0.00000123"%string.
Proof. vm_compute. auto. Qed.
Example case_surrogate : exists e, transform (fun _ => (FNaN, false)) ("[" ++ String "034" ("x" ++ u_escape "d800" ++ "A" ++ String "034" "]")) = Err e.
Proof. eexists. vm_compute. reflexivity. Qed.
