(** A text of RFC 7493 denotes one value; canonical texts tell values apart. *)
From Verif Require Import GoStr GoStrFacts JsonStr JsonStrFacts Json JsonFacts Float FloatFacts NumFmt NumSpec NumSpecFacts StrSpec StrSpecFacts JsonSpec JsonSpecFacts Canon CanonSpec NumFmtFacts CanonFacts CanonParse CanonUnique.
From Coq Require Import Permutation Sorted Lia.
Local Open Scope N_scope.

Section Value.
Variable rnd : bool -> N -> Z -> option flt.
Notation jc := (jc (json_num rnd) clean_str).
Notation jcelems := (jcelems (json_num rnd) clean_str).
Notation jcmems := (jcmems (json_num rnd) clean_str).

(** A JSON value, its strings and numbers resolved. *)
Inductive denotes : json -> cval -> Prop :=
| dn_null : denotes JNull CNull
| dn_bool b : denotes (JBool b) (CBool b)
| dn_num l neg m e : json_num rnd l (FFin neg m e) -> denotes (JNum l) (CNum (FFin neg m e))
| dn_str raw x : clean_str raw x -> denotes (JStr raw) (CStr x)
| dn_arr js vs : denotes_list js vs -> denotes (JArr js) (CArr vs)
| dn_obj js vs : map fst js = map fst vs -> denotes_list (map snd js) (map snd vs) -> denotes (JObj js) (CObj vs)
with denotes_list : list json -> list cval -> Prop :=
| dnl_nil : denotes_list [] []
| dnl_cons j v js vs : denotes j v -> denotes_list js vs -> denotes_list (j :: js) (v :: vs).
Scheme denotes_mut := Minimality for denotes Sort Prop
  with denotes_list_mut := Minimality for denotes_list Sort Prop.
Combined Scheme denotes_combined from denotes_mut, denotes_list_mut.

Lemma clean_means raw x : clean_str raw x -> str_means raw x.
Proof.
  intros (l & H & U). exists l. split; [|exact U]. clear x U. induction H as [|w n r l W L1 L2 L3 H IH|e n r l Hin H IH|h n r l Hh Sn H IH|h hi h' lo r l Hh H1 Hh' H2 H IH].
  - constructor.
  - now apply st_char.
  - now apply st_escape.
  - now apply st_u.
  - now apply st_pair.
Qed.
Lemma means_fun raw x y : str_means raw x -> str_means raw y -> x = y.
Proof. intros H H'. apply unq_exact in H, H'. congruence. Qed.
Lemma json_num_fun l f g : json_num rnd l f -> json_num rnd l g -> f = g.
Proof.
  intros (J & n & m & e & T & R) (_ & n' & m' & e' & T' & R'). apply num_ok_exact in J. apply (dec_exact _ _ _ _ J) in T, T'. congruence.
Qed.
Lemma pair_lists_eq {A B} (l l' : list (A * B)) : map fst l = map fst l' -> map snd l = map snd l' -> l = l'.
Proof.
  revert l'. induction l as [|[a b] l IH]; intros [|[a' b'] l'] E F; try discriminate; [reflexivity|]. cbn [map fst snd] in *.
  injection E as -> E. injection F as -> F. f_equal. auto.
Qed.
Lemma denotes_fun : (forall j v, denotes j v -> forall v', denotes j v' -> v = v') /\ (forall js vs, denotes_list js vs -> forall vs', denotes_list js vs' -> vs = vs').
Proof.
  apply denotes_combined.
  - intros v' H. now inversion H.
  - intros b v' H. now inversion H.
  - intros l neg m e N v' H. inversion H; subst. f_equal. eapply json_num_fun; eauto.
  - intros raw x C v' H. inversion H; subst. f_equal. eapply means_fun; eapply clean_means; eauto.
  - intros js vs _ IH v' H. inversion H; subst. f_equal. auto.
  - intros js vs E _ IH v' H. inversion H; subst. f_equal. apply pair_lists_eq; [congruence|auto].
  - intros vs' H. now inversion H.
  - intros j v js vs _ H _ IH vs' H'. inversion H'; subst. f_equal; auto.
Qed.
Lemma jc_json : (forall v s, jc v s -> exists j, value_text j s /\ denotes j v) /\
  (forall l s, jcelems l s -> exists js, elements_text js s /\ denotes_list js l) /\
  (forall l s, jcmems l s -> exists js, members_text js s /\ map fst js = map fst l /\ denotes_list (map snd js) (map snd l)).
Proof.
  apply jc_combined.
  - exists JNull. split; constructor.
  - exists (JBool true). split; constructor.
  - exists (JBool false). split; constructor.
  - intros l neg m e N. exists (JNum l). split; constructor; [apply N|exact N].
  - intros raw x C. exists (JStr raw). split; [|now constructor]. apply (vt_str raw x). now apply clean_means.
  - intros w W. exists (JArr []). split; [now apply vt_arr0|repeat constructor].
  - intros l s _ (js & T & D). exists (JArr js). split; [now apply vt_arr|now constructor].
  - intros w W. exists (JObj []). split; [now apply vt_obj0|repeat constructor].
  - intros l s _ (js & T & E & D). exists (JObj js). split; [now apply vt_obj|now constructor].
  - intros v w1 s w2 W1 _ (j & T & D) W2. exists [j]. split; [now apply et_one|constructor; [exact D|constructor]].
  - intros v l w1 s w2 t W1 _ (j & T & D) W2 _ (js & Tl & Dl). exists (j :: js). split; [now apply et_cons|now constructor].
  - intros k raw v w1 w2 w3 s w4 W1 C W2 W3 _ (j & T & D) W4. exists [(k, j)]. split; [apply mt_one; auto; now apply clean_means|]. split; [reflexivity|]. constructor; [exact D|constructor].
  - intros k raw v l w1 w2 w3 s w4 t W1 C W2 W3 _ (j & T & D) W4 _ (js & Tl & E & Dl). exists ((k, j) :: js). split; [apply mt_cons; auto; now apply clean_means|].
    cbn [map fst snd]. split; [now rewrite E|now constructor].
Qed.
Lemma ijson_json v s : ijson_text rnd v s -> exists j, json_text j s /\ denotes j v.
Proof.
  intros [_ (w1 & t & w2 & W1 & W2 & J & ->)]. apply (proj1 jc_json) in J as (j & T & D). exists j. split; [|exact D]. exists w1, t, w2. auto.
Qed.
Lemma ijson_value_unique v v' s : ijson_text rnd v s -> ijson_text rnd v' s -> v = v'.
Proof.
  intros H H'. apply ijson_json in H as (j & T & D), H' as (j' & T' & D'). apply json_exact in T, T'. assert (j = j') by congruence. subst j'. now apply (proj1 denotes_fun j v D).
Qed.

(** Rounding as in [float_parser]. *)
Hypothesis rnd_fine : forall l n m e, json_num rnd l (FFin n m e) -> lowest m e /\ rnd n m e = Some (FFin n m e).
Hypothesis rnd_0 : rnd false 0 0%Z = Some (FFin false 0 0).
Lemma lowest_canonical m e : lowest m e <-> canonical m e = true.
Proof.
  unfold lowest, canonical. destruct (N.eqb_spec m 0) as [->|H].
  - rewrite Z.eqb_eq. split; [intros [[_ H]|H]; [exact H|now destruct H]|auto].
  - rewrite negb_true_iff, N.eqb_neq. split; [intros [[H' _]|H']; [contradiction|exact H']|auto].
Qed.
Lemma es6_json neg m e : lowest m e -> rnd neg m e = Some (FFin neg m e) -> m <> 0 -> json_num rnd (es6 neg m e) (FFin neg m e).
Proof.
  intros L R Hm. apply lowest_canonical in L. rewrite (es6_fmt neg m e Hm). assert (D := dec_fmt neg m e L).
  assert (O : num_ok (sgn neg (fmt_abs m e)) = true) by (unfold num_ok; unfold dec_of_lexeme in D; destruct (lex_num _); [reflexivity|discriminate]).
  split; [now apply num_ok_exact|]. exists neg, m, e. split; [now apply dec_exact|exact R].
Qed.
Lemma zero_json : json_num rnd "0" (FFin false 0 0).
Proof. split; [now apply num_ok_exact|]. exists false, 0, 0%Z. split; [apply dec_exact; reflexivity|exact rnd_0]. Qed.
Lemma canon_ijson v s t : ijson_text rnd v s -> jcs v t -> exists v', ijson_text rnd v' t /\ jcs v' t /\ veq v v'.
Proof.
  apply (canon_ctext (json_num rnd) clean_str (fun f => forall n m e, f = FFin n m e -> lowest m e /\ rnd n m e = Some f) (fun x => exists l, utf8_string x l)).
  - intros neg m e F Hm. destruct (F _ _ _ eq_refl) as [L R]. now apply es6_json.
  - exact zero_json.
  - intros x (l & U). exists l. split; [now apply clean_jcs|exact U].
  - intros l f R n m e ->. now apply rnd_fine in R.
  - intros r x (l & _ & U). now exists l.
Qed.
Lemma canon_injective v v' s s' t : ijson_text rnd v s -> ijson_text rnd v' s' -> jcs v t -> jcs v' t -> veq v v'.
Proof.
  intros H H' J J'. destruct (canon_ijson v s t H J) as (v1 & T & _ & V). destruct (canon_ijson v' s' t H' J') as (v1' & T' & _ & V').
  rewrite (ijson_value_unique _ _ _ T T') in V. apply (proj1 veq_trans _ _ V). now apply (proj1 veq_sym).
Qed.
End Value.

Lemma parser_fine rnd pf : float_parser rnd pf -> forall l n m e, json_num rnd l (FFin n m e) -> lowest m e /\ rnd n m e = Some (FFin n m e).
Proof. intros (P1 & P2 & _) l n m e H. apply P1 in H. now apply P2 in H. Qed.
Lemma canon_lax rnd pf v s t : float_parser rnd pf -> lax_text pf v s -> jcs v t -> exists v', lax_text pf v' t /\ jcs v' t /\ veq v v'.
Proof.
  intros (P1 & P2 & P3). apply (canon_ctext (lax_num pf) lax_str (fun f => forall n m e, f = FFin n m e -> lowest m e /\ rnd n m e = Some f) (fun _ => True)).
  - intros neg m e F Hm. destruct (F _ _ _ eq_refl) as [L R]. assert (J := es6_json rnd neg m e L R Hm). split; [apply number_token; apply J|now apply P1].
  - assert (J := zero_json rnd P3). split; [apply number_token; apply J|now apply P1].
  - intros x _. apply strval_lax. apply strval_jcs.
  - intros l f [_ F] n m e ->. now apply P2 in F.
  - auto.
Qed.

(** Strings the canonicalizer takes are strings of JSON. *)
Inductive loose : string -> Prop :=
| ls_nil : loose ""
| ls_byte c r : 32 <= code c -> code c <> 34 -> code c <> 92 -> loose r -> loose (String c r)
| ls_escape e n r : In (e, n) short_escapes -> loose r -> loose (String backslash (String e r))
| ls_u h n r : hex_text h n -> loose r -> loose (u_escape h ++ r).
Lemma lax_loose raw x : lax_str raw x -> loose raw.
Proof. induction 1; [constructor|now apply ls_byte|eapply ls_escape; eauto|eapply ls_u; eauto|eapply ls_u; eauto; eapply ls_u; eauto]. Qed.
Lemma hex_len h n : hex_text h n -> String.length h = 4%nat.
Proof. intros H. apply hex_text_form in H as (a & b & c & d & -> & _). reflexivity. Qed.
Lemma loose_high c r : 128 <= code c -> loose (String c r) -> loose r.
Proof.
  intros C H. remember (String c r) as s eqn:E. destruct H as [|c' r' _ _ _ H|e n r' _ H|h n r' _ H].
  - discriminate.
  - now injection E as -> ->.
  - injection E as <- _. vm_compute in C. now destruct C.
  - unfold u_escape in E. cbn [append] in E. injection E as <- _. vm_compute in C. now destruct C.
Qed.
Lemma loose_char w n r : utf8_char w n -> 128 <= n -> loose (w ++ r) -> loose r.
Proof.
  intros W. destruct W as [a|a b x y n0 A B|a b c x y z n0 A B C|a b c d x y z w n0 A B C D]; intros L HL; cbn [append] in HL.
  - now apply loose_high in HL.
  - apply loose_high in HL; [|lia]. apply loose_high in HL; [exact HL|lia].
  - apply loose_high in HL; [|lia]. apply loose_high in HL; [|lia]. apply loose_high in HL; [exact HL|lia].
  - do 3 (apply loose_high in HL; [|lia]). apply loose_high in HL; [exact HL|lia].
Qed.
Lemma u_escape_inj h h' n n' r r' : hex_text h n -> hex_text h' n' -> (u_escape h ++ r)%string = (u_escape h' ++ r')%string -> n = n' /\ r = r'.
Proof.
  intros H H' E. apply hex_text_form in H as (a & b & c & d & -> & H), H' as (a' & b' & c' & d' & -> & H'). unfold u_escape in E. cbn [append] in E.
  injection E as -> -> -> -> ->. split; [congruence|reflexivity].
Qed.
Lemma low_surrogate_next r : loose r -> (exists h lo r', hex_text h lo /\ 56320 <= lo <= 57343 /\ r = (u_escape h ++ r')%string /\ loose r') \/
  (forall h lo r', hex_text h lo -> 56320 <= lo <= 57343 -> r <> (u_escape h ++ r')%string).
Proof.
  intros [|c r' C1 C2 C3 H|e n r' Hin H|h n r' Hh H].
  - right. intros h lo r' _ _ E. discriminate.
  - right. intros h lo r1 _ _ E. unfold u_escape in E. cbn [append] in E. injection E as -> _. now apply C3.
  - right. intros h lo r1 _ _ E. unfold u_escape in E. cbn [append] in E. injection E as -> _. apply short_not_u in Hin as [X _]. discriminate.
  - destruct (N.le_gt_cases 56320 n) as [L|L]; [destruct (N.le_gt_cases n 57343) as [U|U]|].
    + left. exists h, n, r'. auto.
    + right. intros h1 lo r1 H1 L1 E. destruct (u_escape_inj _ _ _ _ _ _ Hh H1 E). lia.
    + right. intros h1 lo r1 H1 L1 E. destruct (u_escape_inj _ _ _ _ _ _ Hh H1 E). lia.
Qed.
Lemma loose_text k : forall r, (String.length r <= k)%nat -> loose r -> exists l, str_text r l.
Proof.
  induction k as [|k IH]; intros r L H.
  { destruct r; [|cbn in L; lia]. exists []. constructor. }
  destruct H as [|c r C1 C2 C3 H|e n r Hin H|h n r Hh H].
  - exists []. constructor.
  - cbn [String.length] in L. destruct (N.ltb_spec (code c) 128) as [Lc|Lc].
    + destruct (IH r ltac:(lia) H) as (l & T). exists (code c :: l). apply (st_char (String c "") (code c) r l); auto. now apply u8_1.
    + assert (B := runes_spec (String c r)). remember (String c r) as s eqn:E. destruct B as [|w n s' l W B|a s' l F B].
      * discriminate.
      * assert (Hn : 128 <= n). { destruct W; cbn [append] in E; injection E as -> _; lia. }
        assert (Lw : (String.length s' <= k)%nat).
        { assert (X := f_equal String.length E). rewrite slen_app in X. cbn [String.length] in X. destruct W; cbn [String.length] in X; lia. }
        assert (Hs : loose s'). { apply (loose_char w n s' W Hn). rewrite E. now apply ls_byte. }
        destruct (IH s' Lw Hs) as (l' & T). exists (n :: l'). apply st_char; auto; lia.
      * injection E as -> ->. destruct (IH r ltac:(lia) H) as (l' & T). exists (replacement :: l'). now apply st_byte.
  - cbn [String.length] in L. destruct (IH r ltac:(lia) H) as (l & T). exists (n :: l). now apply st_escape.
  - assert (Lr : (String.length r + 6 <= S k)%nat). { rewrite slen_app in L. unfold u_escape in L. cbn [String.length] in L. rewrite (hex_len _ _ Hh) in L. lia. }
    destruct (IH r ltac:(lia) H) as (l & T). destruct (is_surr n) eqn:Sn.
    + apply surr_spec in Sn. destruct (low_surrogate_next r H) as [(h' & lo & r' & Hh' & Lo & -> & H')|No].
      * destruct (N.le_gt_cases n 56319) as [Hi|Hi].
        -- destruct (IH r') as (l' & T'); [rewrite slen_app in Lr; lia|exact H'|]. exists (65536 + (n - 55296) * 1024 + (lo - 56320) :: l'). apply st_pair; auto. unfold surrogate in Sn. lia.
        -- exists (replacement :: l). apply (st_lone h n); auto. intros ? ? ? X. lia.
      * exists (replacement :: l). apply (st_lone h n); auto. intros h' lo r' _ A B. now apply (No h' lo).
    + apply surr_spec_f in Sn. exists (n :: l). now apply st_u.
Qed.
Lemma lax_means raw x : lax_str raw x -> exists y, str_means raw y.
Proof.
  intros H. apply lax_loose in H. apply (loose_text (String.length raw)) in H as (l & T); [|lia]. destruct (unq_complete raw l T) as (y & _ & U). exists y. now exists l.
Qed.

(** Texts the canonicalizer takes are JSON, except for words that are no JSON
    numbers. *)
Lemma odd_in pf a s b : odd_word pf s -> odd_word pf (a ++ s ++ b).
Proof. intros (p & l & r & f & -> & H). exists (a ++ p)%string, l, (r ++ b)%string, f. split; [|exact H]. now rewrite !sapp_assoc. Qed.
Lemma lax_json pf : (forall v s, jc (lax_num pf) lax_str v s -> (exists j, value_text j s) \/ odd_word pf s) /\
  (forall l s, jcelems (lax_num pf) lax_str l s -> (exists js, elements_text js s) \/ odd_word pf s) /\
  (forall l s, jcmems (lax_num pf) lax_str l s -> (exists js, members_text js s) \/ odd_word pf s).
Proof.
  assert (O : forall a s b t, odd_word pf s -> t = (a ++ s ++ b)%string -> odd_word pf t) by (intros a s b t H ->; now apply odd_in).
  apply jc_combined.
  - left. exists JNull. constructor.
  - left. exists (JBool true). constructor.
  - left. exists (JBool false). constructor.
  - intros l neg m e N. destruct (num_ok l) eqn:E.
    + left. exists (JNum l). constructor. now apply num_ok_exact.
    + right. exists ""%string, l, ""%string, (FFin neg m e). cbn [append]. rewrite sapp_nil. split; [reflexivity|]. split; [exact N|]. intros J. apply num_ok_exact in J. congruence.
  - intros raw x C. left. apply lax_means in C as (y & M). exists (JStr raw). now apply (vt_str raw y).
  - intros w W. left. exists (JArr []). now apply vt_arr0.
  - intros l s _ [(js & T)|H]; [left; exists (JArr js); now apply vt_arr|right]. apply (O "["%string s "]"%string); auto.
  - intros w W. left. exists (JObj []). now apply vt_obj0.
  - intros l s _ [(js & T)|H]; [left; exists (JObj js); now apply vt_obj|right]. apply (O "{"%string s "}"%string); auto.
  - intros v w1 s w2 W1 _ [(j & T)|H] W2; [left; exists [j]; now apply et_one|right]. now apply odd_in.
  - intros v l w1 s w2 t W1 _ [(j & T)|H] W2 _ IH; [|right; now apply odd_in]. destruct IH as [(js & Tl)|H]; [left; exists (j :: js); now apply et_cons|right].
    apply (O (w1 ++ s ++ w2 ++ ",")%string t ""%string); [exact H|]. rewrite !sapp_assoc, sapp_nil. reflexivity.
  - intros k raw v w1 w2 w3 s w4 W1 C W2 W3 _ [(j & T)|H] W4; apply lax_means in C as (y & M).
    + left. exists [(y, j)]. now apply mt_one.
    + right. apply (O (w1 ++ in_quotes raw ++ w2 ++ String ":" w3)%string s w4); [exact H|]. rewrite !sapp_assoc. reflexivity.
  - intros k raw v l w1 w2 w3 s w4 t W1 C W2 W3 _ Hv W4 _ IH; apply lax_means in C as (y & M). destruct Hv as [(j & T)|H].
    + destruct IH as [(js & Tl)|H]; [left; exists ((y, j) :: js); now apply mt_cons|right].
      apply (O (w1 ++ in_quotes raw ++ w2 ++ String ":" (w3 ++ s ++ w4 ++ ","))%string t ""%string); [exact H|].
      rewrite !sapp_assoc, sapp_nil. cbn [append]. now rewrite !sapp_assoc.
    + right. apply (O (w1 ++ in_quotes raw ++ w2 ++ String ":" w3)%string s (w4 ++ String "," t)%string); [exact H|]. rewrite !sapp_assoc. reflexivity.
Qed.
