(** Canonical texts: unique, invariant, and canonicalized to themselves. *)
From Verif Require Import GoStr GoStrFacts JsonStr JsonStrFacts Json JsonFacts Float FloatFacts NumFmt NumSpec NumSpecFacts StrSpec StrSpecFacts JsonSpec JsonSpecFacts Canon CanonSpec NumFmtFacts CanonFacts CanonParse.
From Coq Require Import Permutation Sorted Lia.
Local Open Scope N_scope.

Scheme veq_mut := Minimality for veq Sort Prop
  with veq_list_mut := Minimality for veq_list Sort Prop.
Combined Scheme veq_combined from veq_mut, veq_list_mut.
Scheme jcs_mut := Minimality for jcs Sort Prop
  with jcs_list_mut := Minimality for jcs_list Sort Prop
  with jcs_mems_mut := Minimality for jcs_mems Sort Prop.
Combined Scheme jcs_combined from jcs_mut, jcs_list_mut, jcs_mems_mut.

(** * The order of names *)
Lemma name_lt_irrefl a : ~ name_lt a a.
Proof. rewrite name_lt_key. apply lex_irrefl. Qed.
Lemma name_lt_trans a b c : name_lt a b -> name_lt b c -> name_lt a c.
Proof. rewrite !name_lt_key. intros H H'. eapply lex_trans; eauto. Qed.
Lemma sorted_perm_unique {A} (f : A -> string) l : forall l', StronglySorted name_lt (map f l) -> StronglySorted name_lt (map f l') -> Permutation l l' -> l = l'.
Proof.
  induction l as [|x l IH]; intros l' S S' P.
  - now apply Permutation_nil in P.
  - destruct l' as [|y l']; [apply Permutation_sym in P; now apply Permutation_nil in P|].
    cbn [map] in S, S'. inversion S as [|? ? S1 S2]; subst. inversion S' as [|? ? S1' S2']; subst. rewrite Forall_forall in S2, S2'.
    assert (E : x = y).
    { assert (Hx : In x (y :: l')) by (eapply Permutation_in; [exact P|now left]). assert (Hy : In y (x :: l)) by (eapply Permutation_in; [apply Permutation_sym; exact P|now left]).
      destruct Hx as [->|Hx]; [reflexivity|]. destruct Hy as [->|Hy]; [reflexivity|]. exfalso.
      apply (name_lt_irrefl (f x)). eapply name_lt_trans; [apply S2; apply in_map; exact Hy|apply S2'; now apply in_map]. }
    subst y. f_equal. apply IH; auto. eapply Permutation_cons_inv; eauto.
Qed.
Lemma Forall2_perm_r {A B} (R : A -> B -> Prop) l1 l2 : Permutation l1 l2 -> forall l, Forall2 R l l1 -> exists l', Permutation l l' /\ Forall2 R l' l2.
Proof. apply Forall2_perm. Qed.

(** * Uniqueness and invariance *)
Definition same_canon (v v' : cval) : Prop := forall t t', jcs v t -> jcs v' t' -> t = t'.
Lemma same_canon_list l l' : Forall2 same_canon l l' -> forall ts ts', jcs_list l ts -> jcs_list l' ts' -> ts = ts'.
Proof.
  induction 1 as [|v v' l l' Hv _ IH]; intros ts ts' H H'; inversion H; inversion H'; subst; [reflexivity|]. f_equal; [now apply Hv|now apply IH].
Qed.
Lemma same_canon_mems l l' : Forall2 (fun a b => fst a = fst b /\ same_canon (snd a) (snd b)) l l' -> forall ts ts', jcs_mems l ts -> jcs_mems l' ts' -> ts = ts'.
Proof.
  induction 1 as [|v v' l l' [Hk Hv] _ IH]; intros ts ts' H H'; inversion H; inversion H'; subst; [reflexivity|]. cbn [fst snd] in *. subst. f_equal; [|now apply IH].
  repeat f_equal. now apply Hv.
Qed.
Lemma Forall2_zip {A B} (R : B -> B -> Prop) (l l' : list (A * B)) : map fst l = map fst l' -> Forall2 R (map snd l) (map snd l') ->
  Forall2 (fun a b => fst a = fst b /\ R (snd a) (snd b)) l l'.
Proof.
  revert l'. induction l as [|x l IH]; intros [|y l'] E F; cbn [map] in *; try discriminate; [constructor|]. inversion F; subst. injection E as E1 E2. constructor; auto.
Qed.
Lemma Forall2_names {A} (R : cval -> cval -> Prop) (l l' : list (A * cval)) : Forall2 (fun a b => fst a = fst b /\ R (snd a) (snd b)) l l' -> map fst l = map fst l'.
Proof. induction 1 as [|x y l l' [E _] _ IH]; [reflexivity|]. cbn [map]. now rewrite E, IH. Qed.
Lemma veq_canon : (forall v v', veq v v' -> same_canon v v') /\ (forall l l', veq_list l l' -> Forall2 same_canon l l').
Proof.
  apply veq_combined.
  - intros v N t t' H H'. destruct v; cbn in N; try tauto; inversion H; inversion H'; subst; try reflexivity. congruence.
  - intros neg neg' e e' t t' H H'. inversion H; inversion H'; subst. reflexivity.
  - intros l l' _ F t t' H H'. inversion H; inversion H'; subst. now rewrite (same_canon_list _ _ F ts ts0).
  - intros l l1 l' P E _ F t t' H H'. inversion H as [| | | | |? lp ts P1 S1 J1]; inversion H' as [| | | | |? lp' ts' P2 S2 J2]; subst.
    assert (F1 := Forall2_zip _ _ _ E F). destruct (Forall2_perm _ _ _ P2 _ F1) as (l2 & P3 & F3).
    assert (lp = l2) as ->.
    { apply (sorted_perm_unique fst); [exact S1|rewrite (Forall2_names _ _ _ F3); exact S2|].
      eapply Permutation_trans; [apply Permutation_sym; exact P1|]. eapply Permutation_trans; [exact P|exact P3]. }
    now rewrite (same_canon_mems _ _ F3 ts ts').
  - constructor.
  - intros v v' l l' _ H _ F. now constructor.
Qed.
Lemma veq_refl : forall v, veq v v.
Proof.
  fix IH 1. intros v. destruct v as [| | | |l|l]; try (apply veq_atom; intros []; fail).
  - apply veq_arr. induction l as [|x l IHl]; constructor; [apply IH|exact IHl].
  - apply (veq_obj l l l); [apply Permutation_refl|reflexivity|]. induction l as [|x l IHl]; [constructor|]. cbn [map]. constructor; [apply IH|exact IHl].
Qed.
Lemma veq_list_Forall2 l l' : veq_list l l' <-> Forall2 veq l l'.
Proof. split; induction 1; constructor; auto. Qed.
Lemma Forall2_unzip {A} (R : cval -> cval -> Prop) (l l' : list (A * cval)) : Forall2 (fun a b => fst a = fst b /\ R (snd a) (snd b)) l l' -> Forall2 R (map snd l) (map snd l').
Proof. induction 1 as [|x y l l' [_ E] _ IH]; constructor; auto. Qed.
Lemma veq_sym : (forall v v', veq v v' -> veq v' v) /\ (forall l l', veq_list l l' -> Forall2 (fun v v' => veq v' v) l l').
Proof.
  assert (K : forall (A B : Type) (R : A -> B -> Prop) l l', Forall2 R l l' -> Forall2 (fun b a => R a b) l' l) by (induction 1; constructor; auto).
  apply veq_combined.
  - intros v N. now apply veq_atom.
  - intros. apply veq_zero.
  - intros l l' _ F. apply veq_arr. apply veq_list_Forall2. now apply K in F.
  - intros l l1 l' P E _ F. assert (F1 := Forall2_zip _ _ _ E F). apply K in F1. cbv beta in F1.
    destruct (Forall2_perm _ _ _ (Permutation_sym P) _ F1) as (l2 & P2 & F2).
    assert (F3 : Forall2 (fun a b => fst a = fst b /\ veq (snd a) (snd b)) l2 l) by (clear - F2; induction F2 as [|x y l l' [H1 H2] _ IH]; constructor; auto).
    apply (veq_obj l' l2 l); [exact P2|now apply Forall2_names in F3|apply veq_list_Forall2; now apply Forall2_unzip].
  - constructor.
  - intros v v' l l' _ H _ F. now constructor.
Qed.
Lemma veq_trans : (forall v v', veq v v' -> forall v'', veq v' v'' -> veq v v'') /\ (forall l l', veq_list l l' -> Forall2 (fun v v' => forall v'', veq v' v'' -> veq v v'') l l').
Proof.
  assert (K : forall l l', Forall2 (fun v v' => forall v'', veq v' v'' -> veq v v'') l l' -> forall l'', Forall2 veq l' l'' -> Forall2 veq l l'').
  { induction 1 as [|v v' l l' H _ IH]; intros l'' F; inversion F; subst; constructor; auto. }
  apply veq_combined.
  - auto.
  - intros neg neg' e e' v'' H. inversion H; subst; apply veq_zero.
  - intros l l' _ F v'' H. inversion H as [? N| |? l'' Hl|]; subst; [now destruct N|]. apply veq_arr. apply veq_list_Forall2 in Hl. apply veq_list_Forall2. eapply K; eauto.
  - intros l l1 l' P E _ F v'' H. inversion H as [? N| | |? l2 l'' P2 E2 H2]; subst; [now destruct N|].
    assert (F1 := Forall2_zip _ _ _ E F). destruct (Forall2_perm _ _ _ P2 _ F1) as (l3 & P3 & F3).
    apply (veq_obj l l3 l''); [eapply Permutation_trans; eauto|rewrite <- E2; exact (Forall2_names (fun v v' => forall v'', veq v' v'' -> veq v v'') _ _ F3)|].
    apply veq_list_Forall2. apply veq_list_Forall2 in H2. eapply K; [|exact H2]. exact (Forall2_unzip (fun v v' => forall v'', veq v' v'' -> veq v v'') _ _ F3).
  - constructor.
  - intros v v' l l' _ H _ F. now constructor.
Qed.
Lemma jcs_unique v t t' : jcs v t -> jcs v t' -> t = t'.
Proof. apply (proj1 veq_canon v v (veq_refl v)). Qed.

(** * Values with a canonical text *)
Lemma dup_free_list_cons v l : dup_free_list (v :: l) <-> dup_free v /\ dup_free_list l.
Proof. split; [intros H; inversion H; auto|intros [H1 H2]; now constructor]. Qed.
Lemma keyfree_list_Forall l : keyfree_list l <-> Forall keyfree l.
Proof. split; induction 1; constructor; auto. Qed.
Lemma jcs_keyfree : (forall v t, jcs v t -> keyfree v) /\ (forall l ts, jcs_list l ts -> keyfree_list l) /\ (forall l ts, jcs_mems l ts -> keyfree_list (map snd l)).
Proof.
  apply jcs_combined; try (intros; constructor; auto; fail).
  intros l l' ts P S _ IH. constructor.
  - apply keys_sorted in S. eapply Permutation_NoDup; [apply Permutation_map, Permutation_map, Permutation_sym, P|].
    revert S. generalize (map ukey (map fst l')). induction 1 as [|k ks S IHs Fk]; constructor; [|exact IHs]. intros Hk. rewrite Forall_forall in Fk. apply Fk in Hk. now apply lex_irrefl in Hk.
  - apply keyfree_list_Forall. apply keyfree_list_Forall in IH. eapply Permutation_Forall; [apply Permutation_map, Permutation_sym, P|exact IH].
Qed.
Lemma veq_key : (forall v v', veq v v' -> (keyfree v <-> keyfree v')) /\ (forall l l', veq_list l l' -> Forall2 (fun v v' => keyfree v <-> keyfree v') l l').
Proof.
  assert (K : forall l l', Forall2 (fun v v' => keyfree v <-> keyfree v') l l' -> (keyfree_list l <-> keyfree_list l')).
  { induction 1 as [|v v' l l' Hv _ IH]; [tauto|]. rewrite !keyfree_list_cons. tauto. }
  apply veq_combined.
  - tauto.
  - intros. split; constructor.
  - intros l l' _ F. apply K in F. split; intros H; inversion H; constructor; tauto.
  - intros l l1 l' P E _ F. apply K in F.
    assert (Q : keyfree_list (map snd l) <-> keyfree_list (map snd l1)).
    { rewrite !keyfree_list_Forall. split; apply Permutation_Forall; apply Permutation_map; [|apply Permutation_sym]; exact P. }
    assert (N : NoDup (map ukey (map fst l)) <-> NoDup (map ukey (map fst l1))).
    { split; apply Permutation_NoDup; apply Permutation_map, Permutation_map; [|apply Permutation_sym]; exact P. }
    rewrite E in N. split; intros H; inversion H; constructor; tauto.
  - constructor.
  - intros v v' l l' _ H _ F. now constructor.
Qed.

(** * Texts of RFC 7493 *)
Lemma jc_mono (num num' : string -> flt -> Prop) (str str' : string -> string -> Prop) : (forall l f, num l f -> num' l f) -> (forall r x, str r x -> str' r x) ->
  (forall v s, jc num str v s -> jc num' str' v s) /\ (forall l s, jcelems num str l s -> jcelems num' str' l s) /\ (forall l s, jcmems num str l s -> jcmems num' str' l s).
Proof. intros N S. apply jc_combined; intros; try (constructor; auto; fail). Qed.
Lemma lax_char w n : utf8_char w n -> 32 <= n -> n <> 34 -> n <> 92 -> forall r x, lax_str r x -> lax_str (w ++ r) (w ++ x).
Proof. intros U L1 L2 L3 r x H. destruct U; cbn [append]; repeat (apply lx_byte; try lia); exact H. Qed.
Lemma utf8_ascii n : n < 128 -> utf8_char (String (ascii_of_N n) "") n.
Proof. intros H. assert (E : code (ascii_of_N n) = n) by (apply code_ch; lia). rewrite <- E at 2. apply u8_1. lia. Qed.
Lemma clean_lax raw x : clean_str raw x -> lax_str raw x.
Proof.
  intros (l & H & U). revert x U. induction H as [|w n r l W L1 L2 L3 H IH|e n r l Hin H IH|h n r l Hh Sn H IH|h hi h' lo r l Hh H1 Hh' H2 H IH]; intros x U; inversion U as [|w' n' x' l' W' U']; subst.
  - constructor.
  - rewrite <- (char_inj _ _ _ W W'). apply (lax_char w n); auto.
  - destruct (short_not_u _ _ Hin) as [_ Ln]. rewrite (char_inj _ _ _ W' (utf8_ascii n Ln)). cbn [append]. apply lx_escape; auto.
  - apply lx_u with (n := n); auto.
  - apply lx_pair with (n := 65536 + (hi - 55296) * 1024 + (lo - 56320)) (hi := hi) (lo := lo); auto; [unfold surrogate; lia|left; lia].
Qed.
Lemma number_token l : json_number l -> token_text l.
Proof.
  intros J. apply num_ok_exact in J. destruct (num_ok_all _ J) as [A N]. assert (P := all_num_In _ A). split; [|split].
  - destruct l as [|c r]; [congruence|]. exists c, r. split; [reflexivity|]. destruct (numch_plain c) as (_ & _ & _ & X); [apply P; now left|].
    rewrite !orb_false_iff, !Ascii.eqb_neq in X. cbn [In]. intros [E|[E|[E|[]]]]; subst c; destruct X as [[X1 X2] X3]; try (exact (X1 eq_refl)); try (exact (X2 eq_refl)); exact (X3 eq_refl).
  - intros c Hc. apply token_char_plain. destruct (numch_plain c (P _ Hc)) as (X1 & X2 & X3 & _). auto.
  - cbn [In]. intros [<-|[<-|[<-|[]]]]; discriminate J.
Qed.
Lemma ijson_lax rnd pf v s : float_parser rnd pf -> ijson_text rnd v s -> lax_text pf v s.
Proof.
  intros (F & _) [C (w1 & t & w2 & W1 & W2 & J & ->)]. split; [exact C|]. exists w1, t, w2. split; [exact W1|]. split; [exact W2|]. split; [|reflexivity].
  revert J. apply jc_mono; [|exact clean_lax]. intros l f H. split; [apply number_token; apply H|now apply F].
Qed.
Lemma ijson_names rnd : (forall v s, jc (json_num rnd) clean_str v s -> (dup_free v <-> keyfree v)) /\
  (forall l s, jcelems (json_num rnd) clean_str l s -> (dup_free_list l <-> keyfree_list l)) /\
  (forall l s, jcmems (json_num rnd) clean_str l s -> Forall (fun k => exists u, utf8_string k u) (map fst l) /\ (dup_free_list (map snd l) <-> keyfree_list (map snd l))).
Proof.
  apply jc_combined; try (intros; split; constructor; fail).
  - intros w _. split; intros _; repeat constructor.
  - intros l s _ IH. split; intros H; inversion H; constructor; tauto.
  - intros w _. split; intros _; repeat constructor.
  - intros l s _ [T IH].
    assert (N : NoDup (map fst l) <-> NoDup (map ukey (map fst l))).
    { revert T. generalize (map fst l). clear. intros ks T. split.
      - induction 1 as [|k ks Nk _ IH]; cbn [map]; [constructor|]. inversion T as [|? ? [u Hu] T']; subst. constructor; [|now apply IH]. intros Hk. apply in_map_iff in Hk as (k' & E & Hk').
        rewrite Forall_forall in T'. destruct (T' _ Hk') as [u' Hu']. rewrite (ukey_inj _ _ _ _ Hu' Hu E) in Hk'. contradiction.
      - apply NoDup_map_inv. }
    split; intros H; inversion H; constructor; tauto.
  - intros v w1 s w2 _ _ IH _. rewrite dup_free_list_cons, keyfree_list_cons. split; intros [H _]; split; try constructor; tauto.
  - intros v l w1 s w2 t _ _ IH _ _ IHl. rewrite dup_free_list_cons, keyfree_list_cons. tauto.
  - intros k raw v w1 w2 w3 s w4 _ (u & _ & U) _ _ _ IH _. cbn [map fst snd]. split; [constructor; [eauto|constructor]|]. rewrite dup_free_list_cons, keyfree_list_cons. split; intros [H _]; split; try constructor; tauto.
  - intros k raw v l w1 w2 w3 s w4 t _ (u & _ & U) _ _ _ IH _ _ [T IHl]. cbn [map fst snd]. split; [constructor; [eauto|exact T]|]. rewrite dup_free_list_cons, keyfree_list_cons. tauto.
Qed.

(** * Canonical strings *)
Definition jcs_char_check (c : ascii) : bool :=
  match jcs_char c with
  | String a "" => Ascii.eqb a c && (32 <=? bt c) && negb (Ascii.eqb a bs) && negb (Ascii.eqb a qt)
  | String b (String e "") => Ascii.eqb b bs && existsb (fun p => Ascii.eqb (fst p) e && Ascii.eqb (snd p) c)
      esc_list
  | String b (String u (String h1 (String h2 (String h3 (String h4 ""))))) =>
      Ascii.eqb b bs && Ascii.eqb u "u" && match hex4 h1 h2 h3 h4 with Some v => negb (is_surr v) && String.eqb (enc_rune v) (String c "") | None => false end
  | _ => false
  end.
Lemma strval_jcs x : strval (jcs_chars x) x.
Proof.
  assert (X : forallb jcs_char_check all_ascii = true) by (vm_compute; reflexivity).
  induction x as [|c x IH]; [constructor|]. cbn [jcs_chars]. assert (C := ascii_sweep _ X c). unfold jcs_char_check in C.
  destruct (jcs_char c) as [|a [|e [|h1 [|h2 [|h3 [|h4 [|]]]]]]]; try discriminate.
  - rewrite !andb_true_iff, !negb_true_iff in C. destruct C as [[[C1 C2] C3] C4]. apply Ascii.eqb_eq in C1. subst a. apply N.leb_le in C2. apply Ascii.eqb_neq in C3, C4.
    cbn [append]. now constructor.
  - apply andb_true_iff in C as [C1 C2]. apply Ascii.eqb_eq in C1. subst a. apply existsb_exists in C2 as ([e' c'] & Hin & C2). apply andb_true_iff in C2 as [C2 C3].
    cbn [fst snd] in *. apply Ascii.eqb_eq in C2, C3. subst. cbn [append]. now apply sv_esc.
  - rewrite !andb_true_iff in C. destruct C as [[C1 C2] C3]. apply Ascii.eqb_eq in C1, C2. subst. destruct (hex4 h1 h2 h3 h4) as [v|] eqn:Ev; [|discriminate].
    apply andb_true_iff in C3 as [C3 C4]. apply negb_true_iff in C3. apply String.eqb_eq in C4. change (String c x) with (String c "" ++ x)%string. rewrite <- C4.
    cbn [append]. now apply sv_u.
Qed.

(** Canonical strings by RFC 7493 *)
Lemma jcs_chars_app a b : jcs_chars (a ++ b) = (jcs_chars a ++ jcs_chars b)%string.
Proof. induction a as [|c a IH]; cbn [append jcs_chars]; [reflexivity|]. now rewrite IH, sapp_assoc. Qed.
Lemma jcs_high c : 127 < code c -> jcs_char c = String c "".
Proof.
  intros H. assert (X : forallb (fun c => (code c <=? 127) || String.eqb (jcs_char c) (String c "")) all_ascii = true) by (vm_compute; reflexivity).
  assert (Y := ascii_sweep _ X c). cbv beta in Y. apply orb_true_iff in Y as [Y|Y]; [apply N.leb_le in Y; lia|now apply String.eqb_eq].
Qed.
Lemma clean_jcs x l : utf8_string x l -> clean_text (jcs_chars x) l.
Proof.
  assert (X : forallb jcs_char_check all_ascii = true) by (vm_compute; reflexivity).
  induction 1 as [|w n s l U H IH]; [constructor|]. rewrite jcs_chars_app. destruct (N.lt_ge_cases n 128) as [L|L].
  - assert (exists c, w = String c "" /\ n = code c) as (c & -> & ->) by (inversion U; subst; try lia; eauto). cbn [jcs_chars]. rewrite sapp_nil.
    assert (C := ascii_sweep _ X c). unfold jcs_char_check in C. destruct (jcs_char c) as [|a [|e [|h1 [|h2 [|h3 [|h4 [|]]]]]]]; try discriminate.
    + rewrite !andb_true_iff, !negb_true_iff in C. destruct C as [[[C1 C2] C3] C4]. apply Ascii.eqb_eq in C1. subst a. apply N.leb_le in C2. apply Ascii.eqb_neq in C3, C4.
      apply ct_char; auto; intros E; [apply C4|apply C3]; now apply code_inj.
    + apply andb_true_iff in C as [C1 C2]. apply Ascii.eqb_eq in C1. subst a. apply existsb_exists in C2 as ([e' c'] & Hin & C2). apply andb_true_iff in C2 as [C2 C3].
      cbn [fst snd] in *. apply Ascii.eqb_eq in C2, C3. subst. apply short_esc in Hin as (m & Hin & ->). destruct (short_not_u _ _ Hin) as [_ Lm].
      unfold code. rewrite N_ascii_embedding by lia. now apply ct_escape.
    + rewrite !andb_true_iff in C. destruct C as [[C1 C2] C3]. apply Ascii.eqb_eq in C1, C2. subst. destruct (hex4 h1 h2 h3 h4) as [v|] eqn:Ev; [|discriminate].
      apply andb_true_iff in C3 as [C3 C4]. apply negb_true_iff in C3. apply String.eqb_eq in C4. apply surr_spec_f in C3.
      assert (v = code c) as <-. { assert (B := hex4_bound _ _ _ _ _ Ev). assert (Q := enc_char v ltac:(lia) C3). rewrite C4 in Q. exact (char_fun _ _ _ Q U). }
      apply hex4_text in Ev. exact (ct_u (String h1 (String h2 (String h3 (String h4 "")))) v _ l Ev C3 IH).
  - assert (jcs_chars w = w) as ->.
    { assert (K : forall u, (forall c, In c (list_ascii_of_string u) -> 127 < code c) -> jcs_chars u = u).
      { induction u as [|c u IHu]; intros A; [reflexivity|]. cbn [jcs_chars]. rewrite jcs_high by (apply A; now left). cbn [append]. rewrite IHu; [reflexivity|]. intros d Hd. apply A. now right. }
      apply K. intros c Hc. inversion U; subst; cbn in Hc; decompose [or] Hc; subst; try contradiction; lia. }
    apply ct_char; auto; lia.
Qed.

(** * Canonical texts are texts *)
Section Idem.
Variable num : string -> flt -> Prop.
Variable str : string -> string -> Prop.
Variable num_fine : flt -> Prop.
Variable str_fine : string -> Prop.
Hypothesis num_back : forall neg m e, num_fine (FFin neg m e) -> m <> 0 -> num (es6 neg m e) (FFin neg m e).
Hypothesis num_zero : num "0" (FFin false 0 0).
Hypothesis str_back : forall x, str_fine x -> str (jcs_chars x) x.

(** Values all of whose numbers and strings can be read back. *)
Inductive wfv : cval -> Prop :=
| wfv_null : wfv CNull
| wfv_bool b : wfv (CBool b)
| wfv_num neg m e : num_fine (FFin neg m e) -> wfv (CNum (FFin neg m e))
| wfv_str s : str_fine s -> wfv (CStr s)
| wfv_arr l : Forall wfv l -> wfv (CArr l)
| wfv_obj l : Forall str_fine (map fst l) -> Forall wfv (map snd l) -> wfv (CObj l).
Hypothesis num_good : forall l f, num l f -> num_fine f.
Hypothesis str_good : forall r x, str r x -> str_fine x.
Lemma jc_wfv : (forall v s, jc num str v s -> wfv v) /\ (forall l s, jcelems num str l s -> Forall wfv l) /\
  (forall l s, jcmems num str l s -> Forall str_fine (map fst l) /\ Forall wfv (map snd l)).
Proof.
  apply jc_combined.
  - constructor.
  - constructor.
  - constructor.
  - intros l neg m e H. constructor. eauto.
  - intros raw x H. constructor. eauto.
  - constructor; constructor.
  - intros l s _ H. now constructor.
  - constructor; constructor.
  - intros l s _ [H1 H2]. now constructor.
  - intros v w1 s w2 _ _ H _. constructor; auto.
  - intros v l w1 s w2 t _ _ H _ _ F. constructor; auto.
  - intros k raw v w1 w2 w3 s w4 _ T _ _ _ H _. cbn. eauto.
  - intros k raw v l w1 w2 w3 s w4 t _ T _ _ _ H _ _ [F1 F2]. cbn. eauto.
Qed.
Lemma blank_nil : blank "".
Proof. intros c []. Qed.

(** The value has a canonical text that denotes an equal value. *)
Definition norm_ok (v : cval) (t : string) : Prop := wfv v -> exists v', jc num str v' t /\ jcs v' t /\ veq v v'.
Lemma canon_is_text : (forall v t, jcs v t -> norm_ok v t) /\
  (forall l ts, jcs_list l ts -> Forall wfv l -> exists l', Forall2 (fun v' t => jc num str v' t /\ jcs v' t) l' ts /\ veq_list l l') /\
  (forall l ts, jcs_mems l ts -> Forall str_fine (map fst l) -> Forall wfv (map snd l) ->
     exists l', map fst l' = map fst l /\ Forall2 (fun kv t => exists t0, t = (jcs_string (fst kv) ++ ":" ++ t0)%string /\ jc num str (snd kv) t0 /\ jcs (snd kv) t0) l' ts /\ veq_list (map snd l) (map snd l')).
Proof.
  apply jcs_combined.
  - intros _. exists CNull. split; [constructor|split; [constructor|apply veq_refl]].
  - intros b _. exists (CBool b). split; [destruct b; constructor|split; [constructor|apply veq_refl]].
  - intros neg m e H. inversion H as [| |? ? ? F| | |]; subst.
    destruct (N.eq_dec m 0) as [->|Hm].
    + exists (CNum (FFin false 0 0)). unfold es6. cbn [N.eqb]. split; [now apply jc_num|split; [apply (jcs_num false 0 0)|apply veq_zero]].
    + exists (CNum (FFin neg m e)). split; [|split; [constructor|apply veq_refl]]. apply jc_num. now apply num_back.
  - intros s H. inversion H; subst. exists (CStr s). split; [apply (jc_str num str (jcs_chars s) s); now apply str_back|split; [constructor|apply veq_refl]].
  - intros l ts _ IH H. inversion H as [| | | |? W|]; subst. destruct (IH W) as (l' & F & V). exists (CArr l').
    assert (J : jcs_list l' ts) by (clear - F; induction F as [|v t l ts (_ & J) _ IH]; constructor; auto).
    split; [|split; [now apply jcs_arr|now apply veq_arr]]. destruct F as [|v t l0 ts0 (Jt & _) F]; [apply (jc_arr0 num str ""); apply blank_nil|].
    apply jc_arr. clear - Jt F. revert v t Jt. induction F as [|v' t' l0 ts0 (Jt' & _) F IH]; intros v t Jt.
    + cbn [join]. replace t with ("" ++ t ++ "")%string by (now rewrite sapp_nil). apply jce_one; auto using blank_nil.
    + specialize (IH _ _ Jt'). rewrite join_cons by discriminate. change (t ++ "," ++ join "," (t' :: ts0))%string with ("" ++ t ++ "" ++ String "," (join "," (t' :: ts0)))%string.
      apply jce_cons; auto using blank_nil.
  - intros l l' ts P S _ IH H. inversion H as [| | | | |? W1 W2]; subst.
    destruct IH as (l2 & E & F & V).
    { eapply Permutation_Forall; [apply Permutation_map; exact P|exact W1]. }
    { eapply Permutation_Forall; [apply Permutation_map; exact P|exact W2]. }
    exists (CObj l2). rewrite <- E in S.
    assert (T : Forall str_fine (map fst l2)) by (rewrite E; eapply Permutation_Forall; [apply Permutation_map; exact P|exact W1]).
    assert (J : jcs_mems l2 ts).
    { clear - F. induction F as [|[k v] t l ts (t0 & -> & _ & J) _ IH]; constructor; auto. }
    split; [|split; [apply (jcs_obj l2 l2); [apply Permutation_refl|exact S|exact J]|apply (veq_obj l l' l2); auto]].
    clear - F T str_back. destruct F as [|[k v] t l0 ts0 (t0 & -> & Jt & _) F]; [apply (jc_obj0 num str ""); apply blank_nil|].
    apply jc_obj. cbn [fst snd map] in *. revert k v t0 Jt T. induction F as [|[k' v'] t' l0 ts0 (t0' & -> & Jt' & _) F IH]; intros k v t0 Jt T; inversion T as [|? ? T1 T2]; subst; cbn [fst snd map] in *.
    + cbn [join]. unfold jcs_string. replace (q (jcs_chars k) ++ ":" ++ t0)%string with ("" ++ in_quotes (jcs_chars k) ++ "" ++ String ":" ("" ++ t0 ++ ""))%string by (cbn [append]; now rewrite sapp_nil).
      apply jcm_one; auto using blank_nil.
    + specialize (IH _ _ _ Jt' T2). rewrite join_cons by discriminate. unfold jcs_string at 1. rewrite !sapp_assoc.
      change (q (jcs_chars k) ++ ":" ++ t0 ++ "," ++ join "," ((jcs_string k' ++ ":" ++ t0')%string :: ts0))%string
        with ("" ++ in_quotes (jcs_chars k) ++ "" ++ String ":" ("" ++ t0 ++ "" ++ String "," (join "," ((jcs_string k' ++ ":" ++ t0')%string :: ts0))))%string.
      apply jcm_cons; auto using blank_nil.
  - intros _. exists []. split; constructor.
  - intros v l t ts _ H _ IH W. inversion W; subst. destruct H as (v' & Ha & Hb & Hc); [assumption|]. destruct IH as (l' & F & V); [assumption|]. exists (v' :: l'). split; constructor; auto.
  - intros _ _. exists []. split; [reflexivity|split; constructor].
  - intros k v l t ts _ H _ IH T W. cbn [map fst snd] in *. inversion T; inversion W; subst. destruct H as (v' & H1' & H2' & Hc); [assumption|]. destruct IH as (l' & E & F & V); [assumption|assumption|].
    exists ((k, v') :: l'). cbn [map fst]. split; [now rewrite E|]. split; [constructor; [exists t; auto|exact F]|now constructor].
Qed.
Lemma canon_ctext v s t : ctext num str v s -> jcs v t -> exists v', ctext num str v' t /\ jcs v' t /\ veq v v'.
Proof.
  intros [C (w1 & s0 & w2 & _ & _ & J & _)] H. destruct (proj1 canon_is_text v t H) as (v' & J' & H' & V); [now apply (proj1 jc_wfv) in J|].
  exists v'. split; [|auto]. split; [destruct V; try exact C; exact I|]. exists ""%string, t, ""%string. repeat split; auto using blank_nil. cbn [append]. now rewrite sapp_nil.
Qed.
End Idem.
