(** Lemmas: what the encoder writes is I-JSON. *)
From Verif Require Import GoStr GoStrFacts Base64 Base64Facts JsonStr JsonStrFacts NumSpec NumSpecFacts StrSpec StrSpecFacts Json JsonFacts JsonSpec JsonSpecFacts Float FloatFacts
  Consts Enums GoTypes Schema GoVal GoValFacts Time TimeFacts Codec CodecSpec CodecFacts CodecRound TextSpec StructFacts TextFacts AnyOrderFacts CanonSpec IjsonSpec.
From Coq Require Import Lia.

(** ** Strings *)
Lemma clean_app a l b m : clean_text a l -> clean_text b m -> clean_text (a ++ b) (l ++ m).
Proof.
  intros H Hb. induction H; cbn [app]; [exact Hb|..]; rewrite ?sapp_assoc.
  - now apply ct_char.
  - cbn [append]. now apply ct_escape.
  - now apply ct_u.
  - now apply ct_pair.
Qed.
Local Open Scope N_scope.
Lemma clean_one w n : utf8_char w n -> 32 <= n -> n <> 34 -> n <> 92 -> clean_text w [n].
Proof. intros. rewrite <- (sapp_nil_r w). apply ct_char; auto. constructor. Qed.
Lemma clean_esc e n : In (e, n) short_escapes -> clean_text (String backslash (String e "")) [n].
Proof. intros. apply ct_escape; auto. constructor. Qed.
Lemma clean_u a b c d n : hex4 a b c d = Some n -> ~ surrogate n -> clean_text (String backslash (String "u" (String a (String b (String c (String d "")))))) [n].
Proof. intros H S. apply hex4_text in H. exact (ct_u _ n "" [] H S ct_nil). Qed.
Definition esc_kind (c : ascii) : bool :=
  match esc_ascii c with
  | String x "" => Ascii.eqb x c && (32 <=? bt c) && negb (bt c =? 34) && negb (bt c =? 92)
  | String b1 (String e "") => Ascii.eqb b1 backslash && existsb (fun en => Ascii.eqb (fst en) e && (snd en =? bt c)) short_escapes
  | String b1 (String u (String h1 (String h2 (String h3 (String h4 ""))))) =>
      Ascii.eqb b1 backslash && Ascii.eqb u "u" && match hex4 h1 h2 h3 h4 with Some n => n =? bt c | None => false end
  | _ => false
  end.
Lemma esc_ascii_clean a : bt a < 128 -> clean_text (esc_ascii a) [code a].
Proof.
  intros L. assert (X : forallb (fun c => negb (bt c <? 128) || esc_kind c) all_ascii = true) by (vm_compute; reflexivity).
  apply (fun X => ascii_sweep _ X a) in X. cbv beta in X. assert (L' := L). apply N.ltb_lt in L. rewrite L in X. cbn [negb orb] in X.
  unfold esc_kind in X. destruct (esc_ascii a) as [|x [|e [|h1 [|h2 [|h3 [|h4 [|]]]]]]]; try discriminate X.
  - rewrite !andb_true_iff, !negb_true_iff, !N.eqb_neq, N.leb_le in X. destruct X as [[[E A] B] C]. apply Ascii.eqb_eq in E. subst x.
    apply clean_one; auto. now apply u8_1.
  - rewrite andb_true_iff, Ascii.eqb_eq, existsb_exists in X. destruct X as [-> ([e' n] & I & E)]. cbn [fst snd] in E.
    rewrite andb_true_iff, Ascii.eqb_eq, N.eqb_eq in E. destruct E as [-> ->]. now apply clean_esc.
  - rewrite !andb_true_iff, !Ascii.eqb_eq in X. destruct X as [[-> ->] H]. destruct (hex4 h1 h2 h3 h4) as [n|] eqn:E; [|discriminate]. apply N.eqb_eq in H. subst n.
    apply clean_u; [exact E|]. unfold surrogate, code. unfold bt in L'. lia.
Qed.
Lemma esc3_clean a b c n : utf8_char (String a (String b (String c ""))) n -> clean_text (esc3 a b c) [n].
Proof.
  intros U. unfold esc3. destruct ((bt a =? 226) && (bt b =? 128) && ((bt c =? 168) || (bt c =? 169)))%bool eqn:E.
  - rewrite !andb_true_iff, orb_true_iff, !N.eqb_eq in E. destruct E as [[A B] C].
    inversion U as [| |? ? ? x y z m Q1 Q2 Q3 Q4 Q5 Q6 Q7 Q8 Q9|]; subst. unfold bt in A, B, C. change N_of_ascii with code in A, B, C.
    assert (x = 2) by lia. assert (y = 0) by lia. assert (z = 40 \/ z = 41) by lia. subst x y.
    destruct C as [C|C]; rewrite C in Q3.
    + assert (c = "168"%char) by (apply code_inj; exact C). subst c. assert (z = 40) by lia. subst z. apply clean_u; [reflexivity|]. unfold surrogate. lia.
    + assert (c = "169"%char) by (apply code_inj; exact C). subst c. assert (z = 41) by lia. subst z. apply clean_u; [reflexivity|]. unfold surrogate. lia.
  - apply (clean_one _ n U); inversion U; lia.
Qed.
Lemma clean_quote : forall k s, (String.length s <= k)%nat -> exists l, clean_text (quote s) l /\ byte_chars s l.
Proof.
  induction k as [|k IH]; intros s L.
  { destruct s; [exists []; split; constructor|cbn in L; lia]. }
  destruct s as [|a s1]; [exists []; split; constructor|]. cbn [String.length] in L. cbn [quote].
  destruct (bt a <? 128) eqn:E1.
  { apply N.ltb_lt in E1. destruct (IH s1 ltac:(lia)) as (l & A & B). exists (code a :: l).
    split; [exact (clean_app _ [code a] _ _ (esc_ascii_clean a E1) A)|exact (bc_char _ _ _ _ (u8_1 a E1) B)]. }
  assert (R : (forall w n r, utf8_char w n -> String a s1 <> (w ++ r)%string) -> exists l, clean_text (esc_fffd ++ quote s1) l /\ byte_chars (String a s1) l).
  { intros NC. destruct (IH s1 ltac:(lia)) as (l & A & B). exists (replacement :: l). split; [|now constructor].
    apply (clean_app _ [replacement]); [|exact A]. apply clean_u; [reflexivity|]. unfold surrogate, replacement. lia. }
  assert (BIG : forall w n r, utf8_char w n -> 128 <= n -> (String.length r <= k)%nat -> exists l, clean_text (w ++ quote r) l /\ byte_chars (w ++ r) l).
  { intros w n r U Ln Lr. destruct (IH r Lr) as (l & A & B). exists (n :: l). split; [|now constructor]. apply ct_char; auto; lia. }
  assert (E1' := ltb_code _ E1).
  destruct s1 as [|b s2]; [apply R; apply no_char; auto; discriminate|]. cbn [String.length] in L.
  destruct (ok2 a b) eqn:E2.
  { assert (O := E2). apply ok2_char in O as (n & U). apply (BIG (String a (String b "")) n s2 U); [inversion U|]; lia. }
  destruct s2 as [|c s3]; [apply R; apply no_char; auto; intros; try discriminate; congruence|]. cbn [String.length] in L.
  destruct (ok3 a b c) eqn:E3.
  { assert (O := E3). apply ok3_char in O as (n & U). destruct (IH s3 ltac:(lia)) as (l & A & B). exists (n :: l).
    split; [exact (clean_app _ [n] _ _ (esc3_clean _ _ _ _ U) A)|exact (bc_char _ _ _ _ U B)]. }
  destruct s3 as [|d s4]; [apply R; apply no_char; auto; intros; try discriminate; congruence|]. cbn [String.length] in L.
  destruct (ok4 a b c d) eqn:E4.
  { assert (O := E4). apply ok4_char in O as (n & U). apply (BIG (String a (String b (String c (String d "")))) n s4 U); [inversion U|]; lia. }
  apply R; apply no_char; auto; intros; congruence.
Qed.
Lemma quote_clean s : exists x, clean_str (quote s) x /\ (utf8b s = true -> x = s).
Proof.
  destruct (clean_quote _ s (le_n _)) as (l & C & B). destruct (quote_reads _ s (le_n _)) as (t & l' & _ & B' & U & _).
  rewrite <- (bytes_fun _ _ _ B B') in U. exists t. split; [now exists l|]. intros H. apply utf8b_spec in H. apply utf8_spec in H as (m & H).
  rewrite (bytes_fun _ _ _ B (bytes_of_chars _ _ H)) in U. now apply (string_inj m).
Qed.
Lemma plain_clean s : plain s = true -> exists x, clean_str s x.
Proof. intros H. destruct (quote_clean s) as (x & C & _). rewrite (quote_plain s H) in C. eauto. Qed.
Local Open Scope nat_scope.

(** ** Texts of syntax trees *)
Section S.
Variable rnd : bool -> N -> Z -> option flt.
Notation jc := (jc (json_num rnd) clean_str).
Notation jcelems := (jcelems (json_num rnd) clean_str).
Notation jcmems := (jcmems (json_num rnd) clean_str).

Inductive sound : json -> Prop :=
| so_null : sound JNull
| so_bool b : sound (JBool b)
| so_num l neg m e : json_num rnd l (FFin neg m e) -> sound (JNum l)
| so_str raw x : clean_str raw x -> sound (JStr raw)
| so_arr l : Forall sound l -> sound (JArr l)
| so_obj l : Forall (fun kv => sound (snd kv)) l -> sound (JObj l).
Inductive once : json -> Prop :=
| on_null : once JNull
| on_bool b : once (JBool b)
| on_num l : once (JNum l)
| on_str raw : once (JStr raw)
| on_arr l : Forall once l -> once (JArr l)
| on_obj l : NoDup (map fst l) -> Forall (fun kv => utf8b (fst kv) = true /\ once (snd kv)) l -> once (JObj l).

Lemma blank_nil : blank "".
Proof. intros c []. Qed.
Lemma jce1 v s : jc v s -> jcelems [v] s.
Proof. intros J. assert (E := jce_one (json_num rnd) clean_str v "" s "" blank_nil J blank_nil). cbn [String.append] in E. rewrite sapp_nil_r in E. exact E. Qed.
Lemma jce2 v l s t : jc v s -> jcelems l t -> jcelems (v :: l) (s ++ "," ++ t).
Proof. intros J E. exact (jce_cons (json_num rnd) clean_str v l "" s "" t blank_nil J blank_nil E). Qed.
Lemma jcm1 k raw v s : clean_str raw k -> jc v s -> jcmems [(k, v)] (q raw ++ ":" ++ s).
Proof.
  intros C J. assert (E := jcm_one (json_num rnd) clean_str k raw v "" "" "" s "" blank_nil C blank_nil blank_nil J blank_nil).
  cbn [String.append] in E. rewrite sapp_nil_r in E. exact E.
Qed.
Lemma jcm2 k raw v l s t : clean_str raw k -> jc v s -> jcmems l t -> jcmems ((k, v) :: l) ((q raw ++ ":" ++ s) ++ "," ++ t).
Proof.
  intros C J E. rewrite !sapp_assoc. exact (jcm_cons (json_num rnd) clean_str k raw v l "" "" "" s "" t blank_nil C blank_nil blank_nil J blank_nil E).
Qed.
Lemma elems_jc (P : json -> Prop) l : l <> [] -> Forall (fun j => exists a, jc a (print j) /\ (once j -> dup_free a)) l ->
  exists vs, jcelems vs (join "," (map print l)) /\ (Forall once l -> dup_free_list vs).
Proof.
  induction l as [|j l IH]; intros N H; [congruence|]. inversion H as [|? ? (a & A & D) H']; subst. destruct l as [|j' l].
  - exists [a]. split; [now apply jce1|]. intros O. inversion O; subst. repeat constructor. auto.
  - destruct (IH ltac:(discriminate) H') as (vs & E & F). exists (a :: vs). split; [now apply jce2|]. intros O. inversion O; subst. constructor; auto.
Qed.
Lemma mems_jc (l : list (string * json)) : l <> [] -> Forall (fun kv => exists a, jc a (print (snd kv)) /\ (once (snd kv) -> dup_free a)) l ->
  exists vs, jcmems vs (join "," (map (fun kv => (q (quote (fst kv)) ++ ":" ++ print (snd kv))%string) l)) /\
    (Forall (fun kv => utf8b (fst kv) = true /\ once (snd kv)) l -> map fst vs = map fst l /\ dup_free_list (map snd vs)).
Proof.
  set (g := fun kv : string * json => (q (quote (fst kv)) ++ ":" ++ print (snd kv))%string).
  induction l as [|[k j] l IH]; intros N H; [congruence|]. inversion H as [|? ? (a & A & D) H']; subst. cbn [fst snd] in *.
  destruct (quote_clean k) as (x & C & U). destruct l as [|kj l].
  - exists [(x, a)]. split; [exact (jcm1 _ _ _ _ C A)|]. intros O. inversion O as [|? ? [O1 O2] _]; subst. cbn [fst snd map] in *. split; [now rewrite U|]. repeat constructor. auto.
  - destruct (IH ltac:(discriminate) H') as (vs & E & F). exists ((x, a) :: vs). split; [exact (jcm2 _ _ _ _ _ _ C A E)|].
    intros O. inversion O as [|? ? [O1 O2] O3]; subst. cbn [fst snd] in *. destruct (F O3) as [F1 F2]. cbn [map fst snd] in *. split; [rewrite U, F1 by exact O1; reflexivity|].
    constructor; auto.
Qed.
Lemma print_jc j : sound j -> exists a, jc a (print j) /\ (once j -> dup_free a) /\ (match j with JArr _ | JObj _ => container a | _ => True end).
Proof.
  induction j as [|b|l|r|l IH|l IH] using json_ind'; intros H; inversion H; subst; cbn [print].
  - exists CNull. repeat split; constructor.
  - exists (CBool b). split; [destruct b; constructor|]. split; [constructor|exact I].
  - eexists. split; [econstructor; eassumption|]. split; [constructor|exact I].
  - eexists. split; [econstructor; eassumption|]. split; [constructor|exact I].
  - destruct l as [|x l]; [exists (CArr []); split; [exact (jc_arr0 _ _ "" blank_nil)|split; [repeat constructor|exact I]]|].
    destruct (elems_jc sound (x :: l)) as (vs & E & F); [discriminate|..].
    + rewrite Forall_forall in *. intros y I. destruct (IH y I (H1 y I)) as (a & A & D & _). eauto.
    + exists (CArr vs). split; [exact (jc_arr _ _ _ _ E)|]. split; [|exact I]. intros O. inversion O; subst. constructor. auto.
  - destruct l as [|x l]; [exists (CObj []); split; [exact (jc_obj0 _ _ "" blank_nil)|split; [repeat constructor|exact I]]|].
    destruct (mems_jc (x :: l)) as (vs & E & F); [discriminate|..].
    + rewrite Forall_forall in *. intros y I. destruct (IH y I (H1 y I)) as (a & A & D & _). eauto.
    + exists (CObj vs). split; [exact (jc_obj _ _ _ _ E)|]. split; [|exact I]. intros O. inversion O as [| | | | |? N O']; subst. destruct (F O') as [F1 F2].
      constructor; [now rewrite F1|exact F2].
Qed.

(** ** What the encoder makes *)
Hypothesis RI : rounds_ints rnd.
Lemma int_num z : int64_ok z = true -> exists neg m e, json_num rnd (Z_to_string z) (FFin neg m e).
Proof.
  intros Z. assert (F := int_float rnd z). unfold parse_float in F. assert (O := num_ok_int z). unfold int_to_float in F.
  destruct (norm10 (Z.to_N (Z.abs z)) 0) as [m e] eqn:E. apply norm10_spec in E as (L & i & V & X).
  destruct (RI (z <? 0)%Z m e) as (neg' & m' & e' & R).
  - destruct (N.eq_dec m 0) as [->|M]; [|rewrite (X M); lia]. destruct L as [[_ ->]|L]; [lia|]. now destruct L.
  - unfold int64_ok in Z. rewrite andb_true_iff, !Z.leb_le in Z. destruct (N.eq_dec m 0) as [->|M]; [lia|].
    rewrite (X M). replace (0 + Z.of_nat i)%Z with (Z.of_nat i) by lia. assert (W : Z.of_N (Z.to_N (Z.abs z)) = (Z.of_N m * 10 ^ Z.of_nat i)%Z).
    { rewrite V, N2Z.inj_mul, N2Z.inj_pow, nat_N_Z. reflexivity. }
    rewrite <- W, Z2N.id by lia. change (2 ^ 63)%Z with 9223372036854775808%Z. lia.
  - rewrite R in F. destruct (dec_of_lexeme (Z_to_string z)) as [[[n0 m0] e0]|] eqn:D; [|discriminate]. exists neg', m', e'.
    split; [now apply num_ok_exact|]. exists n0, m0, e0. split; [now apply dec_exact|exact F].
Qed.
Lemma float_num f s : is_f64 rnd f = true -> fmt_float f = Some s -> exists neg m e, json_num rnd s (FFin neg m e).
Proof.
  intros H E. destruct (fmt_float_ok rnd f s H E) as [P O]. destruct f as [| |neg m e]; try discriminate E. exists neg, m, e.
  split; [now apply num_ok_exact|]. unfold parse_float in P. destruct (dec_of_lexeme s) as [[[n0 m0] e0]|] eqn:D; [|discriminate].
  exists n0, m0, e0. split; [now apply dec_exact|exact P].
Qed.
Lemma sound_plain s : plain s = true -> sound (JStr s).
Proof. intros H. destruct (plain_clean s H) as (x & C). now apply (so_str _ x). Qed.

Lemma enc_list_all (P : json -> Prop) f : forall l js, (forall x j, In x l -> f x = Ok j -> P j) -> enc_list f l = Ok js -> Forall P js.
Proof.
  induction l as [|x l IH]; intros js H E; cbn [enc_list] in E; [injection E as <-; constructor|]. fold (enc_list f) in E.
  apply bind_ok in E as (j & E1 & E). apply bind_ok in E as (js' & E2 & E). injection E as <-.
  constructor; [eapply H; eauto; now left|]. apply IH; [intros; eapply H; eauto; now right|assumption].
Qed.
Lemma enc_mems_all (P : string * json -> Prop) f : forall l js, (forall k x j, In (k, x) l -> f x = Ok j -> P (k, j)) -> enc_mems f l = Ok js -> Forall P js /\ map fst js = map fst l.
Proof.
  induction l as [|[k x] l IH]; intros js H E; cbn [enc_mems] in E; [injection E as <-; split; [constructor|reflexivity]|]. fold (enc_mems f) in E.
  apply bind_ok in E as (j & E1 & E). apply bind_ok in E as (js' & E2 & E). injection E as <-.
  destruct (IH js' (fun k0 x0 j0 I => H k0 x0 j0 (or_intror I)) E2) as [A B]. split; [|cbn [map fst]; now rewrite B].
  constructor; [exact (H k x _ (or_introl eq_refl) E1)|exact A].
Qed.
Lemma enc_sound : forall v t j, plain_value rnd v = true -> enc t v = Ok j -> sound j.
Proof.
  induction v using gval_ind'; intros t0 jo G E; cbn [enc] in E; cbn [plain_value] in G.
  - injection E as <-. destruct (quote_clean s) as (x & C & _). now apply (so_str _ x).
  - assert (jo = JNum (Z_to_string z)) as -> by congruence. destruct (int_num z G) as (neg & m & e & N). now apply (so_num _ neg m e).
  - injection E as <-. constructor.
  - destruct (fmt_float f) as [s|] eqn:F; [|discriminate]. injection E as <-. destruct (float_num f s G F) as (neg & m & e & N). now apply (so_num _ neg m e).
  - destruct t0; try discriminate. assert (jo = JStr (enum_string name n)) as -> by congruence. apply sound_plain, enum_plain.
  - assert (jo = JStr (ts_string t)) as -> by congruence. apply sound_plain, plain_ts_all.
  - assert (jo = JStr (b64_encode s)) as -> by congruence. apply sound_plain, plain_b64.
  - injection E as <-. constructor.
  - destruct t0; try discriminate. eapply IHv; eauto.
  - destruct t0; try discriminate. apply bind_ok in E as (js & E1 & E). injection E as <-. constructor. rewrite forallb_forall in G. rewrite Forall_forall in H.
    eapply enc_list_all; [|eassumption]. intros x j I. apply H; auto.
  - rewrite forallb_forall in G. rewrite Forall_forall in H. destruct t0; try discriminate; apply bind_ok in E as (js & E1 & E); injection E as <-; constructor;
      (eapply enc_mems_all; [|eassumption]); intros k' x j' I; cbn [snd]; apply (H _ I), (G _ I).
  - destruct t0; try discriminate. apply bind_ok in E as (js & E1 & E). injection E as <-. constructor. rewrite forallb_forall in G. rewrite Forall_forall in *.
    intros [k x] I. destruct (enc_fields_In _ _ _ _ E1 _ _ I) as (m & t & n & v & H1 & H2 & H3 & H4 & H5). apply in_combine_r in H1. cbn [snd]. eapply (H _ H1); [exact (G _ H1)|exact H5].
  - eapply IHv; eauto.
  - discriminate.
Qed.
Lemma enc_once : forall v t j, tags_apart t = true -> plain_value rnd v = true -> names_apart v = true -> enc t v = Ok j -> once j.
Proof.
  induction v using gval_ind'; intros t0 jo T G N E; cbn [enc] in E; cbn [plain_value] in G; cbn [names_apart] in N.
  1-3: injection E as <-; constructor.
  - destruct (fmt_float f) as [s|] eqn:F; [|discriminate]. injection E as <-. constructor.
  - destruct t0; try discriminate. injection E as <-. constructor.
  - injection E as <-. constructor.
  - injection E as <-. constructor.
  - injection E as <-. constructor.
  - destruct t0; try discriminate. exact (IHv t0 jo T G N E).
  - destruct t0; try discriminate. apply bind_ok in E as (js & E1 & E). injection E as <-. constructor. rewrite forallb_forall in *. rewrite Forall_forall in H.
    eapply enc_list_all; [|eassumption]. intros x j I. exact (H _ I t0 j T (G _ I) (N _ I)).
  - rewrite andb_true_iff in N. destruct N as [D N]. apply msorted_nodup in D. rewrite forallb_forall in *. rewrite Forall_forall in H.
    assert (X : forall k x, In (k, x) l -> utf8b k = true /\ names_apart x = true) by (intros k x I; specialize (N _ I); now apply andb_true_iff in N).
    destruct t0; try discriminate; apply bind_ok in E as (js & E1 & E); injection E as <-;
      apply (enc_mems_all (fun kv => utf8b (fst kv) = true /\ once (snd kv))) in E1 as [A B].
    + constructor; [now rewrite B|exact A].
    + intros k x j I F. split; [now apply X in I|]. apply (H _ I t0); [exact T|exact (G _ I)|now apply X in I|exact F].
    + constructor; [now rewrite B|exact A].
    + intros k x j I F. split; [now apply X in I|]. apply (H _ I GIface); [exact T|exact (G _ I)|now apply X in I|exact F].
  - destruct t0; try discriminate. apply bind_ok in E as (js & E1 & E). injection E as <-. cbn [tags_apart] in T. apply andb_true_iff in T as [D T].
    apply nodupb_NoDup in D. rewrite forallb_forall in *. rewrite Forall_forall in H. constructor; [now apply (enc_fields_nodup _ _ _ _ E1)|].
    rewrite Forall_forall. intros [k x] I. destruct (enc_fields_In _ _ _ _ E1 _ _ I) as (m & t & n & v & H1 & -> & H3 & H4 & H5).
    assert (I1 := in_combine_l _ _ _ _ H1). assert (I2 := in_combine_r _ _ _ _ H1). specialize (T _ I1). cbn [fst snd] in T. apply andb_true_iff in T as [T1 T2].
    cbn [fst snd]. split; [exact T1|]. exact (H _ I2 t x T2 (G _ I2) (N _ I2) H5).
  - apply andb_true_iff in N as [N1 N2]. exact (IHv t jo N1 G N2 E).
  - discriminate.
Qed.

(** ** Objects *)
Section Entries.
Variable kp : string -> bool.
Variable tp : gty -> bool.
Variable vp : gval -> bool.
Hypothesis tp_iface : tp GIface = true.
Hypothesis tp_struct : forall n fs m t, tp (GStruct n fs) = true -> In (m, t) fs -> kp (fm_key m) = true /\ tp t = true.
Hypothesis vp_nil : vp VNil = true.
Hypothesis vp_struct : forall l k v, vp (VStruct l) = true -> In (k, v) l -> vp v = true.
Hypothesis vp_props : forall l k v, vp (VPtr (VMap l)) = true -> In (k, v) l -> kp k = true /\ vp v = true.
Definition entry (kv : string * (gty * gval)) : Prop := kp (fst kv) = true /\ tp (fst (snd kv)) = true /\ vp (snd (snd kv)) = true.
Lemma put_all_entry l : forall m, (forall k v, In (k, v) l -> kp k = true /\ vp v = true) -> Forall entry m -> Forall entry (put_all l m).
Proof.
  unfold put_all. induction l as [|[k x] l IH]; intros m G H; [exact H|]. cbn [fold_left fst snd].
  apply IH; [intros; apply G; now right|]. apply minsert_all; [exact H|]. destruct (G k x (or_introl eq_refl)). repeat split; assumption.
Qed.
Lemma get_field_vp n v : vp v = true -> vp (get_field n v) = true.
Proof.
  intros G. unfold get_field. destruct v; try exact vp_nil. destruct (alookup n l) as [x|] eqn:E; [|exact vp_nil].
  apply alookup_Some_In in E. eapply vp_struct; eauto.
Qed.
Lemma overlay_entry n v m : vp v = true -> Forall entry m -> Forall entry (overlay n v m).
Proof.
  intros G H. unfold overlay. destruct (mem_str n _); [|exact H]. assert (G' := get_field_vp "toplevelProperties" v G).
  destruct (get_field "toplevelProperties" v) as [| | | | | | | |w| | | | |]; try exact H. destruct w; try exact H. apply put_all_entry; [|exact H]. intros k x I. eapply vp_props; eauto.
Qed.
Lemma put_field_entry fm t v m m' : kp (fm_key fm) = true -> tp t = true -> vp v = true -> Forall entry m -> put_field fm t v m = Ok m' -> Forall entry m'.
Proof.
  intros K T G H E. unfold put_field in E. destruct (is_empty (fm_key fm)); [now injection E as <-|].
  destruct (match v with VBool _ => false | _ => is_zero v end); [destruct (fm_omit fm); [now injection E as <-|discriminate]|].
  injection E as <-. apply minsert_all; [exact H|]. repeat split; assumption.
Qed.
Lemma put_fields_entry : forall vs fs m m', (forall m t, In (m, t) fs -> kp (fm_key m) = true /\ tp t = true) -> (forall k v, In (k, v) vs -> vp v = true) ->
  Forall entry m -> put_fields fs vs m = Ok m' -> Forall entry m'.
Proof.
  induction vs as [|[k x] vs IH]; intros fs m m' T G H E; destruct fs as [|[fm t] fs]; cbn [put_fields] in E; try (now injection E as <-).
  apply bind_ok in E as (a & Q & E). apply (IH fs a m'); [intros; apply T; now right|intros k0 v0 I0; exact (G k0 v0 (or_intror I0))| |exact E].
  destruct (T fm t (or_introl eq_refl)) as [T1 T2]. exact (put_field_entry _ _ _ _ _ T1 T2 (G k x (or_introl eq_refl)) H Q).
Qed.
Lemma base_to_map_entry t v m m' : tp t = true -> vp v = true -> Forall entry m -> base_to_map t v m = Ok m' -> Forall entry m'.
Proof.
  intros T G H E. unfold base_to_map in E. destruct t; try discriminate. destruct v; try discriminate. apply bind_ok in E as (a & Q & E). injection E as <-.
  apply overlay_entry; [exact G|]. eapply put_fields_entry; [| |exact H|exact Q]; eauto.
Qed.
Lemma fields_to_map_entry : forall vs fs m m', (forall m t, In (m, t) fs -> kp (fm_key m) = true /\ tp t = true) -> (forall k v, In (k, v) vs -> vp v = true) ->
  Forall entry m -> fields_to_map fs vs m = Ok m' -> Forall entry m'.
Proof.
  induction vs as [|[k x] vs IH]; intros fs m m' T G H E; destruct fs as [|[fm t] fs]; cbn [fields_to_map] in E; try (now injection E as <-).
  apply bind_ok in E as (a & Q & E). apply (IH fs a m'); [intros; apply T; now right|intros k0 v0 I0; exact (G k0 v0 (or_intror I0))| |exact E].
  destruct (T fm t (or_introl eq_refl)). assert (vp x = true) by exact (G k x (or_introl eq_refl)).
  destruct (mem_str (fm_name fm) base_structs); [eapply base_to_map_entry|eapply put_field_entry]; eauto.
Qed.
Lemma value_entry t v m : tp t = true -> vp v = true -> value_to_map t v = Ok m -> Forall entry m.
Proof.
  intros T G E. unfold value_to_map in E. destruct t; try discriminate. destruct v; try discriminate. apply bind_ok in E as (a & Q & E). injection E as <-.
  apply overlay_entry; [exact G|]. eapply fields_to_map_entry; [| |constructor|exact Q]; eauto.
Qed.
End Entries.
Lemma fields_sorted : forall vs fs m m', msorted m = true -> fields_to_map fs vs m = Ok m' -> msorted m' = true.
Proof.
  induction vs as [|[k x] vs IH]; intros fs m m' H E; destruct fs as [|[fm t] fs]; cbn [fields_to_map] in E; try (injection E as <-; exact H).
  apply bind_ok in E as (a & Q & E). apply (IH fs a m'); [|exact E].
  destruct (mem_str (fm_name fm) base_structs); [eapply base_sorted|eapply put_field_sorted]; eauto.
Qed.
Lemma value_sorted t v m : value_to_map t v = Ok m -> msorted m = true.
Proof.
  intros E. unfold value_to_map in E. destruct t; try discriminate. destruct v; try discriminate. apply bind_ok in E as (a & Q & E). injection E as <-.
  apply overlay_sorted. eapply fields_sorted; [|exact Q]. reflexivity.
Qed.
Lemma enc_map_all (P : string * (gty * gval) -> Prop) (R : string * json -> Prop) : (forall k t v j, P (k, (t, v)) -> enc t v = Ok j -> R (k, j)) ->
  forall m js, Forall P m -> enc_map m = Ok js -> Forall R js /\ map fst js = map fst m.
Proof.
  intros S. induction m as [|[k [t v]] m IH]; intros js H E; cbn [enc_map] in E; [injection E as <-; split; [constructor|reflexivity]|]. inversion H; subst.
  apply bind_ok in E as (j & Q & E). apply bind_ok in E as (js' & Q' & E). injection E as <-. destruct (IH js' H3 Q') as [A B].
  split; [constructor; [eapply S; eauto|exact A]|]. cbn [map fst]. now rewrite B.
Qed.
Lemma marshal_sound t v j : plain_value rnd v = true -> marshal t v = Ok j -> sound j.
Proof.
  intros G E. unfold marshal in E. destruct (mem_str (ty_name t) helper_types); [|eapply enc_sound; eauto].
  unfold enc_obj in E. apply bind_ok in E as (m & Q & E). apply bind_ok in E as (js & Q' & E). injection E as <-. constructor.
  eapply (value_entry (fun _ => true) (fun _ => true) (plain_value rnd)) in Q; try (intros; split); auto.
  - apply (enc_map_all (entry (fun _ => true) (fun _ => true) (plain_value rnd)) (fun kv => sound (snd kv))) in Q' as [A _]; [exact A| |exact Q]. intros k t0 v0 j0 (_ & _ & V) E0. eapply enc_sound; eauto.
  - intros l k x H I. cbn [plain_value] in H. rewrite forallb_forall in H. exact (H _ I).
  - cbn [plain_value] in H. rewrite forallb_forall in H. exact (H _ H0).
Qed.
Lemma marshal_once t v j : tags_apart t = true -> plain_value rnd v = true -> names_apart v = true -> marshal t v = Ok j -> once j.
Proof.
  intros T G N E. unfold marshal in E. destruct (mem_str (ty_name t) helper_types); [|eapply enc_once; eauto].
  unfold enc_obj in E. apply bind_ok in E as (m & Q & E). apply bind_ok in E as (js & Q' & E). injection E as <-.
  assert (S := value_sorted _ _ _ Q). apply msorted_nodup in S.
  eapply (value_entry utf8b tags_apart (fun x => plain_value rnd x && names_apart x)) in Q; auto.
  - apply (enc_map_all (entry utf8b tags_apart (fun x => plain_value rnd x && names_apart x)) (fun kv => utf8b (fst kv) = true /\ once (snd kv))) in Q' as [A B]; [| |exact Q].
    + constructor; [now rewrite B|exact A].
    + intros k t0 v0 j0 (K & Tp & V) E0. cbn [fst snd] in *. apply andb_true_iff in V as [V1 V2]. split; [exact K|]. eapply enc_once; eauto.
  - intros n fs m0 t0 H I. cbn [tags_apart] in H. apply andb_true_iff in H as [_ H]. rewrite forallb_forall in H. specialize (H _ I). now apply andb_true_iff in H.
  - intros l k x H I. apply andb_true_iff in H as [H1 H2]. cbn [plain_value names_apart] in *. rewrite forallb_forall in *. specialize (H1 _ I). specialize (H2 _ I). cbn [snd] in *. now rewrite H1, H2.
  - intros l k x H I. apply andb_true_iff in H as [H1 H2]. cbn [plain_value names_apart] in *. apply andb_true_iff in H2 as [_ H2]. rewrite forallb_forall in *.
    specialize (H1 _ I). specialize (H2 _ I). cbn [fst snd] in *. apply andb_true_iff in H2 as [U H2]. now rewrite H1, H2.
  - now rewrite G, N.
Qed.
End S.
