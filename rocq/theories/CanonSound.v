(** What the canonicalizer accepts are texts of values. *)
From Verif Require Import GoStr GoStrFacts JsonStr JsonStrFacts Json JsonFacts Float FloatFacts NumFmt NumSpec StrSpec StrSpecFacts JsonSpec JsonSpecFacts Canon CanonSpec NumFmtFacts CanonFacts CanonParse CanonTotal CanonUnique.
From Coq Require Import Permutation Sorted Lia.
Local Open Scope N_scope.

Lemma ascii_check_none c e : ascii_check c e = None -> e = None /\ bt c < 128.
Proof. destruct e; cbn; [discriminate|]. destruct (N.ltb_spec 127 (bt c)); [discriminate|]. split; [reflexivity|lia]. Qed.
Lemma set_err_none m s : c_err (set_err m s) <> None.
Proof. destruct s as [p r [x|]]; discriminate. Qed.
Lemma ws_app a b : ws a -> ws b -> ws (a ++ b).
Proof. intros A B c Hc. induction a as [|d a IH]; [auto|]. cbn in Hc. destruct Hc as [<-|Hc]; [apply A; now left|]. apply IH; [|exact Hc]. intros e He. apply A. now right. Qed.
Lemma next_char_sound s c s' : next_char s = (c, s') -> c_err s' = None -> c_err s = None /\ c_rest s = String c (c_rest s') /\ bt c < 128.
Proof.
  unfold next_char. destruct (c_rest s) as [|d r] eqn:E; intros H N; injection H as <- <-; [now apply set_err_none in N|].
  cbn [c_err] in N. apply ascii_check_none in N as [N B]. auto.
Qed.
Lemma scan_from_sound r : forall p e c s', scan_from p r e = (c, s') -> c_err s' = None ->
  e = None /\ is_ws c = false /\ bt c < 128 /\ (exists p', c_pre s' = String c p') /\ exists w, ws w /\ r = (w ++ String c (c_rest s'))%string.
Proof.
  induction r as [|d r IH]; intros p e c s' H N; cbn [scan_from] in H.
  - injection H as <- <-. now apply set_err_none in N.
  - destruct (is_ws d) eqn:W.
    + destruct (IH _ _ _ _ H N) as (E & Wc & B & P & w & Ww & ->). apply ascii_check_none in E as [E _]. repeat split; auto. exists (String d w). split; [now apply ws_cons|reflexivity].
    + injection H as <- <-. cbn [c_err c_pre c_rest] in *. apply ascii_check_none in N as [N B]. repeat split; eauto. exists ""%string. split; [apply ws_nil|reflexivity].
Qed.
Lemma scan_sound s c s' : scan s = (c, s') -> c_err s' = None ->
  c_err s = None /\ is_ws c = false /\ bt c < 128 /\ (exists p', c_pre s' = String c p') /\ exists w, ws w /\ c_rest s = (w ++ String c (c_rest s'))%string.
Proof. unfold scan. apply scan_from_sound. Qed.
Lemma scan_for_sound c s : c_err (scan_for c s) = None -> c_err s = None /\ exists w, ws w /\ c_rest s = (w ++ String c (c_rest (scan_for c s)))%string.
Proof.
  unfold scan_for. destruct (scan s) as [d s'] eqn:E. intros N. destruct (Ascii.eqb_spec d c) as [->|]; [|now apply set_err_none in N].
  apply scan_sound in E as (H1 & _ & _ & _ & H2); auto.
Qed.
Lemma test_next_sound s c s' : test_next s = (c, s') -> c_err s' = None ->
  c_err s = None /\ s' = CSt (c_pre s) (c_rest s) None /\ is_ws c = false /\ exists w r, ws w /\ c_rest s = (w ++ String c r)%string.
Proof.
  unfold test_next. destruct (scan s) as [d s1] eqn:E. intros H N. injection H as <- <-. cbn [c_err] in N.
  apply scan_sound in E as (H1 & H2 & _ & _ & w & H3 & H4); [|exact N]. rewrite N. repeat split; eauto.
Qed.
Lemma get_u_sound s v s' : get_u s = (v, s') -> c_err s' = None -> c_err s = None /\
  exists a b c d, hex4 a b c d = Some v /\ c_rest s = String a (String b (String c (String d (c_rest s')))).
Proof.
  unfold get_u. destruct (next_char s) as [c1 s1] eqn:E1. destruct (next_char s1) as [c2 s2] eqn:E2. destruct (next_char s2) as [c3 s3] eqn:E3. destruct (next_char s3) as [c4 s4] eqn:E4.
  intros H N. destruct (c_err s4) eqn:E; [injection H as <- <-; congruence|]. destruct (hex4 c1 c2 c3 c4) as [u|] eqn:X; injection H as <- <-; [|now apply set_err_none in N].
  apply next_char_sound in E4 as (N3 & R4 & _); [|exact E]. apply next_char_sound in E3 as (N2 & R3 & _); [|exact N3].
  apply next_char_sound in E2 as (N1 & R2 & _); [|exact N2]. apply next_char_sound in E1 as (N0 & R1 & _); [|exact N1].
  split; [exact N0|]. exists c1, c2, c3, c4. split; [exact X|]. now rewrite R1, R2, R3, R4.
Qed.
Lemma oapp_done p o t s : oapp p o = Done t s -> exists t', o = Done t' s /\ t = (p ++ t')%string.
Proof. destruct o; cbn; intros H; try discriminate. injection H as <- <-. eauto. Qed.
Lemma obind_done {A B} (o : out A) (f : A -> cst -> out B) b s : obind o f = Done b s -> exists a s1, o = Done a s1 /\ f a s1 = Done b s.
Proof. destruct o; cbn; intros H; try discriminate. eauto. Qed.

Lemma binary_esc e b : binary_of e = Some b -> In (e, b) esc_list.
Proof.
  unfold binary_of. destruct (find _ escape_table) as [[a c]|] eqn:F; [|discriminate]. intros H. injection H as <-.
  apply find_some in F as [F E]. cbn [fst] in E. apply Ascii.eqb_eq in E. subst a. unfold escape_table in F. unfold esc_list. cbn [In] in *. tauto.
Qed.
Lemma quoted_sound n : forall s x s', quoted n s = Done x s' -> c_err s' = None ->
  c_err s = None /\ exists raw, strval raw x /\ c_rest s = (raw ++ String qt (c_rest s'))%string.
Proof.
  induction n as [|n IH]; intros s x s' H N; [discriminate|]. cbn [quoted] in H. destruct (c_err s) eqn:Es; [injection H as <- <-; congruence|]. split; [reflexivity|].
  destruct (c_rest s) as [|c r] eqn:Er.
  { injection H as <- <-. unfold next_char in N. rewrite Er in N. cbn [snd] in N. now apply set_err_none in N. }
  set (s1 := CSt (String c (c_pre s)) r None) in *.
  destruct (Ascii.eqb_spec c qt) as [->|Nq].
  { injection H as <- <-. exists ""%string. split; [constructor|reflexivity]. }
  destruct (N.ltb_spec (bt c) 32) as [L|L].
  { apply IH in H as [H _]; [|exact N]. now apply set_err_none in H. }
  destruct (Ascii.eqb_spec c bs) as [->|Nb].
  2: { apply oapp_done in H as (t' & H & ->). apply IH in H as (_ & raw & Hr & E); [|exact N]. cbn [c_rest s1] in E. exists (String c raw). cbn [append]. split; [now apply sv_char|now rewrite E]. }
  destruct (next_char s1) as [e s2] eqn:E2. assert (X : c_err s2 = None -> r = String e (c_rest s2)).
  { intros Z. apply next_char_sound in E2 as (_ & R & _); auto. }
  destruct (Ascii.eqb_spec e "u") as [->|Nu].
  - destruct (get_u s2) as [u s3] eqn:E3. assert (X3 : c_err s3 = None -> exists a b c d, hex4 a b c d = Some u /\ r = String "u" (String a (String b (String c (String d (c_rest s3)))))).
    { intros Z. apply get_u_sound in E3 as (N2 & a & b & c & d & Hx & R); [|exact Z]. exists a, b, c, d. split; [exact Hx|]. rewrite (X N2). now rewrite R. }
    destruct (is_surr u) eqn:Su.
    + destruct (next_char s3) as [b1 s4] eqn:E4. destruct (Ascii.eqb_spec b1 bs) as [->|]; cbn [negb] in H; [|apply IH in H as [H _]; [now apply set_err_none in H|exact N]].
      destruct (next_char s4) as [b2 s5] eqn:E5. destruct (Ascii.eqb_spec b2 "u") as [->|]; cbn [negb] in H; [|apply IH in H as [H _]; [now apply set_err_none in H|exact N]].
      destruct (get_u s5) as [w s6] eqn:E6. apply oapp_done in H as (t' & H & ->). apply IH in H as (N6 & raw & Hr & R6); [|exact N].
      apply get_u_sound in E6 as (N5 & a' & b' & c' & d' & Hx' & R5); [|exact N6]. apply next_char_sound in E5 as (N4 & R4 & _); [|exact N5].
      apply next_char_sound in E4 as (N3 & R3 & _); [|exact N4]. destruct (X3 N3) as (a & b & c & d & Hx & R).
      exists (String bs (String "u" (String a (String b (String c (String d (String bs (String "u" (String a' (String b' (String c' (String d' raw)))))))))))).
      split; [now apply sv_pair|]. cbn [append]. rewrite R, R3, R4, R5, R6. reflexivity.
    + apply oapp_done in H as (t' & H & ->). apply IH in H as (N3 & raw & Hr & R3); [|exact N]. destruct (X3 N3) as (a & b & c & d & Hx & R).
      exists (String bs (String "u" (String a (String b (String c (String d raw)))))). split; [now apply sv_u|]. cbn [append]. rewrite R, R3. reflexivity.
  - destruct (Ascii.eqb_spec e "/") as [->|Ns].
    + apply oapp_done in H as (t' & H & ->). apply IH in H as (N2 & raw & Hr & R2); [|exact N]. exists (String bs (String "/" raw)). cbn [append]. split; [|now rewrite (X N2), R2].
      apply sv_esc; [|exact Hr]. unfold esc_list. cbn [In]. tauto.
    + destruct (binary_of e) as [b|] eqn:Eb; [|apply IH in H as [H _]; [now apply set_err_none in H|exact N]].
      apply oapp_done in H as (t' & H & ->). apply IH in H as (N2 & raw & Hr & R2); [|exact N]. exists (String bs (String e raw)). cbn [append]. split; [|now rewrite (X N2), R2].
      apply sv_esc; [now apply binary_esc|exact Hr].
Qed.

Lemma token_sound n : forall s l s', token n s = Done l s' -> c_err s' = None ->
  c_err s = None /\ plain_tok l /\ exists w, ws w /\ c_rest s = (l ++ w ++ c_rest s')%string.
Proof.
  induction n as [|n IH]; intros s l s' H N; [discriminate|]. cbn [token] in H. destruct (c_err s) eqn:Es; [injection H as <- <-; congruence|]. split; [reflexivity|].
  destruct (test_next s) as [c s1] eqn:E1. destruct (Ascii.eqb c "," || Ascii.eqb c "]" || Ascii.eqb c "}") eqn:D.
  { injection H as <- <-. split; [intros c' []|]. apply test_next_sound in E1 as (_ & -> & _); [|exact N]. exists ""%string. split; [apply ws_nil|reflexivity]. }
  destruct (next_char s1) as [d s2] eqn:E2. destruct (is_ws d) eqn:Wd.
  { injection H as <- <-. split; [intros c' []|]. apply next_char_sound in E2 as (N1 & R & _); [|exact N]. apply test_next_sound in E1 as (_ & -> & _); [|exact N1]. cbn [c_rest] in R.
    exists (String d ""). split; [apply ws_cons; [exact Wd|apply ws_nil]|]. rewrite R. reflexivity. }
  apply oapp_done in H as (l' & H & ->). apply IH in H as (N2 & P & w & W & R2); [|exact N].
  apply next_char_sound in E2 as (N1 & R & B); [|exact N2]. apply test_next_sound in E1 as (_ & -> & Wc & w0 & r0 & W0 & R0); [|exact N1]. cbn [c_rest] in R.
  assert (d = c) as ->.
  { rewrite R in R0. destruct w0 as [|x w0]; cbn [append] in R0; [congruence|]. apply ws_inv in W0 as [W0 _]. congruence. }
  split; [|exists w; split; [exact W|]; cbn [append]; rewrite R; now rewrite R2].
  intros x [<-|Hx]; [auto|]. now apply P.
Qed.

Section Sound.
Variable pf : string -> flt * bool.
Notation jc := (jc (lax_num pf) lax_str).
Notation jcelems := (jcelems (lax_num pf) lax_str).
Notation jcmems := (jcmems (lax_num pf) lax_str).

Lemma plain_token l : plain_tok l -> forall c, In c (list_ascii_of_string l) -> token_char c.
Proof. intros P c Hc. apply token_char_plain. now apply P. Qed.
Lemma simple_sound c p r e t s' : (Ascii.eqb c "{" || Ascii.eqb c qt || Ascii.eqb c "[") = false -> simple pf (CSt (String c p) r e) = Done t s' -> c_err s' = None ->
  e = None /\ exists v txt w, jc v txt /\ jcs v t /\ ws w /\ String c r = (txt ++ w ++ c_rest s')%string.
Proof.
  intros F H N. unfold simple in H. cbn [c_pre c_rest c_err] in H. apply obind_done in H as (l & s1 & T & H).
  assert (K : forall s2, s2 = (if is_empty l then set_err "Missing argument" s1 else s1) -> c_err s2 = None -> l <> ""%string /\ c_err s1 = None /\ s2 = s1).
  { intros s2 -> Z. destruct l; cbn [is_empty] in Z |- *; [now apply set_err_none in Z|]. repeat split; auto. discriminate. }
  set (s2 := if is_empty l then set_err "Missing argument" s1 else s1) in *. specialize (K s2 eq_refl).
  destruct (mem_str l literals) eqn:M.
  - injection H as <- <-. destruct (K N) as (_ & N1 & ->). apply token_sound in T as (E & P & w & W & R); [|exact N1]. cbn [c_err c_rest] in *. split; [exact E|].
    apply mem_str_In in M. unfold literals in M. cbn [In] in M.
    destruct M as [M|[M|[M|[]]]]; subst l; [exists (CBool true), "true"%string|exists (CBool false), "false"%string|exists CNull, "null"%string]; exists w; (split; [constructor|split; [|split; auto]]);
      [apply (jcs_bool true)|apply (jcs_bool false)|constructor].
  - destruct (pf l) as [f ok] eqn:Ef. destruct (number_to_json f) as [[t0 ok']|] eqn:En; [|discriminate]. injection H as <- <-.
    destruct ok'; [|now apply set_err_none in N]. destruct ok; [|now apply set_err_none in N]. destruct (K N) as (Ne & N1 & E2). rewrite E2 in *.
    apply token_sound in T as (E & P & w & W & R); [|exact N1]. cbn [c_err c_rest] in *. split; [exact E|].
    destruct f as [|sg|neg m e0]; [cbn in En; discriminate|destruct sg; cbn in En; discriminate|]. rewrite number_to_json_es6 in En. injection En as <-.
    exists (CNum (FFin neg m e0)), l, w. split; [|split; [constructor|split; auto]]. apply jc_num. split; [|exact Ef]. split; [|split; [now apply plain_token|]].
    + destruct l as [|d l']; [congruence|]. exists d, l'. split; [reflexivity|]. cbn [append] in R. injection R as <- _. rewrite !orb_false_iff, !Ascii.eqb_neq in F. destruct F as [[F1 F2] F3].
      cbn [In]. intros [<-|[<-|[<-|[]]]]; [exact (F1 eq_refl)|exact (F3 eq_refl)|exact (F2 eq_refl)].
    + intros Hl. rewrite <- not_true_iff_false in M. apply M. apply mem_str_In. unfold literals. cbn [In] in *. tauto.
Qed.

Lemma insert_sound l acc k v t acc' : acc_rel l acc -> jcs v t -> insert_nv (k, utf16_encode (runes k), t) acc = (acc', false) -> acc_rel (l ++ [(k, v)]) acc'.
Proof.
  intros A J H. destruct (in_dec (list_eq_dec N.eq_dec) (ukey k) (map ukey (map fst l))) as [Hk|Hk].
  - destruct (acc_dup l acc k t A Hk) as (x & E). congruence.
  - destruct (acc_new l acc k v t A J Hk) as (x & E & A'). congruence.
Qed.
(** The text the loop over elements reads, up to the closing bracket. *)
Definition elems_body (next : bool) (l : list cval) (body : string) : Prop :=
  (l = [] /\ ws body) \/ (exists w b, jcelems l b /\ ws w /\ body = (if next then w ++ String "," b else b)%string).
(** The text the loop over members reads, up to the closing bracket. *)
Definition mems_body (next : bool) (l : list (string * cval)) (body : string) : Prop :=
  (l = [] /\ ws body) \/ (exists w b, jcmems l b /\ ws w /\ body = (if next then w ++ String "," b else b)%string).
Lemma sound n :
  (forall s t s', element pf n s = Done t s' -> c_err s' = None -> c_err s = None /\
     exists w v txt w', ws w /\ ws w' /\ jc v txt /\ jcs v t /\ c_rest s = (w ++ txt ++ w' ++ c_rest s')%string) /\
  (forall next s t s', elements pf n next s = Done t s' -> c_err s' = None -> c_err s = None /\
     exists l ts body, jcs_list l ts /\ elems_body next l body /\ c_rest s = (body ++ String "]" (c_rest s'))%string /\
       t = (match ts with [] => "" | _ => if next then "," else "" end ++ join "," ts ++ "]")%string) /\
  (forall next l0 acc s acc' s', acc_rel l0 acc -> members pf n next acc s = Done acc' s' -> c_err s' = None -> c_err s = None /\
     exists l body, acc_rel (l0 ++ l) acc' /\ mems_body next l body /\ c_rest s = (body ++ String "}" (c_rest s'))%string).
Proof.
  induction n as [|n (IHe & IHa & IHm)].
  { split; [|split]; intros; discriminate. }
  split; [|split].
  - intros s t s' H N. rewrite element_S in H. destruct (scan s) as [c s1] eqn:E.
    assert (X : c_err s1 = None -> c_err s = None /\ is_ws c = false /\ (exists p', c_pre s1 = String c p') /\ exists w, ws w /\ c_rest s = (w ++ String c (c_rest s1))%string).
    { intros Z. apply scan_sound in E as (A & B & _ & C); auto. }
    destruct (Ascii.eqb_spec c "{") as [->|N1].
    { apply obind_done in H as (acc & s2 & H & Q). injection Q as <- <-.
      destruct (IHm false [] [] s1 acc s2) as (Z & l & body & A & B & R); [exists []; repeat split; constructor|exact H|exact N|]. destruct (X Z) as (Zs & _ & _ & w & W & R0).
      split; [exact Zs|]. exists w, (CObj l), (String "{" (body ++ "}")), ""%string. split; [exact W|]. split; [apply ws_nil|]. split; [|split; [now apply acc_write|]].
      - destruct B as [[-> B]|(w1 & b & B & _ & ->)]; [apply jc_obj0; now apply ws_blank|now apply jc_obj].
      - rewrite R0, R. cbn [append]. now rewrite sapp_assoc. }
    destruct (Ascii.eqb_spec c qt) as [->|N2].
    { apply obind_done in H as (x & s2 & H & Q). injection Q as <- <-. unfold parse_quoted in H. apply quoted_sound in H as (Z & raw & V & R); [|exact N]. destruct (X Z) as (Zs & _ & _ & w & W & R0).
      split; [exact Zs|]. exists w, (CStr x), (in_quotes raw), ""%string. split; [exact W|]. split; [apply ws_nil|]. split; [apply jc_str; now apply strval_lax|]. rewrite decorate_jcs. split; [constructor|].
      rewrite R0, R. change (in_quotes raw) with (q raw). unfold q. cbn [append]. now rewrite sapp_assoc. }
    destruct (Ascii.eqb_spec c "[") as [->|N3].
    { apply oapp_done in H as (t' & H & ->). apply IHa in H as (Z & l & ts & body & J & B & R & ->); [|exact N]. destruct (X Z) as (Zs & _ & _ & w & W & R0).
      split; [exact Zs|]. exists w, (CArr l), (String "[" (body ++ "]")), ""%string. split; [exact W|]. split; [apply ws_nil|]. split; [|split].
      - destruct B as [[-> B]|(w1 & b & B & _ & ->)]; [apply jc_arr0; now apply ws_blank|now apply jc_arr].
      - replace ((match ts with [] => "" | _ => "" end) ++ join "," ts ++ "]")%string with (join "," ts ++ "]")%string by (destruct ts; reflexivity). now apply jcs_arr.
      - rewrite R0, R. cbn [append]. now rewrite sapp_assoc. }
    assert (F : (Ascii.eqb c "{" || Ascii.eqb c qt || Ascii.eqb c "[") = false) by (apply Ascii.eqb_neq in N1, N2, N3; now rewrite N1, N2, N3).
    assert (Z : c_err s1 = None).
    { destruct (c_err s1) as [x|] eqn:Ex; [|reflexivity]. exfalso.
      assert (M := scan_spec _ _ _ E). destruct M as (_ & Wc & [[_ (p' & P)]|[-> _]]); [|now destruct N2]. destruct s1 as [p1 r1 e1]. cbn [c_pre c_err] in P, Ex. subst p1 e1.
      destruct (simple_ends pf c p' r1 (Some x) Wc) as (t0 & s0 & E0 & _ & _ & Q). rewrite E0 in H. injection H as <- <-. apply Q; [discriminate|exact N]. }
    destruct (X Z) as (Zs & _ & (p' & P) & w & W & R0). destruct s1 as [p1 r1 e1]. cbn [c_pre c_err c_rest] in *. subst p1.
    destruct (simple_sound c p' r1 e1 t s' F H N) as (_ & v & txt & w' & J & Jt & W' & R). split; [exact Zs|]. exists w, v, txt, w'. repeat split; auto. now rewrite R0, R.
  - intros next s t s' H N. rewrite elements_S in H. destruct (c_err s) eqn:Es.
    { injection H as <- <-. destruct (scan s) as [c s1] eqn:E. cbn [snd] in N. apply scan_sound in E as (A & _); [congruence|exact N]. }
    split; [reflexivity|]. destruct (test_next s) as [c s1] eqn:E. destruct (Ascii.eqb_spec c "]") as [->|Nc].
    { injection H as <- <-. destruct (scan s1) as [d s2] eqn:E2. cbn [snd] in *. apply scan_sound in E2 as (N1 & Wd & _ & _ & w & W & R); [|exact N].
      apply test_next_sound in E as (_ & -> & Wc & w0 & r0 & W0 & R0); [|exact N1]. cbn [c_rest] in R.
      assert (Q : d = "]"%char).
      { rewrite R0 in R. clear - R W W0 Wd Wc. revert w0 W0 R. induction w as [|x w IH]; intros [|y w0] W0 R; cbn [append] in R; injection R as R1 R2; subst; auto.
        - apply ws_inv in W0 as [W0 _]. congruence.
        - apply ws_inv in W as [W _]. discriminate.
        - apply ws_inv in W as [_ W]. apply ws_inv in W0 as [_ W0]. eauto. }
      subst d. exists [], [], w. split; [constructor|]. split; [left; auto|]. split; [exact R|reflexivity]. }
    cbv zeta in H. apply obind_done in H as (x & s3 & H & Q). apply oapp_done in Q as (t' & Q & ->).
    apply IHa in Q as (N3 & l & ts & body & J & B & R & ->); [|exact N]. apply IHe in H as (N2 & w & v & txt & w' & W & W' & Jv & Jt & R2); [|exact N3].
    assert (HH : exists w0, ws w0 /\ c_rest s = ((if next then w0 ++ String "," (w ++ txt ++ w' ++ c_rest s3) else w ++ txt ++ w' ++ c_rest s3))%string).
    { destruct next.
      - apply scan_for_sound in N2 as (N1 & w0 & W0 & R0). apply test_next_sound in E as (_ & -> & _); [|exact N1]. cbn [c_rest] in R0. exists w0. split; [exact W0|]. now rewrite R0, R2.
      - apply test_next_sound in E as (_ & -> & _); [|exact N2]. cbn [c_rest] in R2. exists ""%string. split; [apply ws_nil|exact R2]. }
    destruct HH as (w0 & W0 & R0).
    assert (BB : exists b, jcelems (v :: l) b /\ (w ++ txt ++ w' ++ c_rest s3)%string = (b ++ String "]" (c_rest s'))%string).
    { rewrite R. destruct B as [[-> B]|(w1 & b & B & W1 & ->)].
      - exists (w ++ txt ++ (w' ++ body))%string. split; [|now rewrite !sapp_assoc]. apply jce_one; [now apply ws_blank|exact Jv|apply ws_blank; now apply ws_app].
      - exists (w ++ txt ++ (w' ++ w1) ++ String "," b)%string. split; [|repeat (rewrite ?sapp_assoc; cbn [append]); reflexivity]. apply jce_cons; [now apply ws_blank|exact Jv|apply ws_blank; now apply ws_app|exact B]. }
    destruct BB as (b & Jb & Rb). rewrite Rb in R0. exists (v :: l), (x :: ts), (if next then w0 ++ String "," b else b)%string. split; [now constructor|]. split; [right; exists w0, b; auto|]. split.
    + rewrite R0. destruct next; [now rewrite sapp_assoc|reflexivity].
    + destruct ts as [|t1 ts].
      * cbn [join append]. destruct next; cbn [append]; reflexivity.
      * rewrite (join_cons x (t1 :: ts)) by discriminate. destruct next; cbn [append]; rewrite ?sapp_assoc; reflexivity.
  - intros next l0 acc s acc' s' A H N. rewrite members_S in H. destruct (c_err s) eqn:Es.
    { injection H as <- <-. destruct (scan s) as [c s1] eqn:E. cbn [snd] in N. apply scan_sound in E as (Z & _); [congruence|exact N]. }
    split; [reflexivity|]. destruct (test_next s) as [c s1] eqn:E. destruct (Ascii.eqb_spec c "}") as [->|Nc].
    { injection H as <- <-. destruct (scan s1) as [d s2] eqn:E2. cbn [snd] in *. apply scan_sound in E2 as (N1 & Wd & _ & _ & w & W & R); [|exact N].
      apply test_next_sound in E as (_ & -> & Wc & w0 & r0 & W0 & R0); [|exact N1]. cbn [c_rest] in R.
      assert (Q : d = "}"%char).
      { rewrite R0 in R. clear - R W W0 Wd Wc. revert w0 W0 R. induction w as [|x w IH]; intros [|y w0] W0 R; cbn [append] in R; injection R as R1 R2; subst; auto.
        - apply ws_inv in W0 as [W0 _]. congruence.
        - apply ws_inv in W as [W _]. discriminate.
        - apply ws_inv in W as [_ W]. apply ws_inv in W0 as [_ W0]. eauto. }
      subst d. exists [], w. rewrite app_nil_r. split; [exact A|]. split; [left; auto|exact R]. }
    cbv zeta in H. apply obind_done in H as (k & s4 & H & Q). destruct (c_err s4) eqn:E4.
    { injection Q as <- <-. destruct (scan s4) as [d s5] eqn:E5. cbn [snd] in N. apply scan_sound in E5 as (Z & _); [congruence|exact N]. }
    unfold parse_quoted in H. apply quoted_sound in H as (N3 & raw & V & R3); [|exact E4].
    apply obind_done in Q as (x & s6 & H6 & Q). destruct (insert_nv (k, utf16_encode (runes k), x) acc) as [acc1 dup] eqn:Ei.
    assert (Z6 : dup = false /\ c_err s6 = None).
    { destruct (c_err (if dup then set_err "Duplicate key" s6 else s6)) as [y|] eqn:Ey.
      - exfalso. destruct n as [|n]; [discriminate|]. rewrite members_S, Ey in Q. injection Q as <- <-.
        destruct (scan (if dup then set_err "Duplicate key" s6 else s6)) as [d s7] eqn:E7. cbn [snd] in N. apply scan_sound in E7 as (Z & _); [congruence|exact N].
      - destruct dup; [now apply set_err_none in Ey|auto]. }
    destruct Z6 as [-> N6]. apply IHe in H6 as (N5 & w3 & v & txt & w4 & W3 & W4 & Jv & Jt & R6); [|exact N6].
    assert (A1 := insert_sound l0 acc k v x acc1 A Jt Ei). destruct (IHm true _ acc1 s6 acc' s' A1 Q N) as (_ & l & body & A2 & B & R).
    apply scan_for_sound in N5 as (_ & w2 & W2 & R5). apply scan_for_sound in N3 as (N2 & w1 & W1 & R2).
    assert (HH : exists w0, ws w0 /\ c_rest s = ((if next then w0 ++ String "," (c_rest (if next then scan_for "," s1 else s1)) else c_rest (if next then scan_for "," s1 else s1)))%string).
    { destruct next.
      - apply scan_for_sound in N2 as (N1 & w0 & W0 & R0). apply test_next_sound in E as (_ & -> & _); [|exact N1]. cbn [c_rest] in R0. exists w0. auto.
      - apply test_next_sound in E as (_ & -> & _); [|exact N2]. exists ""%string. split; [apply ws_nil|reflexivity]. }
    destruct HH as (w0 & W0 & R0). rewrite R2, R3, R5, R6, R in R0.
    assert (BB : exists b, jcmems ((k, v) :: l) b /\ (w1 ++ String qt (raw ++ String qt (w2 ++ String ":" (w3 ++ txt ++ w4 ++ body ++ String "}" (c_rest s')))))%string = (b ++ String "}" (c_rest s'))%string).
    { destruct B as [[-> B]|(w5 & b & B & W5 & ->)].
      - exists (w1 ++ in_quotes raw ++ w2 ++ String ":" (w3 ++ txt ++ (w4 ++ body)))%string. split.
        + apply jcm_one; try (now apply ws_blank); [now apply strval_lax|exact Jv|apply ws_blank; now apply ws_app].
        + change (in_quotes raw) with (q raw). unfold q. repeat (rewrite ?sapp_assoc; cbn [append]). reflexivity.
      - exists (w1 ++ in_quotes raw ++ w2 ++ String ":" (w3 ++ txt ++ (w4 ++ w5) ++ String "," b))%string. split.
        + apply jcm_cons; try (now apply ws_blank); [now apply strval_lax|exact Jv|apply ws_blank; now apply ws_app|exact B].
        + change (in_quotes raw) with (q raw). unfold q. repeat (rewrite ?sapp_assoc; cbn [append]). reflexivity. }
    destruct BB as (b & Jb & Rb). rewrite Rb in R0. exists ((k, v) :: l), (if next then w0 ++ String "," b else b)%string. split; [now rewrite <- app_assoc in A2|]. split; [right; exists w0, b; auto|].
    rewrite R0. destruct next; [now rewrite sapp_assoc|reflexivity].
Qed.

Lemma skip_ws_empty s : skip_ws s = ""%string -> ws s.
Proof.
  induction s as [|c s IH]; intros H; [apply ws_nil|]. cbn [skip_ws] in H. destruct (is_ws c) eqn:E; [|discriminate]. apply ws_cons; auto.
Qed.
Lemma transform_sound s t : transform pf s = Ok t -> exists v, lax_text pf v s /\ jcs v t.
Proof.
  unfold transform, transform_run. set (n := (2 * String.length s + 3)%nat). clearbody n. destruct (test_next (CSt "" s None)) as [c s1] eqn:E.
  destruct (obind _ _) as [t0 s2| |] eqn:Eo; try discriminate. destruct (c_err s2) eqn:E2; [discriminate|]. intros H. injection H as ->.
  apply obind_done in Eo as (a & s3 & H & Q). injection Q as -> Q.
  assert (X : c_err s3 = None /\ ws (c_rest s3)).
  { destruct (is_empty (skip_ws (c_rest s3))) eqn:Z; [|subst s2; now apply set_err_none in E2]. subst s2. split; [exact E2|]. apply skip_ws_empty. destruct (skip_ws (c_rest s3)); [reflexivity|discriminate]. }
  destruct X as [N3 W3]. destruct (sound n) as (_ & Sa & Sm). destruct (Ascii.eqb_spec c "[") as [->|Nc].
  - apply oapp_done in H as (t' & H & ->). apply Sa in H as (N2 & l & ts & body & J & B & R & ->); [|exact N3].
    destruct (scan s1) as [d s4] eqn:E4. cbn [snd] in *. apply scan_sound in E4 as (N1 & Wd & _ & _ & w & W & R4); [|exact N2].
    apply test_next_sound in E as (_ & -> & Wc & w0 & r0 & W0 & R0); [|exact N1]. cbn [c_rest] in *.
    assert (Q' : d = "["%char).
    { rewrite R0 in R4. clear - R4 W W0 Wd Wc. revert w0 W0 R4. induction w as [|x w IH]; intros [|y w0] W0 R; cbn [append] in R; injection R as R1 R2; subst; auto.
      - apply ws_inv in W0 as [W0 _]. congruence.
      - apply ws_inv in W as [W _]. discriminate.
      - apply ws_inv in W as [_ W]. apply ws_inv in W0 as [_ W0]. eauto. }
    subst d. exists (CArr l). split.
    + split; [exact I|]. exists w, (String "[" (body ++ "]")), (c_rest s3). split; [now apply ws_blank|]. split; [now apply ws_blank|]. split.
      * destruct B as [[-> B]|(w1 & b & B & _ & ->)]; [apply jc_arr0; now apply ws_blank|now apply jc_arr].
      * rewrite R4, R. cbn [append]. now rewrite sapp_assoc.
    + replace ((match ts with [] => "" | _ => "" end) ++ join "," ts ++ "]")%string with (join "," ts ++ "]")%string by (destruct ts; reflexivity). now apply jcs_arr.
  - apply obind_done in H as (acc & s4 & H & Q'). injection Q' as <- <-.
    destruct (Sm false [] [] (scan_for "{" s1) acc s4) with (2 := H) as (N2 & l & body & A & B & R); [exists []; repeat split; constructor|exact N3|].
    apply scan_for_sound in N2 as (N1 & w & W & R4). apply test_next_sound in E as (_ & -> & _); [|exact N1]. cbn [c_rest] in *.
    exists (CObj l). split; [|now apply acc_write]. split; [exact I|]. exists w, (String "{" (body ++ "}")), (c_rest s4). split; [now apply ws_blank|]. split; [now apply ws_blank|]. split.
    + destruct B as [[-> B]|(w1 & b & B & _ & ->)]; [apply jc_obj0; now apply ws_blank|now apply jc_obj].
    + rewrite R4, R. cbn [append]. now rewrite sapp_assoc.
Qed.
End Sound.
