(** Proofs about the canonicalizer. *)
From Verif Require Import GoStr GoStrFacts JsonStr JsonStrFacts Json JsonFacts Float FloatFacts NumFmt NumSpec NumSpecFacts StrSpec StrSpecFacts JsonSpec JsonSpecFacts Canon CanonSpec NumFmtFacts.
From Coq Require Import Permutation Sorted Lia.
Local Open Scope N_scope.

(** * Scanning *)
Lemma is_ws_ascii c : is_ws c = true -> (127 <? bt c) = false.
Proof.
  unfold is_ws. rewrite !orb_true_iff, !Ascii.eqb_eq. intros [[[->| ->]| ->]| ->]; reflexivity.
Qed.
Lemma scan_ws w : ws w -> forall pre c r, is_ws c = false -> bt c < 128 -> exists pre',
  scan (CSt pre (w ++ String c r) None) = (c, CSt (String c pre') r None).
Proof.
  unfold scan. cbn [c_pre c_rest c_err]. induction w as [|d w IH]; intros W pre c r Nc Ac.
  - exists pre. cbn [append scan_from]. rewrite Nc. unfold ascii_check. destruct (N.ltb_spec 127 (bt c)); [lia|reflexivity].
  - apply ws_inv in W as [Wd W]. cbn [append scan_from]. rewrite Wd. unfold ascii_check. rewrite (is_ws_ascii _ Wd). now apply IH.
Qed.
Lemma test_ws w pre c r : ws w -> is_ws c = false -> bt c < 128 ->
  test_next (CSt pre (w ++ String c r) None) = (c, CSt pre (w ++ String c r) None).
Proof. intros W Nc Ac. unfold test_next. destruct (scan_ws w W pre c r Nc Ac) as (pre' & ->). reflexivity. Qed.
Lemma scan_for_ws w pre c r : ws w -> is_ws c = false -> bt c < 128 -> exists pre',
  scan_for c (CSt pre (w ++ String c r) None) = CSt (String c pre') r None.
Proof.
  intros W Nc Ac. unfold scan_for. destruct (scan_ws w W pre c r Nc Ac) as (pre' & ->). rewrite Ascii.eqb_refl. eauto.
Qed.

(** * Strings *)
Definition esc_list : list (ascii * ascii) := [(qt, qt); (bs, bs); ("/", "/"); ("b", ch 8); ("f", ch 12); ("n", ch 10); ("r", ch 13); ("t", ch 9)]%char.
(** [lax_str] in terms of the model's functions *)
Inductive strval : string -> string -> Prop :=
| sv_nil : strval "" ""
| sv_char c s x : 32 <= bt c -> c <> bs -> c <> qt -> strval s x -> strval (String c s) (String c x)
| sv_esc e b s x : In (e, b) esc_list -> strval s x -> strval (String bs (String e s)) (String b x)
| sv_u h1 h2 h3 h4 v s x : hex4 h1 h2 h3 h4 = Some v -> is_surr v = false -> strval s x ->
    strval (String bs (String "u" (String h1 (String h2 (String h3 (String h4 s)))))) (enc_rune v ++ x)
| sv_pair h1 h2 h3 h4 g1 g2 g3 g4 v w s x : hex4 h1 h2 h3 h4 = Some v -> is_surr v = true -> hex4 g1 g2 g3 g4 = Some w -> strval s x ->
    strval (String bs (String "u" (String h1 (String h2 (String h3 (String h4
           (String bs (String "u" (String g1 (String g2 (String g3 (String g4 s)))))))))))) (enc_rune (match dec_pair v w with Some r => r | None => 65533 end) ++ x).
Lemma surr_spec v : is_surr v = true <-> surrogate v.
Proof. unfold is_surr, surrogate. rewrite andb_true_iff, N.leb_le, N.ltb_lt. lia. Qed.
Lemma surr_spec_f v : is_surr v = false <-> ~ surrogate v.
Proof. rewrite <- surr_spec. destruct (is_surr v); intuition congruence. Qed.
Lemma hex4_bound a b c d v : hex4 a b c d = Some v -> v <= 65535.
Proof.
  intros H. apply hex4_text in H as (a' & b' & c' & d' & x & y & z & w & _ & Hx & Hy & Hz & Hw & ->).
  assert (K : forall c n, hex_digit c n -> n < 16).
  { intros k n [Hn|Hn]; assert (L : (N.to_nat n < 16)%nat) by (match type of Hn with nth_error ?l _ = _ => change 16%nat with (List.length l) end; apply nth_error_Some; congruence); lia. }
  apply K in Hx, Hy, Hz, Hw. lia.
Qed.
Lemma dec_pair_spec v w : surrogate v -> pair_char v w (match dec_pair v w with Some r => r | None => 65533 end).
Proof.
  intros S. unfold surrogate in S. unfold dec_pair, pair_char.
  destruct ((55296 <=? v) && (v <? 56320) && (56320 <=? w) && (w <? 57344)) eqn:E.
  - rewrite !andb_true_iff, !N.leb_le, !N.ltb_lt in E. left. lia.
  - right. rewrite !andb_false_iff, !N.leb_gt, !N.ltb_ge in E. split; [lia|reflexivity].
Qed.
Lemma pair_char_fun v w n m : pair_char v w n -> pair_char v w m -> n = m.
Proof. unfold pair_char. intros [H|H] [H'|H']; lia. Qed.
Lemma pair_char_ok v w n : surrogate v -> pair_char v w n -> n <= 1114111 /\ ~ surrogate n.
Proof. unfold surrogate, pair_char, replacement. intros S [H|H]; lia. Qed.
Lemma esc_short e n : In (e, n) short_escapes -> In (e, ascii_of_N n) esc_list.
Proof. cbn [In short_escapes]. intros H. decompose [or] H; try contradiction; match goal with E : _ = _ |- _ => injection E as <- <- end; vm_compute; intuition. Qed.
Lemma short_esc e b : In (e, b) esc_list -> exists n, In (e, n) short_escapes /\ b = ascii_of_N n.
Proof.
  intros H. exists (N_of_ascii b). rewrite ascii_N_embedding. split; [|reflexivity].
  unfold esc_list in H. cbn [In] in H. decompose [or] H; try contradiction; match goal with E : _ = _ |- _ => injection E as <- <- end; vm_compute; intuition.
Qed.
Lemma strval_lax raw x : strval raw x -> lax_str raw x.
Proof.
  induction 1 as [|c s x B Nb Nq H IH|e b s x Hin H IH|h1 h2 h3 h4 v s x Hv Sv H IH|h1 h2 h3 h4 g1 g2 g3 g4 v w s x Hv Sv Hw H IH].
  - constructor.
  - apply lx_byte; [exact B| | |exact IH]; intros E; [apply Nq|apply Nb]; apply code_inj; exact E.
  - apply short_esc in Hin as (n & Hin & ->). now apply lx_escape.
  - apply surr_spec_f in Sv. apply (lx_u (String h1 (String h2 (String h3 (String h4 ""))))) with (n := v); [now apply hex4_text|exact Sv| |exact IH].
    apply enc_char; [apply hex4_bound in Hv; lia|exact Sv].
  - apply surr_spec in Sv. assert (P := dec_pair_spec v w Sv). set (n := match dec_pair v w with Some r => r | None => 65533 end) in *. clearbody n.
    apply (lx_pair (String h1 (String h2 (String h3 (String h4 "")))) v (String g1 (String g2 (String g3 (String g4 "")))) w n); auto; [now apply hex4_text|now apply hex4_text|].
    destruct (pair_char_ok _ _ _ Sv P). now apply enc_char.
Qed.
Lemma lax_strval raw x : lax_str raw x -> strval raw x.
Proof.
  induction 1 as [|c r x B N1 N2 H IH|e n r x Hin H IH|h n w r x Hh Sn Hw H IH|h hi h' lo n w r x Hh Sh Hh' P Hw H IH].
  - constructor.
  - apply sv_char; [exact B| | |exact IH]; intros ->; [now apply N2|now apply N1].
  - apply sv_esc; [now apply esc_short|exact IH].
  - apply hex_text_form in Hh as (a & b & c & d & -> & Hv). unfold u_escape. cbn [append].
    assert (w = enc_rune n) as ->. { apply (char_inj _ _ n); [exact Hw|]. apply enc_char; [apply hex4_bound in Hv; lia|exact Sn]. }
    apply sv_u; [exact Hv|now apply surr_spec_f|exact IH].
  - apply hex_text_form in Hh as (a & b & c & d & -> & Hv). apply hex_text_form in Hh' as (a' & b' & c' & d' & -> & Hv'). unfold u_escape. cbn [append].
    rewrite (pair_char_fun _ _ _ _ P (dec_pair_spec hi lo Sh)) in Hw.
    assert (w = enc_rune (match dec_pair hi lo with Some r => r | None => 65533 end)) as ->.
    { apply (char_inj _ _ _ Hw). destruct (pair_char_ok _ _ _ Sh (dec_pair_spec hi lo Sh)). now apply enc_char. }
    apply sv_pair; [exact Hv|now apply surr_spec|exact Hv'|exact IH].
Qed.
Lemma hexval_ascii c v : hexval c = Some v -> (127 <? bt c) = false.
Proof.
  unfold hexval. intros H. apply N.ltb_ge.
  destruct ((48 <=? bt c) && (bt c <=? 57)) eqn:E1; [apply andb_true_iff in E1 as [_ X]; apply N.leb_le in X; lia|].
  destruct ((97 <=? bt c) && (bt c <=? 102)) eqn:E2; [apply andb_true_iff in E2 as [_ X]; apply N.leb_le in X; lia|].
  destruct ((65 <=? bt c) && (bt c <=? 70)) eqn:E3; [apply andb_true_iff in E3 as [_ X]; apply N.leb_le in X; lia|]. discriminate.
Qed.
Lemma get_u_hex h1 h2 h3 h4 v pre r : hex4 h1 h2 h3 h4 = Some v -> exists pre',
  get_u (CSt pre (String h1 (String h2 (String h3 (String h4 r)))) None) = (v, CSt pre' r None).
Proof.
  intros H. assert (H0 := H). unfold hex4 in H. destruct (hexval h1) eqn:E1; [|discriminate]. destruct (hexval h2) eqn:E2; [|discriminate].
  destruct (hexval h3) eqn:E3; [|discriminate]. destruct (hexval h4) eqn:E4; [|discriminate]. clear H.
  unfold get_u, next_char. cbn [c_rest c_pre c_err]. unfold ascii_check.
  rewrite (hexval_ascii _ _ E1), (hexval_ascii _ _ E2), (hexval_ascii _ _ E3), (hexval_ascii _ _ E4). cbn [c_err]. rewrite H0. eauto.
Qed.
Lemma esc_facts e b : In (e, b) esc_list ->
  ascii_check e None = None /\ Ascii.eqb e "u" = false /\ (if Ascii.eqb e "/" then b = "/"%char else binary_of e = Some b).
Proof.
  unfold esc_list. cbn [In]. intros Hin. repeat (destruct Hin as [Hin|Hin]; [injection Hin as <- <-; vm_compute; auto|]). destruct Hin.
Qed.
Lemma quoted_strval raw x : strval raw x -> forall n pre rest, (String.length raw < n)%nat -> exists pre',
  quoted n (CSt pre (raw ++ String qt rest) None) = Done x (CSt pre' rest None).
Proof.
  induction 1 as [|c s x B Nb Nq H IH|e b s x Hin H IH|h1 h2 h3 h4 v s x Hv Sv H IH|h1 h2 h3 h4 g1 g2 g3 g4 v w s x Hv Sv Hw H IH];
    intros n pre rest L; cbn [String.length] in L; (destruct n as [|n]; [lia|]); cbn [quoted c_err c_rest c_pre append].
  - rewrite Ascii.eqb_refl. eauto.
  - apply Ascii.eqb_neq in Nb, Nq. rewrite Nq. destruct (N.ltb_spec (bt c) 32); [lia|]. rewrite Nb.
    destruct (IH n (String c pre) rest ltac:(lia)) as (pre' & ->). cbn [oapp obind append]. eauto.
  - change (Ascii.eqb bs qt) with false. change (bt bs <? 32) with false. rewrite Ascii.eqb_refl. unfold next_char. cbn [c_rest c_pre c_err].
    destruct (IH n (String e (String bs pre)) rest ltac:(lia)) as (pre' & E).
    destruct (esc_facts _ _ Hin) as (F1 & F2 & F3). rewrite F1, F2. destruct (Ascii.eqb e "/"); [subst b|rewrite F3]; rewrite E; cbn [oapp obind append]; eauto.
  - change (Ascii.eqb bs qt) with false. change (bt bs <? 32) with false. rewrite Ascii.eqb_refl. unfold next_char at 1. cbn [c_rest c_pre c_err].
    change (ascii_check "u" None) with (@None string). rewrite Ascii.eqb_refl.
    destruct (get_u_hex _ _ _ _ _ (String "u" (String bs pre)) (s ++ String qt rest) Hv) as (p1 & ->). rewrite Sv.
    destruct (IH n p1 rest ltac:(lia)) as (pre' & ->). cbn [oapp obind]. eauto.
  - change (Ascii.eqb bs qt) with false. change (bt bs <? 32) with false. rewrite Ascii.eqb_refl. unfold next_char at 1. cbn [c_rest c_pre c_err].
    change (ascii_check "u" None) with (@None string). rewrite Ascii.eqb_refl.
    destruct (get_u_hex _ _ _ _ _ (String "u" (String bs pre)) (String bs (String "u" (String g1 (String g2 (String g3 (String g4 (s ++ String qt rest))))))) Hv) as (p1 & ->).
    rewrite Sv. unfold next_char. cbn [c_rest c_pre c_err].
    change (ascii_check bs None) with (@None string). rewrite Ascii.eqb_refl. cbn [negb c_rest c_pre c_err].
    change (ascii_check "u" None) with (@None string). rewrite Ascii.eqb_refl. cbn [negb].
    destruct (get_u_hex _ _ _ _ _ (String "u" (String bs p1)) (s ++ String qt rest) Hw) as (p2 & ->).
    destruct (IH n p2 rest ltac:(lia)) as (pre' & ->). cbn [oapp obind]. eauto.
Qed.
Lemma slen_app a b : String.length (a ++ b) = (String.length a + String.length b)%nat.
Proof. induction a as [|c a IH]; cbn; [reflexivity|now rewrite IH]. Qed.
Lemma parse_quoted_strval raw x pre rest : strval raw x -> exists pre',
  parse_quoted (CSt pre (raw ++ String qt rest) None) = Done x (CSt pre' rest None).
Proof. intros H. unfold parse_quoted. cbn [c_rest]. apply quoted_strval; [exact H|]. rewrite slen_app. lia. Qed.

Lemma dec_char_jcs c : dec_char c = jcs_char c.
Proof.
  assert (X : forallb (fun c => String.eqb (dec_char c) (jcs_char c)) all_ascii = true) by (vm_compute; reflexivity).
  apply String.eqb_eq. exact (ascii_sweep _ X c).
Qed.
Lemma decorate_jcs s : decorate s = jcs_string s.
Proof.
  unfold decorate, jcs_string. f_equal. induction s as [|c s IH]; [reflexivity|]. cbn [dec_chars jcs_chars]. now rewrite dec_char_jcs, IH.
Qed.

(** * Numbers and literals *)
Definition delim (r : string) : Prop := exists w c r', r = (w ++ String c r')%string /\ ws w /\ In c [","; "]"; "}"]%char.
Definition plain_tok (l : string) : Prop := forall c, In c (list_ascii_of_string l) ->
  is_ws c = false /\ bt c < 128 /\ (Ascii.eqb c "," || Ascii.eqb c "]" || Ascii.eqb c "}") = false.
Lemma token_plain l : plain_tok l -> forall n pre rest, (String.length l < n)%nat -> delim rest -> exists pre',
  token n (CSt pre (l ++ rest) None) = Done l (CSt pre' rest None).
Proof.
  induction l as [|d l IH]; intros P n pre rest L D; cbn [String.length] in L; (destruct n as [|n]; [lia|]); cbn [token c_err append].
  - destruct D as (w & c & r & -> & W & Hc). assert (Q : is_ws c = false /\ bt c < 128).
    { destruct Hc as [<-|[<-|[<-|[]]]]; split; reflexivity. }
    rewrite test_ws by tauto. exists pre. destruct Hc as [<-|[<-|[<-|[]]]]; reflexivity.
  - destruct (P d) as (P1 & P2 & P3); [now left|]. change (String d (l ++ rest))%string with ("" ++ String d (l ++ rest))%string.
    rewrite test_ws; [|apply ws_nil|exact P1|exact P2]. rewrite P3. unfold next_char. cbn [c_rest c_pre c_err append]. rewrite P1.
    unfold ascii_check. destruct (N.ltb_spec 127 (bt d)); [lia|].
    destruct (IH (fun c Hc => P c (or_intror Hc)) n (String d pre) rest ltac:(lia) D) as (pre' & ->). cbn [oapp obind append]. eauto.
Qed.
Lemma numch_plain c : is_numch c = true -> is_ws c = false /\ bt c < 128 /\ (Ascii.eqb c "," || Ascii.eqb c "]" || Ascii.eqb c "}") = false /\
   (Ascii.eqb c "{" || Ascii.eqb c qt || Ascii.eqb c "[") = false.
Proof.
  intros H.
  assert (X : forallb (fun c => negb (is_numch c) || (negb (is_ws c) && (bt c <? 128) && negb (Ascii.eqb c "," || Ascii.eqb c "]" || Ascii.eqb c "}")
     && negb (Ascii.eqb c "{" || Ascii.eqb c qt || Ascii.eqb c "["))) all_ascii = true) by (vm_compute; reflexivity).
  assert (Y := ascii_sweep _ X c). cbv beta in Y. rewrite H in Y. cbn [negb orb] in Y. rewrite !andb_true_iff, !negb_true_iff in Y.
  destruct Y as [[[Y1 Y2] Y3] Y4]. apply N.ltb_lt in Y2. auto.
Qed.
Lemma all_num_In l : all_num l = true -> forall c, In c (list_ascii_of_string l) -> is_numch c = true.
Proof.
  induction l as [|d l IH]; cbn; [tauto|]. intros H c [<-|Hc]; apply andb_true_iff in H as [H1 H2]; auto.
Qed.
Lemma blank_ws c : In (code c) [32; 9; 10; 13] <-> is_ws c = true.
Proof.
  split.
  - intros H. assert (X : forallb (fun c => is_ws c || negb (existsb (N.eqb (code c)) [32; 9; 10; 13])) all_ascii = true) by (vm_compute; reflexivity).
    assert (Y := ascii_sweep _ X c). cbv beta in Y. apply orb_true_iff in Y as [Y|Y]; [exact Y|]. apply negb_true_iff in Y.
    rewrite <- not_true_iff_false in Y. exfalso. apply Y. apply existsb_exists. exists (code c). split; [exact H|apply N.eqb_refl].
  - unfold is_ws. rewrite !orb_true_iff, !Ascii.eqb_eq. intros [[[->| ->]| ->]| ->]; vm_compute; intuition.
Qed.
Lemma token_char_plain c : token_char c <-> is_ws c = false /\ bt c < 128 /\ (Ascii.eqb c "," || Ascii.eqb c "]" || Ascii.eqb c "}") = false.
Proof.
  unfold token_char. rewrite blank_ws, not_true_iff_false, !orb_false_iff, !Ascii.eqb_neq. cbn [In]. split.
  - intros (H1 & H2 & H3). split; [exact H2|]. split; [exact H1|]. repeat split; intros ->; apply H3; auto.
  - intros (H1 & H2 & [H3 H4] & H5). split; [exact H2|]. split; [exact H1|]. intros [<-|[<-|[<-|[]]]]; congruence.
Qed.
Lemma token_text_plain l : token_text l -> plain_tok l /\ exists c r, l = String c r /\ (Ascii.eqb c "{" || Ascii.eqb c qt || Ascii.eqb c "[") = false /\ mem_str l literals = false.
Proof.
  intros ((c & r & -> & N) & P & L). split; [intros d Hd; apply token_char_plain; now apply P|]. exists c, r. split; [reflexivity|]. split.
  - rewrite !orb_false_iff, !Ascii.eqb_neq. repeat split; intros ->; apply N; cbn; auto.
  - apply not_true_iff_false. intros M. apply mem_str_In in M. apply L. unfold literals in M. cbn [In] in *. tauto.
Qed.
Section WithFloat.
Variable pf : string -> flt * bool.

Lemma simple_token c l pre rest : plain_tok (String c l) -> delim rest -> exists pre',
  simple pf (CSt (String c pre) (l ++ rest) None) =
    (if mem_str (String c l) literals then Done (String c l) (CSt pre' rest None)
     else let (f, ok) := pf (String c l) in
          match number_to_json f with
          | None => Crash
          | Some (t, ok') => Done t ((if ok' then fun s => s else set_err "Invalid JSON number") ((if ok then fun s => s else set_err "invalid number") (CSt pre' rest None)))
          end).
Proof.
  intros P D. unfold simple. cbn [c_pre c_rest c_err].
  destruct (token_plain (String c l) P (S (S (String.length (String c (l ++ rest))))) pre rest) as (pre' & E); [cbn [String.length]; rewrite slen_app; lia|exact D|].
  cbn [append] in E. rewrite E. exists pre'. cbn [obind]. change (is_empty (String c l)) with false.
  destruct (mem_str (String c l) literals); [reflexivity|]. destruct (pf (String c l)) as [f ok]. destruct (number_to_json f) as [[t ok']|]; [|reflexivity].
  destruct ok, ok'; reflexivity.
Qed.
Lemma simple_num c l neg m e pre rest : lax_num pf (String c l) (FFin neg m e) -> delim rest -> exists pre',
  simple pf (CSt (String c pre) (l ++ rest) None) = Done (es6 neg m e) (CSt pre' rest None).
Proof.
  intros [T F] D. destruct (token_text_plain _ T) as (P & c' & l' & _ & _ & M). destruct (simple_token c l pre rest P D) as (pre' & E).
  exists pre'. rewrite E, M, F, number_to_json_es6. reflexivity.
Qed.
End WithFloat.

(** * Sort keys *)
Definition scalar (r : N) : Prop := r <= 1114111 /\ ~ surrogate r.
Lemma char_scalar w n : utf8_char w n -> scalar n.
Proof. unfold scalar. destruct 1; unfold surrogate in *; lia. Qed.
Lemma byte_scalars s l : byte_chars s l -> Forall scalar l.
Proof. induction 1; constructor; auto; [eapply char_scalar; eauto|]. unfold scalar, surrogate, replacement. lia. Qed.
Lemma runes_bytes : forall k s, (String.length s <= k)%nat -> byte_chars s (runes s).
Proof.
  induction k as [|k IH]; intros s L.
  { destruct s; [constructor|cbn in L; lia]. }
  destruct s as [|a s1]; [constructor|]. cbn [String.length] in L. cbn [runes].
  destruct (bt a <? 128) eqn:E1.
  { apply N.ltb_lt in E1. apply (bc_char (String a "") _ s1); [exact (u8_1 a E1)|apply IH; lia]. }
  assert (R : (forall w n r, utf8_char w n -> String a s1 <> (w ++ r)%string) -> byte_chars (String a s1) (65533 :: runes s1)).
  { intros NC. apply bc_byte; [exact NC|apply IH; lia]. }
  assert (E1' := ltb_code _ E1).
  destruct s1 as [|b s2]; [apply R; apply no_char; auto; discriminate|]. cbn [String.length] in L.
  destruct (ok2 a b) eqn:E2.
  { assert (O := E2). apply ok2_char in O as (n & U). replace ((bt a - 192) * 64 + (bt b - 128)) with n by (inversion U; unfold bt; change N_of_ascii with code; lia).
    apply (bc_char (String a (String b "")) n s2); [exact U|apply IH; lia]. }
  destruct s2 as [|c s3]; [apply R; apply no_char; auto; intros; try discriminate; congruence|]. cbn [String.length] in L.
  destruct (ok3 a b c) eqn:E3.
  { assert (O := E3). apply ok3_char in O as (n & U). replace ((bt a - 224) * 4096 + (bt b - 128) * 64 + (bt c - 128)) with n by (inversion U; unfold bt; change N_of_ascii with code; lia).
    apply (bc_char (String a (String b (String c ""))) n s3); [exact U|apply IH; lia]. }
  destruct s3 as [|d s4]; [apply R; apply no_char; auto; intros; try discriminate; congruence|]. cbn [String.length] in L.
  destruct (ok4 a b c d) eqn:E4.
  { assert (O := E4). apply ok4_char in O as (n & U). replace ((bt a - 240) * 262144 + (bt b - 128) * 4096 + (bt c - 128) * 64 + (bt d - 128)) with n by (inversion U; unfold bt; change N_of_ascii with code; lia).
    apply (bc_char (String a (String b (String c (String d "")))) n s4); [exact U|apply IH; lia]. }
  apply R; apply no_char; auto; intros; congruence.
Qed.
Lemma runes_spec s : byte_chars s (runes s).
Proof. now apply (runes_bytes (String.length s)). Qed.
Lemma utf16_units l : Forall scalar l -> utf16_encode l = flat_map units l.
Proof.
  induction 1 as [|r l H _ IH]; [reflexivity|]. unfold utf16_encode in *. cbn [flat_map]. rewrite IH. f_equal. unfold units. destruct H as [H1 H2]. apply surr_spec_f in H2. rewrite H2.
  destruct (N.ltb_spec r 65536); [reflexivity|]. destruct (N.ltb_spec r 1114112); [reflexivity|lia].
Qed.
Lemma scalar_cases r : scalar r -> r < 1114112 /\ (r < 55296 \/ 57344 <= r).
Proof. unfold scalar, surrogate. lia. Qed.
Lemma units_inj l : forall l', Forall scalar l -> Forall scalar l' -> flat_map units l = flat_map units l' -> l = l'.
Proof.
  assert (U : forall r, scalar r -> (r < 65536 /\ units r = [r]) \/ (65536 <= r /\ exists a b, units r = [55296 + a; 56320 + b] /\ a < 1024 /\ b < 1024 /\ r = 65536 + a * 1024 + b)).
  { intros r H. apply scalar_cases in H as [H1 H2]. unfold units. destruct (N.ltb_spec r 65536); [left; auto|right]. split; [assumption|].
    exists ((r - 65536) / 1024), ((r - 65536) mod 1024). assert (E := N.div_mod (r - 65536) 1024 ltac:(lia)).
    assert ((r - 65536) mod 1024 < 1024) by (apply N.mod_lt; lia). assert ((r - 65536) / 1024 < 1024) by (apply N.div_lt_upper_bound; lia).
    repeat split; try assumption. lia. }
  induction l as [|r l IH]; intros l' F F' E.
  - destruct l' as [|r' l']; [reflexivity|]. exfalso. inversion F' as [|? ? S' F1']; subst. cbn [flat_map] in E.
    destruct (U r' S') as [[_ X]|[_ (a & b & X & _)]]; rewrite X in E; discriminate.
  - inversion F as [|? ? S F1]; subst. destruct l' as [|r' l'].
    + exfalso. cbn [flat_map] in E. destruct (U r S) as [[_ X]|[_ (a & b & X & _)]]; rewrite X in E; discriminate.
    + inversion F' as [|? ? S' F1']; subst. cbn [flat_map] in E. assert (C := scalar_cases _ S). assert (C' := scalar_cases _ S').
      destruct (U r S) as [[B X]|[B (a & b & X & A1 & A2 & R)]]; destruct (U r' S') as [[B' X']|[B' (a' & b' & X' & A1' & A2' & R')]]; rewrite X, X' in E; cbn [app] in E.
      * injection E as -> E. f_equal. now apply IH.
      * exfalso. apply (f_equal (hd 0)) in E. cbn [hd] in E. lia.
      * exfalso. apply (f_equal (hd 0)) in E. cbn [hd] in E. lia.
      * assert (Q1 := f_equal (hd 0) E). assert (Q2 := f_equal (fun l => hd 0 (tl l)) E). apply (f_equal (fun l => tl (tl l))) in E.
        cbn [hd tl] in Q1, Q2, E. assert (r = r') as -> by lia. f_equal. now apply IH.
Qed.

Definition ukey (k : string) : list N := utf16_encode (runes k).
Lemma ukey_units k l : byte_chars k l -> ukey k = flat_map units l.
Proof. intros H. unfold ukey. rewrite (bytes_fun _ _ _ (runes_spec k) H). apply utf16_units. eapply byte_scalars; eauto. Qed.
Lemma ukey_inj k k' l l' : utf8_string k l -> utf8_string k' l' -> ukey k = ukey k' -> k = k'.
Proof.
  intros H H' E. assert (B := bytes_of_chars _ _ H). assert (B' := bytes_of_chars _ _ H'). rewrite (ukey_units _ _ B), (ukey_units _ _ B') in E.
  apply units_inj in E; [|eapply byte_scalars; eauto|eapply byte_scalars; eauto]. subst l'. eapply string_inj; eauto.
Qed.
Lemma name_lt_key a b : name_lt a b <-> lex (ukey a) (ukey b).
Proof.
  rewrite (ukey_units _ _ (runes_spec a)), (ukey_units _ _ (runes_spec b)). split.
  - intros (la' & lb' & Ha' & Hb' & L). now rewrite (bytes_fun _ _ _ (runes_spec a) Ha'), (bytes_fun _ _ _ (runes_spec b) Hb').
  - intros L. exists (runes a), (runes b). auto using runes_spec.
Qed.
Lemma lex_irrefl l : ~ lex l l.
Proof. induction l as [|x l IH]; intros H; inversion H; subst; [lia|auto]. Qed.
Lemma lex_trans a b : lex a b -> forall c, lex b c -> lex a c.
Proof.
  induction 1 as [y l|x y l l' Hxy|x l l' H IH]; intros c Hc.
  - inversion Hc; subst; constructor.
  - inversion Hc; subst; apply lex_lt; [lia|assumption].
  - inversion Hc; subst; [now constructor|]. apply lex_eq. now apply IH.
Qed.
Lemma precedes_spec a : forall b, match precedes a b with
  | (true, d) => lex a b /\ d = false
  | (false, true) => a = b
  | (false, false) => lex b a
  end.
Proof.
  induction a as [|x a IH]; intros [|y b]; cbn [precedes]; [reflexivity|split; [constructor|reflexivity]|constructor|].
  destruct (N.ltb_spec x y) as [L|L]; [split; [now constructor|reflexivity]|]. destruct (N.ltb_spec y x) as [L'|L']; [now constructor|].
  assert (x = y) as -> by lia. specialize (IH b). destruct (precedes a b) as [[|] [|]].
  - destruct IH; discriminate.
  - destruct IH. split; [now apply lex_eq|reflexivity].
  - now subst.
  - now apply lex_eq.
Qed.

(** * Insertion *)
Definition nv_key (x : name_value) : list N := snd (fst x).
Lemma insert_new nv l : StronglySorted lex (map nv_key l) -> ~ In (nv_key nv) (map nv_key l) ->
  exists l', insert_nv nv l = (l', false) /\ Permutation (nv :: l) l' /\ StronglySorted lex (map nv_key l').
Proof.
  induction l as [|x l IH]; intros S N; cbn [insert_nv].
  - exists [nv]. split; [reflexivity|]. split; [apply Permutation_refl|]. constructor; constructor.
  - cbn [map] in S, N. inversion S as [|? ? S1 S2]; subst. assert (P := precedes_spec (nv_key nv) (nv_key x)). unfold nv_key in P at 1 2.
    destruct (precedes (snd (fst nv)) (snd (fst x))) as [[|] d].
    + destruct P as [P _]. exists (nv :: x :: l). split; [reflexivity|]. split; [apply Permutation_refl|]. cbn [map]. constructor; [exact S|].
      constructor; [exact P|]. eapply Forall_impl; [|exact S2]. intros k Hk. eapply lex_trans; eauto.
    + destruct d; [exfalso; apply N; left; symmetry; exact P|].
      destruct IH as (l' & E & Pm & Sl); [exact S1|intros Q; apply N; now right|]. rewrite E. exists (x :: l'). split; [reflexivity|].
      split; [eapply Permutation_trans; [apply perm_swap|now constructor]|]. cbn [map]. constructor; [exact Sl|].
      eapply Permutation_Forall; [eapply Permutation_map; exact Pm|]. cbn [map]. constructor; [exact P|exact S2].
Qed.
Lemma insert_dup nv l : StronglySorted lex (map nv_key l) -> In (nv_key nv) (map nv_key l) -> exists l', insert_nv nv l = (l', true).
Proof.
  induction l as [|x l IH]; intros S N; cbn [insert_nv]; [destruct N|]. cbn [map] in S, N. inversion S as [|? ? S1 S2]; subst.
  assert (P := precedes_spec (nv_key nv) (nv_key x)). unfold nv_key in P at 1 2.
  destruct (precedes (snd (fst nv)) (snd (fst x))) as [[|] d].
  - exfalso. destruct P as [P _]. destruct N as [N|N]; [rewrite <- N in P; now apply lex_irrefl in P|].
    rewrite Forall_forall in S2. apply S2 in N. apply (lex_irrefl (nv_key nv)). eapply lex_trans; eauto.
  - destruct d.
    + destruct (insert_nv nv l) as [r d]. exists (x :: r). reflexivity.
    + destruct N as [N|N]; [rewrite <- N in P; now apply lex_irrefl in P|]. destruct (IH S1 N) as (l' & ->). exists (x :: l'). reflexivity.
Qed.
