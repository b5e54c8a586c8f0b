(** What the identifiers of constructed observables are made of. *)
From Coq Require Import Sorted Permutation.
From Verif Require Import GoStr GoStrFacts JsonStr JsonStrFacts Json Float FloatFacts NumFmtFacts NumSpec TimeSpec TimeSpecFacts PropTime B64Spec B64SpecFacts Base64 Base64Facts Time JsonSpec CanonSpec CanonFacts CanonUnique Canon PropCanon
  Consts Enums GoTypes Schema GoVal GoValFacts Codec CodecSpec CodecFacts DataTypes Ident IdentFacts Options Constructors ConstrSpec ConstrFacts PropConstr IdText PropConstrId
  Uuid PropIdent ShaSpec PropSha OptTable PropOptions Double PropDouble IdSpec.
Local Open Scope string_scope.

Lemma verbatim_jcs s : verbatim s -> jcs_string s = q s.
Proof.
  intros H. unfold jcs_string. f_equal. induction s as [|c s IH]; [reflexivity|]. cbn [jcs_chars]. rewrite IH by (intros x I; apply H; now right).
  destruct (H c (or_introl eq_refl)) as (A & B & C). replace (jcs_char c) with (String c ""); [reflexivity|]. unfold jcs_char, bt.
  set (n := N_of_ascii c) in *. assert (Q : forall k, (k < 32)%N -> (n =? k)%N = false) by (intros; apply N.eqb_neq; lia). rewrite !Q by reflexivity.
  replace (n <? 32)%N with false by (symmetry; now apply N.ltb_ge).
  assert (E : forall d, c <> d -> (n =? N_of_ascii d)%N = false). { intros d D. apply N.eqb_neq. intros X. apply D. unfold n in X. rewrite <- (ascii_N_embedding c), X. apply ascii_N_embedding. }
  change 34%N with (N_of_ascii "034"). change 92%N with (N_of_ascii "\"). now rewrite !E.
Qed.
Lemma plain_verbatim s : plain s = true -> verbatim s.
Proof.
  induction s as [|c s IH]; intros P x I; [destruct I|]. cbn [plain] in P. apply andb_true_iff in P as [P1 P2]. destruct I as [<-|I]; [|now apply IH].
  revert P1. clear. intros P. assert (Q : forallb (fun c => implb (plain_char c) ((32 <=? N_of_ascii c)%N && negb (Ascii.eqb c "034") && negb (Ascii.eqb c "\"))) (map ascii_of_nat (seq 0 256)) = true) by (vm_compute; reflexivity).
  rewrite forallb_forall in Q. specialize (Q c). rewrite P in Q. cbn [implb] in Q. assert (In c (map ascii_of_nat (seq 0 256))).
  { apply in_map_iff. exists (nat_of_ascii c). split; [apply ascii_nat_embedding|]. apply in_seq. assert (X := nat_ascii_bounded c). lia. }
  apply Q in H. apply andb_true_iff in H as [H H3]. apply andb_true_iff in H as [H1 H2]. apply N.leb_le in H1. apply negb_true_iff in H2, H3. apply Ascii.eqb_neq in H2, H3. auto.
Qed.

(** Base64 text without spare bits set is unique. *)
Lemma sextet_inj c c' s : sextet c s -> sextet c' s -> c = c'.
Proof.
  intros H H'. apply b64_val_sextet in H as (n & V & L & ->). apply b64_val_sextet in H' as (n' & V' & L' & E).
  apply bits_inj in E; [|exact L|exact L']. subst n'. apply b64_val_spec in V as [_ ->]. apply b64_val_spec in V' as [_ ->]. reflexivity.
Qed.
Lemma sextet_six c s : sextet c s -> length s = 6%nat.
Proof. intros []. apply bits_len. Qed.
Lemma sextets_inj : forall cs ss cs' ss', Forall2 sextet cs ss -> Forall2 sextet cs' ss' -> concat ss = concat ss' -> cs = cs'.
Proof.
  induction cs as [|c cs IH]; intros ss cs' ss' H H' E.
  - inversion H; subst. destruct H' as [|c' s' cs' ss' X]; [reflexivity|]. apply sextet_six in X. destruct s'; discriminate.
  - inversion H as [|? s ? ss0 X Y]; subst. destruct H' as [|c' s' cs' ss' X' Y'].
    + apply sextet_six in X. destruct s; discriminate.
    + cbn [concat] in E. apply app_inj in E as [-> E]; [|now rewrite (sextet_six _ _ X), (sextet_six _ _ X')]. f_equal; [eapply sextet_inj; eauto|eapply IH; eauto].
Qed.
Lemma all_false l : (forall x, In x l -> x = false) -> l = repeat false (length l).
Proof. induction l as [|x l IH]; intros H; [reflexivity|]. cbn. rewrite (H x (or_introl eq_refl)), <- IH; [reflexivity|]. intros; apply H; now right. Qed.
Lemma base64_unique b sp t sp' t' : base64 b sp t -> base64 b sp' t' -> (forall x, In x sp -> x = false) -> (forall x, In x sp' -> x = false) -> t = t'.
Proof.
  intros (cs & ss & p & F & C & L & P & M & ->) (cs' & ss' & p' & F' & C' & L' & P' & M' & ->) Z Z'.
  assert (X := f_equal (@length bool) C). assert (X' := f_equal (@length bool) C'). rewrite (sextets_len _ _ F), app_length in X. rewrite (sextets_len _ _ F'), app_length in X'.
  assert (length sp = length sp') by lia. apply all_false in Z. apply all_false in Z'. assert (sp = sp') by congruence. subst sp'.
  assert (cs = cs') by (eapply sextets_inj; eauto; congruence). subst cs'. assert (p = p'); [|now subst].
  assert (D1 := Nat.div_mod (length cs + p) 4 ltac:(discriminate)). assert (D2 := Nat.div_mod (length cs + p') 4 ltac:(discriminate)). lia.
Qed.

(** Whole numbers. *)
Lemma digit_val_inj c c' : is_digit c = true -> is_digit c' = true -> dval c = dval c' -> c = c'.
Proof.
  unfold is_digit, dval, bt. intros H H' E. apply andb_true_iff in H as [H _]. apply andb_true_iff in H' as [H' _]. apply N.leb_le in H, H'.
  rewrite <- (ascii_N_embedding c), <- (ascii_N_embedding c'). f_equal. lia.
Qed.
Lemma dval_small c : is_digit c = true -> (dval c <= 9)%N.
Proof. unfold is_digit, dval. intros H. apply andb_true_iff in H as [_ H]. apply N.leb_le in H. lia. Qed.
Lemma digits_eq a : forall b x y, digits_only a = true -> digits_only b = true -> String.length a = String.length b ->
  N_of_digits_acc a x = N_of_digits_acc b y -> a = b /\ x = y.
Proof.
  induction a as [|c a IH]; intros [|c' b] x y A B L E; try discriminate L; [now split|]. cbn [digits_only] in A, B. apply andb_true_iff in A as [A1 A2], B as [B1 B2].
  cbn [N_of_digits_acc] in E. injection L as L. destruct (IH b _ _ A2 B2 L E) as [-> Q]. assert (X := dval_small _ A1). assert (X' := dval_small _ B1).
  assert (x = y) by lia. subst y. split; [|reflexivity]. f_equal. apply digit_val_inj; [exact A1|exact B1|lia].
Qed.
Lemma digits_shift m k : m <> 0%N -> N_to_string (m * 10 ^ N.of_nat k) = N_to_string m ++ zeros k.
Proof.
  intros M. assert (P : (10 ^ N.of_nat k <> 0)%N) by (apply N.pow_nonzero; discriminate). assert (M' : (m * 10 ^ N.of_nat k <> 0)%N) by (apply N.neq_mul_0; now split).
  destruct (digits_magnitude m M) as (i & Li & Bi). destruct (digits_magnitude _ M') as (j & Lj & Bj).
  destruct (N_to_string_spec m) as (D1 & _ & _ & _ & _). destruct (N_to_string_spec (m * 10 ^ N.of_nat k)) as (D2 & _ & _ & _ & _).
  apply (digits_eq _ _ 0%N 0%N); [exact D2|now rewrite digits_only_app, D1, digits_only_zeros| |].
  - rewrite slength_app, length_zeros, Li, Lj. assert (X1 : (10 ^ N.of_nat (i + k) <= m * 10 ^ N.of_nat k < 10 ^ N.of_nat (S (i + k)))%N).
    { replace (N.of_nat (S (i + k))) with (N.of_nat (S i) + N.of_nat k)%N by lia. rewrite Nat2N.inj_add, !N.pow_add_r. split; [apply N.mul_le_mono_r; lia|]. apply N.mul_lt_mono_pos_r; lia. }
    assert (A : (N.of_nat (i + k) < N.of_nat (S j))%N) by (apply (N.pow_lt_mono_r_iff 10); lia). assert (B : (N.of_nat j < N.of_nat (S (i + k)))%N) by (apply (N.pow_lt_mono_r_iff 10); lia). lia.
  - rewrite N_of_digits_acc_app, N_of_digits_zeros. change (N_of_digits (N_to_string (m * 10 ^ N.of_nat k)) = (N_of_digits (N_to_string m) * 10 ^ N.of_nat k)%N). now rewrite !N_of_to.
Qed.
Lemma whole_text z n : z <> 0%Z -> whole z n -> jcs n (Z_to_string z).
Proof.
  intros Z (m & e & -> & V & B). rewrite Z_to_string_sgn. assert (E : Z.to_N (Z.abs z) = (m * 10 ^ N.of_nat e)%N) by (rewrite V; rewrite <- nat_N_Z, <- (N2Z.inj_pow 10), <- N2Z.inj_mul; apply N2Z.id).
  assert (M : m <> 0%N) by (intros ->; cbn in V; lia). rewrite E, digits_shift by exact M.
  replace (sgn (z <? 0)%Z (N_to_string m ++ zeros e)) with (es6 (z <? 0)%Z m (Z.of_nat e)); [constructor|].
  unfold es6, sgn. apply N.eqb_neq in M as M0. rewrite M0. replace (es6_digits (N_to_string m) (Z.of_nat (String.length (N_to_string m)) + Z.of_nat e)) with (N_to_string m ++ zeros e); [destruct (z <? 0)%Z; reflexivity|].
  unfold es6_digits. destruct (digits_magnitude m M) as (i & Li & Bi). rewrite Li. replace (Z.of_nat (S i) <=? Z.of_nat (S i) + Z.of_nat e)%Z with true by (symmetry; apply Z.leb_le; lia).
  replace (Z.of_nat (S i) + Z.of_nat e <=? 21)%Z with true; [cbn [andb]; do 2 f_equal; lia|]. symmetry. apply Z.leb_le.
  assert (X : (10 ^ Z.of_nat (i + e) < 10 ^ 21)%Z).
  { eapply Z.le_lt_trans; [|exact B]. rewrite V, Nat2Z.inj_add, Z.pow_add_r by lia. apply Z.mul_le_mono_nonneg_r; [lia|]. rewrite <- nat_N_Z, <- (N2Z.inj_pow 10). apply N2Z.inj_le. lia. }
  apply Z.pow_lt_mono_r_iff in X; lia.
Qed.

(** ** Each property *)
Lemma jl_app l l' : forall ts ts', jcs_list l ts -> jcs_list l' ts' -> jcs_list (l ++ l') (ts ++ ts').
Proof. induction l as [|x l IH]; intros ts ts' H H'; inversion H; subst; [exact H'|]. cbn. constructor; [assumption|now apply IH]. Qed.
Lemma jl_one x t : jcs x t -> jcs_list [x] [t].
Proof. repeat constructor. assumption. Qed.
Lemma jcs_verbatim s : verbatim s -> jcs (CStr s) (q s).
Proof. intros V. rewrite <- verbatim_jcs by exact V. constructor. Qed.
Lemma absent_str s : absent (VStr s) <-> s = "".
Proof. apply blank_str. Qed.
Lemma no_absent x : x <> "" -> ~ absent (VStr x).
Proof. intros N A. now apply absent_str in A. Qed.

Section P.
Variables (rnd : bool -> N -> Z -> option flt) (pf : string -> flt * bool).
Hypothesis FP : float_parser rnd pf.
Lemma str_text n x f l : storable (GString n) x = true -> id_value rnd f x l -> jcs_list l (opt_quoted (str_of x)).
Proof.
  intros T H. destruct (st_str _ _ T) as [s ->]. cbn [str_of]. unfold opt_quoted. inversion H as [? ? A|? ? N V| | | | | | |]; subst.
  - apply absent_str in A. subst s. constructor.
  - destruct s; [contradiction|]. cbn [is_empty]. apply jl_one. now apply jcs_verbatim.
Qed.
Lemma time_text x f l : storable (GPtr GTime) x = true -> id_value rnd f x l -> jcs_list l (time_part x).
Proof.
  intros T H. destruct (st_time _ T) as [-> |[t ->]]; inversion H as [? ? A| | |? c ms r V M R| | | | |]; subst; try (now constructor); [now apply blank_ptr in A|].
  apply jl_one. assert (E := timestamp_text c ms r V M R). unfold ts_marshal, quoted in E. assert (D : q (ts_string (instant c 0 (ms * 1000000 + r))) = q (utc_ms_text c ms)) by exact E.
  apply q_inj in D. cbn [time_part]. rewrite D. apply jcs_verbatim, plain_verbatim. rewrite <- D. apply plain_ts.
  assert (Y := instant_range c (ms * 1000000 + r) V ltac:(lia)). unfold year_ok. apply andb_true_iff. split; [apply Z.leb_le|apply Z.ltb_lt]; lia.
Qed.
Lemma whole_int_text z f l : id_value rnd f (VInt z) l -> jcs_list l (port_part z).
Proof.
  intros H. unfold port_part. inversion H as [? ? A| | | |? ? ? N W| | | |]; subst.
  - apply blank_int in A. subst z. constructor.
  - apply Z.eqb_neq in N as N'. rewrite N'. apply jl_one. now apply whole_text.
Qed.
Lemma int_text n x f l : storable (GInt n) x = true -> id_value rnd f x l -> jcs_list l (port_part (int_of x)).
Proof. intros T H. destruct (st_int _ _ T) as [z ->]. eapply whole_int_text; eassumption. Qed.
Lemma bin_text x f l : storable GBinary x = true -> id_value rnd f x l -> jcs_list l (pay_seg x).
Proof.
  intros T H. destruct (st_bin _ T) as [-> |[s ->]]; inversion H as [? ? A| |? ? t sp N B Z| | | | | |]; subst; try (now constructor).
  - apply blank_bin in A. subst s. constructor.
  - destruct (encode_base64 s) as (sp' & B' & Z'). rewrite (base64_unique _ _ _ _ _ B B' Z Z'). cbn [pay_seg]. destruct s; [contradiction|]. apply jl_one, jcs_verbatim, plain_verbatim, plain_b64.
Qed.
Lemma preferred_chosen l alg h : preferred l alg h -> chosen (VMap l) = Some (alg, h).
Proof.
  intros (b & a & E & B & A). unfold chosen. change ["MD5"; "SHA-1"; "SHA-256"; "SHA-512"] with hash_order. rewrite E. clear E. induction b as [|x b IH]; cbn [List.app chosen_in fold_right map_get].
  - unfold chosen_in. cbn [List.app fold_right map_get]. now rewrite A.
  - unfold chosen_in in *. cbn [fold_right map_get]. rewrite (B x (or_introl eq_refl)). apply IH. intros y Y. apply B. now right.
Qed.
Lemma hash_text_of x f l : hash_ty x -> id_value rnd f x l -> f <> "Extensions" -> jcs_list l (hash_seg x).
Proof.
  intros (n & k & t & T) H NX. destruct (st_map _ _ _ _ T) as [-> |[m ->]]; inversion H as [? ? A| | | | |? alg h P V| | |]; subst; try (now constructor); try contradiction.
  - apply blank_map in A. subst m. constructor.
  - assert (C := preferred_chosen _ _ _ P). unfold hash_seg. destruct m as [|p m]; [discriminate C|]. change (len0 (VMap (p :: m))) with false. cbv iota. apply jl_one. rewrite hash_contribution_chosen, C.
    unfold hash_text. replace ("{" ++ dquote ++ alg ++ dquote ++ ":" ++ dquote ++ h ++ dquote ++ "}") with ("{" ++ join "," [(dquote ++ alg ++ dquote ++ ":" ++ dquote ++ h ++ dquote)] ++ "}") by (cbn [join]; now rewrite !sapp_assoc).
    apply (jcs_obj _ [(alg, CStr h)]); [apply Permutation_refl|repeat constructor|].
    replace (dquote ++ alg ++ dquote ++ ":" ++ dquote ++ h ++ dquote) with (jcs_string alg ++ ":" ++ q h); [constructor; [now apply jcs_verbatim|constructor]|].
    assert (VA : verbatim alg). { destruct P as (b & a & E & _). assert (I : In alg hash_order) by (rewrite E; apply in_elt). apply plain_verbatim. destruct I as [<-|[<-|[<-|[<-|[]]]]]; reflexivity. }
    rewrite verbatim_jcs by exact VA. unfold q, dquote. cbn [String.append]. now rewrite !sapp_assoc.
Qed.
Lemma ext_text_of x l : storable GExt x = true -> id_value rnd "Extensions" x l -> jcs_list l (ext_seg pf x).
Proof.
  intros T H. destruct (st_ext _ T) as [-> |[m ->]]; inversion H as [? ? A| | | | | | | |? t e N M J D]; subst; try (now constructor).
  - apply blank_map in A. subst m. constructor.
  - unfold ext_seg. destruct m as [|p m]; [contradiction|]. change (len0 (VMap (p :: m))) with false. cbv iota. apply jl_one. unfold ext_text.
    unfold marshal_bytes in M. destruct (marshal GExt (VMap (p :: m))) as [j| |] eqn:E; try discriminate M. cbn [bind] in M. assert (M' : print j = t) by congruence. clear M.
    change (enc GExt (VMap (p :: m)) = Ok j) in E. rewrite E, M'. destruct (transform_ijson rnd pf e t FP J) as [(u & U & C & _)|(? & _ & X)]; [|contradiction]. now rewrite U.
Qed.
Lemma protocols_text_of x l n : storable (GSlice (GString n)) x = true -> id_value rnd "Protocols" x l -> ~ absent x ->
  jcs_list l [("[" ++ q (join (dquote ++ "," ++ dquote) (map str_of (old_list x))) ++ "]")%string].
Proof.
  intros T H N. inversion H as [? ? A|? s| | | | |ss NS V| |]; subst; try discriminate T; [contradiction|]. apply jl_one.
  change (old_list (VSlice (map VStr ss))) with (map VStr ss). rewrite map_map. cbn [str_of]. rewrite map_id.
  replace (q (join (dquote ++ "," ++ dquote) ss)) with (join "," (map q ss)).
  - constructor. clear - V. induction V; cbn; constructor; [now apply jcs_verbatim|assumption].
  - clear - NS. destruct ss as [|s ss]; [contradiction|]. clear NS. revert s. induction ss as [|s' ss IH]; intros s; [reflexivity|].
    change (join "," (map q (s :: s' :: ss))) with (q s ++ "," ++ join "," (map q (s' :: ss))). rewrite IH.
    change (join (dquote ++ "," ++ dquote) (s :: s' :: ss)) with (s ++ (dquote ++ "," ++ dquote) ++ join (dquote ++ "," ++ dquote) (s' :: ss)).
    set (r := join (dquote ++ "," ++ dquote) (s' :: ss)). unfold q, dquote, qt. cbn [String.append]. rewrite !sapp_assoc. cbn [String.append]. reflexivity.
Qed.
End P.

(** Registry values *)
Lemma names_lt a b : lex (ukey a) (ukey b) -> name_lt a b.
Proof. apply name_lt_key. Qed.
Ltac name_lt := apply names_lt; vm_compute; repeat first [apply lex_nil|apply lex_lt; reflexivity|apply lex_eq].
Lemma data_lt_type : name_lt "data" "data_type".
Proof. name_lt. Qed.
Lemma data_lt_name : name_lt "data" "name".
Proof. name_lt. Qed.
Lemma type_lt_name : name_lt "data_type" "name".
Proof. name_lt. Qed.
Lemma registry_enum n ty : In (n, ty) map_RegistryDataType -> enum_string "RegistryDataType" n = ty /\ (n =? 0)%N = is_empty ty.
Proof.
  assert (X : forallb (fun kv => String.eqb (enum_string "RegistryDataType" (fst kv)) (snd kv) && Bool.eqb (fst kv =? 0)%N (is_empty (snd kv))) map_RegistryDataType = true) by (vm_compute; reflexivity).
  rewrite forallb_forall in X. intros H. specialize (X _ H). cbn [fst snd] in X. apply andb_true_iff in X as [X Y]. apply String.eqb_eq in X. split; [exact X|]. now apply Bool.eqb_prop.
Qed.
Definition member_text (k s : string) : list string := if is_empty s then [] else [named_part k s].
Lemma member_jcs k s l ts : verbatim k -> verbatim s -> jcs_mems l ts -> jcs_mems (member_if k s ++ l) (member_text k s ++ ts).
Proof.
  intros K V H. unfold member_if, member_text. destruct s as [|c s]; [exact H|]. cbn [String.eqb is_empty List.app]. unfold named_part. rewrite <- (verbatim_jcs k K).
  constructor; [now apply jcs_verbatim|exact H].
Qed.
Lemma id_member_names a b c : StronglySorted name_lt (map fst (member_if "data" a ++ member_if "data_type" b ++ member_if "name" c)).
Proof.
  assert (A := data_lt_type). assert (B := data_lt_name). assert (C := type_lt_name). unfold member_if.
  destruct (String.eqb a ""), (String.eqb b ""), (String.eqb c ""); cbn [map fst List.app]; repeat (constructor; try assumption).
Qed.
Lemma registry_jcs x o : registry_object x o -> exists t, registry_value_part x = Ok t /\ jcs o t.
Proof.
  intros (w & data & name & ty & -> & D & N & VD & VN & (n & E & I) & ->). apply registry_enum in I as [E1 E2].
  assert (K : verbatim "data" /\ verbatim "data_type" /\ verbatim "name") by (split; [|split]; apply plain_verbatim; reflexivity). destruct K as (K1 & K2 & K3).
  exists ("{" ++ join "," (member_text "data" data ++ member_text "data_type" ty ++ member_text "name" name) ++ "}")%string. split.
  - unfold registry_value_part, str_field. rewrite D, N. cbn [str_of]. unfold member_text. rewrite E, E1, E2. reflexivity.
  - eapply jcs_obj; [apply Permutation_refl|apply id_member_names|]. apply member_jcs; [assumption|assumption|]. apply member_jcs; [assumption| |].
    + rewrite <- E1. apply plain_verbatim, enum_plain.
    + rewrite <- (app_nil_r (member_if _ _)), <- (app_nil_r (member_text _ _)). apply member_jcs; [assumption|assumption|constructor].
Qed.
Lemma registry_list_jcs l os : Forall2 registry_object l os -> exists ts, all_ok registry_value_part l = Ok ts /\ jcs_list os ts.
Proof.
  induction 1 as [|x o l os H _ (ts & E & J)]; [exists []; split; [reflexivity|constructor]|]. destruct (registry_jcs _ _ H) as (t & T & JT).
  exists (t :: ts). cbn [all_ok]. rewrite T. cbn [bind]. rewrite E. split; [reflexivity|now constructor].
Qed.
Lemma join_flat (a b : list string) : b <> [] -> join "," (a ++ [join "," b]) = join "," (a ++ b).
Proof.
  intros N. induction a as [|x a IH]; [reflexivity|]. destruct a as [|y a].
  - cbn [List.app] in *. destruct b; [contradiction|]. cbn [join] in *. reflexivity.
  - change (join "," ((x :: y :: a) ++ [join "," b])) with (x ++ "," ++ join "," ((y :: a) ++ [join "," b]))%string. rewrite IH. reflexivity.
Qed.
Lemma registry_text rnd v ns lk lv : storable (GString ns) (get_field "Key" v) = true -> storable (GSlice (GPtr ty_RegistryValue)) (get_field "Values" v) = true ->
  id_value rnd "Key" (get_field "Key" v) lk -> id_value rnd "Values" (get_field "Values" v) lv ->
  exists ts ts', registry_parts v = Ok ts /\ jcs_list (lk ++ lv) ts' /\ bracket ts = bracket ts'.
Proof.
  intros TK TV HK HV. assert (J := str_text _ _ _ _ _ TK HK). unfold registry_parts, str_field.
  destruct (st_slice _ _ TV) as [E|(l & E & _)]; rewrite E in *; cbn [old_list].
  - replace lv with (@nil cval) by (now inversion HV). cbn [all_ok bind]. eexists; eexists. split; [reflexivity|]. split; [|reflexivity]. apply jl_app; [exact J|constructor].
  - assert (C : l = [] /\ lv = [] \/ l <> [] /\ Forall2 registry_object l lv).
    { inversion HV as [? ? A| | | | | | |? ? N F|]; subst; [apply blank_slice in A; now left|right; now split]. }
    destruct C as [[-> ->]|[N F]].
    + cbn [all_ok bind]. eexists; eexists. split; [reflexivity|]. split; [|reflexivity]. apply jl_app; [exact J|constructor].
    + destruct (registry_list_jcs _ _ F) as (ts & ET & JT). rewrite ET. cbn [bind]. eexists; exists (opt_quoted (str_of (get_field "Key" v)) ++ ts)%list. split; [reflexivity|].
      split; [now apply jl_app|]. assert (NT : ts <> []) by (intros ->; inversion JT; subst; inversion F; subst; contradiction).
      destruct ts as [|t ts]; [contradiction|]. unfold bracket. now rewrite join_flat.
Qed.

(** ** C80 *)
Lemma forall2_cons {A B} (R : A -> B -> Prop) x l ys : Forall2 R (x :: l) ys -> exists y ys', ys = y :: ys' /\ R x y /\ Forall2 R l ys'.
Proof. inversion 1; subst; eauto. Qed.
Ltac next H l J := apply forall2_cons in H as (l & ? & -> & J & H); cbn [fst snd] in J.
Lemma single_jcs rnd f s l : s <> "" -> id_value rnd f (VStr s) l -> jcs (CArr (concat [l])) ("[" ++ q s ++ "]").
Proof.
  intros N H. cbn [concat]. rewrite app_nil_r. assert (J := str_text rnd "" (VStr s) f l eq_refl H). cbn [str_of] in J. unfold opt_quoted in J. destruct s; [contradiction|].
  cbn [is_empty] in J. change (q (String a s)) with (join "," [q (String a s)]). now constructor.
Qed.
Lemma recipe_text rnd pf rb now c os v a g s : float_parser rnd pf -> args_typed c = true -> Forall go_option os ->
  construct rb now pf c os = Ret (Some v) None -> (forall f, In f (required c) -> ~ absent (prop c f v)) ->
  id_array rnd c v a -> contribution pf c = Some g -> g v = Ok s -> jcs a s.
Proof.
  intros FP AT GO OK RQ (ls & F & ->) G E. assert (K := prop_typed _ _ _ _ _ _ AT GO OK).
  destruct c; try discriminate G; injection G as <-; cbn [id_props single_key given contributing map] in F.
  1: { (* artifact *)
    next F l1 J1. next F l2 J2. inversion F; subst. cbn [concat]. rewrite app_nil_r. injection E as <-. constructor.
    apply jl_app; [apply (hash_text_of rnd _ "Hashes"); [eexists; eexists; eexists; typed_field K "Hashes"|exact J1|discriminate]|].
    apply (bin_text rnd _ "Payload"); [typed_field K "Payload"|exact J2]. }
  1: { (* autonomous system *)
    next F l1 J1. inversion F; subst. assert (N : number <> 0%Z) by (intros ->; discriminate OK). assert (J := whole_int_text rnd _ _ _ J1). unfold port_part in J.
    apply Z.eqb_neq in N. rewrite N in J. cbn [concat]. rewrite app_nil_r. injection E as <-. change (Z_to_string number) with (join "," [Z_to_string number]). now constructor. }
  1-3, 6-9, 13: next F l1 J1; inversion F; subst; injection E as <-; apply (single_jcs rnd _ _ _) with (2 := J1); intros ->; discriminate OK.
  1: { (* email message *)
    next F l1 J1. next F l2 J2. next F l3 J3. inversion F; subst. cbn [concat]. rewrite app_nil_r. injection E as <-. constructor.
    apply jl_app; [eapply str_text; [typed_field K "From"|exact J1]|]. apply jl_app; [eapply str_text; [typed_field K "Subject"|exact J2]|eapply str_text; [typed_field K "Body"|exact J3]]. }
  1: { (* file *)
    next F l1 J1. next F l2 J2. next F l3 J3. next F l4 J4. inversion F; subst. cbn [concat]. rewrite app_nil_r.
    destruct (file_parts pf v) as [l| |] eqn:L; try discriminate E. cbn [bind] in E. apply ok_inj in E. subst s. constructor. unfold file_parts in L.
    destruct (ext_part pf v) as [e| |] eqn:X; try discriminate L. cbn [bind] in L. apply ok_inj in L. subst l. apply ext_part_seg in X. subst e.
    apply jl_app; [apply (hash_text_of rnd _ "Hashes"); [eexists; eexists; eexists; typed_field K "Hashes"|exact J1|discriminate]|].
    apply jl_app; [eapply str_text; [typed_field K "Name"|exact J2]|]. apply jl_app; [eapply ext_text_of; [exact FP|typed_field K "Extensions"|exact J3]|].
    eapply str_text; [typed_field K "ParentDirectory"|exact J4]. }
  1: { (* network traffic *)
    next F l1 J1. next F l2 J2. next F l3 J3. next F l4 J4. next F l5 J5. next F l6 J6. next F l7 J7. next F l8 J8. inversion F; subst. cbn [concat]. rewrite app_nil_r.
    destruct (network_parts pf v) as [l| |] eqn:L; try discriminate E. cbn [bind] in E. apply ok_inj in E. subst s. constructor. unfold network_parts in L.
    destruct (ext_part pf v) as [e| |] eqn:X; try discriminate L. cbn [bind] in L. apply ok_inj in L. subst l. apply ext_part_seg in X. subst e.
    apply jl_app; [eapply time_text; [typed_field K "Start"|exact J1]|]. apply jl_app; [eapply time_text; [typed_field K "End"|exact J2]|].
    apply jl_app; [eapply str_text; [typed_field K "Src"|exact J3]|]. apply jl_app; [eapply str_text; [typed_field K "Dst"|exact J4]|].
    apply jl_app; [eapply int_text; [typed_field K "SrcPort"|exact J5]|]. apply jl_app; [eapply int_text; [typed_field K "DstPort"|exact J6]|].
    apply jl_app; [|eapply ext_text_of; [exact FP|typed_field K "Extensions"|exact J8]].
    eapply protocols_text_of; [typed_field K "Protocols"|exact J7|]. apply (RQ "Protocols"). vm_compute. tauto. }
  1: { (* registry key *)
    next F l1 J1. next F l2 J2. inversion F; subst. cbn [concat]. rewrite app_nil_r.
    assert (T1 : exists n, storable (GString n) (get_field "Key" v) = true) by (eexists; typed_field K "Key"). destruct T1 as [n T1].
    assert (T2 : storable (GSlice (GPtr ty_RegistryValue)) (get_field "Values" v) = true) by typed_field K "Values".
    destruct (registry_text rnd v n l1 l2 T1 T2 J1 J2) as (ts & ts' & P & J & B). rewrite P in E. cbn [bind] in E. apply ok_inj in E. subst s. rewrite B. now constructor. }
  1: { (* software *)
    next F l1 J1. next F l2 J2. next F l3 J3. next F l4 J4. inversion F; subst. cbn [concat]. rewrite app_nil_r. injection E as <-. constructor.
    apply jl_app; [|apply jl_app; [eapply str_text; [typed_field K "CPE"|exact J2]|apply jl_app; [eapply str_text; [typed_field K "Vendor"|exact J3]|eapply str_text; [typed_field K "Version"|exact J4]]]].
    assert (T1 : exists n, storable (GString n) (get_field "Name" v) = true) by (eexists; typed_field K "Name"). destruct T1 as [n T1].
    assert (A : ~ absent (get_field "Name" v)) by (apply (RQ "Name"); vm_compute; tauto).
    assert (J := str_text rnd _ _ _ _ T1 J1). unfold str_field. destruct (st_str _ _ T1) as [s X]. rewrite X in *. cbn [str_of] in *. destruct s; [|exact J]. exfalso. apply A. now apply absent_str. }
  1: { (* user account *)
    next F l1 J1. next F l2 J2. next F l3 J3. inversion F; subst. cbn [concat]. rewrite app_nil_r. injection E as <-. constructor.
    apply jl_app; [eapply str_text; [typed_field K "AccountType"|exact J1]|]. apply jl_app; [eapply str_text; [typed_field K "UserID"|exact J2]|eapply str_text; [typed_field K "AccountLogin"|exact J3]]. }
  (* x509 certificate *)
  next F l1 J1. next F l2 J2. inversion F; subst. cbn [concat]. rewrite app_nil_r. injection E as <-. constructor.
  apply jl_app; [apply (hash_text_of rnd _ "Hashes"); [eexists; eexists; eexists; typed_field K "Hashes"|exact J1|discriminate]|].
  eapply str_text; [typed_field K "SerialNumber"|exact J2].
Qed.

(** The identifier is the type and the UUIDv5, in the name space of the
    standard, of the canonical JSON text of the array of contributions. *)
Theorem identifier_recipe_partial : forall rnd pf rb now c os v a, float_parser rnd pf -> args_typed c = true -> Forall go_option os ->
  construct rb now pf c os = Ret (Some v) None -> random_id c = false -> (forall f, In f (required c) -> ~ absent (prop c f v)) ->
  id_array rnd c v a ->
  exists s u, jcs a s /\ String.length u = 16%nat /\ prop c "ID" v = VStr (call_name c ++ "--" ++ uuid_string u) /\
    ((8 * (16 + N.of_nat (String.length s)) < 2 ^ 64)%N -> uuid5 (octets_of oasis_namespace) (octets_of s) (octets_of u)).
Proof.
  intros rnd pf rb now c os v a FP AT GO OK R RQ A. assert (UO : Forall user_option os) by (eapply Forall_impl; [|exact GO]; intros o [H _]; exact H).
  assert (X := result_id_value _ _ _ _ _ _ AT UO OK). destruct (contribution pf c) as [g|] eqn:G; [|apply contribution_random in G; congruence].
  destruct X as (s & E & X). assert (J := recipe_text rnd pf rb now c os v a g s FP AT GO OK RQ A G E).
  destruct (observable_identifier_is_valid_v5 s (call_name c)) as (_ & u & U & P & _). assert (L : String.length u = 16%nat) by (eapply uuid_parse_length; eauto).
  exists s, u. split; [exact J|]. split; [exact L|]. split; [now rewrite X, U|]. intros B. apply (observable_identifier_is_uuid5 _ (call_name c)); [exact B|now split].
Qed.
Print Assumptions identifier_recipe_partial.

(** The standard (STIX 2.1, 2.9) takes the UUID of an object of the contributing
    properties under their names instead of an array of their values: the two
    identifiers differ. *)
Theorem standard_recipe_refuted : forall rb now pf, exists v, construct rb now pf (CIPv4Address "198.51.100.3") [] = Ret (Some v) None /\
  prop (CIPv4Address "") "ID" v = VStr "ipv4-addr--1f8f4d63-9f33-5353-a3e3-e1b84c83a7b5" /\
  forall s u, jcs (CObj [("value", CStr "198.51.100.3")]) s -> uuid5 (octets_of oasis_namespace) (octets_of s) (octets_of u) ->
    uuid_string u = "28bb3599-77cd-5a82-a950-b5bc3caf07c4".
Proof.
  intros. eexists. split; [vm_compute; reflexivity|]. split; [vm_compute; reflexivity|]. intros s u J U.
  assert (J' : jcs (CObj [("value", CStr "198.51.100.3")]) ("{" ++ q "value" ++ ":" ++ q "198.51.100.3" ++ "}")).
  { change ("{" ++ q "value" ++ ":" ++ q "198.51.100.3" ++ "}") with ("{" ++ join "," [jcs_string "value" ++ ":" ++ jcs_string "198.51.100.3"] ++ "}").
    apply (jcs_obj _ [("value", CStr "198.51.100.3")]); [apply Permutation_refl|repeat constructor|repeat constructor]. }
  rewrite (jcs_unique _ _ _ J J') in U. clear s J J'. apply (observable_identifier_is_uuid5 _ "ipv4-addr") in U; [|vm_compute; reflexivity]. destruct U as [_ U].
  assert (C : new_observable_identifier ("{" ++ q "value" ++ ":" ++ q "198.51.100.3" ++ "}") "ipv4-addr" = "ipv4-addr" ++ "--" ++ "28bb3599-77cd-5a82-a950-b5bc3caf07c4") by (vm_compute; reflexivity).
  rewrite C in U. apply sapp_inj_l in U. apply sapp_inj_l in U. now symmetry.
Qed.
Print Assumptions standard_recipe_refuted.

(** Network traffic with a start, a source and a port, and a registry key with a
    value: what they are identified by. *)
Definition sample_pf : string -> flt * bool := go_parse_float go_rnd (fun _ => (FNaN, false)).
Example sample_parser : float_parser go_rnd sample_pf.
Proof. apply parse_float_is_a_parser. intros l neg m e E. discriminate E. Qed.
Definition sample_time : civil := Civil 2016 5 12 8 17 27.
Definition sample_options : list stix_option :=
  [opt "OptionStart" (VPtr (VTime (instant sample_time 0 (5 * 1000000 + 7)))); opt "OptionSrc" (VStr "ipv4-addr--x"); opt "OptionDstPort" (VInt 8080)].
Lemma opt_ok n x : (match find (fun r => String.eqb (or_name r) n) option_table with Some r => typed (or_ty r) x | None => false end) = true -> go_option (opt n x).
Proof.
  intros H. split; [|exact I]. unfold opt, row. cbn [user_option]. destruct (find (fun r => String.eqb (or_name r) n) option_table) as [r|] eqn:F; [|discriminate H].
  split; [exact (proj1 (find_some _ _ F))|exact H].
Qed.
Example traffic_recipe : forall rb now, let c := CNetworkTraffic (VSlice [VStr "ipv4"; VStr "tcp"]) in exists v a,
  args_typed c = true /\ Forall go_option sample_options /\ construct rb now sample_pf c sample_options = Ret (Some v) None /\ random_id c = false /\
  (forall f, In f (required c) -> ~ absent (prop c f v)) /\ id_array go_rnd c v a /\
  jcs a ("[" ++ q "2016-05-12T08:17:27.005Z" ++ "," ++ q "ipv4-addr--x" ++ ",8080,[" ++ q "ipv4" ++ "," ++ q "tcp" ++ "]]").
Proof.
  intros rb now c. eexists. exists (CArr [CStr "2016-05-12T08:17:27.005Z"; CStr "ipv4-addr--x"; CNum (FFin false 808 1); CArr [CStr "ipv4"; CStr "tcp"]]).
  split; [reflexivity|]. split; [repeat (apply Forall_cons || apply Forall_nil); apply opt_ok; vm_compute; reflexivity|]. split; [vm_compute; reflexivity|]. split; [reflexivity|].
  split; [intros f I; vm_compute in I; repeat destruct I as [<-|I]; try destruct I; vm_compute; intuition discriminate|]. split.
  - exists [[CStr "2016-05-12T08:17:27.005Z"]; []; [CStr "ipv4-addr--x"]; []; []; [CNum (FFin false 808 1)]; [CArr [CStr "ipv4"; CStr "tcp"]]; []].
    split; [|reflexivity]. cbn [id_props single_key contributing map c]. repeat (apply Forall2_cons; [cbn [fst snd]; vm_compute prop|]); [..|constructor].
    2, 4, 5, 8: apply iv_absent; unfold absent; tauto.
    + apply (iv_time go_rnd "Start" sample_time 5 7); [|lia|lia]. unfold valid_civil. vm_compute. intuition discriminate.
    + apply iv_string; [discriminate|apply plain_verbatim; reflexivity].
    + apply iv_int; [discriminate|]. exists 808%N, 1%nat. vm_compute. auto.
    + apply (iv_strings go_rnd ["ipv4"; "tcp"]); [discriminate|]. repeat (apply Forall_cons || apply Forall_nil); apply plain_verbatim; reflexivity.
  - change ("[" ++ q "2016-05-12T08:17:27.005Z" ++ "," ++ q "ipv4-addr--x" ++ ",8080,[" ++ q "ipv4" ++ "," ++ q "tcp" ++ "]]") with
      ("[" ++ join "," [jcs_string "2016-05-12T08:17:27.005Z"; jcs_string "ipv4-addr--x"; es6 false 808 1; "[" ++ join "," [jcs_string "ipv4"; jcs_string "tcp"] ++ "]"] ++ "]").
    repeat constructor.
Qed.
Definition sample_value : gval := VPtr (VStruct [("Name", VStr "Foo"); ("Data", VStr "qwerty"); ("DataType", VEnum 2)]).
Example registry_recipe : forall rb now, let os := [opt "OptionKey" (VStr "hkey"); opt "OptionValues" (VSlice [sample_value])] in exists v a,
  args_typed CRegistryKey = true /\ Forall go_option os /\ construct rb now sample_pf CRegistryKey os = Ret (Some v) None /\ random_id CRegistryKey = false /\
  (forall f, In f (required CRegistryKey) -> ~ absent (prop CRegistryKey f v)) /\ id_array go_rnd CRegistryKey v a /\
  a = CArr [CStr "hkey"; CObj [("data", CStr "qwerty"); ("data_type", CStr "REG_SZ"); ("name", CStr "Foo")]].
Proof.
  intros rb now os. eexists. eexists. split; [reflexivity|]. split; [repeat (apply Forall_cons || apply Forall_nil); apply opt_ok; vm_compute; reflexivity|]. split; [vm_compute; reflexivity|]. split; [reflexivity|].
  split; [intros f I; vm_compute in I; repeat destruct I as [<-|I]; try destruct I; vm_compute; intuition discriminate|]. split; [|reflexivity].
  exists [[CStr "hkey"]; [CObj [("data", CStr "qwerty"); ("data_type", CStr "REG_SZ"); ("name", CStr "Foo")]]]. split; [|reflexivity].
  cbn [id_props single_key contributing map]. repeat (apply Forall2_cons; [cbn [fst snd]; vm_compute prop|]); [..|constructor].
  - apply iv_string; [discriminate|apply plain_verbatim; reflexivity].
  - apply iv_registry; [discriminate|]. constructor; [|constructor]. do 4 eexists. split; [reflexivity|]. split; [reflexivity|]. split; [reflexivity|].
    split; [apply plain_verbatim; reflexivity|]. split; [apply plain_verbatim; reflexivity|]. split; [exists 2%N; split; [reflexivity|right; right; left; reflexivity]|reflexivity].
Qed.

(** The contributing properties are those of the standard, but for the SWID of
    software, and objects of other types get random identifiers. *)
Definition key_pairs (fs : list (fmeta * gty)) : list (string * string) := map (fun ft => (fm_name (fst ft), fm_key (fst ft))) fs.
Definition call_pairs (c : call) : list (string * string) := (key_pairs (call_fields c) ++
  flat_map (fun ft : fmeta * gty => match snd ft with GStruct _ fs => if fm_embed (fst ft) then key_pairs fs else [] | _ => [] end) (call_fields c))%list.
Definition id_fields (c : call) : list string := match single_key c with Some f => [f] | None => [] end ++ contributing c.
Lemma written_keys c f k : written_as c f k <-> In (f, k) (call_pairs c).
Proof.
  unfold written_as, call_pairs, key_pairs. rewrite in_app_iff, in_map_iff, in_flat_map. split.
  - intros (m & t & <- & <- & [I|(mb & nb & fs & I & E & I')]); [left; exists (m, t); auto|]. right. exists (mb, GStruct nb fs). split; [exact I|]. cbn [fst snd]. rewrite E.
    apply in_map_iff. exists (m, t). auto.
  - intros [([m t] & Q & I)|([mb tb] & I & Q)].
    + exists m, t. cbn [fst] in Q. assert (fm_name m = f /\ fm_key m = k) as [<- <-] by (split; congruence). auto.
    + cbn [fst snd] in Q. destruct tb; try destruct Q. destruct (fm_embed mb) eqn:E; [|destruct Q]. apply in_map_iff in Q as ([m t] & Q & I'). cbn [fst] in Q.
      assert (fm_name m = f /\ fm_key m = k) as [<- <-] by (split; congruence). exists m, t. split; [reflexivity|]. split; [reflexivity|]. right. eauto 8.
Qed.
Theorem contributing_of_standard : forall c, (random_id c = true <-> alookup (call_name c) standard_contributing = None) /\
  forall keys, alookup (call_name c) standard_contributing = Some keys ->
  forall k, (exists f, contributes c f /\ written_as c f k) <-> (In k keys /\ ~ (call_name c = "software" /\ k = "swid")).
Proof.
  intros c. split; [destruct c; vm_compute; intuition discriminate|]. intros keys E k.
  set (L := map snd (filter (fun p => mem_str (fst p) (id_fields c)) (call_pairs c))).
  set (R := filter (fun k => negb (String.eqb (call_name c) "software" && String.eqb k "swid")) keys).
  assert (X : forallb (fun k => mem_str k R) L && forallb (fun k => mem_str k L) R = true).
  { unfold L, R. clear -E. destruct c; vm_compute in E; try discriminate E; injection E as <-; vm_compute; reflexivity. }
  apply andb_true_iff in X as [X1 X2]. rewrite forallb_forall in X1, X2.
  transitivity (In k L); [|transitivity (In k R)].
  - unfold L. rewrite in_map_iff. split.
    + intros (f & A & B). exists (f, k). split; [reflexivity|]. apply filter_In. split; [now apply written_keys|]. apply mem_str_In. unfold id_fields. apply in_app_iff.
      destruct A as [A|A]; [left; rewrite A; now left|now right].
    + intros ([f k'] & <- & I). apply filter_In in I as [I M]. exists f. split; [|now apply written_keys]. apply mem_str_In in M. cbn [fst] in M. apply in_app_iff in M as [M|M]; [left|now right].
      destruct (single_key c) as [g|]; [|destruct M]. destruct M as [->|[]]. reflexivity.
  - split; intros I; apply mem_str_In; auto.
  - unfold R. rewrite filter_In. rewrite negb_true_iff, andb_false_iff, !String.eqb_neq. split; intros [A B]; (split; [exact A|]); [tauto|].
    destruct (String.eqb_spec (call_name c) "software"); [right|now left]. intros ->. auto.
Qed.
Print Assumptions contributing_of_standard.
