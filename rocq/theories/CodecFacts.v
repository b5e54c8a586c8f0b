(** Round trip of the codec. *)
From Verif Require Import GoStr GoStrFacts JsonStr JsonStrFacts Json JsonFacts Float FloatFacts Consts Enums
  GoTypes Schema GoVal GoValFacts Time TimeFacts Base64 Base64Facts Codec CodecSpec.

Lemma blank_eq v : blank_value v = is_empty_val v.
Proof.
  destruct v as [s|z|b|f|n|x|s| |w|l|l|l|t w|r]; try reflexivity; cbn.
  all: first [destruct s; reflexivity|solve [destruct f as [| |? [] ?]; reflexivity]|destruct z; reflexivity|destruct b; reflexivity|destruct n; reflexivity|destruct l; reflexivity].
Qed.

(** * Types *)
Section GtyInd.
  Variable P : gty -> Prop.
  Hypothesis Hstring : forall n, P (GString n).
  Hypothesis Hint : forall n, P (GInt n).
  Hypothesis Hbool : P GBool.
  Hypothesis Hfloat : P GFloat.
  Hypothesis Henum : forall n, P (GEnum n).
  Hypothesis Htime : P GTime.
  Hypothesis Hbin : P GBinary.
  Hypothesis Hptr : forall t, P t -> P (GPtr t).
  Hypothesis Hslice : forall t, P t -> P (GSlice t).
  Hypothesis Hmap : forall n k t, P t -> P (GMap n k t).
  Hypothesis Hiface : P GIface.
  Hypothesis Hstruct : forall n fs, Forall (fun ft => P (snd ft)) fs -> P (GStruct n fs).
  Hypothesis Hext : P GExt.
  Hypothesis Hraw : P GRaw.
  Fixpoint gty_ind' (t : gty) : P t :=
    match t with
    | GString n => Hstring n | GInt n => Hint n | GBool => Hbool | GFloat => Hfloat
    | GEnum n => Henum n | GTime => Htime | GBinary => Hbin
    | GPtr t' => Hptr t' (gty_ind' t')
    | GSlice t' => Hslice t' (gty_ind' t')
    | GMap n k t' => Hmap n k t' (gty_ind' t')
    | GIface => Hiface
    | GStruct n fs => Hstruct n fs ((fix go l : Forall (fun ft => P (snd ft)) l :=
        match l with [] => Forall_nil _ | x :: l' => Forall_cons x (gty_ind' (snd x)) (go l') end) fs)
    | GExt => Hext
    | GRaw => Hraw
    end.
End GtyInd.

Lemma fmeta_eqb_eq a b : fmeta_eqb a b = true -> a = b.
Proof.
  destruct a, b. unfold fmeta_eqb. cbn. rewrite !andb_true_iff, !String.eqb_eq, !Bool.eqb_true_iff.
  intros [[[-> ->] ->] ->]. reflexivity.
Qed.
Lemma gty_eqb_eq a : forall b, gty_eqb a b = true -> a = b.
Proof.
  induction a using gty_ind'; intros b E; destruct b; cbn in E; try discriminate E; try reflexivity.
  - apply String.eqb_eq in E. now subst.
  - apply String.eqb_eq in E. now subst.
  - apply String.eqb_eq in E. now subst.
  - f_equal. auto.
  - f_equal. auto.
  - rewrite !andb_true_iff, !String.eqb_eq in E. destruct E as [[-> ->] E]. f_equal. auto.
  - apply andb_true_iff in E as [E1 E2]. apply String.eqb_eq in E1 as ->. f_equal.
    rename fields into fs'. revert fs' E2.
    induction H as [|[m x] fs Hx Hfs IH]; intros [|[m' y] fs'] E2; try discriminate; [reflexivity|].
    rewrite !andb_true_iff in E2. destruct E2 as [[A B] C].
    apply fmeta_eqb_eq in A as ->. cbn [snd] in Hx. rewrite (Hx _ B). f_equal. now apply IH.
Qed.
Lemma gty_eqb_refl a : gty_eqb a a = true.
Proof.
  induction a using gty_ind'; cbn; rewrite ?eqb_refl; auto.
  cbn [andb]. induction H as [|[m x] fs Hx Hfs IH]; [reflexivity|].
  unfold fmeta_eqb at 1. rewrite !eqb_refl, !Bool.eqb_reflx. cbn [snd] in Hx. rewrite Hx. exact IH.
Qed.

(** * Plain texts *)
Lemma plain_app a b : plain (a ++ b)%string = plain a && plain b.
Proof. induction a as [|c a IH]; [reflexivity|]. cbn [String.append plain]. now rewrite IH, andb_assoc. Qed.
Lemma unq_plain s : plain s = true -> unq s = Some s.
Proof. intros H. rewrite <- (quote_plain s H) at 1. apply unq_quote. now apply plain_utf8. Qed.
Lemma plain_all s : (forall c, In c (list_ascii_of_string s) -> plain_char c = true) -> plain s = true.
Proof.
  induction s as [|c s IH]; intros H; [reflexivity|]. cbn [plain]. rewrite (H c) by now left.
  apply IH. intros x Hx. apply H. now right.
Qed.
Lemma plain_b64 s : plain (b64_encode s) = true.
Proof.
  apply plain_all. intros c H. apply b64_encode_chars in H. unfold b64_ok in H.
  assert (A : forallb plain_char (list_ascii_of_string (b64_alphabet ++ "=")) = true) by (vm_compute; reflexivity).
  rewrite forallb_forall in A. now apply A.
Qed.

Lemma plain_digit n : (0 <= n < 10)%Z -> plain_char (digit n) = true.
Proof.
  intros H. apply (sweep_ok (fun n => plain_char (digit n)) 10 0%Z); [vm_compute; reflexivity|]. exact H.
Qed.
Lemma plain_pad2 n : (0 <= n < 100)%Z -> plain (pad2 n) = true.
Proof.
  intros H. unfold pad2. cbn [plain].
  rewrite !plain_digit; [reflexivity| |]; (split; [|]); Z.div_mod_to_equations; lia.
Qed.
Lemma plain_pad3 n : (0 <= n < 1000)%Z -> plain (pad3 n) = true.
Proof.
  intros H. unfold pad3. cbn [plain].
  rewrite !plain_digit; [reflexivity| | |]; (split; [|]); Z.div_mod_to_equations; lia.
Qed.
Lemma plain_pad4 n : (0 <= n < 10000)%Z -> plain (pad4 n) = true.
Proof.
  intros H. unfold pad4. cbn [plain].
  rewrite !plain_digit; [reflexivity| | | |]; (split; [|]); Z.div_mod_to_equations; lia.
Qed.
Lemma plain_ts x : year_ok x = true -> plain (ts_string x) = true.
Proof.
  unfold year_ok, year_of. intros H. unfold ts_string.
  destruct (civil_of_days (x / ns_per_s / s_per_day)) as [[y m] d] eqn:C.
  apply andb_true_iff in H as [H1 H2]. apply Z.leb_le in H1. apply Z.ltb_lt in H2.
  destruct (civil_valid _ _ _ _ C) as (M & D & _).
  assert (D31 : (days_in m y <= 31)%Z).
  { unfold days_in. destruct (m =? 2)%Z; [destruct (is_leap y); lia|]. destruct (_ || _); lia. }
  rewrite !plain_app. rewrite year_string_pad4 by lia. rewrite plain_pad4 by lia.
  rewrite !plain_pad2; [rewrite plain_pad3; [reflexivity|]|..]; unfold ns_per_s, ns_per_ms, s_per_day.
  all: try lia.
  all: Z.div_mod_to_equations; lia.
Qed.

(** * Enumerations *)
Definition enum_check : bool :=
  forallb (fun nm : string * list (N * string) => let (name, m) := nm in
    forallb (fun kv : N * string => let (n, s) := kv in
      plain s &&
      match enum_unmarshal name (JStr s) with DOk (VEnum n') false => (n' =? n)%N | _ => false end &&
      String.eqb (enum_string name n) s) m &&
    match enum_unmarshal name (JStr "") with DOk (VEnum n') false => (n' =? 0)%N | _ => false end) enum_table.
Lemma enum_check_ok : enum_check = true.
Proof. vm_compute. reflexivity. Qed.

Lemma enum_map_cases name : enum_map name = [] \/ In (name, enum_map name) enum_table.
Proof.
  unfold enum_map. destruct (alookup name enum_table) eqn:E; [right|now left].
  now apply alookup_Some_In.
Qed.
Lemma enum_string_cases name n :
  (enum_string name n = "" /\ existsb (fun kv => N.eqb (fst kv) n) (enum_map name) = false) \/
  (In (n, enum_string name n) (enum_map name) /\ existsb (fun kv => N.eqb (fst kv) n) (enum_map name) = true).
Proof.
  unfold enum_string. destruct (find (fun kv => (fst kv =? n)%N) (enum_map name)) as [[k s]|] eqn:F.
  - right. apply find_some in F as [F1 F2]. cbn in F2. apply N.eqb_eq in F2. subst k. split; [exact F1|].
    apply existsb_exists. exists (n, s). split; [exact F1|]. cbn. apply N.eqb_refl.
  - left. split; [reflexivity|]. apply not_true_is_false. intros E. apply existsb_exists in E as (x & I & E).
    assert (G := find_none _ _ F x I). cbn in G. congruence.
Qed.
Lemma enum_table_facts name n s : In (n, s) (enum_map name) ->
  plain s = true /\ enum_unmarshal name (JStr s) = DOk (VEnum n) false.
Proof.
  intros H. destruct (enum_map_cases name) as [E|E]; [rewrite E in H; destruct H|].
  assert (C := enum_check_ok). unfold enum_check in C. rewrite forallb_forall in C. specialize (C _ E). cbv beta iota in C.
  apply andb_true_iff in C as [C _]. rewrite forallb_forall in C. specialize (C _ H). cbv beta iota in C.
  apply andb_true_iff in C as [C _]. apply andb_true_iff in C as [C1 C2]. split; [exact C1|].
  destruct (enum_unmarshal name (JStr s)) as [[] []| |] eqn:U; try discriminate.
  apply N.eqb_eq in C2. now subst.
Qed.
Lemma enum_unmarshal_empty name : enum_unmarshal name (JStr "") = DOk (VEnum 0) false.
Proof.
  destruct (enum_map_cases name) as [E|E].
  - unfold enum_unmarshal, enum_or_zero, enum_find. rewrite E. cbn.
    destruct (String.eqb name "ExtensionType"); [reflexivity|].
    match goal with |- (if ?b then _ else _) = _ => destruct b end; reflexivity.
  - assert (C := enum_check_ok). unfold enum_check in C. rewrite forallb_forall in C. specialize (C _ E). cbv beta iota in C.
    apply andb_true_iff in C as [_ C].
    destruct (enum_unmarshal name (JStr "")) as [[] []| |] eqn:U; try discriminate.
    apply N.eqb_eq in C. now subst.
Qed.
Lemma enum_plain name n : plain (enum_string name n) = true.
Proof.
  destruct (enum_string_cases name n) as [[-> _]|[H _]]; [reflexivity|]. now apply enum_table_facts in H.
Qed.
Lemma enum_roundtrip name n : enum_unmarshal name (JStr (enum_string name n)) = DOk (VEnum (enum_norm name n)) false.
Proof.
  unfold enum_norm. destruct (enum_string_cases name n) as [[-> ->]|[H ->]].
  - apply enum_unmarshal_empty.
  - now apply enum_table_facts in H.
Qed.

(** * Decoding equations *)
Section Dec.
Variable rnd : bool -> N -> Z -> option flt.
Notation dec := (dec rnd).
Notation dec_any := (dec_any rnd).

Lemma dec_iface j old : dec j GIface old = dec_any j.
Proof. destruct j; reflexivity. Qed.
Lemma dec_enum name j old : dec j (GEnum name) old = enum_unmarshal name j.
Proof. destruct j; reflexivity. Qed.
Lemma dec_time j old : dec j GTime old = time_unmarshal j.
Proof. destruct j; reflexivity. Qed.
Lemma dec_bin j old : dec j GBinary old = bin_unmarshal j.
Proof. destruct j; reflexivity. Qed.
Lemma dec_raw j old : dec j GRaw old = DOk (VRaw j) false.
Proof. destruct j; reflexivity. Qed.
Lemma dec_ptr j t old : dec j (GPtr t) old =
  match j with
  | JNull => DOk VNil false
  | _ => dbind (dec j t (match old with VPtr v => v | _ => zero t end)) (fun v => DOk (VPtr v) false)
  end.
Proof. destruct j; reflexivity. Qed.
Lemma dec_slice_arr l t old : dec (JArr l) (GSlice t) old =
  dbind (dec_list (fun x o => dec x t o) (zero t) l (old_list old)) (fun vs => DOk (VSlice vs) false).
Proof. reflexivity. Qed.
Lemma dec_map_obj ms n k t old : dec (JObj ms) (GMap n k t) old =
  dbind (dec_mems (fun x => dec x t (zero t)) ms (old_map old)) (fun m => DOk (VMap m) false).
Proof. reflexivity. Qed.
Lemma dec_ext_obj ms old : dec (JObj ms) GExt old = dbind (dec_ext dec ms []) (fun m => DOk (VMap m) false).
Proof. reflexivity. Qed.
Lemma dec_struct_obj ms n fs old : dec (JObj ms) (GStruct n fs) old = dec_struct dec (flat_fields fs) ms old.
Proof. reflexivity. Qed.

Lemma bind_ok {A B} (x : res A) (f : A -> res B) b : bind x f = Ok b -> exists a, x = Ok a /\ f a = Ok b.
Proof. destruct x; cbn; intros H; try discriminate. eauto. Qed.

Lemma dbind_ok {A B} (a : A) (f : A -> dres B) : dbind (DOk a false) f = f a.
Proof. cbn. destruct (f a) as [b []| |]; reflexivity. Qed.

(** * Lists and maps *)
Lemma dec_list_map (f : json -> gval -> dres gval) z (g : gval -> gval) (e : gval -> res json) l :
  (forall x j, In x l -> e x = Ok j -> f j z = DOk (g x) false) ->
  forall js, enc_list e l = Ok js -> dec_list f z js [] = DOk (map g l) false.
Proof.
  induction l as [|x l IH]; intros H js E; cbn [enc_list] in E.
  - injection E as <-. reflexivity.
  - apply bind_ok in E as (j & E1 & E). apply bind_ok in E as (js' & E2 & E). injection E as <-.
    cbn [dec_list]. rewrite (H x j (or_introl eq_refl) E1). rewrite dbind_ok. cbn [tl].
    fold (dec_list f z). rewrite (IH (fun y j Hy => H y j (or_intror Hy)) js' E2). rewrite dbind_ok. reflexivity.
Qed.

Lemma enc_mems_keys (e : gval -> res json) l : forall js, enc_mems e l = Ok js -> akeys js = akeys l.
Proof.
  induction l as [|[k x] l IH]; intros js E; cbn [enc_mems] in E.
  - injection E as <-. reflexivity.
  - apply bind_ok in E as (j & E1 & E). apply bind_ok in E as (js' & E2 & E). injection E as <-.
    cbn. unfold akeys in IH. now rewrite (IH js' E2).
Qed.

Lemma dec_mems_map (f : json -> dres gval) (g : gval -> gval) (e : gval -> res json) l :
  (forall k x j, In (k, x) l -> e x = Ok j -> f j = DOk (g x) false) ->
  forall js acc, enc_mems e l = Ok js -> msorted (acc ++ map (fun kv => (fst kv, g (snd kv))) l) = true ->
  dec_mems f js acc = DOk (acc ++ map (fun kv => (fst kv, g (snd kv))) l) false.
Proof.
  induction l as [|[k x] l IH]; intros H js acc E S; cbn [enc_mems] in E.
  - injection E as <-. cbn. now rewrite app_nil_r.
  - apply bind_ok in E as (j & E1 & E). apply bind_ok in E as (js' & E2 & E). injection E as <-.
    cbn [dec_mems]. rewrite (H k x j (or_introl eq_refl) E1). rewrite dbind_ok. fold (dec_mems f).
    cbn [map fst snd] in S |- *.
    rewrite minsert_last by (eapply msorted_app_lt; exact S).
    assert (R : acc ++ (k, g x) :: map (fun kv => (fst kv, g (snd kv))) l =
                (acc ++ [(k, g x)]) ++ map (fun kv => (fst kv, g (snd kv))) l) by now rewrite <- app_assoc.
    rewrite R in S |- *. apply IH; [|exact E2|exact S]. intros k' y j' Hy. apply (H k' y j'). now right.
Qed.

Lemma msorted_map {A B} (g : A -> B) (l : list (string * A)) :
  msorted (map (fun kv => (fst kv, g (snd kv))) l) = msorted l.
Proof. apply msorted_keys. unfold akeys. rewrite map_map. reflexivity. Qed.

(** * The generic view *)
Lemma msorted_map2 {A B} (g : string * A -> B) (l : list (string * A)) :
  msorted (map (fun kv => (fst kv, g kv)) l) = msorted l.
Proof. apply msorted_keys. unfold akeys. rewrite map_map. reflexivity. Qed.

Lemma int_float z : parse_float rnd (Z_to_string z) = int_to_float rnd z.
Proof.
  unfold parse_float, dec_of_lexeme, int_to_float. rewrite Z_to_string_sgn, lex_int.
  cbn [String.length]. rewrite sapp_nil_r, N_of_to. change (Z.of_N (N_of_digits "") - Z.of_nat 0)%Z with 0%Z.
  destruct (norm10 (Z.to_N (Z.abs z)) 0) as [m e]. reflexivity.
Qed.

Lemma wf_fields_In (f : gty -> gval -> bool) fs : forall vs, wf_fields f fs vs = true ->
  map (fun ft => fm_name (fst ft)) fs = akeys vs.
Proof.
  induction fs as [|[m t] fs IH]; intros [|[n v] vs] H; cbn [wf_fields] in H; try discriminate; [reflexivity|].
  rewrite !andb_true_iff in H. destruct H as [[H1 H2] H3]. apply String.eqb_eq in H1 as ->.
  cbn. now rewrite (IH vs H3).
Qed.

Lemma view_fields_ok fs : forall vs js m,
  Forall (fun kv => forall t j, wf rnd t (snd kv) = true -> enc t (snd kv) = Ok j -> dec_any j = DOk (view rnd t (snd kv)) false) vs ->
  wf_fields (wf rnd) fs vs = true -> enc_fields enc fs vs = Ok js ->
  dec_mems dec_any js m = DOk (view_fields (view rnd) fs vs m) false.
Proof.
  induction fs as [|[fm t] fs IH]; intros [|[n v] vs] js m HF W E; cbn [wf_fields] in W; try discriminate.
  - cbn in E. injection E as <-. reflexivity.
  - rewrite !andb_true_iff in W. destruct W as [[W1 W2] W3]. inversion HF as [|? ? HF1 HF2]; subst.
    cbn [enc_fields view_fields] in E |- *. rewrite blank_eq.
    destruct (is_empty (fm_key fm)); [now apply IH|].
    destruct (fm_omit fm && is_empty_val v); [now apply IH|].
    apply bind_ok in E as (j & E1 & E). apply bind_ok in E as (js' & E2 & E). injection E as <-.
    cbn [dec_mems]. rewrite (HF1 t j W2 E1). rewrite dbind_ok. fold (dec_mems dec_any). now apply IH.
Qed.

Lemma dec_any_enc v : forall t j, wf rnd t v = true -> enc t v = Ok j -> dec_any j = DOk (view rnd t v) false.
Proof.
  induction v using gval_ind'; intros t0 jo W E; cbn [wf] in W; cbn [enc] in E; cbn [view].
  - destruct t0; try discriminate. injection E as <-. cbn [Codec.dec_any]. apply utf8b_spec in W. now rewrite (unq_quote _ W).
  - destruct t0; try discriminate. injection E as <-. cbn [Codec.dec_any]. apply andb_true_iff in W as [_ W]. rewrite int_float.
    destruct (int_to_float rnd z); [reflexivity|discriminate].
  - injection E as <-. reflexivity.
  - destruct t0; try discriminate. destruct (fmt_float f) as [s|] eqn:F; [|discriminate]. injection E as <-. cbn.
    destruct (fmt_float_ok _ _ _ W F) as [P _]. now rewrite P.
  - destruct t0; try discriminate. injection E as <-. cbn [Codec.dec_any]. now rewrite (unq_plain _ (enum_plain name n)).
  - destruct t0; try discriminate. injection E as <-. cbn [Codec.dec_any]. now rewrite (unq_plain _ (plain_ts _ W)).
  - injection E as <-. cbn [Codec.dec_any]. now rewrite (unq_plain _ (plain_b64 s)).
  - injection E as <-. reflexivity.
  - destruct t0; try discriminate. apply andb_true_iff in W as [_ W]. eauto.
  - destruct t0; try discriminate. apply bind_ok in E as (js & E1 & E). injection E as <-.
    cbn [Codec.dec_any]. rewrite (dec_list_map (fun x _ => dec_any x) VNil (view rnd t0) (enc t0) l); [|..|exact E1].
    + now rewrite dbind_ok.
    + intros x j Hx Ex. rewrite Forall_forall in H. apply (H x Hx); [|exact Ex].
      rewrite forallb_forall in W. now apply W.
  - assert (G : forall t', forallb (fun kv => utf8b (fst kv) && wf rnd t' (snd kv)) l = true -> msorted l = true ->
        forall js, enc_mems (enc t') l = Ok js ->
        dec_mems dec_any js [] = DOk (map (fun kv => (fst kv, view rnd t' (snd kv))) l) false).
    { intros t' HW HS js E1.
      apply (dec_mems_map dec_any (view rnd t') (enc t') l) with (acc := []).
      - intros k x j' Hx Ex. rewrite Forall_forall in H. apply (H _ Hx); [|exact Ex].
        rewrite forallb_forall in HW. specialize (HW _ Hx). cbn in HW. now apply andb_true_iff in HW.
      - exact E1.
      - cbn [app]. now rewrite msorted_map. }
    destruct t0; try discriminate; apply bind_ok in E as (js & E1 & E); injection E as <-;
      apply andb_true_iff in W as [W1 W2]; cbn [Codec.dec_any].
    + rewrite (G t0 W2 W1 js E1). now rewrite dbind_ok.
    + rewrite (G GIface); [now rewrite dbind_ok| |exact W1|exact E1].
      rewrite forallb_forall in W2 |- *. intros [k x] Hx. specialize (W2 _ Hx). cbn [fst snd] in W2 |- *.
      apply andb_true_iff in W2 as [U W2]. rewrite U. cbn [andb].
      destruct x; try discriminate. cbn [wf]. rewrite !andb_true_iff in W2. tauto.
  - destruct t0; try discriminate. apply bind_ok in E as (js & E1 & E). injection E as <-.
    apply andb_true_iff in W as [_ W]. cbn [Codec.dec_any]. rewrite (view_fields_ok _ _ _ _ H W E1). now rewrite dbind_ok.
  - destruct t0; try discriminate. eauto.
  - discriminate.
Qed.
End Dec.
