(** Lemmas for PropRead: the decoder against the relation of ReadSpec. *)
From Verif Require Import GoStr GoStrFacts JsonStr StrSpec StrSpecFacts JsonSpec JsonSpecFacts JsonStrFacts Json JsonFacts Float FloatFacts Consts Enums GoTypes Schema GoVal GoValFacts Time TimeFacts TimeSpec TimeSpecFacts
  Base64 Base64Facts B64Spec B64SpecFacts NumSpec NumSpecFacts Codec CodecSpec CodecFacts StructFacts CodecRound TypedFacts ReadSpec.

(** ** Binary *)
Lemma dec_bytes_exact l : forallb json_okb l = true -> forall b, dec_bytes l = DOk b false <-> Forall2 byte_json l (list_ascii_of_string b).
Proof.
  induction l as [|x l IH]; intros O b.
  - cbn [dec_bytes]. split; [intros Q; injection Q as <-; constructor|]. intros F. destruct b; [reflexivity|inversion F].
  - cbn [forallb] in O. apply andb_true_iff in O as [Ox O]. specialize (IH O). cbn [dec_bytes].
    set (d := match x with JNull => _ | _ => _ end).
    assert (D : forall c, d = DOk c false <-> byte_json x c).
    { intros c. subst d. destruct x as [|x|lx|r|l0|ms0]; try (split; [discriminate|intros H; inversion H]).
      - split; [intros Q; injection Q as <-; constructor|intros H; now inversion H].
      - cbn [json_okb] in Ox. split.
        + destruct (lex_num lx) as [[[[neg ip] fp] [en eds]]|] eqn:L; [|discriminate]. destruct neg; [discriminate|]. destruct fp; [|discriminate]. destruct eds; [|discriminate]. cbv zeta.
          destruct (N.ltb_spec (N_of_digits ip) 256) as [B|B]; [|discriminate]. intros Q. assert (ascii_of_N (N_of_digits ip) = c) as <- by congruence. clear Q.
          apply lex_num_inv in L as (ft & et & -> & Di & Ni & _ & _ & [F _] & _ & [X _]). rewrite F, X by reflexivity. cbn [sign String.append]. rewrite sapp_nil_r.
          destruct (digits_of' _ Di Ni) as (k & n & H1 & H2 & H3 & H4 & _). replace (N_of_digits ip) with (Z.to_N n) by lia. constructor; [rewrite H3; now constructor|lia|].
          intros r ->. cbn [digits_only] in Di. discriminate Di.
        + intros H. inversion H as [|l1 n T B M]; subst. destruct T as [k n H1 H2|k n H1 H2]; [|now destruct (M (digits k n))].
          assert (E : digits k n = (sign false ++ digits k n ++ "" ++ "")%string) by (cbn [sign String.append]; now rewrite sapp_nil_r).
          rewrite E in Ox.
          destruct (lex_num_of false (digits k n) 0 0 "" 0 "" Ox (digits_digits _ _) (digits_ne _ _ H1) fr_none ex_none) as (fp & en & eds & L & _ & _ & _ & [_ F] & _ & [_ X]).
          rewrite <- E in L. rewrite L. rewrite (F eq_refl), (X eq_refl). cbv zeta. assert (V := digits_value k n H2).
          replace (N_of_digits (digits k n)) with (Z.to_N n) by lia. destruct (N.ltb_spec (Z.to_N n) 256); [reflexivity|lia]. }
    destruct d as [c e| |].
    + cbn [dbind]. destruct (dec_bytes l) as [b' e'| |].
      * cbn [dbind]. rewrite orb_false_r. destruct e; cbn [orb].
        -- split; [discriminate|]. intros F. destruct b as [|c' b]; [inversion F|]. inversion F as [|? ? ? ? B1 F1]; subst. apply D in B1. discriminate.
        -- destruct e'.
           ++ split; [discriminate|]. intros F. destruct b as [|c' b]; [inversion F|]. inversion F as [|? ? ? ? B1 F1]; subst. apply IH in F1. discriminate.
           ++ split.
              ** intros Q. injection Q as <-. constructor; [now apply D|now apply IH].
              ** intros F. destruct b as [|c1 b]; [inversion F|]. inversion F as [|? ? ? ? B1 F1]; subst. apply D in B1. apply IH in F1. injection B1 as ->. injection F1 as ->. reflexivity.
      * split; [discriminate|]. intros F. destruct b as [|c' b]; [inversion F|]. inversion F as [|? ? ? ? B1 F1]; subst. apply IH in F1. discriminate.
      * split; [discriminate|]. intros F. destruct b as [|c' b]; [inversion F|]. inversion F as [|? ? ? ? B1 F1]; subst. apply IH in F1. discriminate.
    + split; [discriminate|]. intros F. destruct b as [|c' b]; [inversion F|]. inversion F as [|? ? ? ? B1 F1]; subst. apply D in B1. discriminate.
    + split; [discriminate|]. intros F. destruct b as [|c' b]; [inversion F|]. inversion F as [|? ? ? ? B1 F1]; subst. apply D in B1. discriminate.
Qed.

(** ** The text between the first and the last byte of a value *)
Lemma inner_of a s z : inner_slice (String a (s ++ String z "")) = Ok s.
Proof.
  destruct s as [|c r]; [reflexivity|]. cbn [String.append inner_slice]. f_equal. rewrite slength_app. cbn [String.length]. rewrite Nat.add_1_r.
  assert (G : forall r c, substring 0 (S (String.length r)) (String c (r ++ String z "")) = String c r); [|apply G].
  clear. induction r as [|d r IH]; intros c; [reflexivity|]. cbn [String.append String.length]. change (substring 0 (S (S (String.length r))) (String c (String d (r ++ String z "")))) with (String c (substring 0 (S (String.length r)) (String d (r ++ String z "")))). now rewrite IH.
Qed.

Lemma last_char s : s <> ""%string -> exists r z, s = (r ++ String z "")%string.
Proof.
  induction s as [|c s IH]; [congruence|]. intros _. destruct s as [|d s]; [exists ""%string, c; reflexivity|].
  destruct IH as (r & z & E); [discriminate|]. exists (String c r), z. cbn [String.append]. now rewrite <- E.
Qed.
(** What that text looks like when the value is not a string. *)
Definition first_print (x : json) (s : string) : Prop := exists t, s = (print x ++ t)%string /\ (t = ""%string \/ exists u, t = String "," u).
Lemma inner_cases j s : json_okb j = true -> (forall raw, j <> JStr raw) -> inner_slice (print j) = Ok s ->
  In s ["ul"; "ru"; "als"]%string \/ all_num s = true \/ (exists x l, j = JArr (x :: l) /\ first_print x s) \/ (exists u, s = String qt u).
Proof.
  intros O NS H. destruct j as [|b|l|raw|l|ms]; [..|now destruct (NS raw)| |].
  - vm_compute in H. injection H as <-. left. now left.
  - left. destruct b; vm_compute in H; injection H as <-; cbn; auto.
  - right. left. cbn [print] in H. cbn [json_okb] in O. destruct (num_ok_all _ O) as [A _]. destruct l as [|c l]; [discriminate|].
    destruct l as [|d l]; [discriminate|]. destruct (last_char (String d l) ltac:(discriminate)) as (r & z & E). rewrite E, inner_of in H. injection H as <-.
    cbn [all_num] in A. apply andb_true_iff in A as [_ A]. change (is_numch d && all_num l) with (all_num (String d l)) in A. rewrite E, all_num_app in A. now apply andb_true_iff in A as [A _].
  - cbn [print] in H. change ("[" ++ join "," (map print l) ++ "]")%string with (String "[" (join "," (map print l) ++ String "]" "")) in H. rewrite inner_of in H. injection H as <-.
    destruct l as [|x l]; [right; left; reflexivity|]. right. right. left. exists x, l. split; [reflexivity|]. cbn [map join]. destruct (map print l) as [|y ys].
    + exists ""%string. split; [now rewrite sapp_nil_r|now left].
    + eexists. split; [reflexivity|]. right. eexists. reflexivity.
  - cbn [print] in H. match type of H with inner_slice ("{" ++ ?b ++ "}")%string = _ => change ("{" ++ b ++ "}")%string with (String "{" (b ++ String "}" "")) in H; rewrite inner_of in H; injection H as <- end.
    destruct ms as [|[k x] ms]; [right; left; reflexivity|]. right. right. right. cbn [map join]. cbn [fst snd q]. destruct (map _ ms); eexists; reflexivity.
Qed.

(** ** Timestamps *)
Lemma take_num_date c r : valid_civil c -> take_num (date_text c ++ "T" ++ r)%string = (date_text c, ("T" ++ r)%string).
Proof.
  intros V. apply take_num_app; [|reflexivity].
  assert (N : forall k n, all_num (digits k n) = true).
  { intros k n. assert (D := digits_digits k n). revert D. generalize (digits k n). induction s as [|d s IH]; [reflexivity|]. cbn [digits_only all_num]. intros D.
    apply andb_true_iff in D as [D1 D2]. unfold is_numch. rewrite D1. cbn [orb andb]. auto. }
  unfold date_text. rewrite !all_num_app, !N. reflexivity.
Qed.
Lemma time_head s t : ts_parse s = Some t -> exists d r, take_num s = (d, String "T" r) /\ exists c s', s = String c s' /\ is_digit c = true.
Proof.
  intros H. apply parse_exact in H as (c & ht & f & ft & off & zt & V & _ & _ & _ & -> & _).
  exists (date_text c). eexists. split; [apply take_num_date; exact V|]. unfold date_text.
  assert (D := digits_digits 4 (c_y c)). destruct (digits 4 (c_y c)) as [|a u] eqn:E; [now apply digits_ne in E; [|lia]|].
  cbn [digits_only] in D. apply andb_true_iff in D as [D _]. exists a. eexists. split; [reflexivity|exact D].
Qed.
Lemma print_digit x c t s : json_okb x = true -> (print x ++ t)%string = String c s -> is_digit c = true -> exists l, x = JNum l.
Proof.
  intros O H D. destruct x as [|b|l|raw|l|ms]; [| |eauto|..]; exfalso; [|destruct b|..]; cbn [print q String.append] in H; injection H as <- _; discriminate D.
Qed.
Lemma time_exact j v : json_okb j = true -> (time_unmarshal j = DOk v false <-> exists raw t, j = JStr raw /\ time_text raw t /\ v = VTime t).
Proof.
  intros O. unfold time_unmarshal, ts_unmarshal. split.
  - destruct (inner_slice (print j)) as [s| |] eqn:I; cbn [bind]; [|discriminate..]. destruct (ts_parse s) as [t|] eqn:T; [|discriminate].
    intros Q. assert (v = VTime t) as -> by congruence. clear Q.
    assert (S : {raw | j = JStr raw} + {forall raw, j <> JStr raw}) by (destruct j; try (right; intros; discriminate); left; eauto).
    destruct S as [[raw ->]|NS].
    + cbn [print] in I. unfold q in I. rewrite inner_of in I. injection I as <-. exists raw, t. split; [reflexivity|]. split; [now apply parse_exact|reflexivity].
    + exfalso. destruct (time_head _ _ T) as (d & r & TN & c & s' & E & D). destruct (inner_cases _ _ O NS I) as [C|[C|[(x & l & -> & u & Es & Ru)|(u & ->)]]].
      * repeat (destruct C as [<-|C]; [vm_compute in T; discriminate T|]). destruct C.
      * assert (X := take_num_app s "" C Logic.I). rewrite sapp_nil_r in X. rewrite TN in X. discriminate X.
      * cbn [json_okb forallb] in O. apply andb_true_iff in O as [Ox _]. rewrite E in Es. destruct (print_digit x c u s' Ox (eq_sym Es) D) as [lx ->].
        cbn [json_okb] in Ox. destruct (num_ok_all _ Ox) as [A _]. rewrite <- E in Es. cbn [print] in Es. rewrite Es in TN.
        rewrite take_num_app in TN; [|exact A|destruct Ru as [->|(w & ->)]; [exact Logic.I|reflexivity]]. destruct Ru as [->|(w & ->)]; discriminate TN.
      * injection E as <- _. discriminate D.
  - intros (raw & t & -> & T & ->). cbn [print]. unfold q. rewrite inner_of. cbn [bind]. apply parse_exact in T. now rewrite T.
Qed.

(** ** Enumerations *)
Definition name_ok (s : string) : bool :=
  match s with
  | EmptyString => false
  | String c _ => negb (all_num s) && negb (is_numch c) && negb (mem_str s ["ul"; "ru"; "als"]%string) && negb (Ascii.eqb c qt) &&
                  negb (Ascii.eqb c "[") && negb (Ascii.eqb c "{") &&
                  negb (has_prefix "null" s) && negb (has_prefix "true" s) && negb (has_prefix "false" s)
  end.
Lemma names_ok : forallb (fun nm => String.eqb (fst nm) "ExtensionType" || forallb (fun kv => (is_empty (snd kv) && N.eqb (fst kv) 0) || name_ok (snd kv)) (snd nm)) enum_table = true.
Proof. vm_compute. reflexivity. Qed.
Lemma enum_name_ok name n s : name <> "ExtensionType"%string -> In (n, s) (enum_map name) -> (s = ""%string /\ n = 0%N) \/ name_ok s = true.
Proof.
  intros NE H. destruct (enum_map_cases name) as [E|E]; [rewrite E in H; destruct H|].
  assert (C := names_ok). rewrite forallb_forall in C. specialize (C _ E). cbn [fst snd] in C. apply orb_true_iff in C as [C|C]; [now apply String.eqb_eq in C|].
  rewrite forallb_forall in C. specialize (C _ H). cbn [fst snd] in C. apply orb_true_iff in C as [C|C]; [left|now right].
  apply andb_true_iff in C as [C1 C2]. apply is_empty_true in C1. apply N.eqb_eq in C2. auto.
Qed.
Lemma name_first s x t : name_ok s = true -> json_okb x = true -> s <> (print x ++ t)%string.
Proof.
  intros H O E. destruct s as [|c s]; [discriminate|]. unfold name_ok in H. rewrite !andb_true_iff, !negb_true_iff in H. destruct H as ((((((((A & N) & U) & Q) & B1) & B2) & P1) & P2) & P3).
  destruct x as [|b|l|raw|l|ms]; [| | | | |]; cbn [print] in E.
  - rewrite E in P1. discriminate P1.
  - destruct b; rewrite E in P2, P3; discriminate.
  - cbn [json_okb] in O. destruct (num_ok_all _ O) as [A' N']. destruct l as [|d l]; [congruence|]. injection E as <- _. cbn [all_num] in A'. now rewrite N in A'.
  - injection E as -> _. discriminate Q.
  - injection E as -> _. discriminate B1.
  - injection E as -> _. discriminate B2.
Qed.

Lemma enum_find_exact name s n : enum_find name s = Some n <-> In (n, s) (enum_map name).
Proof.
  unfold enum_find. split.
  - destruct (find _ _) as [[k s']|] eqn:F; [|discriminate]. intros Q. injection Q as <-. apply find_some in F as [F1 F2]. cbn in F2. apply String.eqb_eq in F2. now subst.
  - intros H. destruct (find _ _) as [[k s']|] eqn:F.
    + apply find_some in F as [F1 F2]. cbn in F2. apply String.eqb_eq in F2. subst s'. apply enum_table_facts in F1 as [_ F1], H as [_ H]. rewrite F1 in H. congruence.
    + assert (X := find_none _ _ F _ H). cbn in X. now rewrite String.eqb_refl in X.
Qed.

Lemma enum_or_zero_cases name s v : enum_or_zero name s = v <-> (exists n, In (n, s) (enum_map name) /\ v = VEnum n) \/ ((forall n, ~ In (n, s) (enum_map name)) /\ v = VEnum 0).
Proof.
  unfold enum_or_zero. destruct (enum_find name s) as [n|] eqn:E.
  - apply enum_find_exact in E. split; [intros <-; left; eauto|]. intros [(n' & H & ->)|[H _]]; [|now destruct (H n)].
    apply enum_find_exact in E, H. congruence.
  - assert (N : forall n, ~ In (n, s) (enum_map name)) by (intros n H; apply enum_find_exact in H; congruence).
    split; [intros <-; right; auto|]. intros [(n' & H & _)|[_ ->]]; [now destruct (N n')|reflexivity].
Qed.

(** A value that is not a string names at most the zero member. *)
Lemma inner_no_name name j s n : name <> "ExtensionType"%string -> json_okb j = true -> (forall raw, j <> JStr raw) -> inner_slice (print j) = Ok s ->
  In (n, s) (enum_map name) -> n = 0%N.
Proof.
  intros NE O NS I H. apply (enum_name_ok _ _ _ NE) in H as [[_ H]|H]; [exact H|exfalso]. assert (H' := H).
  destruct s as [|c s]; [discriminate|]. unfold name_ok in H. rewrite !andb_true_iff, !negb_true_iff in H. destruct H as ((((((((A & N) & U) & Q) & B1) & B2) & P1) & P2) & P3).
  destruct (inner_cases _ _ O NS I) as [C|[C|[(x & l & -> & u & Es & Ru)|(u & Eu)]]].
  - apply mem_str_In in C. congruence.
  - congruence.
  - cbn [json_okb forallb] in O. apply andb_true_iff in O as [Ox _]. now apply (name_first _ _ _ H' Ox) in Es.
  - injection Eu as -> _. discriminate Q.
Qed.

Lemma print_short j : json_okb j = true -> (exists c, print j = String c "") \/ exists s, inner_slice (print j) = Ok s /\ String.length (print j) = S (S (String.length s)).
Proof.
  intros O. assert (Ne : print j <> ""%string).
  { destruct j as [|b|l|raw|l|ms]; try discriminate; [destruct b; discriminate|]. cbn in O. now apply num_ok_all in O. }
  destruct (print j) as [|a r]; [congruence|]. destruct r as [|b r]; [left; eauto|]. right. destruct (last_char (String b r) ltac:(discriminate)) as (s & z & E).
  rewrite E, inner_of. exists s. split; [reflexivity|]. cbn [String.length]. now rewrite slength_app, Nat.add_1_r.
Qed.

(** What a JSON value means for an enumeration. *)
Definition enum_means (name : string) (j : json) (v : gval) : Prop :=
  (j = JNull /\ v = VEnum 0) \/ (exists n, names_member name j n /\ v = VEnum n) \/
  ((forall n, ~ names_member name j n) /\ enum_takes name j /\ v = VEnum 0).

Lemma enum_exact name j v : json_okb j = true -> (enum_unmarshal name j = DOk v false <-> enum_means name j v).
Proof.
  intros O. unfold enum_unmarshal, enum_means, names_member, enum_takes. destruct (String.eqb_spec name "ExtensionType") as [->|NE].
  - destruct j as [|b|l|raw|l|ms]; try (split; [discriminate|]; intros [[Q _]|[(n & (raw & s & Q & _) & _)|(_ & [T _] & _)]]; try discriminate Q; destruct (T eq_refl) as (raw & s & Q & _); discriminate Q).
    + split; [intros Q; left; split; [reflexivity|]|].
      * assert (E : v = enum_or_zero "ExtensionType" "") by congruence. rewrite E. vm_compute. reflexivity.
      * intros [[_ ->]|[(n & (raw & s & Q & _) & _)|(_ & [T _] & _)]]; [vm_compute; reflexivity|discriminate Q|destruct (T eq_refl) as (raw & s & Q & _); discriminate Q].
    + destruct (unq raw) as [s|] eqn:U.
      * assert (U' := proj1 (unq_exact _ _) U). split.
        -- intros Q. assert (E : enum_or_zero "ExtensionType" s = v) by congruence. clear Q. apply enum_or_zero_cases in E as [(n & H & ->)|[H ->]]; right; [left|right].
           ++ exists n. split; [|reflexivity]. exists raw, s. auto.
           ++ split; [|split; [|reflexivity]].
              ** intros n (raw' & s' & Q & H1 & H2). injection Q as <-. apply unq_exact in H2. rewrite U in H2. injection H2 as <-. exact (H n H1).
              ** split; [intros _; eauto|]. intros [Q|[Q|[]]]; discriminate Q.
        -- intros H. f_equal. apply enum_or_zero_cases. destruct H as [[Q _]|[(n & (raw' & s' & Q & H1 & H2) & ->)|(H & _ & ->)]]; [discriminate Q| |].
           ++ injection Q as <-. apply unq_exact in H2. rewrite U in H2. injection H2 as <-. left. eauto.
           ++ right. split; [|reflexivity]. intros n Hn. apply (H n). exists raw, s. auto.
      * split; [discriminate|]. intros [[Q _]|[(n & (raw' & s' & Q & H1 & H2) & ->)|(_ & [T _] & _)]]; [discriminate Q| |].
        -- injection Q as <-. apply unq_exact in H2. congruence.
        -- destruct (T eq_refl) as (raw' & s & Q & Us). injection Q as <-. apply unq_exact in Us. congruence.
  - assert (EN := proj2 (String.eqb_neq _ _) NE).
    (* the value with its text in hand *)
    assert (K : forall s, inner_slice (print j) = Ok s ->
      (enum_or_zero name s = v <-> (j = JNull /\ v = VEnum 0) \/ (exists n, (exists raw s, j = JStr raw /\ In (n, s) (enum_map name) /\ raw = s) /\ v = VEnum n) \/
        ((forall n, ~ (exists raw s, j = JStr raw /\ In (n, s) (enum_map name) /\ raw = s)) /\ v = VEnum 0))).
    { intros s I. rewrite enum_or_zero_cases.
      assert (S : {raw | j = JStr raw} + {forall raw, j <> JStr raw}) by (destruct j; try (right; intros; discriminate); left; eauto).
      destruct S as [[raw ->]|NS].
      - cbn [print] in I. unfold q in I. rewrite inner_of in I. injection I as <-. split.
        + intros [(n & H & ->)|[H ->]]; right; [left; exists n; split; [exists raw, raw; auto|reflexivity]|right]. split; [|reflexivity].
          intros n (r & s & Q & H1 & ->). injection Q as ->. exact (H n H1).
        + intros [[Q _]|[(n & (r & s & Q & H1 & ->) & ->)|(H & ->)]]; [discriminate Q|injection Q as ->; left; eauto|right]. split; [|reflexivity].
          intros n Hn. apply (H n). exists raw, raw. auto.
      - assert (Nn := fun n => inner_no_name name j s n NE O NS I). split.
        + intros C. assert (v = VEnum 0) as -> by (destruct C as [(n & H & ->)|[_ ->]]; [now rewrite (Nn n H)|reflexivity]).
          right. right. split; [|reflexivity]. intros n (r & ? & Q & _). now apply NS in Q.
        + intros C. assert (v = VEnum 0) as -> by (destruct C as [[_ ->]|[(n & (r & ? & Q & _) & _)|(_ & ->)]]; [reflexivity|now apply NS in Q|reflexivity]).
          destruct (enum_find name s) as [n|] eqn:F.
          * apply enum_find_exact in F. left. exists n. split; [exact F|]. now rewrite (Nn n F).
          * right. split; [|reflexivity]. intros n H. apply enum_find_exact in H. congruence. }
    assert (SH := print_short j O).
    destruct (mem_str name ["EncryptionAlgorithm"; "OpinionValue"]) eqn:M.
    + apply mem_str_In in M. destruct SH as [(c & P)|(s & I & L)].
      * rewrite P. split; [discriminate|]. cbn [inner_slice]. intros [[-> _]|[(n & (r & s & -> & _) & _)|(_ & [_ T] & _)]]; [discriminate P|cbn [print] in P; unfold q in P; destruct r; discriminate P|].
        exfalso. exact (T M eq_refl).
      * rewrite I. specialize (K s I). assert (X : DOk (enum_or_zero name s) false = DOk v false <-> enum_or_zero name s = v) by (split; [congruence|intros ->; reflexivity]).
        rewrite X, K. split.
        -- intros [H|[H|(H1 & H2)]]; [now left|right; now left|]. right. right. split; [exact H1|]. split; [|exact H2]. split; [contradiction|]. intros _. rewrite L. discriminate.
        -- intros [H|[H|(H1 & _ & H2)]]; auto.
    + assert (TK : (name = "ExtensionType"%string -> exists raw s, j = JStr raw /\ str_means raw s) /\ (In name ["EncryptionAlgorithm"; "OpinionValue"]%string -> String.length (print j) <> 1%nat)).
      { split; [contradiction|]. intros H. apply mem_str_In in H. congruence. }
      destruct (String.length (print j) <? 3)%nat eqn:LT.
      * apply Nat.ltb_lt in LT. assert (NN : forall n, (exists raw s, j = JStr raw /\ In (n, s) (enum_map name) /\ raw = s) -> n = 0%N).
        { intros n (raw & s & -> & H & ->). apply (enum_name_ok _ _ _ NE) in H as [[_ H]|H]; [exact H|exfalso]. cbn [print] in LT. unfold q in LT. cbn [String.length] in LT. rewrite slength_app in LT. cbn in LT.
          destruct s; [discriminate H|cbn in LT; lia]. }
        split.
        -- intros Q. assert (v = VEnum 0) as -> by congruence. right.
           destruct (match j with JStr r => enum_find name r | _ => None end) as [n|] eqn:F.
           ++ left. destruct j; try discriminate F. apply enum_find_exact in F. assert (G : exists r s, JStr raw = JStr r /\ In (n, s) (enum_map name) /\ r = s) by (exists raw, raw; auto).
              exists n. split; [exact G|]. now rewrite (NN n G).
           ++ right. split; [|split; [exact TK|reflexivity]]. intros n (r & s & -> & H & ->). apply enum_find_exact in H. congruence.
        -- intros [[_ ->]|[(n & H & ->)|(_ & _ & ->)]]; [reflexivity|now rewrite (NN n H)|reflexivity].
      * apply Nat.ltb_ge in LT. destruct SH as [(c & P)|(s & I & L)]; [rewrite P in LT; cbn in LT; lia|].
        rewrite I. specialize (K s I). assert (X : DOk (enum_or_zero name s) false = DOk v false <-> enum_or_zero name s = v) by (split; [congruence|intros ->; reflexivity]).
        rewrite X, K. split.
        -- intros [H|[H|(H1 & H2)]]; [now left|right; now left|]. right. right. auto.
        -- intros [H|[H|(H1 & _ & H2)]]; auto.
Qed.
