(** Texts hashed for identifiers: how far the parts of such a text can be told apart. *)
From Verif Require Import GoStr GoStrFacts Json JsonStr JsonStrFacts Enums GoTypes Schema Float FloatFacts Base64 Base64Facts Time TimeFacts GoVal Codec CodecSpec CodecFacts DataTypes Constructors CanonParse.
Local Open Scope string_scope.

(** No quotation mark in the text. *)
Definition no_quote (s : string) : Prop := ~ In qt (list_ascii_of_string s).

(** Reading a part: the nesting depth and whether we are inside quotation marks.
    Outside of everything a comma or a closing bracket ends the part. *)
Definition step (st : nat * bool) (c : ascii) : option (nat * bool) :=
  let (d, i) := st in
  if Ascii.eqb c qt then Some (d, negb i)
  else if i then Some (d, i)
  else match c with
       | "{"%char | "["%char => Some (S d, false)
       | "}"%char | "]"%char => match d with O => None | S d' => Some (d', false) end
       | ","%char => match d with O => None | _ => Some (d, false) end
       | _ => Some (d, false)
       end.
(** The whole text, byte by byte. *)
Fixpoint run (st : nat * bool) (s : string) : option (nat * bool) :=
  match s with "" => Some st | String c s' => match step st c with Some st' => run st' s' | None => None end end.
(** Brackets and quotation marks of the text are balanced. *)
Definition balanced (s : string) : Prop := run (0, false) s = Some (0, false).
(** The text starts with something that cannot continue an item. *)
Definition ends (r : string) : Prop := exists c r', r = String c r' /\ step (0, false) c = None.

Lemma run_split st p : forall p' r r', run st p = Some (0, false) -> run st p' = Some (0, false) -> ends r -> ends r' ->
  p ++ r = p' ++ r' -> p = p' /\ r = r'.
Proof.
  revert st. induction p as [|a p IH]; intros st [|b p'] r r' R R' E E' Q.
  - now split.
  - destruct E as (c & r0 & -> & E). cbn in R, R', Q. injection R as ->. injection Q as -> _. rewrite E in R'. discriminate.
  - destruct E' as (c & r0 & -> & E'). cbn in R, R', Q. injection R' as ->. injection Q as -> _. rewrite E' in R. discriminate.
  - cbn in R, R', Q. injection Q as -> Q. destruct (step st b) as [st'|]; [|discriminate].
    destruct (IH _ _ _ _ R R' E E' Q) as [-> ->]. now split.
Qed.
Lemma run_app st a : forall b, run st (a ++ b) = match run st a with Some st' => run st' b | None => None end.
Proof. revert st. induction a as [|c a IH]; intros st b; [reflexivity|]. cbn. destruct (step st c); [apply IH|reflexivity]. Qed.
Lemma run_inside d s : no_quote s -> run (d, true) s = Some (d, true).
Proof.
  unfold no_quote. induction s as [|c s IH]; intros N; [reflexivity|]. cbn in N |- *. destruct (Ascii.eqb_spec c qt); [subst; tauto|]. apply IH. tauto.
Qed.
Lemma run_q d s : no_quote s -> run (d, false) (q s) = Some (d, false).
Proof. intros N. unfold q. cbn [run]. change (step (d, false) qt) with (Some (d, true)). cbv iota. rewrite run_app, run_inside by exact N. reflexivity. Qed.

(** ** Lists of parts *)
Fixpoint tail (cl : string) (l : list string) : string := match l with [] => cl | p :: l' => "," ++ p ++ tail cl l' end.
(** A closing bracket. *)
Definition closer (cl : string) : Prop := cl = "]" \/ cl = "}".
Lemma tail_ends cl l : closer cl -> ends (tail cl l).
Proof. intros [-> | ->]; destruct l; cbn; eexists; eexists; (split; reflexivity). Qed.
Lemma join_tail cl p l : join "," (p :: l) ++ cl = p ++ tail cl l.
Proof.
  revert p. induction l as [|a l IH]; intros p; [reflexivity|]. change (join "," (p :: a :: l)) with (p ++ "," ++ join "," (a :: l)).
  cbn [tail]. rewrite !GoStrFacts.sapp_assoc, IH. reflexivity.
Qed.
Lemma tail_app cl A T : forall A' T', closer cl -> Forall balanced A -> Forall balanced A' -> length A = length A' ->
  tail cl (A ++ T) = tail cl (A' ++ T') -> A = A' /\ tail cl T = tail cl T'.
Proof.
  intros A' T' C. revert A'. induction A as [|a A IH]; intros [|a' A'] B B' L Q; try discriminate L; [now split|].
  inversion_clear B. inversion_clear B'. cbn [List.app tail] in Q. apply sapp_inj_l in Q.
  apply (run_split (0, false)) in Q as [-> Q]; try assumption; try now apply tail_ends.
  cbn in L. destruct (IH A') as [-> H']; auto.
Qed.
Lemma tail_inj cl A : forall A', closer cl -> Forall balanced A -> Forall balanced A' -> tail cl A = tail cl A' -> A = A'.
Proof.
  induction A as [|a A IH]; intros [|a' A'] C B B' Q.
  - reflexivity.
  - destruct C as [-> | ->]; discriminate Q.
  - destruct C as [-> | ->]; discriminate Q.
  - inversion_clear B. inversion_clear B'. cbn [tail] in Q. apply sapp_inj_l in Q.
    apply (run_split (0, false)) in Q as [-> Q]; try assumption; try now apply tail_ends. f_equal. apply IH; assumption.
Qed.
(** The text with its brackets. *)
Lemma join_eq cl A A' : join "," A ++ cl = join "," A' ++ cl -> (A = [] <-> A' = []) -> tail cl A = tail cl A'.
Proof.
  destruct A as [|a A], A' as [|a' A']; intros Q [H H'].
  - reflexivity.
  - specialize (H eq_refl). discriminate.
  - specialize (H' eq_refl). discriminate.
  - rewrite !join_tail in Q. cbn [tail]. now rewrite Q.
Qed.
Lemma join_inj cl A A' : closer cl -> Forall balanced A -> Forall balanced A' -> join "," A ++ cl = join "," A' ++ cl ->
  A = A' \/ (A = [] /\ A' = [""]) \/ (A = [""] /\ A' = []).
Proof.
  assert (Z : forall p l, closer cl -> balanced p -> cl = p ++ tail cl l -> p :: l = [""]).
  { intros p l C B E. destruct p as [|c p].
    - destruct l; [reflexivity|]. destruct C as [-> | ->]; discriminate E.
    - exfalso. unfold balanced in B. cbn [run] in B. destruct C as [-> | ->]; injection E as <- _; discriminate B. }
  intros C B B' Q. destruct A as [|a A], A' as [|a' A'].
  - now left.
  - right. left. split; [reflexivity|]. rewrite join_tail in Q. inversion B'. now apply Z.
  - right. right. split; [|reflexivity]. rewrite join_tail in Q. inversion B. apply Z; auto.
  - left. apply (tail_inj cl); try assumption. rewrite !join_tail in Q. cbn [tail]. now rewrite Q.
Qed.
Lemma bracket_join A A' : bracket A = bracket A' -> join "," A ++ "]" = join "," A' ++ "]".
Proof. unfold bracket. apply sapp_inj_l. Qed.

(** ** The parts are balanced *)
Lemma balanced_q s : no_quote s -> balanced (q s).
Proof. apply run_q. Qed.
Lemma q_inj s s' : q s = q s' -> s = s'.
Proof. unfold q. intros E. injection E as E. now apply sapp_inj_r in E. Qed.
Lemma opt_quoted_balanced s : no_quote s -> Forall balanced (opt_quoted s).
Proof. intros N. unfold opt_quoted. destruct (is_empty s); repeat constructor. now apply balanced_q. Qed.
Lemma opt_quoted_inj s s' : opt_quoted s = opt_quoted s' -> s = s'.
Proof.
  unfold opt_quoted. destruct s as [|a s], s' as [|a' s']; cbn [is_empty]; try discriminate; [reflexivity|]. intros E. injection E as -> E. f_equal. now apply sapp_inj_r in E.
Qed.
Lemma opt_quoted_len s s' : (s = "" <-> s' = "") -> length (opt_quoted s) = length (opt_quoted s').
Proof. unfold opt_quoted. destruct s, s'; cbn; intros [H H']; try reflexivity; [specialize (H eq_refl)|specialize (H' eq_refl)]; discriminate. Qed.

Lemma hash_text_balanced alg v : no_quote alg -> no_quote v -> balanced (hash_text alg v).
Proof.
  intros A V. unfold balanced, hash_text. change ("{" ++ dquote ++ alg ++ dquote ++ ":" ++ dquote ++ v ++ dquote ++ "}") with
    (String "{" (String qt (alg ++ dquote ++ ":" ++ dquote ++ v ++ dquote ++ "}"))).
  cbn [run]. change (step (0, false) "{") with (Some (1, false)). cbv iota. change (step (1, false) qt) with (Some (1, true)). cbv iota.
  rewrite run_app, run_inside by exact A. change (run (1, true) (dquote ++ ":" ++ dquote ++ v ++ dquote ++ "}")) with (run (1, true) (v ++ dquote ++ "}")).
  rewrite run_app, run_inside by exact V. reflexivity.
Qed.
(** The hash that contributes: the first of MD5, SHA-1, SHA-256, SHA-512. *)
Definition chosen_in (l : list string) (h : gval) : option (string * string) :=
  fold_right (fun alg r => match map_get alg h with Some v => Some (alg, str_of v) | None => r end) None l.
(** The hash that contributes to the identifier. *)
Definition chosen (h : gval) : option (string * string) := chosen_in ["MD5"; "SHA-1"; "SHA-256"; "SHA-512"] h.
Lemma hash_contribution_chosen h : hash_contribution h = match chosen h with Some (a, v) => hash_text a v | None => "" end.
Proof.
  unfold hash_contribution, chosen, chosen_in, fold_right. change Consts.MD5 with "MD5". change Consts.SHA1 with "SHA-1".
  change Consts.SHA256 with "SHA-256". change Consts.SHA512 with "SHA-512".
  destruct (map_get "MD5" h); [reflexivity|]. destruct (map_get "SHA-1" h); [reflexivity|]. destruct (map_get "SHA-256" h); [reflexivity|].
  destruct (map_get "SHA-512" h); reflexivity.
Qed.
Lemma chosen_alg h a v : chosen h = Some (a, v) -> no_quote a.
Proof.
  unfold chosen, chosen_in, fold_right.
  destruct (map_get "MD5" h); [intros E; injection E as <- _; intros [Q|[Q|[Q|[]]]]; discriminate Q|].
  destruct (map_get "SHA-1" h); [intros E; injection E as <- _; vm_compute; intuition discriminate|].
  destruct (map_get "SHA-256" h); [intros E; injection E as <- _; vm_compute; intuition discriminate|].
  destruct (map_get "SHA-512" h); [intros E; injection E as <- _; vm_compute; intuition discriminate|]. discriminate.
Qed.
Lemma hash_text_inj a v a' v' : no_quote a -> no_quote a' -> hash_text a v = hash_text a' v' -> (a, v) = (a', v').
Proof.
  unfold hash_text. intros A A' E. do 2 apply sapp_inj_l in E.
  revert a' A A' E. induction a as [|c a IH]; intros [|c' a'] A A' E.
  - do 4 apply sapp_inj_l in E. apply sapp_inj_r in E. now subst.
  - injection E as <- _. exfalso. apply A'. now left.
  - injection E as -> _. exfalso. apply A. now left.
  - injection E as -> E. assert (Q : (a, v) = (a', v')) by (apply IH; [intros X; apply A; now right|intros X; apply A'; now right|exact E]). congruence.
Qed.
Lemma hash_contribution_inj h h' : hash_contribution h = hash_contribution h' -> chosen h = chosen h'.
Proof.
  rewrite !hash_contribution_chosen. destruct (chosen h) as [[a v]|] eqn:E, (chosen h') as [[a' v']|] eqn:E'; intros Q; try reflexivity; try discriminate Q.
  f_equal. apply hash_text_inj; [now apply chosen_alg in E|now apply chosen_alg in E'|exact Q].
Qed.
(** The contributing hash has no quotation mark. *)
Definition hashes_ok (h : gval) : Prop := match chosen h with Some (_, v) => no_quote v | None => True end.
Lemma hash_contribution_balanced h : hashes_ok h -> balanced (hash_contribution h).
Proof.
  unfold hashes_ok. rewrite hash_contribution_chosen. destruct (chosen h) as [[a v]|] eqn:E; [|reflexivity]. intros N.
  apply hash_text_balanced; [now apply chosen_alg in E|exact N].
Qed.
Lemma hash_not_q h s : hash_contribution h <> q s.
Proof. rewrite hash_contribution_chosen. destruct (chosen h) as [[a v]|]; discriminate. Qed.

(** Numbers *)
Lemma run_digits d s : digits_only s = true -> run (d, false) s = Some (d, false).
Proof.
  induction s as [|c s IH]; [reflexivity|]. cbn [digits_only run]. intros H. apply andb_true_iff in H as [H H'].
  assert (E : step (d, false) c = Some (d, false)) by (destruct c as [[|] [|] [|] [|] [|] [|] [|] [|]]; first [discriminate H|reflexivity]).
  rewrite E. auto.
Qed.
Lemma balanced_num z : balanced (Z_to_string z).
Proof.
  unfold balanced. rewrite Z_to_string_sgn. destruct (N_to_string_spec (Z.to_N (Z.abs z))) as [D _]. destruct (z <? 0)%Z; cbn [sgn].
  - cbn [run]. change (step (0, false) "-") with (Some (0, false)). now apply run_digits.
  - now apply run_digits.
Qed.

(** Times and binary data *)
Lemma plain_no_quote s : plain s = true -> no_quote s.
Proof.
  unfold no_quote. induction s as [|c s IH]; cbn; [tauto|]. intros H. apply andb_true_iff in H as [H H']. intros [-> |Q]; [discriminate H|]. now apply IH.
Qed.
Lemma time_no_quote t : year_ok t = true -> no_quote (ts_string t).
Proof. intros Y. now apply plain_no_quote, plain_ts. Qed.
Lemma time_inj t t' : year_ok t = true -> year_ok t' = true -> ts_string t = ts_string t' -> trunc_ms t = trunc_ms t'.
Proof.
  intros Y Y' E. unfold year_ok in *. apply andb_true_iff in Y as [Y1 Y2], Y' as [Y1' Y2']. apply Z.leb_le in Y1, Y1'. apply Z.ltb_lt in Y2, Y2'.
  assert (A := ts_roundtrip t (conj Y1 Y2)). assert (A' := ts_roundtrip t' (conj Y1' Y2')). congruence.
Qed.
Lemma b64_no_quote s : no_quote (b64_encode s).
Proof. intros H. apply b64_encode_chars in H. vm_compute in H. intuition discriminate. Qed.

(** Lists of strings: protocols *)
Lemma join_q l : l <> [] -> q (join (dquote ++ "," ++ dquote) l) = join "," (map q l).
Proof.
  intros N. destruct l as [|a l]; [contradiction|]. clear N. revert a. induction l as [|b l IH]; intros a; [reflexivity|].
  change (map q (a :: b :: l)) with (q a :: map q (b :: l)). change (join "," (q a :: map q (b :: l))) with (q a ++ "," ++ join "," (map q (b :: l))).
  rewrite <- IH. change (join (dquote ++ "," ++ dquote) (a :: b :: l)) with (a ++ (dquote ++ "," ++ dquote) ++ join (dquote ++ "," ++ dquote) (b :: l)).
  unfold q. generalize (join (dquote ++ "," ++ dquote) (b :: l)). intros r. cbn [String.append]. f_equal. rewrite !GoStrFacts.sapp_assoc. reflexivity.
Qed.
Lemma map_q_balanced l : Forall no_quote l -> Forall balanced (map q l).
Proof. induction 1; cbn; constructor; [now apply balanced_q|assumption]. Qed.
Lemma map_q_inj l : forall l', map q l = map q l' -> l = l'.
Proof. induction l as [|a l IH]; intros [|a' l'] E; try discriminate E; [reflexivity|]. cbn [map] in E. inversion E. apply sapp_inj_r in H0. f_equal; auto. Qed.
Lemma run_list d A : Forall balanced A -> (forall st a, In a A -> run (0, false) a = Some st -> run (S d, false) a = Some (S d, false)) ->
  run (S d, false) (join "," A) = Some (S d, false).
Proof.
  induction A as [|a A IH]; intros B H; [reflexivity|]. inversion_clear B. assert (Ra : run (S d, false) a = Some (S d, false)) by (eapply H; [now left|exact H0]).
  destruct A as [|b A]; [exact Ra|]. change (join "," (a :: b :: A)) with (a ++ "," ++ join "," (b :: A)). rewrite run_app, Ra. cbn [String.append run].
  change (step (S d, false) ",") with (Some (S d, false)). cbv iota. apply IH; [exact H1|]. intros st x Hx. apply H. now right.
Qed.
(** The contribution of a list of protocols. *)
Definition protocols_text (l : list string) : string := "[" ++ q (join (dquote ++ "," ++ dquote) l) ++ "]".
Lemma protocols_balanced l : Forall no_quote l -> balanced (protocols_text l).
Proof.
  intros F. destruct l as [|a l].
  - reflexivity.
  - unfold protocols_text, balanced. rewrite join_q by discriminate. cbn [String.append run]. change (step (0, false) "[") with (Some (1, false)). cbv iota.
    rewrite run_app, run_list; [reflexivity|now apply map_q_balanced|]. intros st x Hx _. apply in_map_iff in Hx as (s & <- & Hs).
    apply run_q. rewrite Forall_forall in F. now apply F.
Qed.
Lemma protocols_inj l l' : Forall no_quote l -> Forall no_quote l' -> l <> [] -> l' <> [] -> protocols_text l = protocols_text l' -> l = l'.
Proof.
  intros F F' N N' E. unfold protocols_text in E. rewrite !join_q in E by assumption. apply sapp_inj_l in E.
  apply map_q_inj. apply (tail_inj "]"); [now left|now apply map_q_balanced|now apply map_q_balanced|].
  apply join_eq; [exact E|]. destruct l, l'; try contradiction. split; discriminate.
Qed.

(** ** Values of a registry key *)
Definition value_members (data dt name : string) : list string :=
  ((if is_empty data then [] else [named_part "data" data]) ++ (if is_empty dt then [] else [named_part "data_type" dt]) ++
   (if is_empty name then [] else [named_part "name" name]))%list.
Lemma run_named d n s : no_quote n -> no_quote s -> run (d, false) (named_part n s) = Some (d, false).
Proof.
  intros N S. unfold named_part. rewrite run_app, run_q by exact N. cbn [String.append run]. change (step (d, false) ":") with (Some (d, false)). cbv iota.
  now apply run_q.
Qed.
Lemma members_shape data dt name x : In x (value_members data dt name) -> no_quote data -> no_quote dt -> no_quote name ->
  exists n s, x = named_part n s /\ no_quote n /\ no_quote s.
Proof.
  unfold value_members. intros H N1 N2 N3. rewrite !in_app_iff in H.
  assert (A : no_quote "data") by (vm_compute; intuition discriminate). assert (B : no_quote "data_type") by (vm_compute; intuition discriminate).
  assert (C : no_quote "name") by (vm_compute; intuition discriminate).
  destruct H as [H|[H|H]]; (destruct (is_empty _); [destruct H|destruct H as [<- |[]]; eauto 6]).
Qed.
Lemma members_balanced data dt name : no_quote data -> no_quote dt -> no_quote name -> Forall balanced (value_members data dt name).
Proof.
  intros N1 N2 N3. apply Forall_forall. intros x Hx. destruct (members_shape _ _ _ _ Hx N1 N2 N3) as (n & s & -> & A & B). now apply run_named.
Qed.
Lemma members_inj a b c a' b' c' : value_members a b c = value_members a' b' c' -> a = a' /\ b = b' /\ c = c'.
Proof.
  unfold value_members, named_part. destruct a, b, c, a', b', c'; cbn [is_empty List.app]; intros E; try discriminate E; try (repeat split; reflexivity);
    inversion E; subst; repeat match goal with H : (_ ++ _ = _ ++ _)%string |- _ => apply sapp_inj_r in H; subst end; repeat split; try reflexivity; congruence.
Qed.
(** The contribution of a registry value. *)
Definition value_text (data dt name : string) : string := "{" ++ join "," (value_members data dt name) ++ "}".
Lemma value_balanced data dt name : no_quote data -> no_quote dt -> no_quote name -> balanced (value_text data dt name).
Proof.
  intros N1 N2 N3. unfold balanced, value_text. cbn [String.append run]. change (step (0, false) "{") with (Some (1, false)). cbv iota.
  rewrite run_app, run_list; [reflexivity|now apply members_balanced|]. intros st x Hx _.
  destruct (members_shape _ _ _ _ Hx N1 N2 N3) as (n & s & -> & A & B). now apply run_named.
Qed.
Lemma value_inj a b c a' b' c' : no_quote a -> no_quote b -> no_quote c -> no_quote a' -> no_quote b' -> no_quote c' ->
  value_text a b c = value_text a' b' c' -> a = a' /\ b = b' /\ c = c'.
Proof.
  intros A B C A' B' C' E. unfold value_text in E. apply sapp_inj_l in E.
  apply join_inj in E; [|now right|now apply members_balanced|now apply members_balanced].
  destruct E as [E|[[E E']|[E E']]]; [now apply members_inj| |]; exfalso.
  - assert (H : In "" (value_members a' b' c')) by (rewrite E'; now left). destruct (members_shape _ _ _ _ H A' B' C') as (n & s & Q & _). discriminate Q.
  - assert (H : In "" (value_members a b c)) by (rewrite E; now left). destruct (members_shape _ _ _ _ H A B C) as (n & s & Q & _). discriminate Q.
Qed.

(** ** Text that ends with a quoted value *)
Lemma last_quote a : forall a' s s', no_quote s -> no_quote s' -> a ++ String qt s = a' ++ String qt s' -> a = a' /\ s = s'.
Proof.
  assert (Z : forall x y, no_quote (x ++ String qt y) -> False).
  { unfold no_quote. intros x y N. apply N. clear N. induction x; cbn; auto. }
  induction a as [|c a IH]; intros [|c' a'] s s' N N' E; cbn in E.
  - injection E as ->. now split.
  - injection E as <- ->. exfalso. eapply Z. exact N.
  - injection E as -> <-. exfalso. eapply Z. exact N'.
  - injection E as -> E. destruct (IH _ _ _ N N' E) as [-> ->]. now split.
Qed.
Lemma last_quoted x x' s s' : no_quote s -> no_quote s' -> x ++ tail "]" [q s] = x' ++ tail "]" [q s'] -> x = x' /\ s = s'.
Proof.
  intros N N' E. cbn [tail] in E. unfold q in E.
  assert (R : forall y t, y ++ "," ++ String qt (t ++ String qt "") ++ "]" = (y ++ String "," "") ++ String qt (t ++ String qt "]")).
  { intros y t. rewrite GoStrFacts.sapp_assoc. f_equal. cbn [String.append]. do 2 f_equal. rewrite GoStrFacts.sapp_assoc. reflexivity. }
  rewrite !R in E. assert (R2 : forall y t, y ++ String qt (t ++ String qt "]") = (y ++ String qt t) ++ String qt "]") by (intros; rewrite GoStrFacts.sapp_assoc; reflexivity).
  rewrite !R2 in E. apply sapp_inj_r in E. apply last_quote in E as [E ->]; try assumption. apply sapp_inj_r in E. now split.
Qed.
