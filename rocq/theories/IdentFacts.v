(** Lemmas about UUID texts and identifiers. *)
From Verif Require Import GoStr GoStrFacts Uuid Sha1 Ident Consts.
Local Open Scope nat_scope.
Local Open Scope list_scope.

(* -------------------------------------------------------- specification *)
(** Hexadecimal digits, either case. *)
Definition hex_digits : string := "0123456789abcdefABCDEF".
Definition is_hex (c : ascii) : Prop := In c (list_ascii_of_string hex_digits).
Definition all_hex (s : string) : Prop := forall c, In c (list_ascii_of_string s) -> is_hex c.
Definition hexn (n : nat) (s : string) : Prop := String.length s = n /\ all_hex s.

(** The canonical 8-4-4-4-12 text of a UUID. *)
Definition uuid_canonical (s : string) : Prop :=
  exists a b c d e, hexn 8 a /\ hexn 4 b /\ hexn 4 c /\ hexn 4 d /\ hexn 12 e /\
    s = (a ++ "-" ++ b ++ "-" ++ c ++ "-" ++ d ++ "-" ++ e)%string.

(** Everything uuid.Parse accepts. *)
Inductive uuid_text : string -> Prop :=
| UT_canonical s : uuid_canonical s -> uuid_text s
| UT_urn p s : to_lower p = "urn:uuid:" -> uuid_canonical s -> uuid_text (p ++ s)
| UT_braced c s c' : uuid_canonical s ->
    uuid_text (String c EmptyString ++ s ++ String c' EmptyString)
| UT_raw s : hexn 32 s -> uuid_text s.

(** A type name that an identifier can carry. *)
Definition type_name_ok (t : string) : bool :=
  negb (is_empty t) && no_dd t && negb (ends_dash t).

(* --------------------------------------------------------------- hex text *)
Lemma hexval_is_hex_dec : forallb (fun n =>
  let c := ascii_of_nat n in
  Bool.eqb (match hexval c with Some _ => true | None => false end)
           (existsb (Ascii.eqb c) (list_ascii_of_string hex_digits))) (seq 0 256) = true.
Proof. vm_compute. reflexivity. Qed.

Lemma ascii_seq c : In (nat_of_ascii c) (seq 0 256).
Proof. apply in_seq. split; [lia|]. cbn. apply nat_ascii_bounded. Qed.

Lemma hexval_is_hex c : (exists v, hexval c = Some v) <-> is_hex c.
Proof.
  assert (H := hexval_is_hex_dec). rewrite forallb_forall in H.
  specialize (H _ (ascii_seq c)). cbn zeta in H. rewrite ascii_nat_embedding in H.
  apply Bool.eqb_prop in H. unfold is_hex.
  split.
  - intros [v Hv]. rewrite Hv in H. symmetry in H. apply existsb_exists in H as (x & Hx & He).
    apply Ascii.eqb_eq in He. now subst.
  - intros Hi. destruct (hexval c) as [v|]; [now exists v|].
    symmetry in H. apply not_true_iff_false in H. exfalso. apply H.
    apply existsb_exists. exists c. split; [exact Hi | apply Ascii.eqb_refl].
Qed.

Lemma all_hex_nil : all_hex "".
Proof. intros c []. Qed.

Lemma all_hex_cons c s : all_hex (String c s) <-> is_hex c /\ all_hex s.
Proof.
  unfold all_hex; cbn. split.
  - intros H. split; [apply H; now left | intros x Hx; apply H; now right].
  - intros [H1 H2] x [<-|Hx]; auto.
Qed.

Lemma hexbytes_sound n : forall s b r,
  hexbytes n s = Some (b, r) ->
  String.length b = n /\ exists h, s = (h ++ r)%string /\ hexn (2 * n) h.
Proof.
  induction n as [|n IH]; intros s b r H.
  - cbn in H. injection H as <- <-. split; [reflexivity|].
    exists ""%string. split; [reflexivity|]. split; [reflexivity | apply all_hex_nil].
  - cbn in H. destruct s as [|c1 [|c2 s]]; try discriminate.
    destruct (xtob c1 c2) as [x|] eqn:Ex; [|discriminate].
    destruct (hexbytes n s) as [[bs r']|] eqn:Eb; [|discriminate].
    injection H as <- <-.
    destruct (IH _ _ _ Eb) as (Hl & h & -> & Hh1 & Hh2).
    unfold xtob in Ex.
    destruct (hexval c1) as [v1|] eqn:E1; [|discriminate].
    destruct (hexval c2) as [v2|] eqn:E2; [|discriminate].
    split; [cbn; now rewrite Hl|].
    exists (String c1 (String c2 h)). split; [reflexivity|].
    split; [cbn; rewrite Hh1; lia|].
    apply all_hex_cons. split; [apply hexval_is_hex; now exists v1|].
    apply all_hex_cons. split; [apply hexval_is_hex; now exists v2 | exact Hh2].
Qed.

Lemma hexbytes_complete n : forall h r,
  hexn (2 * n) h -> exists b, hexbytes n (h ++ r) = Some (b, r) /\ String.length b = n.
Proof.
  induction n as [|n IH]; intros h r [Hl Hh].
  - destruct h; [|discriminate]. exists ""%string. split; reflexivity.
  - destruct h as [|c1 [|c2 h]]; try (cbn in Hl; lia).
    apply all_hex_cons in Hh as [H1 Hh]. apply all_hex_cons in Hh as [H2 Hh].
    apply hexval_is_hex in H1 as [v1 H1]. apply hexval_is_hex in H2 as [v2 H2].
    destruct (IH h r) as (b & Hb & Hlb).
    { split; [cbn in Hl; lia | exact Hh]. }
    cbn. unfold xtob. rewrite H1, H2.
    cbn [append] in Hb. rewrite Hb. eexists. split; [reflexivity|]. cbn. now rewrite Hlb.
Qed.

Lemma skip_dash_sound s r : skip_dash s = Some r -> s = ("-" ++ r)%string.
Proof.
  destruct s as [|c s]; cbn; [discriminate|].
  destruct (Ascii.eqb c dash) eqn:E; [|discriminate].
  apply Ascii.eqb_eq in E. subst. intros H. now injection H as ->.
Qed.

Lemma parse_dashed_sound s u :
  parse_dashed s = Some u -> exists t r, s = (t ++ r)%string /\ uuid_canonical t /\ String.length u = 16.
Proof.
  unfold parse_dashed. intros H.
  destruct (hexbytes 4 s) as [[a s1]|] eqn:E1; [|discriminate].
  destruct (skip_dash s1) as [s2|] eqn:E2; [|discriminate].
  destruct (hexbytes 2 s2) as [[b s3]|] eqn:E3; [|discriminate].
  destruct (skip_dash s3) as [s4|] eqn:E4; [|discriminate].
  destruct (hexbytes 2 s4) as [[c s5]|] eqn:E5; [|discriminate].
  destruct (skip_dash s5) as [s6|] eqn:E6; [|discriminate].
  destruct (hexbytes 2 s6) as [[d s7]|] eqn:E7; [|discriminate].
  destruct (skip_dash s7) as [s8|] eqn:E8; [|discriminate].
  destruct (hexbytes 6 s8) as [[e s9]|] eqn:E9; [|discriminate].
  injection H as <-.
  apply hexbytes_sound in E1 as (La & h1 & -> & H1).
  apply skip_dash_sound in E2 as ->.
  apply hexbytes_sound in E3 as (Lb & h2 & -> & H2).
  apply skip_dash_sound in E4 as ->.
  apply hexbytes_sound in E5 as (Lc & h3 & -> & H3).
  apply skip_dash_sound in E6 as ->.
  apply hexbytes_sound in E7 as (Ld & h4 & -> & H4).
  apply skip_dash_sound in E8 as ->.
  apply hexbytes_sound in E9 as (Le & h5 & -> & H5).
  exists (h1 ++ "-" ++ h2 ++ "-" ++ h3 ++ "-" ++ h4 ++ "-" ++ h5)%string, s9.
  split; [now rewrite !sapp_assoc|]. split.
  - exists h1, h2, h3, h4, h5. repeat (split; [assumption|]). reflexivity.
  - rewrite !slength_app. lia.
Qed.

Lemma skip_dash_app r : skip_dash ("-" ++ r)%string = Some r.
Proof. reflexivity. Qed.

Lemma parse_dashed_complete t r :
  uuid_canonical t -> exists u, parse_dashed (t ++ r) = Some u /\ String.length u = 16.
Proof.
  intros (a & b & c & d & e & Ha & Hb & Hc & Hd & He & ->).
  rewrite !sapp_assoc. unfold parse_dashed.
  match goal with |- context [hexbytes 4 (a ++ ?x)%string] =>
    destruct (hexbytes_complete 4 a x Ha) as (ba & Ea & La) end.
  rewrite Ea, skip_dash_app.
  match goal with |- context [hexbytes 2 (b ++ ?x)%string] =>
    destruct (hexbytes_complete 2 b x Hb) as (bb & Eb & Lb) end.
  rewrite Eb, skip_dash_app.
  match goal with |- context [hexbytes 2 (c ++ ?x)%string] =>
    destruct (hexbytes_complete 2 c x Hc) as (bc & Ec & Lc) end.
  rewrite Ec, skip_dash_app.
  match goal with |- context [hexbytes 2 (d ++ ?x)%string] =>
    destruct (hexbytes_complete 2 d x Hd) as (bd & Ed & Ld) end.
  rewrite Ed, skip_dash_app.
  destruct (hexbytes_complete 6 e r He) as (be & Ee & Le).
  rewrite Ee. eexists. split; [reflexivity|]. rewrite !slength_app. lia.
Qed.

Lemma canonical_length t : uuid_canonical t -> String.length t = 36.
Proof.
  intros (a & b & c & d & e & [Ha _] & [Hb _] & [Hc _] & [Hd _] & [He _] & ->).
  rewrite !slength_app, Ha, Hb, Hc, Hd, He. reflexivity.
Qed.

Lemma length_zero s : String.length s = 0 -> s = "".
Proof. destruct s; [reflexivity | discriminate]. Qed.

Lemma parse_dashed_36 s u : String.length s = 36 -> parse_dashed s = Some u -> uuid_canonical s.
Proof.
  intros Hl H. apply parse_dashed_sound in H as (t & r & -> & Ht & _).
  rewrite slength_app, (canonical_length t Ht) in Hl.
  assert (r = ""%string) by (apply length_zero; lia). subst r. now rewrite sapp_nil_r.
Qed.

Lemma str_take_drop n : forall s, (str_take n s ++ str_drop n s)%string = s.
Proof.
  induction n as [|n IH]; intros s; [reflexivity|].
  destruct s as [|c s]; cbn; [reflexivity | now rewrite IH].
Qed.

Lemma str_take_app n : forall a b, String.length a = n -> str_take n (a ++ b) = a.
Proof.
  induction n as [|n IH]; intros a b Hl.
  - apply length_zero in Hl. now subst.
  - destruct a as [|c a]; [discriminate|]. cbn. f_equal. apply IH. cbn in Hl. lia.
Qed.

Lemma str_drop_app n : forall a b, String.length a = n -> str_drop n (a ++ b) = b.
Proof.
  induction n as [|n IH]; intros a b Hl.
  - apply length_zero in Hl. now subst.
  - destruct a as [|c a]; [discriminate|]. cbn. apply IH. cbn in Hl. lia.
Qed.

Lemma str_drop_length n : forall s, String.length (str_drop n s) = String.length s - n.
Proof.
  induction n as [|n IH]; intros s; cbn; [lia|].
  destruct s; cbn; [lia | apply IH].
Qed.

Lemma str_take_length n : forall s, String.length (str_take n s) = Nat.min n (String.length s).
Proof.
  induction n as [|n IH]; intros s; cbn; [reflexivity|].
  destruct s; cbn; [reflexivity | now rewrite IH].
Qed.

Lemma to_lower_length s : String.length (to_lower s) = String.length s.
Proof. induction s as [|c s IH]; cbn; [reflexivity | now rewrite IH]. Qed.

(** uuid.Parse accepts exactly the texts of [uuid_text] *)
Lemma uuid_parse_spec s :
  (exists u, uuid_parse s = Some u) <-> uuid_text s.
Proof.
  split.
  - intros [u H]. unfold uuid_parse in H.
    destruct (Nat.eq_dec (String.length s) 36) as [E|E36].
    { rewrite E in H. apply UT_canonical. eapply parse_dashed_36; eauto. }
    destruct (Nat.eq_dec (String.length s) 45) as [E|E45].
    { rewrite E in H.
      destruct (String.eqb (to_lower (str_take 9 s)) "urn:uuid:") eqn:Eu; [|discriminate].
      apply seqb_true in Eu. rewrite <- (str_take_drop 9 s). apply UT_urn; [exact Eu|].
      eapply parse_dashed_36; [|exact H]. rewrite str_drop_length, E. reflexivity. }
    destruct (Nat.eq_dec (String.length s) 38) as [E|E38].
    { rewrite E in H. destruct s as [|c s]; [discriminate|]. cbn [str_drop] in H.
      apply parse_dashed_sound in H as (t & r & -> & Ht & _).
      cbn in E. injection E as E. rewrite slength_app, (canonical_length t Ht) in E.
      destruct r as [|c' r]; [cbn in E; lia|].
      destruct r as [|c'' r]; [|cbn in E; lia].
      change (String c (t ++ String c' ""))%string with (String c "" ++ t ++ String c' "")%string.
      now apply UT_braced. }
    destruct (Nat.eq_dec (String.length s) 32) as [E|E32].
    { rewrite E in H. destruct (hexbytes 16 s) as [[b r]|] eqn:Eb; [|discriminate].
      apply hexbytes_sound in Eb as (_ & h & -> & Hh).
      assert (Hl := proj1 Hh). rewrite slength_app, Hl in E.
      assert (r = ""%string) by (apply length_zero; lia). subst r.
      rewrite sapp_nil_r. now apply UT_raw. }
    exfalso. revert H. generalize dependent (String.length s). intros n H1 H2 H3 H4 H5.
    do 46 (destruct n as [|n]; [first [discriminate H5 | congruence]|]). discriminate H5.
  - intros H. inversion H as [s0 Hc|p s0 Hp Hc|c s0 c' Hc|s0 Hh]; subst.
    + unfold uuid_parse. rewrite (canonical_length _ Hc).
      destruct (parse_dashed_complete s "" Hc) as (u & Hu & _).
      rewrite sapp_nil_r in Hu. now exists u.
    + unfold uuid_parse.
      assert (Hlp : String.length p = 9) by (rewrite <- (to_lower_length p), Hp; reflexivity).
      rewrite slength_app, Hlp, (canonical_length _ Hc). cbn [Nat.add].
      rewrite (str_take_app 9 p s0 Hlp), Hp, (str_drop_app 9 p s0 Hlp). cbn [String.eqb].
      destruct (parse_dashed_complete s0 "" Hc) as (u & Hu & _).
      rewrite sapp_nil_r in Hu. exists u. exact Hu.
    + unfold uuid_parse. cbn [append String.length].
      rewrite slength_app, (canonical_length _ Hc). cbn [Nat.add String.length str_drop].
      destruct (parse_dashed_complete s0 (String c' "") Hc) as (u & Hu & _). now exists u.
    + unfold uuid_parse. rewrite (proj1 Hh).
      destruct (hexbytes_complete 16 s "" Hh) as (b & Hb & _).
      rewrite sapp_nil_r in Hb. rewrite Hb. now exists b.
Qed.

Lemma uuid_parse_length s u : uuid_parse s = Some u -> String.length u = 16.
Proof.
  unfold uuid_parse. intros H.
  destruct (Nat.eq_dec (String.length s) 36) as [E|E36].
  { rewrite E in H. apply parse_dashed_sound in H as (? & ? & ? & ? & ?). assumption. }
  destruct (Nat.eq_dec (String.length s) 45) as [E|E45].
  { rewrite E in H. destruct (String.eqb _ _); [|discriminate].
    apply parse_dashed_sound in H as (? & ? & ? & ? & ?). assumption. }
  destruct (Nat.eq_dec (String.length s) 38) as [E|E38].
  { rewrite E in H. apply parse_dashed_sound in H as (? & ? & ? & ? & ?). assumption. }
  destruct (Nat.eq_dec (String.length s) 32) as [E|E32].
  { rewrite E in H. destruct (hexbytes 16 s) as [[b r]|] eqn:Eb; [|discriminate].
    apply hexbytes_sound in Eb as (Hl & _). injection H as <-. exact Hl. }
  exfalso. revert H. generalize dependent (String.length s). intros n H1 H2 H3 H4 H5.
  do 46 (destruct n as [|n]; [first [discriminate H5 | congruence]|]). discriminate H5.
Qed.

(* ------------------------------------------------------------ UUID.String *)
Lemma hex_pair_dec : forallb (fun n =>
  let c := ascii_of_nat n in
  match xtob (hexdigit (hi c)) (hexdigit (lo c)) with
  | Some c' => Ascii.eqb c c'
  | None => false
  end) (seq 0 256) = true.
Proof. vm_compute. reflexivity. Qed.

Lemma hex_pair c : xtob (hexdigit (hi c)) (hexdigit (lo c)) = Some c.
Proof.
  assert (H := hex_pair_dec). rewrite forallb_forall in H.
  specialize (H _ (ascii_seq c)). cbn zeta in H. rewrite ascii_nat_embedding in H.
  destruct (xtob _ _) as [c'|]; [|discriminate].
  apply Ascii.eqb_eq in H. now subst.
Qed.

Lemma hexbytes_encode s r :
  hexbytes (String.length s) (hex_encode s ++ r) = Some (s, r).
Proof.
  induction s as [|c s IH]; [reflexivity|].
  cbn [hex_encode String.length append hexbytes].
  rewrite hex_pair, IH. reflexivity.
Qed.

Lemma hexbytes_encode_n n s r :
  String.length s = n -> hexbytes n (hex_encode s ++ r) = Some (s, r).
Proof. intros <-. apply hexbytes_encode. Qed.

Lemma hex_encode_length s : String.length (hex_encode s) = 2 * String.length s.
Proof. induction s as [|c s IH]; cbn [hex_encode String.length]; lia. Qed.

Lemma uuid_string_length u : String.length u = 16 -> String.length (uuid_string u) = 36.
Proof.
  intros H. unfold uuid_string.
  rewrite !slength_app, !hex_encode_length, !str_take_length, !str_drop_length, H. reflexivity.
Qed.

Lemma uuid_split u : String.length u = 16 ->
  u = (str_take 4 u ++ str_take 2 (str_drop 4 u) ++ str_take 2 (str_drop 6 u) ++
       str_take 2 (str_drop 8 u) ++ str_drop 10 u)%string.
Proof.
  intros H.
  do 16 (destruct u as [|? u]; [discriminate|]).
  destruct u; [|discriminate]. reflexivity.
Qed.

Lemma parse_dashed_string u r :
  String.length u = 16 -> parse_dashed (uuid_string u ++ r) = Some u.
Proof.
  intros H. unfold uuid_string. rewrite !sapp_assoc. unfold parse_dashed.
  rewrite hexbytes_encode_n by (rewrite str_take_length, H; reflexivity).
  rewrite skip_dash_app.
  rewrite hexbytes_encode_n by (rewrite str_take_length, str_drop_length, H; reflexivity).
  rewrite skip_dash_app.
  rewrite hexbytes_encode_n by (rewrite str_take_length, str_drop_length, H; reflexivity).
  rewrite skip_dash_app.
  rewrite hexbytes_encode_n by (rewrite str_take_length, str_drop_length, H; reflexivity).
  rewrite skip_dash_app.
  rewrite hexbytes_encode_n by (rewrite str_drop_length, H; reflexivity).
  f_equal. symmetry. now apply uuid_split.
Qed.

(** uuid.Parse(u.String()) = u *)
Lemma uuid_parse_string u : String.length u = 16 -> uuid_parse (uuid_string u) = Some u.
Proof.
  intros H. unfold uuid_parse. rewrite uuid_string_length by exact H.
  rewrite <- (sapp_nil_r (uuid_string u)). now apply parse_dashed_string.
Qed.

Lemma uuid_string_inj u v :
  String.length u = 16 -> String.length v = 16 -> uuid_string u = uuid_string v -> u = v.
Proof.
  intros Hu Hv H. apply uuid_parse_string in Hu, Hv. rewrite H in Hu. congruence.
Qed.

Lemma canonical_parse_in s : uuid_parse s <> None -> String.length s = 36 -> uuid_canonical s.
Proof.
  intros H Hl. unfold uuid_parse in H. rewrite Hl in H.
  destruct (parse_dashed s) eqn:E; [|congruence]. eapply parse_dashed_36; eauto.
Qed.

(* ------------------------------------------------------------ no "--" *)
Lemma is_hex_not_dash c : is_hex c -> Ascii.eqb c dash = false.
Proof.
  unfold is_hex. cbn. intros H.
  repeat (destruct H as [<-|H]; [reflexivity|]). destruct H.
Qed.

Lemma all_hex_no_dd s : all_hex s -> no_dd s = true.
Proof.
  induction s as [|c s IH]; intros H; [reflexivity|].
  apply all_hex_cons in H as [Hc Hs]. rewrite no_dd_cons.
  destruct s as [|c' s]; [reflexivity|].
  rewrite (is_hex_not_dash _ Hc). cbn. now apply IH.
Qed.

Lemma all_hex_ends s : all_hex s -> ends_dash s = false.
Proof.
  induction s as [|c s IH]; intros H; [reflexivity|].
  apply all_hex_cons in H as [Hc Hs]. rewrite ends_dash_cons.
  destruct s as [|c' s]; [now apply is_hex_not_dash | now apply IH].
Qed.

Lemma no_dd_app a b :
  no_dd a = true -> no_dd b = true ->
  (ends_dash a = false \/ match b with String c _ => Ascii.eqb c dash = false | "" => True end)%string ->
  no_dd (a ++ b) = true.
Proof.
  induction a as [|c a IH]; intros Ha Hb H; [exact Hb|].
  cbn [append]. rewrite no_dd_cons.
  rewrite no_dd_cons in Ha. rewrite ends_dash_cons in H.
  destruct a as [|c' a].
  - cbn [append]. destruct b as [|cb b]; [reflexivity|].
    rewrite Hb, andb_true_r. destruct H as [H|H]; rewrite H; [reflexivity|].
    now rewrite andb_false_r.
  - apply andb_true_iff in Ha as [Ha1 Ha2].
    cbn [append]. rewrite Ha1. cbn [andb].
    change (String c' (a ++ b))%string with (String c' a ++ b)%string.
    apply IH; assumption.
Qed.

Lemma all_hex_head s : all_hex s ->
  match s with String c _ => Ascii.eqb c dash = false | "" => True end%string.
Proof. destruct s as [|c s]; [trivial|]. intros H. apply all_hex_cons in H as [H _]. now apply is_hex_not_dash. Qed.

Lemma hex_dash_no_dd a s :
  all_hex a -> a <> ""%string -> no_dd s = true ->
  match s with String c _ => Ascii.eqb c dash = false | "" => True end%string ->
  no_dd (a ++ "-" ++ s) = true.
Proof.
  intros Ha Hne Hs Hd. apply no_dd_app.
  - now apply all_hex_no_dd.
  - cbn [append]. rewrite no_dd_cons. destruct s as [|c s]; [reflexivity|].
    rewrite Hd, andb_false_r, Hs. reflexivity.
  - left. now apply all_hex_ends.
Qed.

Lemma app_head a s : a <> ""%string ->
  match a with String c _ => Ascii.eqb c dash = false | "" => True end%string ->
  match (a ++ s)%string with String c _ => Ascii.eqb c dash = false | "" => True end%string.
Proof. destruct a; [congruence|]. intros _ H. exact H. Qed.

Lemma hexn_ne n s : hexn (S n) s -> s <> ""%string.
Proof. intros [H _] ->. discriminate. Qed.

Lemma canonical_no_dd t : uuid_canonical t -> no_dd t = true.
Proof.
  intros (a & b & c & d & e & Ha & Hb & Hc & Hd & He & ->).
  pose proof (hexn_ne _ _ Ha). pose proof (hexn_ne _ _ Hb). pose proof (hexn_ne _ _ Hc).
  pose proof (hexn_ne _ _ Hd). pose proof (hexn_ne _ _ He).
  destruct Ha as [_ Ha], Hb as [_ Hb], Hc as [_ Hc], Hd as [_ Hd], He as [_ He].
  repeat (apply hex_dash_no_dd; [assumption|assumption| |apply app_head; [assumption|now apply all_hex_head]] ||
          (apply hex_dash_no_dd; [assumption|assumption| |now apply all_hex_head])).
  now apply all_hex_no_dd.
Qed.

Lemma uuid_string_canonical u : String.length u = 16 -> uuid_canonical (uuid_string u).
Proof.
  intros H. apply canonical_parse_in.
  - rewrite uuid_parse_string by exact H. discriminate.
  - now apply uuid_string_length.
Qed.

Lemma uuid_string_no_dd u : String.length u = 16 -> no_dd (uuid_string u) = true.
Proof. intros H. now apply canonical_no_dd, uuid_string_canonical. Qed.

(* --------------------------------------------------------- identifiers *)
Lemma type_name_ok_spec t :
  type_name_ok t = true <-> t <> ""%string /\ no_dd t = true /\ ends_dash t = false.
Proof.
  unfold type_name_ok. rewrite !andb_true_iff, !negb_true_iff.
  unfold is_empty. rewrite seqb_false. tauto.
Qed.

(** Exact characterisation of HasValidIdentifier *)
Lemma has_valid_identifier_spec id typ :
  has_valid_identifier id typ = true <->
  type_name_ok typ = true /\
  exists u, id = (typ ++ "--" ++ u)%string /\ no_dd u = true /\ uuid_text u.
Proof.
  unfold has_valid_identifier. rewrite type_name_ok_spec. split.
  - destruct (split_dd id) as [|a [|b [|? ?]]] eqn:E; try discriminate.
    apply split_dd_two in E as (Hid & Hna & Hea & Hnb).
    destruct (String.eqb a typ) eqn:Et; [|discriminate].
    apply seqb_true in Et. subst a. cbn [negb].
    destruct (String.eqb typ "") eqn:Ee; [discriminate|].
    apply seqb_false in Ee.
    destruct (uuid_parse b) as [u|] eqn:Eu; [|discriminate]. intros _.
    split; [auto|]. exists b. split; [exact Hid|]. split; [exact Hnb|].
    apply uuid_parse_spec. now exists u.
  - intros ((Hne & Hn & He) & u & -> & Hu & Ht).
    assert (Es : split_dd (typ ++ "--" ++ u)%string = [typ; u]).
    { apply split_dd_two. auto. }
    rewrite Es, eqb_refl. cbn [negb].
    apply seqb_false in Hne. rewrite Hne.
    apply uuid_parse_spec in Ht as [x ->]. reflexivity.
Qed.

(** Exact characterisation of IsValidIdentifier (the type part is unchecked) *)
Lemma is_valid_identifier_spec id :
  is_valid_identifier id = true <->
  exists t u, id = (t ++ "--" ++ u)%string /\ no_dd t = true /\ ends_dash t = false /\
              no_dd u = true /\ uuid_text u.
Proof.
  unfold is_valid_identifier. split.
  - destruct (split_dd id) as [|a [|b [|? ?]]] eqn:E; try discriminate.
    apply split_dd_two in E as (Hid & Hna & Hea & Hnb).
    destruct (uuid_parse b) as [u|] eqn:Eu; [|discriminate]. intros _.
    exists a, b. repeat (split; [assumption|]). apply uuid_parse_spec. now exists u.
  - intros (t & u & -> & Hn & He & Hu & Ht).
    assert (Es : split_dd (t ++ "--" ++ u)%string = [t; u]) by (apply split_dd_two; auto).
    rewrite Es. apply uuid_parse_spec in Ht as [x ->]. reflexivity.
Qed.

Lemma valid_id_unique_type id t1 t2 :
  has_valid_identifier id t1 = true -> has_valid_identifier id t2 = true -> t1 = t2.
Proof.
  unfold has_valid_identifier.
  destruct (split_dd id) as [|a [|b [|? ?]]]; try discriminate.
  destruct (String.eqb a t1) eqn:E1; [|discriminate].
  destruct (String.eqb a t2) eqn:E2; [|discriminate].
  apply seqb_true in E1, E2. congruence.
Qed.

Lemma str_set_length n f : forall s, String.length (str_set n f s) = String.length s.
Proof.
  induction n as [|n IH]; intros [|c s]; cbn; auto.
Qed.

Lemma stamp_length v u : String.length (stamp v u) = String.length u.
Proof. unfold stamp. now rewrite !str_set_length. Qed.

Lemma sha1_length s : String.length (sha1 s) = 20.
Proof.
  unfold sha1. rewrite length_of_bytes, map_length. unfold sha1_bytes.
  rewrite !app_length. reflexivity.
Qed.

Lemma uuid_v5_length ns d : String.length (uuid_v5 ns d) = 16.
Proof.
  unfold uuid_v5. rewrite stamp_length, str_take_length, sha1_length. reflexivity.
Qed.

Lemma stamp_version v u :
  String.length u = 16 -> (v < 16)%N -> uuid_version (stamp v u) = v.
Proof.
  intros H Hv. do 16 (destruct u as [|? u]; [discriminate|]).
  unfold uuid_version, nth_byte, stamp. cbn [str_set String.get].
  unfold set_version. rewrite N_ascii_embedding.
  - rewrite N.add_comm, N.mul_comm, N.div_add_l by discriminate.
    rewrite N.div_small; [lia|]. apply N.mod_lt. discriminate.
  - pose proof (N.mod_lt (N_of_ascii a5) 16 ltac:(discriminate)). lia.
Qed.

Lemma stamp_variant v u : String.length u = 16 -> uuid_variant (stamp v u) = 2%N.
Proof.
  intros H. do 16 (destruct u as [|? u]; [discriminate|]).
  unfold uuid_variant, nth_byte, stamp. cbn [str_set String.get].
  unfold set_variant.
  assert (Hm : forall c, (N_of_ascii c mod 64 < 64)%N) by (intros c; apply N.mod_lt; discriminate).
  rewrite N_ascii_embedding by (match goal with |- (N_of_ascii ?c mod 64 + _ < _)%N => pose proof (Hm c); lia end).
  replace 128%N with (2 * 64)%N by reflexivity.
  rewrite N.div_add by discriminate. rewrite N.div_small by apply Hm. reflexivity.
Qed.

Lemma id_of_uuid_valid t u :
  type_name_ok t = true -> String.length u = 16 ->
  has_valid_identifier (t ++ "--" ++ uuid_string u) t = true.
Proof.
  intros Ht Hu. apply has_valid_identifier_spec. split; [exact Ht|].
  exists (uuid_string u). split; [reflexivity|].
  split; [now apply uuid_string_no_dd | now apply UT_canonical, uuid_string_canonical].
Qed.

Lemma has_valid_is_valid id t : has_valid_identifier id t = true -> is_valid_identifier id = true.
Proof.
  rewrite has_valid_identifier_spec, is_valid_identifier_spec, type_name_ok_spec.
  intros ((H1 & H2 & H3) & u & -> & Hu & Ht). now exists t, u.
Qed.

Lemma new_identifier_valid r t :
  String.length r = 16 -> type_name_ok t = true ->
  has_valid_identifier (new_identifier r t) t = true.
Proof. intros Hr Ht. apply id_of_uuid_valid; [exact Ht|]. unfold uuid_v4. now rewrite stamp_length. Qed.

Lemma new_observable_identifier_valid v t :
  type_name_ok t = true ->
  has_valid_identifier (new_observable_identifier v t) t = true.
Proof. intros Ht. apply id_of_uuid_valid; [exact Ht|]. apply uuid_v5_length. Qed.

(** A bad type name can never be repaired by the UUID part. *)
Lemma new_identifier_needs_ok r t :
  has_valid_identifier (new_identifier r t) t = true -> type_name_ok t = true.
Proof. rewrite has_valid_identifier_spec. tauto. Qed.

(** Two different byte strings that the UUIDv5 construction maps to the same UUID. *)
Definition uuid5_collision (v v' : string) : Prop :=
  v <> v' /\ uuid_v5 cyber_observable_namespace v = uuid_v5 cyber_observable_namespace v'.

Lemma observable_id_inj v v' t :
  new_observable_identifier v t = new_observable_identifier v' t ->
  v = v' \/ uuid5_collision v v'.
Proof.
  unfold new_observable_identifier. intros H.
  apply sapp_inj_l in H. apply sapp_inj_l in H.
  apply uuid_string_inj in H; try apply uuid_v5_length.
  destruct (String.string_dec v v') as [E|E]; [now left | right; now split].
Qed.

(* ---------------------------------------------------------- ForType *)
Lemma for_type_spec id t : for_type id t = true <-> exists r, id = (t ++ r)%string.
Proof. apply has_prefix_spec. Qed.

Lemma for_types_spec id ts : for_types id ts = true <-> exists t, In t ts /\ for_type id t = true.
Proof.
  induction ts as [|t ts IH]; cbn; [split; [discriminate | intros (? & [] & _)]|].
  destruct (for_type id t) eqn:E.
  - split; [intros _; exists t; auto | reflexivity].
  - rewrite IH. split.
    + intros (x & Hx & Hf). exists x; auto.
    + intros (x & [<-|Hx] & Hf); [congruence | exists x; auto].
Qed.

Lemma has_prefix_app_dd_dec t ty :
  forall u, has_prefix t (ty ++ "--" ++ u)%string =
  (if Nat.leb (String.length t) (String.length ty) then has_prefix t ty
   else has_prefix t (ty ++ "--" ++ u)%string).
Proof.
  revert ty; induction t as [|c t IH]; intros ty u; [reflexivity|].
  destruct ty as [|c' ty]; [reflexivity|].
  cbn [append String.length Nat.leb has_prefix].
  specialize (IH ty u). cbn [append] in IH.
  destruct (Nat.leb (String.length t) (String.length ty)); [now rewrite IH | reflexivity].
Qed.

Lemma has_prefix_app_inv t : forall a u,
  has_prefix t (a ++ u) = true -> has_prefix t a = true \/ has_prefix a t = true.
Proof.
  induction t as [|c t IH]; intros a u H; [now left|].
  destruct a as [|c' a]; [now right|].
  cbn [append has_prefix] in *. apply andb_true_iff in H as [H1 H2].
  apply Ascii.eqb_eq in H1. subst c'. rewrite Ascii.eqb_refl. cbn [andb].
  exact (IH a u H2).
Qed.

Lemma no_dd_dd a r : no_dd (a ++ "--" ++ r)%string = false.
Proof.
  induction a as [|c a IH]; [reflexivity|]. cbn [append]. rewrite no_dd_cons.
  destruct a as [|c' a]; cbn [append] in *.
  - rewrite IH. apply andb_false_r.
  - rewrite IH. apply andb_false_r.
Qed.

Lemma ends_dash_snoc a : ends_dash (a ++ "-")%string = true.
Proof.
  induction a as [|c a IH]; [reflexivity|]. cbn [append]. rewrite ends_dash_cons.
  destruct a as [|c' a]; [reflexivity|]. cbn [append] in *. exact IH.
Qed.

(** ForType on "ty--u" tests whether the given type is a prefix of ty. *)
Lemma for_type_prefix ty t u :
  type_name_ok t = true -> for_type (ty ++ "--" ++ u) t = has_prefix t ty.
Proof.
  intros Ht. apply type_name_ok_spec in Ht as (_ & Hn & He).
  apply eq_true_iff_eq. unfold for_type. split.
  - intros H. destruct (has_prefix_app_inv t ty ("--" ++ u) H) as [H1|H1]; [exact H1|].
    apply has_prefix_spec in H1 as [r ->].
    apply has_prefix_spec in H as [r' H]. rewrite !sapp_assoc in H.
    apply sapp_inj_l in H.
    destruct r as [|c r].
    + rewrite sapp_nil_r. apply has_prefix_spec. exists ""%string. now rewrite sapp_nil_r.
    + cbn [append] in H. injection H as <- H.
      destruct r as [|c r].
      * change (ty ++ String "-" "")%string with (ty ++ "-")%string in He.
        now rewrite ends_dash_snoc in He.
      * injection H as <- H.
        change (ty ++ String "-" (String "-" r))%string with (ty ++ "--" ++ r)%string in Hn.
        now rewrite no_dd_dd in Hn.
  - intros H. apply has_prefix_spec in H as [r ->]. apply has_prefix_spec.
    exists (r ++ "--" ++ u)%string. now rewrite sapp_assoc.
Qed.

Lemma builtin_prefix_dec :
  forallb (fun ty => forallb (fun t =>
    Bool.eqb (has_prefix t ty)
      (String.eqb t ty || (String.eqb t TypeMalware && String.eqb ty TypeMalwareAnalysis))) AllTypes) AllTypes = true.
Proof. vm_compute. reflexivity. Qed.

Lemma builtin_types_ok : forallb type_name_ok AllTypes = true.
Proof. vm_compute. reflexivity. Qed.

Lemma builtin_type_ok t : In t AllTypes -> type_name_ok t = true.
Proof. intros H. assert (B := builtin_types_ok). rewrite forallb_forall in B. now apply B. Qed.

Lemma for_type_builtin ty t u :
  In ty AllTypes -> In t AllTypes ->
  (for_type (ty ++ "--" ++ u) t = true <->
   t = ty \/ (t = TypeMalware /\ ty = TypeMalwareAnalysis)).
Proof.
  intros Hty Ht. rewrite for_type_prefix by now apply builtin_type_ok.
  assert (D := builtin_prefix_dec). rewrite forallb_forall in D.
  specialize (D _ Hty). rewrite forallb_forall in D. specialize (D _ Ht).
  apply Bool.eqb_prop in D. rewrite D, orb_true_iff, andb_true_iff, !seqb_true. tauto.
Qed.

Lemma new_identifier_v4 r t :
  String.length r = 16 ->
  (type_name_ok t = true <-> has_valid_identifier (new_identifier r t) t = true) /\
  (type_name_ok t = true -> is_valid_identifier (new_identifier r t) = true) /\
  (exists u, new_identifier r t = (t ++ "--" ++ uuid_string u)%string /\
             uuid_parse (uuid_string u) = Some u /\ uuid_canonical (uuid_string u) /\
             uuid_version u = 4%N /\ uuid_variant u = 2%N).
Proof.
  intros Hr. assert (Hl : String.length (uuid_v4 r) = 16) by (unfold uuid_v4; now rewrite stamp_length).
  split; [|split].
  - split; [now apply new_identifier_valid | apply new_identifier_needs_ok].
  - intros Ht. eapply has_valid_is_valid. now apply new_identifier_valid.
  - exists (uuid_v4 r). split; [reflexivity|]. split; [now apply uuid_parse_string|].
    split; [now apply uuid_string_canonical|].
    split; [now apply stamp_version | now apply stamp_variant].
Qed.

Lemma new_identifier_builtin_valid r t :
  String.length r = 16 -> In t AllTypes -> has_valid_identifier (new_identifier r t) t = true.
Proof. intros Hr Ht. apply new_identifier_valid; [exact Hr | now apply builtin_type_ok]. Qed.

(** The type part can be read off an identifier. *)
Lemma id_parts_inj t t' u u' :
  type_name_ok t = true -> type_name_ok t' = true ->
  no_dd u = true -> no_dd u' = true ->
  (t ++ "--" ++ u)%string = (t' ++ "--" ++ u')%string -> t = t' /\ u = u'.
Proof.
  rewrite !type_name_ok_spec. intros (_ & H1 & H2) (_ & H3 & H4) Hu Hu' H.
  assert (E : split_dd (t ++ "--" ++ u)%string = [t; u]) by (apply split_dd_two; auto).
  assert (E' : split_dd (t' ++ "--" ++ u')%string = [t'; u']) by (apply split_dd_two; auto).
  rewrite H in E. rewrite E in E'. now injection E' as -> ->.
Qed.

Lemma new_identifier_inj r r' t t' :
  String.length r = 16 -> String.length r' = 16 ->
  type_name_ok t = true -> type_name_ok t' = true ->
  new_identifier r t = new_identifier r' t' -> t = t' /\ uuid_v4 r = uuid_v4 r'.
Proof.
  intros Hr Hr' Ht Ht' H. unfold new_identifier in H.
  assert (Hl : String.length (uuid_v4 r) = 16) by (unfold uuid_v4; now rewrite stamp_length).
  assert (Hl' : String.length (uuid_v4 r') = 16) by (unfold uuid_v4; now rewrite stamp_length).
  apply id_parts_inj in H as [-> H]; try assumption; try now apply uuid_string_no_dd.
  split; [reflexivity | now apply uuid_string_inj].
Qed.

Lemma observable_id_inj2 v v' t t' :
  type_name_ok t = true -> type_name_ok t' = true ->
  new_observable_identifier v t = new_observable_identifier v' t' ->
  t = t' /\ (v = v' \/ uuid5_collision v v').
Proof.
  intros Ht Ht' H. assert (H' := H). unfold new_observable_identifier in H.
  apply id_parts_inj in H as [-> _]; try assumption; try (apply uuid_string_no_dd, uuid_v5_length).
  split; [reflexivity | eapply observable_id_inj; eassumption].
Qed.

Lemma new_observable_identifier_v5 v t :
  (type_name_ok t = true <-> has_valid_identifier (new_observable_identifier v t) t = true) /\
  (exists u, new_observable_identifier v t = (t ++ "--" ++ uuid_string u)%string /\
             uuid_parse (uuid_string u) = Some u /\ uuid_canonical (uuid_string u) /\
             uuid_version u = 5%N /\ uuid_variant u = 2%N /\
             u = stamp 5 (str_take 16 (sha1 (cyber_observable_namespace ++ v)%string))).
Proof.
  split.
  - split; [apply new_observable_identifier_valid | rewrite has_valid_identifier_spec; tauto].
  - exists (uuid_v5 cyber_observable_namespace v).
    assert (Hl := uuid_v5_length cyber_observable_namespace v).
    assert (Hs : String.length (str_take 16 (sha1 (cyber_observable_namespace ++ v)%string)) = 16)
      by (rewrite str_take_length, sha1_length; reflexivity).
    split; [reflexivity|]. split; [now apply uuid_parse_string|].
    split; [now apply uuid_string_canonical|].
    split; [now apply stamp_version|]. split; [now apply stamp_variant | reflexivity].
Qed.

Lemma for_type_exact_refuted_w : exists id t ty,
  has_valid_identifier id ty = true /\ type_name_ok t = true /\ t <> ty /\ for_type id t = true.
Proof.
  exists "malware-analysis--8e2e2d2b-17d4-4cbf-938f-98ee46b3cd3f"%string, TypeMalware, TypeMalwareAnalysis.
  split; [vm_compute; reflexivity|]. split; [reflexivity|]. split; [discriminate | reflexivity].
Qed.

Lemma for_type_exact_partial_w ty t u :
  type_name_ok t = true ->
  (for_type (ty ++ "--" ++ u) t = true <-> exists r, ty = (t ++ r)%string).
Proof. intros Ht. rewrite for_type_prefix by exact Ht. apply has_prefix_spec. Qed.

Lemma for_types_exact_partial_w ty ts u :
  (forall t, In t ts -> type_name_ok t = true) ->
  (for_types (ty ++ "--" ++ u) ts = true <-> exists t r, In t ts /\ ty = (t ++ r)%string).
Proof.
  intros Hts. rewrite for_types_spec. split.
  - intros (t & Ht & Hf). apply for_type_exact_partial_w in Hf as [r ->]; [|auto]. now exists t, r.
  - intros (t & r & Ht & ->). exists t. split; [exact Ht|].
    apply for_type_exact_partial_w; [auto | now exists r].
Qed.
