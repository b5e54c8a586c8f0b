From Verif Require Import GoStr GoStrFacts IdentFacts Base64.
Local Open Scope N_scope.

Lemma N_lt_seq n k : n < k -> In n (map N.of_nat (seq 0 (N.to_nat k))).
Proof.
  intros H. apply in_map_iff. exists (N.to_nat n). split; [apply N2Nat.id|].
  apply in_seq. lia.
Qed.

Lemma b64_char_dec : forallb (fun n =>
  match b64_val (b64_char n) with Some m => (m =? n) | None => false end
  && negb (is_nl (b64_char n)) && negb (Ascii.eqb (b64_char n) pad)
  && negb (Ascii.eqb (b64_char n) "034"%char) && negb (Ascii.eqb (b64_char n) "092"%char)
  && (32 <? N_of_ascii (b64_char n)) && (N_of_ascii (b64_char n) <? 127)
  && negb (Ascii.eqb (b64_char n) "<"%char) && negb (Ascii.eqb (b64_char n) ">"%char)
  && negb (Ascii.eqb (b64_char n) "&"%char))
  (map N.of_nat (seq 0 64)) = true.
Proof. vm_compute. reflexivity. Qed.

Lemma b64_char_props n : n < 64 ->
  b64_val (b64_char n) = Some n /\ is_nl (b64_char n) = false.
Proof.
  intros H. assert (D := b64_char_dec). rewrite forallb_forall in D.
  specialize (D n (N_lt_seq n 64 H)). rewrite !andb_true_iff in D.
  destruct D as [[[[[[[[[D1 D2] _] _] _] _] _] _] _] _].
  destruct (b64_val (b64_char n)) as [m|]; [|discriminate].
  apply N.eqb_eq in D1. subst. split; [reflexivity | now apply negb_true_iff].
Qed.

Lemma ascii_lt c : N_of_ascii c < 256.
Proof. apply N_ascii_bounded. Qed.

Lemma string_ind3 (P : string -> Prop) :
  P "" -> (forall a, P (String a "")) -> (forall a b, P (String a (String b ""))) ->
  (forall a b c s, P s -> P (String a (String b (String c s)))) -> forall s, P s.
Proof.
  intros H0 H1 H2 H3.
  fix IH 1. intros [|a [|b [|c s]]]; [exact H0 | apply H1 | apply H2 | apply H3, IH].
Qed.

Ltac nlia := match goal with
  | |- context [N_of_ascii _] => idtac end; lia.

Lemma div_lt_64 x : x < 256 -> x / 4 < 64.
Proof. intros H. apply N.div_lt_upper_bound; lia. Qed.
Lemma mod4_16 x : x mod 4 * 16 < 64.
Proof. assert (x mod 4 < 4) by (apply N.mod_lt; discriminate). lia. Qed.
Lemma mid1 x y : y < 256 -> x mod 4 * 16 + y / 16 < 64.
Proof.
  intros H. assert (x mod 4 < 4) by (apply N.mod_lt; discriminate).
  assert (y / 16 < 16) by (apply N.div_lt_upper_bound; lia). lia.
Qed.
Lemma mid2 y z : z < 256 -> y mod 16 * 4 + z / 64 < 64.
Proof.
  intros H. assert (y mod 16 < 16) by (apply N.mod_lt; discriminate).
  assert (z / 64 < 4) by (apply N.div_lt_upper_bound; lia). lia.
Qed.
Lemma mid2' y : y mod 16 * 4 < 64.
Proof. assert (y mod 16 < 16) by (apply N.mod_lt; discriminate). lia. Qed.
Lemma mod64 z : z mod 64 < 64.
Proof. apply N.mod_lt. discriminate. Qed.

Lemma strip_encode s : strip_nl (b64_encode s) = b64_encode s.
Proof.
  induction s as [|a|a b|a b c s IH] using string_ind3.
  - reflexivity.
  - cbn [b64_encode strip_nl].
    rewrite (proj2 (b64_char_props _ (div_lt_64 _ (ascii_lt a)))).
    rewrite (proj2 (b64_char_props _ (mod4_16 _))). reflexivity.
  - cbn [b64_encode strip_nl].
    rewrite (proj2 (b64_char_props _ (div_lt_64 _ (ascii_lt a)))).
    rewrite (proj2 (b64_char_props _ (mid1 _ _ (ascii_lt b)))).
    rewrite (proj2 (b64_char_props _ (mid2' _))). reflexivity.
  - cbn [b64_encode strip_nl].
    rewrite (proj2 (b64_char_props _ (div_lt_64 _ (ascii_lt a)))).
    rewrite (proj2 (b64_char_props _ (mid1 _ _ (ascii_lt b)))).
    rewrite (proj2 (b64_char_props _ (mid2 _ _ (ascii_lt c)))).
    rewrite (proj2 (b64_char_props _ (mod64 _))). now rewrite IH.
Qed.

Lemma rebuild1 x y : y < 16 -> x / 4 * 4 + (x mod 4 * 16 + y) / 16 = x.
Proof.
  intros H. rewrite N.add_comm with (n := x mod 4 * 16).
  rewrite N.div_add by discriminate. rewrite (N.div_small y) by exact H.
  rewrite (N.div_mod x 4) at 3 by discriminate. lia.
Qed.
Lemma rebuild1' x : x / 4 * 4 + x mod 4 * 16 / 16 = x.
Proof. rewrite N.div_mul by discriminate. rewrite (N.div_mod x 4) at 3 by discriminate. lia. Qed.
Lemma rebuild2 x y z : z < 4 -> y < 256 ->
  (x mod 4 * 16 + y / 16) mod 16 * 16 + (y mod 16 * 4 + z) / 4 = y.
Proof.
  intros Hz Hy. rewrite (N.add_comm (x mod 4 * 16)), N.mod_add by discriminate.
  assert (y / 16 < 16) by (apply N.div_lt_upper_bound; lia).
  rewrite N.mod_small by assumption.
  rewrite (N.add_comm (y mod 16 * 4)), N.div_add by discriminate. rewrite (N.div_small z) by exact Hz.
  rewrite (N.div_mod y 16) at 3 by discriminate. lia.
Qed.
Lemma rebuild2' x y : y < 256 -> (x mod 4 * 16 + y / 16) mod 16 * 16 + y mod 16 * 4 / 4 = y.
Proof. intros H. assert (R := rebuild2 x y 0). rewrite N.add_0_r in R. apply R; lia. Qed.
Lemma rebuild3 y z : z < 256 -> (y mod 16 * 4 + z / 64) mod 4 * 64 + z mod 64 = z.
Proof.
  intros Hz. rewrite (N.add_comm (y mod 16 * 4)), N.mod_add by discriminate.
  assert (z / 64 < 4) by (apply N.div_lt_upper_bound; lia).
  rewrite N.mod_small by assumption. rewrite (N.div_mod z 64) at 3 by discriminate. lia.
Qed.

(** Decode after encode *)
Lemma b64_roundtrip s : b64_decode (b64_encode s) = Some s.
Proof.
  unfold b64_decode. rewrite strip_encode.
  induction s as [|a|a b|a b c s IH] using string_ind3.
  - reflexivity.
  - cbn [b64_encode b64_quanta].
    rewrite (proj1 (b64_char_props _ (div_lt_64 _ (ascii_lt a)))).
    rewrite (proj1 (b64_char_props _ (mod4_16 _))).
    cbn. rewrite rebuild1', ascii_N_embedding. reflexivity.
  - cbn [b64_encode b64_quanta].
    rewrite (proj1 (b64_char_props _ (div_lt_64 _ (ascii_lt a)))).
    rewrite (proj1 (b64_char_props _ (mid1 _ _ (ascii_lt b)))).
    rewrite (proj1 (b64_char_props _ (mid2' _))).
    cbn [b64_val pad Ascii.eqb is_empty String.eqb andb].
    change (b64_val "=") with (@None N). cbn beta iota.
    replace (Ascii.eqb "=" pad && is_empty "") with true by reflexivity.
    rewrite rebuild1 by (apply N.div_lt_upper_bound; [discriminate | apply ascii_lt]).
    rewrite rebuild2' by apply ascii_lt. now rewrite !ascii_N_embedding.
  - cbn [b64_encode b64_quanta].
    rewrite (proj1 (b64_char_props _ (div_lt_64 _ (ascii_lt a)))).
    rewrite (proj1 (b64_char_props _ (mid1 _ _ (ascii_lt b)))).
    rewrite (proj1 (b64_char_props _ (mid2 _ _ (ascii_lt c)))).
    rewrite (proj1 (b64_char_props _ (mod64 _))). rewrite IH.
    rewrite rebuild1 by (apply N.div_lt_upper_bound; [discriminate | apply ascii_lt]).
    rewrite rebuild2; [|apply N.div_lt_upper_bound; [discriminate | apply ascii_lt] | apply ascii_lt].
    rewrite rebuild3 by apply ascii_lt. now rewrite !ascii_N_embedding.
Qed.

(** Characters of an encoding *)
Definition b64_ok (c : ascii) : Prop := In c (list_ascii_of_string (b64_alphabet ++ "=")).

Lemma b64_char_in n : n < 64 -> b64_ok (b64_char n).
Proof.
  intros H.
  assert (D : forallb (fun n => existsb (Ascii.eqb (b64_char n)) (list_ascii_of_string (b64_alphabet ++ "=")))
    (map N.of_nat (seq 0 64)) = true) by (vm_compute; reflexivity).
  rewrite forallb_forall in D. specialize (D n (N_lt_seq n 64 H)).
  apply existsb_exists in D as (c & Hc & E). apply Ascii.eqb_eq in E. unfold b64_ok. now rewrite E.
Qed.

Lemma b64_encode_chars s : forall c, In c (list_ascii_of_string (b64_encode s)) -> b64_ok c.
Proof.
  assert (P : b64_ok pad) by (unfold b64_ok; vm_compute; tauto).
  induction s as [|a|a b|a b c s IH] using string_ind3; cbn [b64_encode list_ascii_of_string]; intros x Hx.
  - destruct Hx.
  - destruct Hx as [<-|[<-|[<-|[<-|[]]]]]; try exact P.
    + apply b64_char_in, div_lt_64, ascii_lt.
    + apply b64_char_in, mod4_16.
  - destruct Hx as [<-|[<-|[<-|[<-|[]]]]]; try exact P.
    + apply b64_char_in, div_lt_64, ascii_lt.
    + apply b64_char_in, mid1, ascii_lt.
    + apply b64_char_in, mid2'.
  - destruct Hx as [<-|[<-|[<-|[<-|Hx]]]].
    + apply b64_char_in, div_lt_64, ascii_lt.
    + apply b64_char_in, mid1, ascii_lt.
    + apply b64_char_in, mid2, ascii_lt.
    + apply b64_char_in, mod64.
    + now apply IH.
Qed.

Lemma b64_encode_inj s s' : b64_encode s = b64_encode s' -> s = s'.
Proof. intros H. assert (A := b64_roundtrip s). rewrite H, b64_roundtrip in A. congruence. Qed.
