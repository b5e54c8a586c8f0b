(** Lemmas on member names: fold_key is folding. *)
From Verif Require Import GoStr GoStrFacts JsonStr JsonStrFacts Json Float GoTypes Schema GoVal StrSpec StrSpecFacts Codec CodecSpec CodecFacts CodecRound StructFacts ReadSpec NameSpec.
From Coq Require Import Lia.
Local Open Scope N_scope.

Lemma lower_folds a : code a < 128 -> folds_to (code a) (code (lower a)).
Proof.
  intros H. unfold lower. change (bt a) with (code a). destruct (N.leb_spec 65 (code a)); destruct (N.leb_spec (code a) 90); cbn [andb]; unfold folds_to; [right; left|left|left|left]; try (split; [reflexivity|lia]).
  split; [lia|]. apply code_ch. lia.
Qed.
Lemma lower_high a : 128 <= code a -> lower a = a.
Proof. intros H. unfold lower. change (bt a) with (code a). destruct (N.leb_spec (code a) 90); [lia|]. now rewrite andb_false_r. Qed.
Lemma folds_fun n m m' : folds_to n m -> folds_to n m' -> m < 128 -> m' < 128 -> m = m'.
Proof. unfold folds_to. lia. Qed.
Lemma fold_low a s : code a < 128 -> fold_key (String a s) = String (lower a) (fold_key s).
Proof.
  intros H. cbn [fold_key]. change (bt a) with (code a). destruct s as [|b [|c s]]; [reflexivity| |];
  (destruct (N.eqb_spec (code a) 197); [lia|]); cbn [andb]; [reflexivity|]. destruct (N.eqb_spec (code a) 226); [lia|]. reflexivity.
Qed.
Lemma fold_high a s : 128 <= code a -> (exists x, fold_key (String a s) = String a x) \/
  (exists b r, code a = 197 /\ code b = 191 /\ s = String b r /\ fold_key (String a s) = String "s" (fold_key r)) \/
  (exists b c r, code a = 226 /\ code b = 132 /\ code c = 170 /\ s = String b (String c r) /\ fold_key (String a s) = String "k" (fold_key r)).
Proof.
  intros H. cbn [fold_key]. change (bt a) with (code a). rewrite (lower_high a H). destruct s as [|b s]; [left; eauto|]. change (bt b) with (code b).
  destruct (N.eqb_spec (code a) 197) as [A|A]; [destruct (N.eqb_spec (code b) 191) as [B|B]|]; cbn [andb].
  - right; left. exists b, s. auto.
  - destruct s as [|c s]; [left; eauto|]. destruct (N.eqb_spec (code a) 226); [lia|]. cbn [andb]. left; eauto.
  - destruct s as [|c s]; [left; eauto|]. change (bt c) with (code c). destruct (N.eqb_spec (code a) 226) as [A'|A']; [destruct (N.eqb_spec (code b) 132) as [B|B]; [destruct (N.eqb_spec (code c) 170) as [C|C]|]|]; cbn [andb]; eauto.
    right; right. exists b, c, s. auto.
Qed.
Lemma lower_ascii_cons c f : lower_ascii (String c f) <-> (code c < 128 /\ ~ (65 <= code c <= 90)) /\ lower_ascii f.
Proof.
  unfold lower_ascii. cbn [list_ascii_of_string In]. split.
  - intros H. split; [apply H; auto|intros d D; apply H; auto].
  - intros [H H'] d [<-|D]; auto.
Qed.
Lemma fold_chars k l : byte_chars k l -> forall f, lower_ascii f -> (fold_key k = f <-> Forall2 folds_to l (map code (list_ascii_of_string f))).
Proof.
  induction 1 as [|w n s l W B IH|a s l NC B IH]; intros f F.
  - cbn. split; [intros <-; constructor|]. intros H. inversion H as [E|]. destruct f; [reflexivity|discriminate].
  - assert (S : forall c, fold_key (w ++ s) = String c (fold_key s) -> code c < 128 -> ~ (65 <= code c <= 90) -> folds_to n (code c) ->
      (fold_key (w ++ s) = f <-> Forall2 folds_to (n :: l) (map code (list_ascii_of_string f)))).
    { intros c E C1 C2 C3. rewrite E. destruct f as [|c' f]; [split; [discriminate|intros H; inversion H]|]. apply lower_ascii_cons in F as [[F1 F2] F]. cbn [list_ascii_of_string map]. split.
      - intros H. injection H as <- H. constructor; [exact C3|]. now apply IH.
      - intros H. inversion H; subst. f_equal; [apply code_inj; eapply folds_fun; eauto|now apply IH]. }
    assert (Hh : forall a r, (w ++ s)%string = String a r -> (exists x, fold_key (w ++ s) = String a x) -> 128 <= code a -> 128 <= n -> n <> 383 -> n <> 8490 ->
      (fold_key (w ++ s) = f <-> Forall2 folds_to (n :: l) (map code (list_ascii_of_string f)))).
    { intros a r E (x & Ex) Ha Hn N1 N2. rewrite Ex. split.
      - intros <-. apply lower_ascii_cons in F as [[F1 _] _]. lia.
      - intros H. destruct f as [|c' f]; [inversion H|]. apply lower_ascii_cons in F as [[F1 F2] F]. cbn [list_ascii_of_string map] in H. inversion H as [|? ? ? ? X _]; subst. unfold folds_to in X. lia. }
    destruct W as [a A|a b x y n A Hb X Y N G|a b c x y z n A Hb C X Y Z N G SN|a b c d x y z w n A Hb C D X Y Z W N G]; cbn [append] in *.
    + apply (S (lower a)); [now apply fold_low| | |now apply lower_folds].
      * assert (L := lower_folds a A). unfold folds_to in L. lia.
      * assert (L := lower_folds a A). unfold folds_to in L. lia.
    + destruct (fold_high a (String b s)) as [Ex|[(b' & r & A' & B' & E & K)|(b' & c' & r & A' & _)]]; [lia| | |lia].
      * destruct (N.eq_dec n 383) as [Hn|Hn]; [|eapply Hh; eauto; lia]. exfalso. assert (code a = 197 /\ code b = 191) as [A1 B1] by lia.
        destruct Ex as (v & Ex). cbn [fold_key] in Ex. change (bt a) with (code a) in Ex. change (bt b) with (code b) in Ex. rewrite A1, B1 in Ex. cbn [N.eqb Pos.eqb andb] in Ex. injection Ex as <- _. discriminate A1.
      * injection E as <- <-. apply (S "s"%char); [exact K|reflexivity|vm_compute; intuition discriminate|]. right; right; right. split; [lia|reflexivity].
    + destruct (fold_high a (String b (String c s))) as [Ex|[(b' & r & A' & _)|(b' & c' & r & A' & B' & C' & E & K)]]; [lia| |lia|].
      * destruct (N.eq_dec n 8490) as [Hn|Hn]; [|eapply Hh; eauto; lia]. exfalso. assert (code a = 226 /\ code b = 132 /\ code c = 170) as (A1 & B1 & C1) by lia.
        destruct Ex as (v & Ex). cbn [fold_key] in Ex. change (bt a) with (code a) in Ex. change (bt b) with (code b) in Ex. change (bt c) with (code c) in Ex. rewrite A1, B1, C1 in Ex. cbn [N.eqb Pos.eqb andb] in Ex. injection Ex as <- _. discriminate A1.
      * injection E as <- <- <-. apply (S "k"%char); [exact K|reflexivity|vm_compute; intuition discriminate|]. right; right; left. split; [lia|reflexivity].
    + destruct (fold_high a (String b (String c (String d s)))) as [Ex|[(b' & r & A' & _)|(b' & c' & r & A' & _)]]; [lia| |lia|lia]. eapply Hh; eauto; lia.
  - assert (Ha : 128 <= code a). { destruct (N.ltb_spec (code a) 128) as [L|L]; [|exact L]. exfalso. now apply (NC (String a "") (code a) s); [apply u8_1|]. }
    destruct (fold_high a s Ha) as [(x & ->)|[(b & r & A & C & -> & _)|(b & c & r & A & C & D & -> & _)]].
    + split.
      * intros <-. apply lower_ascii_cons in F as [[F1 _] _]. lia.
      * intros H. destruct f as [|c' f]; [inversion H|]. apply lower_ascii_cons in F as [[F1 F2] F]. cbn [list_ascii_of_string map] in H. inversion H as [|? ? ? ? X _]; subst. unfold folds_to, replacement in X. lia.
    + exfalso. apply (NC (String a (String b "")) 383 r); [|reflexivity]. apply (u8_2 a b 5 63); lia.
    + exfalso. apply (NC (String a (String b (String c ""))) 8490 r); [|reflexivity]. apply (u8_3 a b c 2 4 42); try lia. unfold surrogate. lia.
Qed.
Lemma bytes_ex s : exists l, byte_chars s l.
Proof. destruct (quote_exact s) as (l & H & _). eauto. Qed.
Lemma fold_exact k f : lower_ascii f -> (fold_key k = f <-> spells k f).
Proof.
  intros F. destruct (bytes_ex k) as (l & B). rewrite (fold_chars k l B f F). split.
  - intros H. exists l. auto.
  - intros (l' & B' & H). now rewrite (bytes_fun _ _ _ B B').
Qed.
Lemma fold_ascii f : lower_ascii f -> fold_key f = f.
Proof.
  induction f as [|c f IH]; intros F; [reflexivity|]. apply lower_ascii_cons in F as [[F1 F2] F]. rewrite fold_low by exact F1. rewrite IH by exact F. f_equal.
  unfold lower. change (bt c) with (code c). destruct (N.leb_spec 65 (code c)); destruct (N.leb_spec (code c) 90); cbn [andb]; try reflexivity. lia.
Qed.

(** The property names of all types are lower case ASCII. *)
Definition lower_asciib (f : string) : bool := forallb (fun c => (code c <? 128) && negb ((65 <=? code c) && (code c <=? 90))) (list_ascii_of_string f).
Lemma lower_asciib_spec f : lower_asciib f = true -> lower_ascii f.
Proof.
  unfold lower_asciib, lower_ascii. rewrite forallb_forall. intros H c C. apply H in C. apply andb_true_iff in C as [C1 C2]. apply N.ltb_lt in C1. split; [exact C1|].
  intros [A B]. apply N.leb_le in A, B. rewrite A, B in C2. discriminate.
Qed.
Fixpoint keys_lower (t : gty) : bool :=
  match t with
  | GPtr t | GSlice t | GMap _ _ t => keys_lower t
  | GStruct _ fs => forallb (fun f => lower_asciib (fm_key (fst f)) && keys_lower (snd f)) fs
  | _ => true
  end.
Lemma ext_lower k : keys_lower (ext_ty k) = true.
Proof.
  unfold ext_ty. destruct (alookup k ext_types) as [t|] eqn:E; [|reflexivity].
  apply alookup_Some_In in E. assert (X : forallb (fun kt => keys_lower (snd kt)) ext_types = true) by (vm_compute; reflexivity). rewrite forallb_forall in X. exact (X _ E).
Qed.
Lemma within_lower t t' : within t t' -> keys_lower t = true -> keys_lower t' = true.
Proof.
  induction 1 as [t|t t' _ IH|t t' _ IH|n k t t' _ IH|n fs m t t' Hin _ IH|k t' _ IH]; intros K; auto; cbn [keys_lower] in K; auto.
  - rewrite forallb_forall in K. specialize (K _ Hin). cbn [fst snd] in K. apply andb_true_iff in K as [_ K]. auto.
  - apply IH. apply ext_lower.
Qed.
Lemma flat_lower n fs k p t : keys_lower (GStruct n fs) = true -> In (k, p, t) (flat_fields fs) -> lower_ascii k.
Proof.
  intros K H. apply lower_asciib_spec. cbn [keys_lower] in K. rewrite forallb_forall in K. unfold flat_fields in H. apply in_flat_map in H as ([m t0] & Hin & H).
  specialize (K _ Hin). cbn [fst snd] in K. apply andb_true_iff in K as [K1 K2]. destruct (fm_embed m).
  - destruct t0; try now destruct H. cbn [keys_lower] in K2. rewrite forallb_forall in K2. apply in_flat_map in H as ([m' t'] & Hin' & H).
    destruct (is_empty (fm_key m')); [now destruct H|]. destruct H as [E|[]]. injection E as <- _ _. specialize (K2 _ Hin'). cbn [fst snd] in K2. now apply andb_true_iff in K2.
  - destruct (is_empty (fm_key m)); [now destruct H|]. destruct H as [E|[]]. now injection E as <- _ _.
Qed.
