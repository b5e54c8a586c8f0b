(** Lemmas about the helpers of GoStr. *)
From Verif Require Import GoStr.
From Coq Require Import Permutation.

(* ------------------------------------------------------------------ append *)
Lemma sapp_nil_r (s : string) : (s ++ "")%string = s.
Proof. induction s as [|c s IH]; cbn; [reflexivity | now rewrite IH]. Qed.

Lemma sapp_assoc (a b c : string) : ((a ++ b) ++ c)%string = (a ++ b ++ c)%string.
Proof. induction a as [|x a IH]; cbn; [reflexivity | now rewrite IH]. Qed.

Lemma slength_app (a b : string) : String.length (a ++ b) = String.length a + String.length b.
Proof. induction a as [|x a IH]; cbn; [reflexivity | now rewrite IH]. Qed.

Lemma sapp_inj_l (a b c : string) : (a ++ b)%string = (a ++ c)%string -> b = c.
Proof. induction a as [|x a IH]; cbn; intros H; [exact H | apply IH; congruence]. Qed.

Lemma sapp_inj_len (a a' b b' : string) :
  String.length a = String.length a' ->
  (a ++ b)%string = (a' ++ b')%string -> a = a' /\ b = b'.
Proof.
  revert a'; induction a as [|x a IH]; intros [|x' a'] HL H; cbn in *; try discriminate.
  - split; [reflexivity | exact H].
  - injection H as H1 H2. injection HL as HL.
    destruct (IH a' HL H2) as [-> ->]. subst. split; reflexivity.
Qed.

Lemma sapp_inj_r (a b c : string) : (a ++ c)%string = (b ++ c)%string -> a = b.
Proof.
  intros H.
  assert (HL : String.length a = String.length b).
  { apply (f_equal String.length) in H. rewrite !slength_app in H. lia. }
  destruct (sapp_inj_len _ _ _ _ HL H) as [-> _]. reflexivity.
Qed.

Lemma eqb_refl (s : string) : String.eqb s s = true.
Proof. apply String.eqb_refl. Qed.

Lemma seqb_true (a b : string) : String.eqb a b = true <-> a = b.
Proof. apply String.eqb_eq. Qed.

Lemma seqb_false (a b : string) : String.eqb a b = false <-> a <> b.
Proof. apply String.eqb_neq. Qed.

Lemma is_empty_true s : is_empty s = true <-> s = "".
Proof. unfold is_empty. apply seqb_true. Qed.

Lemma mem_str_In s l : mem_str s l = true <-> In s l.
Proof.
  induction l as [|x l IH]; cbn; [split; [discriminate | tauto]|].
  rewrite orb_true_iff, seqb_true, IH. split; intros [H|H]; subst; auto.
Qed.

(* ------------------------------------------------------------------ prefix *)
Lemma has_prefix_spec p s : has_prefix p s = true <-> exists r, s = (p ++ r)%string.
Proof.
  revert s; induction p as [|a p IH]; intros s; cbn.
  - split; [intros _; now exists s | reflexivity].
  - destruct s as [|b s]; [split; [discriminate | intros [r Hr]; discriminate]|].
    rewrite andb_true_iff, IH, Ascii.eqb_eq. split.
    + intros [-> [r ->]]. now exists r.
    + intros [r Hr]. injection Hr as -> ->. split; [reflexivity | now exists r].
Qed.

(* ------------------------------------------------------------------- split *)
Lemma split_dd_nonempty s : split_dd s <> [].
Proof.
  destruct s as [|c s]; cbn; [discriminate|].
  destruct s as [|c' s].
  - cbn. discriminate.
  - destruct (Ascii.eqb c dash && Ascii.eqb c' dash); [discriminate|].
    unfold cons_head. destruct (split_dd (String c' s)); discriminate.
Qed.

Lemma cons_head_join c l :
  l <> [] -> join dd (cons_head c l) = String c (join dd l).
Proof.
  destruct l as [|h t]; [congruence|]. intros _.
  destruct t as [|h2 t]; reflexivity.
Qed.

(** strings.Join(strings.Split(s,"--"),"--") = s *)
Lemma split_dd_unfold c s :
  split_dd (String c s) =
  match s with
  | String c' s'' =>
      if Ascii.eqb c dash && Ascii.eqb c' dash
      then EmptyString :: split_dd s''
      else cons_head c (split_dd s)
  | EmptyString => cons_head c (split_dd s)
  end.
Proof. reflexivity. Qed.

Lemma string_ind2 (P : string -> Prop) :
  P EmptyString ->
  (forall c, P (String c EmptyString)) ->
  (forall c c' s, P s -> P (String c' s) -> P (String c (String c' s))) ->
  forall s, P s.
Proof.
  intros H0 H1 H2 s.
  assert (H : P s /\ forall c, P (String c s)).
  { induction s as [|c s [IH1 IH2]].
    - split; [exact H0 | exact H1].
    - split; [apply IH2 | intros c'; apply H2; [exact IH1 | apply IH2]]. }
  apply H.
Qed.

Lemma join_split s : join dd (split_dd s) = s.
Proof.
  induction s as [|c|c c' s IH1 IH2] using string_ind2.
  - reflexivity.
  - reflexivity.
  - rewrite split_dd_unfold.
    destruct (Ascii.eqb c dash && Ascii.eqb c' dash) eqn:E.
    + apply andb_true_iff in E as [E1 E2].
      apply Ascii.eqb_eq in E1, E2. subst.
      assert (Hj : join dd ("" :: split_dd s) = ("" ++ dd ++ join dd (split_dd s))%string).
      { destruct (split_dd s) eqn:Es; [now apply split_dd_nonempty in Es | reflexivity]. }
      rewrite Hj, IH1. reflexivity.
    + rewrite cons_head_join by apply split_dd_nonempty. now rewrite IH2.
Qed.

(** no occurrence of "--" *)
Fixpoint no_dd (s : string) : bool :=
  match s with
  | EmptyString => true
  | String c s' =>
      match s' with
      | String c' _ => negb (Ascii.eqb c dash && Ascii.eqb c' dash) && no_dd s'
      | EmptyString => true
      end
  end.

Fixpoint ends_dash (s : string) : bool :=
  match s with
  | EmptyString => false
  | String c EmptyString => Ascii.eqb c dash
  | String _ s' => ends_dash s'
  end.

Lemma no_dd_cons c s :
  no_dd (String c s) =
  match s with
  | String c' _ => negb (Ascii.eqb c dash && Ascii.eqb c' dash) && no_dd s
  | EmptyString => true
  end.
Proof. reflexivity. Qed.

Lemma ends_dash_cons c s :
  ends_dash (String c s) = match s with EmptyString => Ascii.eqb c dash | _ => ends_dash s end.
Proof. reflexivity. Qed.

Lemma split_dd_single s : split_dd s = [s] <-> no_dd s = true.
Proof.
  induction s as [|c|c c' s IH1 IH2] using string_ind2.
  - cbn. tauto.
  - cbn. tauto.
  - rewrite split_dd_unfold, no_dd_cons.
    destruct (Ascii.eqb c dash && Ascii.eqb c' dash) eqn:E; cbn [negb andb].
    + split; [|discriminate]. intros H.
      destruct (split_dd s) eqn:Es; [now apply split_dd_nonempty in Es | discriminate].
    + rewrite <- IH2. unfold cons_head.
      destruct (split_dd (String c' s)) as [|h t] eqn:Es.
      * now apply split_dd_nonempty in Es.
      * split; intros H; injection H as -> ->; reflexivity.
Qed.

Lemma split_dd_app a b :
  no_dd a = true -> ends_dash a = false ->
  split_dd (a ++ dd ++ b)%string = a :: split_dd b.
Proof.
  induction a as [|c a IH]; intros Hn He.
  - cbn. reflexivity.
  - change (String c a ++ dd ++ b)%string with (String c (a ++ dd ++ b)%string).
    rewrite split_dd_unfold.
    destruct a as [|c' a].
    + cbn [append]. cbn in He.
      cbn -[split_dd]. rewrite He. cbn [andb].
      change (String "-" (String "-" b)) with ("" ++ dd ++ b)%string.
      rewrite IH by reflexivity. reflexivity.
    + rewrite no_dd_cons in Hn. apply andb_true_iff in Hn as [Hn1 Hn2].
      apply negb_true_iff in Hn1.
      rewrite ends_dash_cons in He.
      cbn [append]. rewrite Hn1.
      change (String c' (a ++ dd ++ b)%string) with (String c' a ++ dd ++ b)%string.
      rewrite IH by assumption. reflexivity.
Qed.

(** exact characterisation of a two part split *)
Lemma split_dd_two s a b :
  split_dd s = [a; b] <->
  s = (a ++ dd ++ b)%string /\ no_dd a = true /\ ends_dash a = false /\ no_dd b = true.
Proof.
  split.
  - intros H. assert (Hs := join_split s). rewrite H in Hs. cbn in Hs.
    split; [symmetry; exact Hs|]. clear Hs.
    revert a b H. induction s as [|c|c c' s IH1 IH2] using string_ind2; intros a b H.
    + discriminate.
    + discriminate.
    + rewrite split_dd_unfold in H.
      destruct (Ascii.eqb c dash && Ascii.eqb c' dash) eqn:E.
      * injection H as <- H.
        assert (Hb : s = b) by (rewrite <- (join_split s), H; reflexivity).
        subst b. apply split_dd_single in H. rewrite H. cbn. auto.
      * unfold cons_head in H.
        destruct (split_dd (String c' s)) as [|h t] eqn:Es; [discriminate|].
        injection H as <- ->.
        destruct (IH2 _ _ eq_refl) as (H1 & H2 & H3).
        rewrite no_dd_cons, ends_dash_cons.
        destruct h as [|x h].
        -- repeat split; auto.
           (* h empty: c' = '-' *)
           rewrite split_dd_unfold in Es. destruct s as [|x s].
           { cbn in Es. discriminate. }
           destruct (Ascii.eqb c' dash && Ascii.eqb x dash) eqn:E2.
           ++ apply andb_true_iff in E2 as [E2 _]. rewrite E2, andb_true_r in E. exact E.
           ++ unfold cons_head in Es. destruct (split_dd (String x s)); discriminate.
        -- rewrite H1, H2, andb_true_r. repeat split; auto.
           assert (Hx : x = c').
           { assert (Hj := join_split (String c' s)). rewrite Es in Hj. cbn in Hj.
             injection Hj as Hj _. exact Hj. }
           subst x. now rewrite E.
  - intros (-> & Ha & He & Hb).
    rewrite split_dd_app by assumption.
    apply split_dd_single in Hb. now rewrite Hb.
Qed.

(* ------------------------------------------------------------------- maps *)
Lemma alookup_ainsert_same {A} k (v : A) m : alookup k (ainsert k v m) = Some v.
Proof.
  induction m as [|[k' v'] m IH]; cbn.
  - now rewrite eqb_refl.
  - destruct (String.eqb k k') eqn:E; cbn; rewrite ?eqb_refl, ?E; auto.
Qed.

Lemma alookup_ainsert_other {A} k k' (v : A) m :
  k <> k' -> alookup k (ainsert k' v m) = alookup k m.
Proof.
  intros Hk. induction m as [|[k2 v2] m IH]; cbn.
  - apply seqb_false in Hk. now rewrite Hk.
  - destruct (String.eqb k' k2) eqn:E; cbn.
    + apply seqb_true in E. subst k2.
      apply seqb_false in Hk. now rewrite Hk.
    + now rewrite IH.
Qed.

Lemma alookup_ainsert {A} k k' (v : A) m :
  alookup k (ainsert k' v m) = if String.eqb k k' then Some v else alookup k m.
Proof.
  destruct (String.eqb k k') eqn:E.
  - apply seqb_true in E. subst. apply alookup_ainsert_same.
  - apply alookup_ainsert_other. now apply seqb_false.
Qed.

Lemma alookup_None {A} k (m : list (string * A)) : alookup k m = None <-> ~ In k (akeys m).
Proof.
  induction m as [|[k' v] m IH]; cbn; [tauto|].
  destruct (String.eqb k k') eqn:E.
  - apply seqb_true in E. subst. split; [discriminate | tauto].
  - apply seqb_false in E. rewrite IH. split; [intros H [H1|H1]; [congruence | tauto] | tauto].
Qed.

Lemma alookup_Some_In {A} k (v : A) m : alookup k m = Some v -> In (k, v) m.
Proof.
  induction m as [|[k' v'] m IH]; cbn; [discriminate|].
  destruct (String.eqb k k') eqn:E.
  - apply seqb_true in E. intros H. injection H as ->. subst. now left.
  - intros H. right. now apply IH.
Qed.

Lemma alookup_In {A} k (v : A) m : NoDup (akeys m) -> In (k, v) m -> alookup k m = Some v.
Proof.
  induction m as [|[k' v'] m IH]; cbn; [tauto|].
  intros Hnd [H|H]; inversion Hnd as [|? ? Hni Hnd']; subst.
  - injection H as -> ->. now rewrite eqb_refl.
  - destruct (String.eqb k k') eqn:E.
    + apply seqb_true in E. subst. exfalso. apply Hni.
      apply (in_map fst) in H. exact H.
    + now apply IH.
Qed.

Lemma akeys_ainsert {A} k (v : A) m :
  akeys (ainsert k v m) = if mem_str k (akeys m) then akeys m else akeys m ++ [k].
Proof.
  induction m as [|[k' v'] m IH]; cbn; [reflexivity|].
  destruct (String.eqb k k') eqn:E; cbn.
  - apply seqb_true in E. now subst.
  - unfold akeys in *. rewrite IH. destruct (mem_str k (map fst m)); reflexivity.
Qed.

Lemma NoDup_ainsert {A} k (v : A) m : NoDup (akeys m) -> NoDup (akeys (ainsert k v m)).
Proof.
  intros H. rewrite akeys_ainsert. destruct (mem_str k (akeys m)) eqn:E; [exact H|].
  assert (Hn : ~ In k (akeys m)).
  { intros Hi. apply mem_str_In in Hi. congruence. }
  clear E. induction (akeys m) as [|x l IH]; cbn.
  - constructor; [tauto | constructor].
  - inversion H as [|? ? H1 H2]; subst. constructor.
    + rewrite in_app_iff. cbn. intros [Hx|[Hx|[]]]; [tauto|]. apply Hn. now left.
    + apply IH; [exact H2 | intros Hx; apply Hn; now right].
Qed.

Lemma alookup_adelete_same {A} k (m : list (string * A)) : alookup k (adelete k m) = None.
Proof.
  unfold adelete. induction m as [|[k' v] m IH]; cbn; [reflexivity|].
  destruct (String.eqb k k') eqn:E; cbn; [exact IH | now rewrite E].
Qed.

Lemma alookup_adelete_other {A} k k' (m : list (string * A)) :
  k <> k' -> alookup k (adelete k' m) = alookup k m.
Proof.
  unfold adelete. intros Hk. induction m as [|[k2 v] m IH]; cbn; [reflexivity|].
  destruct (String.eqb k' k2) eqn:E; cbn.
  - apply seqb_true in E. subst. apply seqb_false in Hk. now rewrite Hk.
  - now rewrite IH.
Qed.

Lemma alookup_adelete {A} k k' (m : list (string * A)) :
  alookup k (adelete k' m) = if String.eqb k k' then None else alookup k m.
Proof.
  destruct (String.eqb k k') eqn:E.
  - apply seqb_true in E. subst. apply alookup_adelete_same.
  - apply alookup_adelete_other. now apply seqb_false.
Qed.

Lemma In_akeys_adelete {A} k k' (m : list (string * A)) :
  In k (akeys (adelete k' m)) <-> In k (akeys m) /\ k <> k'.
Proof.
  unfold adelete, akeys. rewrite !in_map_iff. split.
  - intros ([x v] & <- & H). apply filter_In in H as [H1 H2]. cbn in *.
    apply negb_true_iff, seqb_false in H2. split; [now exists (x, v) | congruence].
  - intros ((x & <- & H) & Hk). exists x. split; [reflexivity|].
    apply filter_In. split; [exact H|]. apply negb_true_iff, seqb_false. congruence.
Qed.

Lemma NoDup_adelete {A} k (m : list (string * A)) : NoDup (akeys m) -> NoDup (akeys (adelete k m)).
Proof.
  unfold adelete, akeys. induction m as [|[k' v] m IH]; cbn; [auto|].
  intros H. inversion H as [|? ? H1 H2]; subst.
  destruct (negb (String.eqb k k')); cbn; auto.
  constructor; auto. rewrite in_map_iff. intros (x & Hx & Hi).
  apply filter_In in Hi as [Hi _]. apply H1. rewrite <- Hx. now apply in_map.
Qed.

Lemma bytes_of_of_bytes l : bytes_of (of_bytes l) = l.
Proof. apply list_ascii_of_string_of_list_ascii. Qed.
Lemma of_bytes_bytes_of s : of_bytes (bytes_of s) = s.
Proof. apply string_of_list_ascii_of_string. Qed.
Lemma bytes_of_app a b : bytes_of (a ++ b)%string = (bytes_of a ++ bytes_of b)%list.
Proof. unfold bytes_of, of_bytes in *. induction a as [|c a IH]; cbn; [reflexivity | now rewrite IH]. Qed.
Lemma of_bytes_app a b : of_bytes (a ++ b)%list = (of_bytes a ++ of_bytes b)%string.
Proof. unfold bytes_of, of_bytes in *. induction a as [|c a IH]; cbn; [reflexivity | now rewrite IH]. Qed.
Lemma length_bytes_of s : length (bytes_of s) = String.length s.
Proof. unfold bytes_of, of_bytes in *. induction s as [|c s IH]; cbn; [reflexivity | now rewrite IH]. Qed.
Lemma length_of_bytes l : String.length (of_bytes l) = length l.
Proof. unfold bytes_of, of_bytes in *. induction l as [|c l IH]; cbn; [reflexivity | now rewrite IH]. Qed.
Lemma bytes_of_inj a b : bytes_of a = bytes_of b -> a = b.
Proof. intros H. rewrite <- (of_bytes_bytes_of a), H. apply of_bytes_bytes_of. Qed.
