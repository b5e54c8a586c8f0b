(** Facts about Share.v. *)
From Coq Require Import Lia.
From Verif Require Import GoStr GoStrFacts JsonStr Json JsonFacts StrSpec StrSpecFacts JsonSpec JsonSpecFacts Float Consts GoTypes Schema GoVal GoValFacts Codec CodecSpec CodecFacts DataTypes Ident Collection FromJson FromJsonSpec FromJsonFacts FromJsonProps IndepFacts ReadFacts DocFacts Share ShareSpec.

(** ** Memory *)
Lemma cell_app h x a : a < List.length h -> cell (h ++ x) a = cell h a.
Proof. intros H. unfold cell. now apply app_nth1. Qed.
Lemma cell_last h x : cell (h ++ [x]) (List.length h) = x.
Proof. unfold cell. rewrite app_nth2 by lia. now rewrite Nat.sub_diag. Qed.
Lemma cell_store h : forall a x b, a < List.length h -> cell (store h a x) b = if Nat.eqb b a then x else cell h b.
Proof.
  induction h as [|y h IH]; intros a x b L; cbn [List.length] in L; [lia|]. destruct a as [|a]; destruct b as [|b]; cbn [store Nat.eqb]; try reflexivity.
  unfold cell. cbn [nth]. apply IH. lia.
Qed.
Lemma store_length h : forall a x, List.length (store h a x) = List.length h.
Proof. induction h as [|y h IH]; intros [|a] x; cbn [store List.length]; auto. Qed.

(** All references lead into memory. *)
Definition inside (h : heap) (r : refs) : Prop := forall k a, alookup k r = Some a -> a < List.length h.
(** Different names, different references. *)
Definition apart (r : refs) : Prop := forall k k' a, alookup k r = Some a -> alookup k' r = Some a -> k = k'.

Lemma alookup_view h r k : alookup k (view h r) = option_map (cell h) (alookup k r).
Proof. induction r as [|[k' a] r IH]; [reflexivity|]. cbn [view map fst snd alookup]. destruct (String.eqb k k'); [reflexivity|exact IH]. Qed.
Lemma view_minsert h k a r : view h (minsert k a r) = minsert k (cell h a) (view h r).
Proof.
  induction r as [|[k' a'] r IH]; [reflexivity|]. cbn [minsert view map fst snd]. destruct (String.eqb k k'); [reflexivity|]. destruct (str_ltb k k'); [reflexivity|].
  cbn [view map fst snd]. f_equal. exact IH.
Qed.
Lemma view_grow h x r : inside h r -> msorted r = true -> view (h ++ x) r = view h r.
Proof.
  intros I S. unfold view. apply map_ext_in. intros [k a] H. cbn [fst snd]. f_equal. apply cell_app. apply (I k).
  apply alookup_In; [now apply msorted_nodup|exact H].
Qed.
Definition fit (h : heap) (r : refs) : Prop := inside h r /\ apart r /\ msorted r = true.
Lemma fit_nil h : fit h [].
Proof. split; [|split]; [intros k a H|intros k k' a H|reflexivity]; discriminate. Qed.
Lemma fit_insert h r k v : fit h r -> fit (h ++ [v]) (minsert k (List.length h) r).
Proof.
  intros (I & A & S). split; [|split].
  - intros k' a. rewrite alookup_minsert by exact S. rewrite app_length. cbn [List.length]. destruct (String.eqb k' k); intros H; [injection H as <-; lia|apply I in H; lia].
  - intros k1 k2 a. rewrite !alookup_minsert by exact S. destruct (String.eqb_spec k1 k); destruct (String.eqb_spec k2 k); intros H1 H2.
    + congruence.
    + injection H1 as <-. apply I in H2. lia.
    + injection H2 as <-. apply I in H1. lia.
    + eapply A; eauto.
  - now apply msorted_minsert.
Qed.
Lemma fit_sub h r r' : fit h r -> msorted r' = true -> (forall k a, alookup k r' = Some a -> alookup k r = Some a) -> fit h r'.
Proof.
  intros (I & A & S) S' Q. split; [|split].
  - intros k a H. eapply I; eauto.
  - intros k k' a H H'. eapply A; eauto.
  - exact S'.
Qed.
Lemma fit_grow h x r : fit h r -> fit (h ++ x) r.
Proof. intros (I & A & S). split; [|split]; auto. intros k a H. apply I in H. rewrite app_length. lia. Qed.
Lemma m_filter_lookup t r k : alookup k (m_filter t r) = match t with GStruct _ fs => if mem_str k (tag_keys fs) then None else alookup k r | _ => alookup k r end.
Proof. destruct t; try reflexivity. unfold m_filter. rewrite (alookup_filter (fun k => negb (mem_str k (tag_keys fields)))). now destruct (mem_str k _). Qed.
Lemma m_filter_sub t r k a : alookup k (m_filter t r) = Some a -> alookup k r = Some a.
Proof. rewrite m_filter_lookup. destruct t; trivial. destruct (mem_str k _); [discriminate|trivial]. Qed.
Lemma filter_sorted {A} (f : string * A -> bool) l : msorted l = true -> msorted (filter f l) = true.
Proof.
  induction l as [|[k x] l IH]; intros S; [reflexivity|]. apply msorted_cons in S as [G S]. cbn [filter]. destruct (f (k, x)); [|auto].
  apply msorted_cons. split; [|auto]. intros k' H. apply G. unfold akeys in *. apply in_map_iff in H as ([k2 x2] & <- & H). apply filter_In in H as [H _]. now apply (in_map fst) in H.
Qed.
Lemma m_filter_fit h t r : fit h r -> fit h (m_filter t r).
Proof.
  intros F. apply (fit_sub h r); [exact F| |apply m_filter_sub]. destruct F as (_ & _ & S). destruct t; auto. now apply filter_sorted.
Qed.
Lemma view_filter h t r : view h (m_filter t r) = filter_out t (view h r).
Proof.
  destruct t; try reflexivity. unfold m_filter, filter_out. induction r as [|[k a] r IH]; [reflexivity|]. cbn [filter view map fst snd].
  destruct (negb (mem_str k (tag_keys fields))); [cbn [view map fst snd]; f_equal; exact IH|exact IH].
Qed.

Section R.
Variable rnd : bool -> N -> Z -> option flt.
Variable cf : config.

Lemma m_mems_dec ms : forall h r, fit h r ->
  dec_mems (dec_any rnd) ms (view h r) =
  match m_mems rnd ms h r with DOk hr e => DOk (view (fst hr) (snd hr)) e | DAbort => DAbort | DPanic => DPanic end.
Proof.
  induction ms as [|[k x] ms IH]; intros h r F; [reflexivity|]. cbn [dec_mems m_mems]. fold (dec_mems (dec_any rnd)). destruct (dec_any rnd x) as [v e| |]; [|reflexivity|reflexivity]. cbn [dbind].
  specialize (IH _ _ (fit_insert h r k v F)). rewrite view_minsert, cell_last in IH. destruct F as (I & A & S). rewrite view_grow in IH by assumption. rewrite IH.
  destruct (m_mems rnd ms (h ++ [v]) (minsert k (List.length h) r)); reflexivity.
Qed.
Lemma m_mems_spec ms : forall h r h' r' e, fit h r -> m_mems rnd ms h r = DOk (h', r') e ->
  fit h' r' /\ (exists x, h' = (h ++ x)%list) /\
  forall k, (In k (map fst ms) -> exists a, alookup k r' = Some a /\ List.length h <= a) /\ (~ In k (map fst ms) -> alookup k r' = alookup k r).
Proof.
  induction ms as [|[k x] ms IH]; intros h r h' r' e F H; cbn [m_mems] in H.
  - injection H as <- <- <-. split; [exact F|]. split; [exists []; now rewrite app_nil_r|]. intros k. split; [intros []|reflexivity].
  - destruct (dec_any rnd x) as [v e1| |]; try discriminate. cbn [dbind] in H. destruct (m_mems rnd ms (h ++ [v]) (minsert k (List.length h) r)) as [[h1 r1] e2| |] eqn:E; try discriminate.
    injection H as <- <- <-. destruct (IH _ _ _ _ _ (fit_insert h r k v F) E) as (F1 & (y & ->) & L). split; [exact F1|]. split; [exists ([v] ++ y)%list; now rewrite app_assoc|].
    destruct F as (_ & _ & S). intros k'. destruct (L k') as [L1 L2]. cbn [map fst In]. split.
    + intros [->|Hin].
      * destruct (in_dec string_dec k' (map fst ms)) as [Hin|Hin].
        -- destruct (L1 Hin) as (a & Ha & La). exists a. split; [exact Ha|]. rewrite app_length in La. lia.
        -- exists (List.length h). split; [|lia]. rewrite (L2 Hin), alookup_minsert by exact S. now rewrite String.eqb_refl.
      * destruct (L1 Hin) as (a & Ha & La). exists a. split; [exact Ha|]. rewrite app_length in La. lia.
    + intros N. rewrite L2 by tauto. rewrite alookup_minsert by exact S. destruct (String.eqb_spec k' k) as [->|]; [tauto|reflexivity].
Qed.

Lemma m_peek_dec j h r p : fit h r -> old_map p = view h r ->
  match m_peek rnd j h r with
  | Ok (h1, r1) => exists p1, unmarshal_res (dec rnd j peak_ty p) = Ok p1 /\ old_map p1 = view h1 r1
  | Err e => unmarshal_res (dec rnd j peak_ty p) = Err e
  | Panic => unmarshal_res (dec rnd j peak_ty p) = Panic
  end.
Proof.
  intros F E. destruct j as [| | | | |ms]; try reflexivity; cbn [m_peek].
  - exists VNil. now split.
  - rewrite dec_peak_obj, E, m_mems_dec by exact F. destruct (m_mems rnd ms h r) as [[h1 r1] [|]| |]; cbn [dbind unmarshal_res orb fst snd]; try reflexivity. exists (VMap (view h1 r1)). now split.
Qed.
Lemma names_obj ms k : names (JObj ms) k <-> In k (map fst ms).
Proof.
  split.
  - intros (ms' & x & Q & H). injection Q as <-. now apply (in_map fst) in H.
  - intros H. apply in_map_iff in H as ([k' x] & <- & H). exists ms, x. auto.
Qed.
Lemma names_dec j k : names j k \/ ~ names j k.
Proof.
  destruct j as [| | | | |ms]; try (right; intros (ms & x & Q & _); discriminate). destruct (in_dec string_dec k (map fst ms)); [left|right]; rewrite names_obj; assumption.
Qed.
Lemma m_peek_spec j h r h' r' : fit h r -> m_peek rnd j h r = Ok (h', r') ->
  fit h' r' /\ (exists x, h' = (h ++ x)%list) /\
  forall k a, alookup k r' = Some a -> (names j k -> List.length h <= a) /\ (~ names j k -> alookup k r = Some a).
Proof.
  intros F H. destruct j as [| | | | |ms]; try discriminate; cbn [m_peek] in H.
  - injection H as <- <-. split; [apply fit_nil|]. split; [exists []; now rewrite app_nil_r|]. intros k a Q. discriminate.
  - destruct (m_mems rnd ms h r) as [[h1 r1] [|]| |] eqn:E; try discriminate. cbn [unmarshal_res] in H. injection H as <- <-.
    destruct (m_mems_spec _ _ _ _ _ _ F E) as (F1 & G & L). split; [exact F1|]. split; [exact G|]. intros k a Q. destruct (L k) as [L1 L2]. rewrite names_obj. split.
    + intros N. destruct (L1 N) as (b & Hb & Lb). congruence.
    + intros N. now rewrite <- L2.
Qed.

(** ** One value *)
Lemma obj_of_same h t v r : obj_of h (Mobj t v (if negb (cf_drop cf) && can_extend t then (if cf_drop cf then r else m_filter t r) else [])) =
  (t, if cf_drop cf then v else add_props t (filter_out t (view h r)) v).
Proof.
  unfold obj_of. cbn [mo_ty mo_val mo_props]. f_equal. destruct (cf_drop cf); cbn [negb andb]; [now unfold add_props|]. unfold can_extend. destruct (props_path t) eqn:P.
  - now rewrite view_filter.
  - unfold add_props. rewrite P. cbn [view map]. now destruct (filter_out t (view h r)).
Qed.
Lemma m_read_read j h r p : fit h r -> old_map p = view h r ->
  match m_read rnd cf j h r with
  | Ok (o, h1, r1) => exists p1, read rnd cf j p = Ok (option_map (obj_of h1) o, p1) /\ old_map p1 = view h1 r1
  | Err e => read rnd cf j p = Err e
  | Panic => read rnd cf j p = Panic
  end.
Proof.
  intros F E. unfold m_read, read. assert (D := m_peek_dec j h r p F E). destruct (m_peek rnd j h r) as [[h1 r1]| |]; cbn [bind]; try (rewrite D; reflexivity).
  destruct D as (p1 & -> & Ep). cbn [bind]. assert (Mg : map_get "type" p1 = alookup "type" (old_map p1)) by now destruct p1. rewrite Mg, Ep. destruct (alookup "type" (view h1 r1)) as [tv|]; [|exists p1; now split].
  destruct (as_string tv) as [typ| |]; cbn [bind]; try reflexivity. destruct (start cf typ j) as [[[t v]|]| |]; cbn [bind]; try reflexivity; [|exists p1; now split].
  unfold m_finish, read_finish. destruct (unmarshal_res (dec rnd j t v)) as [v1| |]; cbn [bind]; try reflexivity.
  rewrite obj_of_same. set (v2 := if cf_drop cf then v1 else add_props t (filter_out t (view h1 r1)) v1).
  assert (Q : (if cf_drop cf then v1 else add_props t (if cf_drop cf then view h1 r1 else filter_out t (view h1 r1)) v1) = v2) by (unfold v2; now destruct (cf_drop cf)).
  rewrite Q. destruct (obj_id (t, v2)) as [id| |]; cbn [bind]; try reflexivity. destruct (obj_type (t, v2)) as [ty| |]; cbn [bind]; try reflexivity.
  destruct (has_valid_identifier id ty); [|reflexivity]. eexists. split; [cbn [option_map]; rewrite obj_of_same; reflexivity|]. cbn [old_map]. destruct (cf_drop cf); [reflexivity|now rewrite view_filter].
Qed.
Lemma m_read_spec j h r o h' r' : fit h r -> m_read rnd cf j h r = Ok (o, h', r') ->
  fit h' r' /\ (exists x, h' = (h ++ x)%list) /\
  (forall ob, o = Some ob -> fit h' (mo_props ob) /\ forall k a, alookup k (mo_props ob) = Some a -> alookup k r' = Some a) /\
  forall k a, alookup k r' = Some a -> (names j k -> List.length h <= a) /\ (~ names j k -> alookup k r = Some a).
Proof.
  intros F H. unfold m_read in H. destruct (m_peek rnd j h r) as [[h1 r1]| |] eqn:P; try discriminate. cbn [bind] in H.
  destruct (m_peek_spec _ _ _ _ _ F P) as (F1 & G & L).
  destruct (alookup "type" (view h1 r1)) as [tv|]; [|injection H as <- <- <-; repeat split; try discriminate; try apply F1; auto; now apply L].
  destruct (as_string tv) as [typ| |]; try discriminate. cbn [bind] in H.
  destruct (start cf typ j) as [[[t v]|]| |]; try discriminate; cbn [bind] in H; [|injection H as <- <- <-; repeat split; try discriminate; try apply F1; auto; now apply L].
  unfold m_finish in H. destruct (unmarshal_res (dec rnd j t v)) as [v1| |]; try discriminate. cbn [bind] in H.
  set (r2 := if cf_drop cf then r1 else m_filter t r1) in *.
  destruct (obj_id _) as [id| |]; try discriminate. cbn [bind] in H. destruct (obj_type _) as [ty| |]; try discriminate. cbn [bind] in H.
  destruct (has_valid_identifier id ty); try discriminate. injection H as <- <- <-.
  assert (F2 : fit h1 r2) by (unfold r2; destruct (cf_drop cf); [exact F1|now apply m_filter_fit]).
  assert (L2 : forall k a, alookup k r2 = Some a -> alookup k r1 = Some a) by (unfold r2; intros k a; destruct (cf_drop cf); [trivial|apply m_filter_sub]).
  split; [exact F2|]. split; [exact G|]. split; [|intros k a Q; apply L; now apply L2].
  intros ob Q. injection Q as <-. cbn [mo_props]. destruct (negb (cf_drop cf) && can_extend t); [split; [exact F2|trivial]|]. split; [apply fit_nil|discriminate].
Qed.

(** ** Documents *)
Lemma classic_names js n k : (exists m v, m <= n /\ nth_error js m = Some v /\ names v k) \/ (forall m v, m <= n -> nth_error js m = Some v -> ~ names v k).
Proof.
  induction n as [|n IH].
  - destruct (nth_error js 0) as [v|] eqn:E.
    + destruct (names_dec v k) as [N|N]; [left; exists 0, v; auto|right]. intros m v' L H. assert (m = 0) by lia. subst m. rewrite E in H. now injection H as <-.
    + right. intros m v L H. assert (m = 0) by lia. subst m. congruence.
  - destruct IH as [(m & v & L & H)|IH]; [left; exists m, v; split; [lia|exact H]|]. destruct (nth_error js (S n)) as [v|] eqn:E.
    + destruct (names_dec v k) as [N|N]; [left; exists (S n), v; auto|right]. intros m v' L H. destruct (Nat.eq_dec m (S n)) as [->|]; [rewrite E in H; now injection H as <-|]. apply (IH m); [lia|exact H].
    + right. intros m v' L H. destruct (Nat.eq_dec m (S n)) as [->|]; [congruence|]. apply (IH m); [lia|exact H].
Qed.
Lemma m_read_all_spec js : forall h r w, fit h r -> m_read_all rnd cf js h r = Ok w ->
  (exists x, fst w = (h ++ x)%list) /\
  List.length (snd w) = List.length js /\
  (forall j ob, nth_error (snd w) j = Some (Some ob) -> fit (fst w) (mo_props ob)) /\
  (forall j k a, ref_of w j k = Some a ->
     ((exists n v, n <= j /\ nth_error js n = Some v /\ names v k) -> List.length h <= a) /\
     ((forall n v, n <= j -> nth_error js n = Some v -> ~ names v k) -> alookup k r = Some a)).
Proof.
  induction js as [|j js IH]; intros h r w F H; cbn [m_read_all] in H.
  - injection H as <-. cbn [fst snd]. split; [exists []; now rewrite app_nil_r|]. split; [reflexivity|]. split; [intros [|n] ob Q; discriminate|]. intros [|n] k a Q; discriminate.
  - destruct (m_read rnd cf j h r) as [[[o h1] r1]| |] eqn:R; try discriminate. cbn [bind] in H.
    destruct (m_read_all rnd cf js h1 r1) as [[h2 os]| |] eqn:E; try discriminate. cbn [bind] in H. injection H as <-. cbn [fst snd].
    destruct (m_read_spec _ _ _ _ _ _ F R) as (F1 & (x & ->) & O & L). destruct (IH _ _ _ F1 E) as ((y & Y) & Len & Fs & S). cbn [fst snd] in *. subst h2.
    split; [exists (x ++ y)%list; now rewrite app_assoc|]. split; [cbn; now rewrite Len|]. split.
    + intros [|n] ob Q; cbn [nth_error] in Q; [|eauto]. injection Q as Q. apply fit_grow. now apply O.
    + intros [|n] k a Q; unfold ref_of in Q; cbn [snd nth_error] in Q.
      * destruct o as [ob|]; [|discriminate]. destruct (O ob eq_refl) as [_ Sub]. apply Sub in Q. destruct (L _ _ Q) as [L1 L2]. split.
        -- intros (m & v & Lm & Hv & Nm). assert (m = 0) by lia. subst m. injection Hv as ->. auto.
        -- intros N. apply L2. apply (N 0 j); [lia|reflexivity].
      * destruct (S n k a Q) as [S1 S2]. split.
        -- intros (m & v & Lm & Hv & Nm). destruct (names_dec j k) as [Nj|Nj].
           ++ destruct (classic_names js n k) as [X|X].
              ** apply S1 in X. rewrite app_length in X. lia.
              ** apply S2 in X. apply L in X as [X _]. now apply X.
           ++ destruct m as [|m]; [injection Hv as ->; contradiction|]. assert (X : List.length (h ++ x) <= a) by (apply S1; exists m, v; repeat split; [lia|exact Hv|exact Nm]).
              rewrite app_length in X. lia.
        -- intros N. assert (X : alookup k r1 = Some a) by (apply S2; intros m v Lm Hv; apply (N (Datatypes.S m) v); [lia|exact Hv]).
           apply L in X as [_ X]. apply X. apply (N 0 j); [lia|reflexivity].
Qed.
Lemma pair js : forall h r w i j k k' a b, fit h r -> m_read_all rnd cf js h r = Ok w -> i < j -> ref_of w i k = Some a -> ref_of w j k' = Some b ->
  (a = b <-> k = k' /\ forall n v, i < n <= j -> nth_error js n = Some v -> ~ names v k).
Proof.
  induction js as [|x js IH]; intros h r w i j k k' a b F H Lij Ri Rj; cbn [m_read_all] in H.
  - injection H as <-. unfold ref_of in Ri. destruct i; discriminate.
  - destruct (m_read rnd cf x h r) as [[[o h1] r1]| |] eqn:R; try discriminate. cbn [bind] in H.
    destruct (m_read_all rnd cf js h1 r1) as [[h2 os]| |] eqn:E; try discriminate. cbn [bind] in H. injection H as <-. cbn [fst snd] in *.
    destruct (m_read_spec _ _ _ _ _ _ F R) as (F1 & _ & O & _). destruct j as [|j]; [lia|].
    assert (Rj' : ref_of (h2, os) j k' = Some b) by exact Rj. destruct i as [|i].
    + unfold ref_of in Ri. cbn [snd nth_error] in Ri. destruct o as [ob|]; [|discriminate]. destruct (O ob eq_refl) as [_ Sub]. apply Sub in Ri.
      destruct (m_read_all_spec _ _ _ _ F1 E) as (_ & _ & _ & Sp). destruct (Sp _ _ _ Rj') as [S1 S2]. destruct F1 as (I & A & _). split.
      * intros <-. destruct (classic_names js j k') as [X|X]; [apply S1 in X; apply I in Ri; lia|]. assert (Y := S2 X). assert (k = k') by (eapply A; eauto). subst k'.
        split; [reflexivity|]. intros [|n] v Ln Hn; [lia|]. apply (X n); [lia|exact Hn].
      * intros [<- X]. assert (Y : alookup k r1 = Some b); [|congruence]. apply S2. intros n v Ln Hn. apply (X (S n)); [lia|exact Hn].
    + assert (Ri' : ref_of (h2, os) i k = Some a) by exact Ri. assert (Lt : i < j) by lia. rewrite (IH _ _ _ _ _ _ _ _ _ F1 E Lt Ri' Rj'). split; intros [-> X]; (split; [reflexivity|]).
      * intros [|n] v Ln Hn; [lia|]. apply (X n); [lia|exact Hn].
      * intros n v Ln Hn. apply (X (S n)); [lia|exact Hn].
Qed.
Lemma obj_of_grow h x o : fit h (mo_props o) -> obj_of (h ++ x) o = obj_of h o.
Proof. intros (I & _ & S). unfold obj_of. now rewrite view_grow. Qed.
Lemma m_read_all_read js : forall h r p, fit h r -> old_map p = view h r ->
  match m_read_all rnd cf js h r with
  | Ok w => read_all rnd cf js p = Ok (map (option_map (obj_of (fst w))) (snd w))
  | Err e => read_all rnd cf js p = Err e
  | Panic => read_all rnd cf js p = Panic
  end.
Proof.
  induction js as [|j js IH]; intros h r p F E; [reflexivity|]. cbn [m_read_all read_all]. assert (D := m_read_read j h r p F E).
  destruct (m_read rnd cf j h r) as [[[o h1] r1]| |] eqn:R; cbn [bind]; try (rewrite D; reflexivity). destruct D as (p1 & -> & E1). cbn [bind fst snd].
  destruct (m_read_spec _ _ _ _ _ _ F R) as (F1 & _ & O & _). specialize (IH h1 r1 p1 F1 E1).
  destruct (m_read_all rnd cf js h1 r1) as [[h2 os]| |] eqn:A; cbn [bind]; try (rewrite IH; reflexivity). rewrite IH. cbn [bind fst snd map]. f_equal. f_equal.
  destruct o as [ob|]; [|reflexivity]. cbn [option_map]. f_equal. destruct (m_read_all_spec _ _ _ _ F1 A) as ((y & Y) & _). cbn [fst] in Y. subst h2. symmetry. apply obj_of_grow. now apply O.
Qed.
Lemma m_from_json_same s : from_json rnd cf s =
  match m_from_json rnd cf s with
  | Ok w => Ok (collect (cf_nosort cf) (map (option_map (obj_of (fst w))) (snd w)))
  | Err e => Err e
  | Panic => Panic
  end.
Proof.
  assert (G : forall js, process_objects rnd cf js (new_coll (cf_nosort cf)) VNil =
    match m_read_all rnd cf js [] [] with
    | Ok w => Ok (collect (cf_nosort cf) (map (option_map (obj_of (fst w))) (snd w)))
    | Err e => Err e
    | Panic => Panic
    end).
  { intros js. rewrite process_read_all. assert (M := m_read_all_read js [] [] VNil (fit_nil []) eq_refl).
    destruct (m_read_all rnd cf js [] []) as [w| |]; rewrite M; reflexivity. }
  unfold from_json, m_from_json. destruct (unmarshal rnd s ty_Bundle (zero ty_Bundle)); [apply G| |reflexivity]. destruct (unmarshal rnd s (GSlice GRaw) VNil); [apply G| |]; reflexivity.
Qed.
Lemma m_from_json_document js s : document js s -> m_from_json rnd cf s = m_read_all rnd cf js [] [].
Proof.
  intros D. unfold m_from_json, unmarshal. destruct D as [js s H|s H|ms s H Hm].
  - apply json_exact in H. rewrite H. cbn [dec ty_Bundle unmarshal_res]. rewrite dec_raws. cbn [dbind unmarshal_res orb].
    now rewrite raws_map.
  - apply json_exact in H. rewrite H. reflexivity.
  - apply json_exact in H. rewrite H. assert (O := parse_ok _ _ H). cbn [json_okb] in O.
    change (dec rnd (JObj ms) ty_Bundle (zero ty_Bundle)) with
      (dec_struct (dec rnd) (flat_fields [(Fmeta "Type" "type" false false, GString "STIXType");
                    (Fmeta "ID" "id" false false, GString "Identifier");
                    (Fmeta "Objects" "objects" true false, GSlice GRaw)]) ms (bval (VStr "") (VStr "") VNil)).
    destruct (dec_bundle_ok rnd ms O (VStr "") (VStr "") VNil Hm) as (a & b & E). rewrite E. cbn [unmarshal_res].
    change (get_field "Objects" (bval a b ?o)) with o. destruct (last_fold "objects" ms) as [[]|]; try reflexivity. now rewrite raws_map.
Qed.

(** ** The objects afterwards *)
(** References lead into memory and are apart within each object. *)
Definition sound (w : world) : Prop := forall i o, nth_error (snd w) i = Some (Some o) -> fit (fst w) (mo_props o).
Lemma read_sound s w : m_from_json rnd cf s = Ok w -> sound w.
Proof.
  unfold m_from_json. assert (G : forall js, m_read_all rnd cf js [] [] = Ok w -> sound w).
  { intros js H i o. eapply m_read_all_spec; [apply fit_nil|exact H]. }
  destruct (unmarshal rnd s ty_Bundle (zero ty_Bundle)); [apply G| |discriminate]. destruct (unmarshal rnd s (GSlice GRaw) VNil); [apply G| |]; discriminate.
Qed.
End R.

Lemma nth_set_prop os : forall i k a j, nth_error (set_prop os i k a) j =
  if Nat.eqb j i then option_map (option_map (fun o => match mo_props o with [] => o | r => Mobj (mo_ty o) (mo_val o) (minsert k a r) end)) (nth_error os j)
  else nth_error os j.
Proof.
  induction os as [|o os IH]; intros i k a j; [cbn [set_prop]; destruct (Nat.eqb j i), j; reflexivity|]. destruct o as [o|]; destruct i as [|i]; destruct j as [|j]; cbn [set_prop nth_error Nat.eqb]; try reflexivity; apply IH.
Qed.
Lemma sound_inside w i k a : sound w -> ref_of w i k = Some a -> a < List.length (fst w).
Proof. unfold ref_of. destruct (nth_error (snd w) i) as [[o|]|] eqn:E; try discriminate. intros S H. destruct (S _ _ E) as (I & _). eapply I; eauto. Qed.
Lemma sound_apart w i k k' a : sound w -> ref_of w i k = Some a -> ref_of w i k' = Some a -> k = k'.
Proof. unfold ref_of. destruct (nth_error (snd w) i) as [[o|]|] eqn:E; try discriminate. intros S H H'. destruct (S _ _ E) as (_ & A & _). eapply A; eauto. Qed.
(** The references after Set *)
Lemma ref_set w i k x j k' : sound w -> ref_of (step w (SetProp i k x)) j k' =
  if Nat.eqb j i && String.eqb k' k && match nth_error (snd w) i with Some (Some o) => negb (match mo_props o with [] => true | _ => false end) | _ => false end
  then Some (List.length (fst w)) else ref_of w j k'.
Proof.
  intros S. unfold ref_of, step. cbn [snd]. rewrite nth_set_prop. destruct (Nat.eqb_spec j i) as [->|N]; cbn [andb]; [|reflexivity].
  destruct (nth_error (snd w) i) as [[o|]|] eqn:E; cbn [option_map]; try (destruct (String.eqb k' k); reflexivity).
  destruct (S _ _ E) as (_ & _ & So). destruct (mo_props o) as [|e r] eqn:P; cbn [negb]; [rewrite andb_false_r; now rewrite P|]. rewrite andb_true_r. cbn [mo_props].
  rewrite alookup_minsert by exact So. reflexivity.
Qed.
Lemma step_sound w e : sound w -> sound (step w e).
Proof.
  intros S. destruct e as [i k x|i k x]; cbn [step].
  - intros j o. cbn [fst snd]. rewrite nth_set_prop. destruct (Nat.eqb j i); [|intros H; apply fit_grow; eauto].
    destruct (nth_error (snd w) j) as [[o'|]|] eqn:E; cbn [option_map]; try discriminate. intros H. injection H as <-. assert (F := S _ _ E).
    destruct (mo_props o') as [|e r] eqn:P; [rewrite P; apply fit_nil|]. cbn [mo_props]. exact (fit_insert _ _ k x F).
  - destruct (ref_of w i k) as [a|] eqn:R; [|exact S]. intros j o H. destruct (S _ _ H) as (I & A & So). split; [|split]; auto. intros k' b Hb. cbn [fst]. rewrite store_length. eapply I; eauto.
Qed.
Lemma after_sound es : forall w, sound w -> sound (after w es).
Proof. induction es as [|e es IH]; intros w S; [exact S|]. cbn [after fold_left]. apply IH. now apply step_sound. Qed.

(** Set changes one property of one object. *)
Lemma set_elsewhere w i k x j k' : sound w -> (i, k) <> (j, k') -> reading (step w (SetProp i k x)) j k' = reading w j k'.
Proof.
  intros S N. unfold reading. rewrite ref_set by exact S. destruct (Nat.eqb_spec j i) as [->|]; [destruct (String.eqb_spec k' k) as [->|]; [congruence|]|]; cbn [andb];
  (destruct (ref_of w _ k') as [a|] eqn:R; cbn [option_map]; [|reflexivity]; f_equal; cbn [step fst]; apply cell_app; eapply sound_inside; eauto).
Qed.
Lemma set_there w i k x : sound w -> (exists k0, reading w i k0 <> None) -> reading (step w (SetProp i k x)) i k = Some x.
Proof.
  intros S (k0 & H). unfold reading in *. rewrite ref_set by exact S. rewrite Nat.eqb_refl, String.eqb_refl. cbn [andb].
  unfold ref_of in *. destruct (nth_error (snd w) i) as [[o|]|]; try (cbn in H; congruence). destruct (mo_props o) as [|e r]; [cbn in H; congruence|]. cbn [negb option_map step fst]. now rewrite cell_last.
Qed.
(** A change in place shows wherever the reference is. *)
Lemma change_reading w i k x a j k' : sound w -> ref_of w i k = Some a -> reading (step w (Change i k x)) j k' =
  match ref_of w j k' with Some b => Some (if Nat.eqb b a then x else cell (fst w) b) | None => None end.
Proof.
  intros S R. unfold reading. cbn [step]. rewrite R. unfold ref_of at 1. cbn [snd fst]. fold (ref_of w j k'). destruct (ref_of w j k') as [b|]; [|reflexivity]. cbn [option_map].
  rewrite cell_store by (eapply sound_inside; eauto). reflexivity.
Qed.

(** No two properties have the same reference. *)
Definition separate (w : world) : Prop := forall i j k k' a, ref_of w i k = Some a -> ref_of w j k' = Some a -> (i, k) = (j, k').
Lemma step_separate w e : sound w -> separate w -> separate (step w e).
Proof.
  intros S P. destruct e as [i k x|i k x].
  - intros j j' k1 k2 a. rewrite !ref_set by exact S.
    set (g := match nth_error (snd w) i with Some (Some o) => negb (match mo_props o with [] => true | _ => false end) | _ => false end).
    destruct (Nat.eqb_spec j i); destruct (String.eqb_spec k1 k); destruct (Nat.eqb_spec j' i); destruct (String.eqb_spec k2 k); subst; cbn [andb]; destruct g; intros H1 H2; try reflexivity;
      try (eapply P; eassumption);
      try (injection H1 as <-; apply (sound_inside _ _ _ _ S) in H2; lia);
      try (injection H2 as <-; apply (sound_inside _ _ _ _ S) in H1; lia).
  - intros j j' k1 k2 a. cbn [step]. destruct (ref_of w i k); apply P.
Qed.
Lemma after_separate es : forall w, sound w -> separate w -> separate (after w es).
Proof. induction es as [|e es IH]; intros w S P; [exact P|]. cbn [after fold_left]. apply IH; [now apply step_sound|now apply step_separate]. Qed.
Lemma change_elsewhere w i k x j k' : sound w -> separate w -> (i, k) <> (j, k') -> reading (step w (Change i k x)) j k' = reading w j k'.
Proof.
  intros S P N. destruct (ref_of w i k) as [a|] eqn:R.
  - rewrite (change_reading _ _ _ _ _ _ _ S R). unfold reading. destruct (ref_of w j k') as [b|] eqn:R'; [|reflexivity]. destruct (Nat.eqb_spec b a) as [->|]; [|reflexivity]. exfalso. apply N. eapply P; eauto.
  - cbn [step]. now rewrite R.
Qed.
