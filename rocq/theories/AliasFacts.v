(** Facts about objects in memory. *)
From Verif Require Import GoStr GoStrFacts Json Float Consts GoTypes Schema OptTable GoVal GoValFacts Codec CodecSpec CodecFacts
  StructFacts CodecRound ObjFacts TypedFacts StoreFacts FromJson IndepFacts Options OptionFacts PropOptions Ident IdentFacts
  Constructors ConstrSpec ConstrFacts PropConstr Alias AliasSpec.
From Coq Require Import Lia.
Local Open Scope string_scope.

Lemma hset_same h a x : hset h a x a = x.
Proof. unfold hset. now rewrite Nat.eqb_refl. Qed.
Lemma hset_other h a x b : b <> a -> hset h a x b = h b.
Proof. intros N. unfold hset. apply Nat.eqb_neq in N. now rewrite N. Qed.
Lemma mset_same o f s : mset o f s f = s.
Proof. unfold mset. now rewrite String.eqb_refl. Qed.
Lemma mset_other o f s g : g <> f -> mset o f s g = o g.
Proof. intros N. unfold mset. apply String.eqb_neq in N. now rewrite N. Qed.
Lemma put_at x a b : put x a = At b -> is_ref x = true /\ b = a.
Proof. unfold put. destruct (is_ref x); [|discriminate]. intros E. injection E as <-. now split. Qed.
Lemma zero_no_ref t : is_ref (zero t) = false.
Proof. now destruct t. Qed.

(** ** The literal *)
Lemma stamp_spec c n now f a : alookup f (stamp_addrs c n) = Some a ->
  (f = "Created" \/ f = "Modified") /\ (a = n \/ a = S n) /\ alookup f (starts c now) = Some (VPtr (VTime now)) /\
  forall h, m_stamped c now h n a = VPtr (VTime now).
Proof.
  intros H. assert (F : f = "Created" \/ f = "Modified").
  { destruct c; cbn in H; try discriminate; repeat (match goal with H : context [String.eqb f ?s] |- _ => destruct (String.eqb_spec f s) end); auto; discriminate. }
  split; [exact F|]. destruct F as [-> | ->]; (destruct c; cbn in H; try discriminate; injection H as <-; (split; [auto|]); (split; [reflexivity|]);
    intros h; unfold m_stamped; cbn; unfold hset; rewrite ?Nat.eqb_refl; try reflexivity; now destruct (Nat.eqb n (S n))).
Qed.
Lemma stamp_other c n now h b : b < n -> m_stamped c now h n b = h b.
Proof.
  intros L. unfold m_stamped, stamp_addrs. destruct c; cbn; rewrite ?hset_other by lia; reflexivity.
Qed.
Lemma stamp_inj c n f g a : alookup f (stamp_addrs c n) = Some a -> alookup g (stamp_addrs c n) = Some a -> f <> g -> one_stamp c = true.
Proof.
  intros Hf Hg N. destruct (stamp_spec _ _ 0%Z _ _ Hf) as ([-> | ->] & _); destruct (stamp_spec _ _ 0%Z _ _ Hg) as ([-> | ->] & _); try (now contradiction N);
  (destruct c; cbn in Hf, Hg; try discriminate; try reflexivity; exfalso; assert (n = S n) by congruence; lia).
Qed.
Lemma starts_ref c n now f x : alookup f (stamp_addrs c n) = None -> alookup f (starts c now) = Some x -> is_ref x = true -> In (f, x) (given c).
Proof.
  intros N H R. unfold starts in H. cbn [alookup] in H. destruct (String.eqb f "Type"); [injection H as <-; discriminate|].
  destruct (String.eqb f "SpecVersion"); [injection H as <-; discriminate|]. rewrite alookup_app in H.
  assert (S : alookup f (stamps c now) = None).
  { destruct c; cbn in N |- *; repeat (match goal with |- context [String.eqb f ?s] => destruct (String.eqb f s) end); try discriminate; reflexivity. }
  rewrite S in H. now apply alookup_Some_In in H.
Qed.
Lemma no_ext_start c now n : alookup "Extensions" (stamp_addrs c n) = None /\ alookup "Extensions" (starts c now) = None.
Proof. destruct c; split; reflexivity. Qed.
Lemma names_check c : forallb (fun p => negb (mem_str (snd p) ext_bases)) (all_paths (call_fields c)) = true.
Proof. destruct c; vm_compute; reflexivity. Qed.
Lemma path_fbn c p m t : has_path (call_fields c) p m t -> field_by_name (call_fields c) (fm_name m) = Some (p, t).
Proof.
  intros H. apply fbn_path; [exact H|]. intros Q. assert (X := names_check c). rewrite forallb_forall in X.
  destruct (has_path_all _ _ _ _ H) as [Hin E]. specialize (X _ Hin). rewrite E in X. apply mem_str_In in Q. now rewrite Q in X.
Qed.

(** ** The invariant of the work of a constructor *)
Section M.
Variables (w : world) (q : request).
Hypothesis SC : sound_call w q.
Local Notation c := (rq_call q).
Local Notation n := (w_next w).
Local Notation fs := (call_fields c).

Definition owner (n' : addr) (f : string) (a : addr) : Prop :=
  (f <> "Extensions" /\ (passed q a /\ a < n \/ alookup f (stamp_addrs c n) = Some a)) \/ (f = "Extensions" /\ S (S n) <= a < n').
Definition minv (st : mstate) : Prop :=
  let '(h, n', o) := st in
  S (S n) <= n' /\ (forall b, b < n -> h b = w_heap w b) /\ (forall f a, o f = At a -> owner n' f a).
Definition mrel (v : gval) (st : mstate) : Prop :=
  let '(h, n', o) := st in
  opt_inv fs v /\ minv st /\ forall p m t, has_path fs p m t -> fm_name m <> "ID" ->
    look h (o (fm_name m)) = get_path p v /\ ((exists a, o (fm_name m) = At a) <-> is_ref (get_path p v) = true).

Lemma owner_mono n' n'' f a : n' <= n'' -> owner n' f a -> owner n'' f a.
Proof. intros L [H|[E H]]; [now left|right; split; [exact E|lia]]. Qed.
Lemma owner_low n' f a : f <> "Extensions" -> owner n' f a -> a < S (S n).
Proof. intros N [(_ & [(_ & L)|S])|[E _]]; [lia| |contradiction]. destruct (stamp_spec _ _ 0%Z _ _ S) as (_ & [-> | ->] & _); lia. Qed.

Lemma mrel_init : mrel (init (rq_rb q) (rq_now q) c) (m_stamped c (rq_now q) (w_heap w) n, S (S n), m_init c (rq_now q) (rq_args q) n).
Proof.
  unfold mrel. split; [exact (init_inv _ _ c (sc_args _ _ SC))|]. split.
  - split; [lia|]. split; [intros b L; now apply stamp_other|]. intros f a H. left. unfold m_init in H.
    destruct (alookup f (stamp_addrs c n)) as [b|] eqn:E.
    + injection H as ->. split; [|now right]. intros ->. destruct (no_ext_start c (rq_now q) n). congruence.
    + destruct (alookup f (starts c (rq_now q))) as [x|] eqn:S; [|discriminate]. split; [intros ->; destruct (no_ext_start c (rq_now q) n); congruence|].
      left. unfold put_arg in H. destruct (alookup f (rq_args q)) as [b|] eqn:A; [|discriminate]. apply put_at in H as [R ->].
      assert (G := starts_ref _ _ _ _ _ E S R). destruct (sc_args_at _ _ SC _ _ G R) as (a & Ha & L & _).
      assert (a = b) as -> by congruence. split; [|exact L]. left. exists f, x. auto.
  - intros p m t HP N. rewrite (init_path _ _ c p m t HP), (starts_props _ _ c _ N). unfold m_init.
    destruct (alookup (fm_name m) (stamp_addrs c n)) as [b|] eqn:E.
    + destruct (stamp_spec _ _ (rq_now q) _ _ E) as (_ & _ & -> & H). split; [apply H|]. split; [reflexivity|eauto].
    + destruct (alookup (fm_name m) (starts c (rq_now q))) as [x|] eqn:S.
      * destruct (is_ref x) eqn:R.
        -- assert (G := starts_ref _ _ _ _ _ E S R). destruct (sc_args_at _ _ SC _ _ G R) as (a & Ha & L & Hx).
           unfold put_arg, put. rewrite Ha, R. split; [cbn [look]; now rewrite stamp_other|]. split; [reflexivity|eauto].
        -- assert (X : put_arg (rq_args q) (fm_name m) x = Val x) by (unfold put_arg, put; rewrite R; now destruct (alookup (fm_name m) (rq_args q))).
           rewrite X. split; [reflexivity|]. split; [intros [a H]; discriminate|discriminate].
      * rewrite (path_fbn _ _ _ _ HP). split; [reflexivity|]. rewrite zero_no_ref. split; [intros [a H]; discriminate|discriminate].
Qed.

Lemma mrel_step nm v v' oa st : call_ty c = GStruct nm fs -> In oa (rq_opts q) -> mrel v st -> apply_opt (call_ty c) (fst oa) v = (v', Ok tt) -> mrel v' (m_opt oa st).
Proof.
  intros Ty Hin R E. destruct st as [[h n'] o]. destruct R as (I & (L & HB & HO) & HP). destruct oa as [op a]. cbn [fst] in E.
  assert (U : user_option op).
  { assert (X := sc_opts _ _ SC). rewrite Forall_forall in X. apply X. change op with (fst (op, a)). now apply in_map. }
  assert (T := user_table _ U). assert (O := call_opt c). rewrite Ty in E. assert (X := effect_of _ _ _ _ _ O T E). assert (I' := effect_inv _ _ _ _ O T I X).
  destruct op as [|r x|k x]; unfold m_opt; cbn [fst snd].
  - inversion X; subst. split; [exact I|]. split; [now split|exact HP].
  - assert (At' : is_ref x = true -> a < n /\ h a = x).
    { intros Rx. destruct (sc_opts_at _ _ SC _ _ _ Hin Rx) as [La Ha]. split; [exact La|]. now rewrite HB. }
    destruct U as [Ur _]. destruct (row_field _ Ur) as (_ & _ & NE & _).
    split; [exact I'|]. split.
    + split; [exact L|]. split; [exact HB|]. intros f b H. destruct (String.eqb_spec f (or_field r)) as [->|Nf].
      * rewrite mset_same in H. apply put_at in H as [Rx ->]. left. split; [exact NE|]. left. destruct (At' Rx) as [La _]. split; [|exact La]. right. eauto.
      * rewrite mset_other in H by exact Nf. now apply HO.
    + intros p m t Hp N. destruct (String.eqb_spec (fm_name m) (or_field r)) as [Q|Q].
      * rewrite (effect_same _ _ _ _ _ _ _ O I X Hp ltac:(cbn; congruence)). cbn [new_value]. rewrite Q, mset_same. unfold put.
        destruct (is_ref x) eqn:Rx; (split; [cbn [look]; try reflexivity; now apply At'|]); [split; [reflexivity|eauto]|split; [intros [b H]; discriminate|discriminate]].
      * rewrite (effect_other _ _ _ _ _ _ _ O I X Hp ltac:(cbn; congruence)). rewrite mset_other by exact Q. exact (HP _ _ _ Hp N).
  - assert (FR : forall b y, S (S n) <= b -> forall p m t, has_path fs p m t -> fm_name m <> "ID" -> fm_name m <> "Extensions" ->
      look (hset h b y) (o (fm_name m)) = get_path p v' /\ ((exists a, o (fm_name m) = At a) <-> is_ref (get_path p v') = true)).
    { intros b y Lb p m t Hp N NE. rewrite (effect_other _ _ _ _ _ _ _ O I X Hp ltac:(cbn; congruence)). destruct (HP _ _ _ Hp N) as [H1 H2]. split; [|exact H2].
      rewrite <- H1. destruct (o (fm_name m)) as [z|d] eqn:Od; [reflexivity|]. cbn [look]. apply hset_other. intros ->.
      assert (Z := owner_low _ _ _ NE (HO _ _ Od)). lia. }
    assert (SM : forall p m t, has_path fs p m t -> fm_name m = "Extensions" ->
      look h (o "Extensions") = get_path p v /\ ((exists a, o "Extensions" = At a) <-> is_ref (get_path p v) = true) /\
      get_path p v' = VMap (minsert k x (old_map (get_path p v)))).
    { intros p m t Hp Q. destruct (HP _ _ _ Hp) as [H1 H2]; [now rewrite Q|]. rewrite Q in H1, H2. split; [exact H1|]. split; [exact H2|].
      rewrite (effect_same _ _ _ _ _ _ _ O I X Hp ltac:(cbn; congruence)). reflexivity. }
    destruct (o "Extensions") as [z|b] eqn:Ox.
    + split; [exact I'|]. split.
      * split; [lia|]. split; [intros b Lb; rewrite hset_other by lia; now apply HB|].
        intros f b H. destruct (String.eqb_spec f "Extensions") as [->|Nf].
        -- rewrite mset_same in H. injection H as <-. right. split; [reflexivity|lia].
        -- rewrite mset_other in H by exact Nf. eapply owner_mono; [|now apply HO]. lia.
      * intros p m t Hp N. destruct (String.eqb_spec (fm_name m) "Extensions") as [Q|Q].
        -- destruct (SM _ _ _ Hp Q) as (H1 & H2 & ->). cbn [look] in H1. subst z. rewrite Q, mset_same. cbn [look]. rewrite hset_same.
           assert (Z : old_map (get_path p v) = []).
           { destruct (get_path p v); try reflexivity. exfalso. destruct H2 as [_ H2]. destruct (H2 eq_refl); discriminate. }
           rewrite Z. split; [reflexivity|]. split; [reflexivity|eauto].
        -- rewrite mset_other by exact Q. apply FR with (t := t); try assumption.
    + assert (Lb : S (S n) <= b < n') by (destruct (HO _ _ Ox) as [[NE _]|[_ Lb]]; [now contradiction NE|exact Lb]).
      split; [exact I'|]. split.
      * split; [exact L|]. split; [intros d Ld; rewrite hset_other by lia; now apply HB|exact HO].
      * intros p m t Hp N. destruct (String.eqb_spec (fm_name m) "Extensions") as [Q|Q].
        -- destruct (SM _ _ _ Hp Q) as (H1 & H2 & ->). cbn [look] in H1. rewrite Q, Ox. cbn [look]. rewrite hset_same, H1. split; [reflexivity|].
           split; [reflexivity|eauto].
        -- apply FR with (t := t); try assumption. apply Lb.
Qed.

Lemma mrel_opts nm : call_ty c = GStruct nm fs -> forall oas v st v' r, (forall oa, In oa oas -> In oa (rq_opts q)) -> mrel v st ->
  apply_opts (call_ty c) (map fst oas) v = (v', r) -> mrel v' (m_opts (call_ty c) oas st).
Proof.
  intros Ty. induction oas as [|oa oas IH]; intros v st v' r Sub R E; [injection E as <- <-; exact R|].
  cbn [map] in E. rewrite apply_opts_cons in E. cbn [m_opts]. rewrite (apply_opt_stable _ _ (zero (call_ty c)) v).
  destruct (apply_opt (call_ty c) (fst oa) v) as [v1 r1] eqn:E1. cbn [snd].
  assert (V1 : r1 <> Ok tt -> v1 = v).
  { intros Nr. rewrite Ty in E1. clear - E1 Nr. destruct (fst oa) as [|rw x|k x]; cbn [apply_opt] in E1; [congruence| |].
    - unfold set_field_opt in E1. destruct (get_field_from_base fs (or_field rw)) as [[p ft]| |]; try congruence.
      destruct (match kind_of ft with Some k' => kind_eqb (or_kind rw) k' | None => false end); [|congruence]. destruct (assignable (or_ty rw) ft); congruence.
    - unfold set_extension in E1. destruct (find_extension_field fs) as [[p []]|]; congruence. }
  destruct r1 as [[]|e|].
  - eapply IH; [|eapply mrel_step; [exact Ty|apply Sub; now left|exact R|exact E1]|exact E]. intros oa' H. apply Sub. now right.
  - injection E as <- <-. rewrite V1 by discriminate. exact R.
  - injection E as <- <-. rewrite V1 by discriminate. exact R.
Qed.

Lemma make_rel : exists v0 r, apply_opts (call_ty c) (map fst (rq_opts q)) (init (rq_rb q) (rq_now q) c) = (v0, r) /\ mrel v0 (m_make q (w_heap w) n).
Proof.
  destruct (apply_opts (call_ty c) (map fst (rq_opts q)) (init (rq_rb q) (rq_now q) c)) as [v0 r] eqn:E. exists v0, r. split; [reflexivity|].
  destruct (call_struct c) as [nm Ty]. unfold m_make. eapply mrel_opts; [exact Ty|tauto|exact mrel_init|exact E].
Qed.
Lemma make_inv : minv (m_make q (w_heap w) n).
Proof. destruct make_rel as (v0 & r & _ & R). unfold mrel in R. destruct (m_make q (w_heap w) n) as [[h n'] o]. tauto. Qed.

Lemma make_reads v e : m_result q = Ret (Some v) e ->
  forall p m t, has_path fs p m t -> fm_name m <> "ID" ->
    let '(h, n', o) := m_make q (w_heap w) n in
    look h (o (fm_name m)) = get_path p v /\ ((exists a, o (fm_name m) = At a) <-> is_ref (get_path p v) = true).
Proof.
  intros M p m t HP N. destruct make_rel as (v0 & r & E & R). unfold m_result in M. apply construct_inv in M as (_ & _ & v1 & r1 & E1 & _ & _ & _ & _ & C).
  rewrite E in E1. injection E1 as <- <-. destruct (m_make q (w_heap w) n) as [[h n'] o]. destruct R as (I & _ & H). specialize (H _ _ _ HP N).
  destruct (contribution (rq_pf q) c) as [g|] eqn:F; [|now subst v]. destruct C as (s & _ & ->).
  assert (Rd : random_id c = false) by (destruct (random_id c) eqn:Rd; [apply (contribution_random (rq_pf q)) in Rd; congruence|reflexivity]).
  now rewrite (id_other c _ _ _ _ _ Rd (proj1 I) HP N).
Qed.
End M.

(** ** Histories *)
Lemma one_stamp_time c : one_stamp c = true <-> one_time c.
Proof.
  unfold one_time. destruct c; cbn; split; auto; intros H; try discriminate; repeat (destruct H as [H|H]; [discriminate|]); destruct H.
Qed.
Lemma slot_app w h n c o i f : slot_of (W h n (w_objs w ++ [(c, o)])) i f =
  if Nat.ltb i (length (w_objs w)) then slot_of w i f else if Nat.eqb i (length (w_objs w)) then Some (o f) else None.
Proof.
  unfold slot_of. cbn [w_objs]. destruct (Nat.ltb_spec i (length (w_objs w))).
  - now rewrite nth_error_app1.
  - rewrite nth_error_app2 by assumption. destruct (Nat.eqb_spec i (length (w_objs w))) as [->|N]; [now rewrite Nat.sub_diag|].
    destruct (i - length (w_objs w)) as [|[|k]] eqn:E; [lia|reflexivity|reflexivity].
Qed.
Lemma assign_nth i f s : forall l j, nth_error (assign i f s l) j =
  match nth_error l j with Some (c, o) => Some (c, if Nat.eqb j i then mset o f s else o) | None => None end.
Proof.
  induction i as [|i IH]; intros [|[c o] l] [|j]; cbn; try reflexivity; [now destruct (nth_error l j) as [[? ?]|]|]. apply IH.
Qed.
Lemma nth_slot w i f s : slot_of w i f = Some s -> i < length (w_objs w).
Proof. unfold slot_of. destruct (nth_error (w_objs w) i) eqn:E; [|discriminate]. intros _. apply nth_error_Some. congruence. Qed.

Definition call_of (w : world) (i : nat) : option call := option_map fst (nth_error (w_objs w) i).
Definition winv (P : addr -> Prop) (w : world) : Prop :=
  (forall i f a, slot_of w i f = Some (At a) -> a < w_next w) /\
  (forall i f j g a, P a -> slot_of w i f = Some (At a) -> slot_of w j g = Some (At a) ->
     i = j /\ (f = g \/ (both_stamps f g /\ exists c, call_of w i = Some c /\ one_time c))).

Lemma winv_step P w e : winv P w -> sound_event w e -> (forall a, P a -> ~ hands e a) -> winv P (step w e).
Proof.
  intros [A B] S H. destruct e as [x|a x|q|k f0 x a0]; cbn [step].
  - split; [intros i f a E; cbn [w_next]; specialize (A i f a E); lia|exact B].
  - split; [exact A|exact B].
  - cbn in S. assert (I := make_inv w q S). destruct (m_make q (w_heap w) (w_next w)) as [[h n'] o]. destruct I as (L & _ & O). cbn [hands] in H.
    assert (O1 : forall f a, o f = At a -> a < n').
    { intros f a E. destruct (O _ _ E) as [(_ & [(_ & La)|St])|[_ La]]; [lia| |lia]. destruct (stamp_spec _ _ 0%Z _ _ St) as (_ & [-> | ->] & _); lia. }
    destruct (m_result q) as [[v|] er|]; [|split; [intros i f a E; cbn [w_next]; specialize (A i f a E); lia|exact B]..].
    split.
    + intros i f a. rewrite slot_app. cbn [w_next]. destruct (Nat.ltb i (length (w_objs w))); [intros E; specialize (A i f a E); lia|].
      destruct (Nat.eqb i (length (w_objs w))); [|discriminate]. intros E. apply (O1 f). congruence.
    + intros i f j g a Pa. rewrite !slot_app.
      assert (Fresh : forall f, o f = At a -> w_next w <= a).
      { intros f1 E. destruct (O _ _ E) as [(_ & [(Pq & _)|St])|[_ La]]; [destruct (H _ Pa Pq)| |lia]. destruct (stamp_spec _ _ 0%Z _ _ St) as (_ & [-> | ->] & _); lia. }
      destruct (Nat.ltb_spec i (length (w_objs w))) as [Li|Li]; destruct (Nat.ltb_spec j (length (w_objs w))) as [Lj|Lj].
      * intros Ei Ej. destruct (B _ _ _ _ _ Pa Ei Ej) as [-> [->|(Bo & c & Hc & Oc)]]; (split; [reflexivity|]); [now left|right].
        split; [exact Bo|]. exists c. split; [|exact Oc]. unfold call_of in *. cbn [w_objs]. now rewrite nth_error_app1.
      * intros Ei. destruct (Nat.eqb_spec j (length (w_objs w))) as [->|]; [|discriminate]. intros Ej. exfalso.
        specialize (A _ _ _ Ei). assert (o g = At a) as Eg by congruence. specialize (Fresh _ Eg). lia.
      * intros Ei Ej. destruct (Nat.eqb_spec i (length (w_objs w))) as [->|]; [|discriminate]. exfalso.
        specialize (A _ _ _ Ej). assert (o f = At a) as Ef by congruence. specialize (Fresh _ Ef). lia.
      * destruct (Nat.eqb_spec i (length (w_objs w))) as [->|]; [|discriminate]. destruct (Nat.eqb_spec j (length (w_objs w))) as [->|]; [|discriminate].
        intros Ef Eg. injection Ef as Ef. injection Eg as Eg. split; [reflexivity|]. destruct (string_dec f g) as [->|N]; [now left|right].
        destruct (O _ _ Ef) as [(Nf & [(Pq & _)|Sf])|[-> Lf]]; [destruct (H _ Pa Pq)| |];
        (destruct (O _ _ Eg) as [(Ng & [(Pq & _)|Sg])|[-> Lg]]; [destruct (H _ Pa Pq)| |]).
        -- assert (X := stamp_inj _ _ _ _ _ Sf Sg N). split.
           ++ destruct (stamp_spec _ _ 0%Z _ _ Sf) as ([-> | ->] & _); destruct (stamp_spec _ _ 0%Z _ _ Sg) as ([-> | ->] & _); try contradiction; [left|right]; now split.
           ++ exists (rq_call q). split; [|now apply one_stamp_time]. unfold call_of. cbn [w_objs]. rewrite nth_error_app2 by apply le_n. now rewrite Nat.sub_diag.
        -- exfalso. destruct (stamp_spec _ _ 0%Z _ _ Sf) as (_ & [-> | ->] & _); lia.
        -- exfalso. destruct (stamp_spec _ _ 0%Z _ _ Sg) as (_ & [-> | ->] & _); lia.
        -- now contradiction N.
  - assert (SL : forall i f a, slot_of (W (w_heap w) (w_next w) (assign k f0 (put x a0) (w_objs w))) i f = Some (At a) ->
      slot_of w i f = Some (At a) \/ (is_ref x = true /\ a = a0)).
    { intros i f a. unfold slot_of. cbn [w_objs]. rewrite assign_nth. destruct (nth_error (w_objs w) i) as [[c o]|]; [|discriminate].
      destruct (Nat.eqb i k); [|auto]. destruct (String.eqb_spec f f0) as [->|N]; [rewrite mset_same|rewrite mset_other by exact N; auto].
      intros E. right. apply (put_at x a0). congruence. }
    split.
    + intros i f a E. cbn [w_next]. destruct (SL _ _ _ E) as [E'|[R ->]]; [eauto|]. now destruct (S R).
    + intros i f j g a Pa Ei Ej. destruct (SL _ _ _ Ei) as [Ei'|[R ->]]; [|exfalso; apply (H _ Pa); cbn; auto].
      destruct (SL _ _ _ Ej) as [Ej'|[R ->]]; [|exfalso; apply (H _ Pa); cbn; auto].
      destruct (B _ _ _ _ _ Pa Ei' Ej') as [-> [->|(Bo & c & Hc & Oc)]]; (split; [reflexivity|]); [now left|right]. split; [exact Bo|]. exists c. split; [|exact Oc].
      unfold call_of in *. cbn [w_objs]. rewrite assign_nth. destruct (nth_error (w_objs w) j) as [[c' o']|]; [|discriminate]. exact Hc.
Qed.
Lemma winv_run P es : forall w, winv P w -> sound_from w es -> (forall e a, In e es -> P a -> ~ hands e a) -> winv P (fold_left step es w).
Proof.
  induction es as [|e es IH]; intros w I S H; [exact I|]. destruct S as [S1 S2]. cbn [fold_left]. apply IH; [|exact S2|intros e' a Hin; apply H; now right].
  apply winv_step; [exact I|exact S1|]. intros a. apply H. now left.
Qed.
Lemma winv_start P : winv P start.
Proof. split; [intros i f a|intros i f j g a _]; unfold slot_of; cbn; destruct i; discriminate. Qed.
Lemma run_inv es : sound es -> winv (kept_private es) (run es).
Proof. intros S. apply winv_run; [apply winv_start|exact S|]. intros e a Hin Pa. now apply Pa. Qed.
