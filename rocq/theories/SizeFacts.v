(** Facts about the number of extended properties. *)
From Coq Require Import Lia.
From Verif Require Import GoStr GoStrFacts JsonStr Json JsonFacts StrSpec StrSpecFacts JsonSpec JsonSpecFacts Float Consts GoTypes Schema GoVal GoValFacts Codec CodecSpec CodecFacts DataTypes Ident Collection
  FromJson FromJsonSpec FromJsonFacts FromJsonProps IndepFacts ReadFacts DocSpec DocFacts ObjFacts ParseFacts PropCodec PropFromJson Share ShareSpec ShareFacts ShareProps SizeSpec.

(** ** Upper bounds *)
Lemma fresh_count h o : fresh_obj o -> properties_of (Some (obj_of h o)) = List.length (mo_props o).
Proof.
  intros [A B]. unfold properties_of, obj_of. cbn [fst snd]. rewrite B. destruct (props_path (mo_ty o)); [apply map_length|]. now rewrite (A eq_refl).
Qed.
Definition all_names (js : list json) : list string := flat_map (fun j => match j with JObj ms => map fst ms | _ => [] end) js.
Lemma all_names_length js : List.length (all_names js) = members js.
Proof.
  unfold all_names, members. induction js as [|j js IH]; [reflexivity|]. cbn [flat_map map list_sum fold_right]. rewrite app_length, IH. unfold members_of. f_equal. destruct j; try reflexivity. apply map_length.
Qed.
Lemma keys_count (r : refs) l : msorted r = true -> (forall k a, alookup k r = Some a -> In k l) -> List.length r <= List.length l.
Proof.
  intros S H. rewrite <- (map_length fst r). apply NoDup_incl_length; [now apply msorted_nodup|].
  intros k Hk. apply in_map_iff in Hk as ([k' a] & <- & Hk). apply (H k' a). apply alookup_In; [now apply msorted_nodup|exact Hk].
Qed.
Lemma firstn_nth {A} (l : list A) : forall n m v, m < n -> nth_error l m = Some v -> In v (firstn n l).
Proof.
  induction l as [|x l IH]; intros [|n] [|m] v L H; try lia; try discriminate; cbn [firstn]; [injection H as ->; now left|right; apply (IH n m); [lia|exact H]].
Qed.

Section S.
Variable rnd : bool -> N -> Z -> option flt.
Variable cf : config.
Hypothesis NP : forall typ, parser_of cf typ = None.

Lemma object_count js w i ob : m_read_all rnd cf js [] [] = Ok w -> nth_error (map (option_map (obj_of (fst w))) (snd w)) i = Some ob ->
  properties_of ob <= members (firstn (S i) js).
Proof.
  intros H E. rewrite nth_error_map in E. destruct (nth_error (snd w) i) as [[o|]|] eqn:Eo; cbn [option_map] in E; [|injection E as <-; cbn; lia|discriminate]. injection E as <-.
  assert (F := m_read_all_fresh rnd cf NP js _ _ _ H i o Eo). rewrite fresh_count by exact F. rewrite <- all_names_length.
  destruct (m_read_all_spec rnd cf js _ _ _ (fit_nil []) H) as (_ & _ & Fs & Sp). destruct (Fs _ _ Eo) as (_ & _ & So). apply keys_count; [exact So|]. intros k a Q.
  assert (R : ref_of w i k = Some a) by (unfold ref_of; now rewrite Eo). destruct (Sp _ _ _ R) as [_ S2].
  destruct (classic_names js i k) as [(n & v & L & Hv & (ms & x & -> & Hin))|X]; [|specialize (S2 X); discriminate].
  apply in_flat_map. exists (JObj ms). split; [apply (firstn_nth js (S i) n); [lia|exact Hv]|now apply (in_map fst) in Hin].
Qed.
Lemma object_own js w i v ob : m_read_all rnd cf js [] [] = Ok w -> own_names js w -> nth_error js i = Some v ->
  nth_error (map (option_map (obj_of (fst w))) (snd w)) i = Some ob -> properties_of ob <= members_of v.
Proof.
  intros H O Ev E. rewrite nth_error_map in E. destruct (nth_error (snd w) i) as [[o|]|] eqn:Eo; cbn [option_map] in E; [|injection E as <-; cbn; lia|discriminate]. injection E as <-.
  assert (F := m_read_all_fresh rnd cf NP js _ _ _ H i o Eo). rewrite fresh_count by exact F.
  destruct (m_read_all_spec rnd cf js _ _ _ (fit_nil []) H) as (_ & _ & Fs & _). destruct (Fs _ _ Eo) as (_ & _ & So).
  assert (X : forall k a, alookup k (mo_props o) = Some a -> names v k).
  { intros k a Q. apply (O i v k Ev). unfold reading, ref_of. rewrite Eo, Q. discriminate. }
  destruct v as [| | | | |ms]; try (destruct (mo_props o) as [|[k a] r]; [apply Nat.le_0_l|]; destruct (X k a) as (ms & y & Q & _); [cbn [alookup]; now rewrite String.eqb_refl|discriminate]).
  cbn [members_of]. rewrite <- (map_length fst ms). apply keys_count; [exact So|]. intros k a Q. apply names_obj. eapply X; eauto.
Qed.
Lemma sum_bound {A} (f : A -> nat) l b : (forall i x, nth_error l i = Some x -> f x <= b) -> list_sum (map f l) <= List.length l * b.
Proof.
  induction l as [|x l IH]; intros H; [apply Nat.le_0_l|]. cbn [map list_sum fold_right List.length]. assert (A1 := H 0 x eq_refl). assert (A2 : list_sum (map f l) <= List.length l * b) by (apply IH; intros i y Hy; apply (H (S i) y Hy)). unfold list_sum in A2. lia.
Qed.
Lemma sum_pairs {A B} (f : A -> nat) (g : B -> nat) l : forall l', List.length l = List.length l' ->
  (forall i x y, nth_error l i = Some x -> nth_error l' i = Some y -> f x <= g y) -> list_sum (map f l) <= list_sum (map g l').
Proof.
  induction l as [|x l IH]; intros [|y l'] L H; try discriminate; [apply Nat.le_refl|]. cbn [map list_sum fold_right]. assert (A1 := H 0 x y eq_refl eq_refl).
  assert (A2 : list_sum (map f l) <= list_sum (map g l')) by (apply IH; [now injection L|intros i x' y' Hx Hy; apply (H (S i) x' y' Hx Hy)]). unfold list_sum in A2. lia.
Qed.
Lemma members_firstn js n : members (firstn n js) <= members js.
Proof. rewrite <- (firstn_skipn n js) at 2. unfold members. rewrite map_app, list_sum_app. lia. Qed.
End S.

(** ** A family of documents *)
(** A tool with one extended property. *)
Definition nm (s : string) : string := String "x"%char (String "x"%char (String "x"%char s)).
Definition item (s : string) : json := tool [(nm s, JBool true)].
Lemma view_sorted h r : msorted r = true -> msorted (view h r) = true.
Proof.
  induction r as [|[k a] r IH]; intros S; [reflexivity|]. cbn [msorted] in S. apply andb_true_iff in S as [S1 S2]. cbn [view map fst snd msorted]. fold (view h r). rewrite (IH S2), andb_true_r.
  destruct r as [|[k' a'] r]; [reflexivity|exact S1].
Qed.
Lemma nm_field s : exists v1, forall rnd, dec rnd (item s) ty_Tool (zero ty_Tool) = DOk v1 false /\ obj_id (ty_Tool, v1) = Ok tid /\ obj_type (ty_Tool, v1) = Ok "tool".
Proof. eexists. intros rnd. split; [vm_compute; reflexivity|]. split; vm_compute; reflexivity. Qed.
Lemma nm_kept s r : alookup (nm s) (m_filter ty_Tool r) = alookup (nm s) r.
Proof. rewrite m_filter_lookup. unfold ty_Tool at 1. match goal with |- (if ?b then _ else _) = _ => replace b with false by (vm_compute; reflexivity) end. reflexivity. Qed.
Lemma item_step rnd s h r : fit h r -> exists ob h' r', m_read rnd default_cf (item s) h r = Ok (Some ob, h', r') /\ fit h' r' /\ r' = mo_props ob /\
  alookup (nm s) r' <> None /\ forall t, alookup (nm t) r <> None -> alookup (nm t) r' <> None.
Proof.
  intros F. unfold m_read. set (ms := [("type", JStr "tool"); ("id", JStr tid); ("name", JStr "x"); (nm s, JBool true)]). change (item s) with (JObj ms). cbn [m_peek].
  assert (G : forall k x, In (k, x) ms -> exists w, dec_any rnd x = DOk w false).
  { intros k x [Q|[Q|[Q|[Q|[]]]]]; injection Q as <- <-; eexists; vm_compute; reflexivity. }
  destruct (dec_mems_ok rnd ms G (view h r)) as (m & Dm). assert (D2 := m_mems_dec rnd ms h r F). rewrite Dm in D2.
  destruct (m_mems rnd ms h r) as [[h1 r1] e| |] eqn:M; try discriminate. injection D2 as -> <-. cbn [unmarshal_res bind fst snd] in *.
  destruct (m_mems_spec rnd ms _ _ _ _ _ F M) as (F1 & _ & L).
  destruct (dec_mems_spec rnd ms _ _ _ (view_sorted h r (proj2 (proj2 F))) Dm) as (_ & Lv & _). rewrite (Lv "type").
  replace (last_member "type" ms) with (Some (JStr "tool")) by (vm_compute; reflexivity). change (dval rnd (JStr "tool")) with (dyn_str "tool"). cbn [as_string dyn_str bind].
  replace (start default_cf "tool" (JObj ms)) with (Ok (Some (ty_Tool, zero ty_Tool)) : res (option gobj)) by (vm_compute; reflexivity). cbn [bind]. unfold m_finish.
  destruct (nm_field s) as (v1 & V). destruct (V rnd) as (D & I & T). change (JObj ms) with (item s). rewrite D. cbn [unmarshal_res bind]. rewrite obj_of_same. cbn [cf_drop default_cf].
  change (cf_drop default_cf) with false. cbn [negb andb]. unfold obj_id, obj_type. rewrite !add_props_field by discriminate. unfold obj_id, obj_type in I, T. rewrite I, T. cbn [bind].
  replace (has_valid_identifier tid "tool") with true by (vm_compute; reflexivity). replace (can_extend ty_Tool) with true by (vm_compute; reflexivity).
  eexists _, _, _. split; [reflexivity|]. split; [now apply m_filter_fit|]. split; [reflexivity|]. split.
  - rewrite nm_kept. destruct (L (nm s)) as [L1 _]. destruct L1 as (a & -> & _); [|discriminate]. cbn. auto 10.
  - intros t Ht. rewrite nm_kept. destruct (L (nm t)) as [L1 L2]. destruct (in_dec string_dec (nm t) (map fst ms)) as [X|X]; [destruct (L1 X) as (a & -> & _); discriminate|now rewrite (L2 X)].
Qed.

(** [n] of them, with different names. *)
Fixpoint run_of (n : nat) : string := match n with O => EmptyString | S n' => String "x"%char (run_of n') end.
Lemma run_inj n : forall m, run_of n = run_of m -> n = m.
Proof. induction n as [|n IH]; intros [|m] H; cbn in H; try discriminate; [reflexivity|]. injection H as H. f_equal. now apply IH. Qed.
Definition items (i n : nat) : list json := map (fun k => item (run_of k)) (seq i n).
Lemma items_read rnd n : forall i h r, fit h r -> (forall k, k < i -> alookup (nm (run_of k)) r <> None) ->
  exists w, m_read_all rnd default_cf (items i n) h r = Ok w /\
  forall j, j < n -> exists ob, nth_error (snd w) j = Some (Some ob) /\ i + j < List.length (mo_props ob).
Proof.
  induction n as [|n IH]; intros i h r F P.
  - exists (h, []). split; [reflexivity|]. intros j L. lia.
  - unfold items. cbn [seq map m_read_all]. destruct (item_step rnd (run_of i) h r F) as (ob & h1 & r1 & -> & F1 & E & P1 & P2). cbn [bind].
    assert (P' : forall k, k < S i -> alookup (nm (run_of k)) r1 <> None) by (intros k L; destruct (Nat.eq_dec k i) as [->|]; [exact P1|apply P2; apply P; lia]).
    destruct (IH (S i) h1 r1 F1 P') as (w & W & Ws). fold (items (S i) n). rewrite W. cbn [bind]. eexists. split; [reflexivity|]. cbn [snd].
    intros [|j] L; cbn [nth_error].
    + exists ob. split; [reflexivity|]. rewrite <- E. rewrite Nat.add_0_r.
      assert (X : List.length (map (fun k => nm (run_of k)) (seq 0 (S i))) <= List.length (akeys r1)).
      { apply NoDup_incl_length.
        - apply FinFun.Injective_map_NoDup; [|apply seq_NoDup]. intros a b Q. injection Q as Q. now apply run_inj.
        - intros k Hk. apply in_map_iff in Hk as (x & <- & Hx). apply in_seq in Hx. assert (Q := P' x ltac:(lia)). destruct (alookup (nm (run_of x)) r1) as [a|] eqn:Ea; [|congruence].
          apply alookup_Some_In in Ea. now apply (in_map fst) in Ea. }
      rewrite map_length, seq_length in X. unfold akeys in X. rewrite map_length in X. lia.
    + destruct (Ws j ltac:(lia)) as (ob' & H1 & H2). exists ob'. split; [exact H1|]. lia.
Qed.
