(** Lemmas: the members of what the encoder writes have one order. *)
From Coq Require Import Lia Permutation.
From Verif Require Import GoStr GoStrFacts JsonStr JsonStrFacts Json JsonFacts Float Consts Enums GoTypes Schema GoVal GoValFacts Codec CodecSpec CodecFacts CodecRound StructFacts
  AnyOrderFacts ObjFacts ParseFacts DocSettle SettleFacts CanonSpec IjsonSpec IjsonFacts IjsonRead OrderSpec RewriteFacts FingerSpec.

(** ** Lists *)
Inductive sub {A} : list A -> list A -> Prop :=
| sub_nil : sub [] []
| sub_skip x l l' : sub l l' -> sub l (x :: l')
| sub_take x l l' : sub l l' -> sub (x :: l) (x :: l').
Lemma sub_in {A} (l l' : list A) x : sub l l' -> In x l -> In x l'.
Proof. induction 1 as [| |y l l' _ IH]; [auto|right; auto|]. intros [->|I]; [now left|right; auto]. Qed.
Lemma sub_same {A} (l : list A) : NoDup l -> forall a b, sub a l -> sub b l -> (forall x, In x a <-> In x b) -> a = b.
Proof.
  induction l as [|y l IH]; intros N a b Ha Hb E; inversion Ha; subst; inversion Hb; subst; try reflexivity; inversion N; subst.
  - now apply IH.
  - exfalso. match goal with X : ~ In y l |- _ => apply X end. apply (sub_in a l); [assumption|]. apply E. now left.
  - exfalso. match goal with X : ~ In y l |- _ => apply X end. apply (sub_in b l); [assumption|]. apply E. now left.
  - f_equal. apply IH; auto. intros x. assert (X : forall c, sub c l -> In x c -> x <> y) by (intros c C I ->; match goal with X : ~ In y l |- _ => apply X end; eapply sub_in; eauto).
    split; intros I.
    + destruct (proj1 (E x) (or_intror I)) as [Q|]; [|assumption]. exfalso. match goal with S : sub ?c l, J : In x ?c |- _ => exact (X c S J (eq_sym Q)) end.
    + destruct (proj2 (E x) (or_intror I)) as [Q|]; [|assumption]. exfalso. match goal with S : sub ?c l, J : In x ?c |- _ => exact (X c S J (eq_sym Q)) end.
Qed.
Lemma named_perm {A} (l l' : list (string * A)) : NoDup (map fst l) -> map fst l = map fst l' -> Permutation l l' -> l = l'.
Proof.
  intros N E P. assert (X : forall a b : list (string * A), NoDup (map fst a) -> map fst a = map fst b -> (forall k x, In (k, x) a -> In (k, x) b) -> a = b).
  { clear. induction a as [|[k x] a IH]; intros [|[k' x'] b] N E I; try discriminate; [reflexivity|]. cbn [map fst] in *. injection E as <- E. inversion N; subst.
    assert (x = x'). { destruct (I k x (or_introl eq_refl)) as [Q|J]; [congruence|]. exfalso. apply H1. rewrite E. exact (in_map fst _ _ J). }
    subst x'. f_equal. apply IH; auto. intros k0 x0 J. destruct (I k0 x0 (or_intror J)) as [Q|]; [|assumption]. injection Q as <- <-. exfalso. apply H1. exact (in_map fst _ _ J). }
  apply X; auto. intros k x. apply Permutation_in. exact P.
Qed.
Lemma sorted_perm {A} (l l' : list (string * A)) : msorted l = true -> msorted l' = true -> Permutation l l' -> l = l'.
Proof.
  intros S S' P. apply msorted_ext; auto. intros k. assert (N := msorted_nodup _ S). assert (N' := msorted_nodup _ S').
  destruct (alookup k l) as [x|] eqn:E; symmetry.
  - apply alookup_In; [exact N'|]. apply (Permutation_in _ P). now apply alookup_Some_In.
  - apply alookup_None in E. apply alookup_None. intros I. apply E. unfold akeys in *. apply (Permutation_in _ (Permutation_map fst (Permutation_sym P)) I).
Qed.

(** ** Trees with the members in order *)
Definition nonempty_keys (fs : list (fmeta * gty)) : list string := filter (fun k => negb (is_empty k)) (map (fun ft => fm_key (fst ft)) fs).
Inductive ord : gty -> json -> Prop :=
| or_atom t j : match j with JArr _ | JObj _ => False | _ => True end -> ord t j
| or_ptr t j : ord t j -> ord (GPtr t) j
| or_slice t l : Forall (ord t) l -> ord (GSlice t) (JArr l)
| or_map a b t ms : msorted ms = true -> Forall (fun kx => ord t (snd kx)) ms -> ord (GMap a b t) (JObj ms)
| or_ext ms : msorted ms = true -> Forall (fun kx => ord (ext_ty (fst kx)) (snd kx)) ms -> ord GExt (JObj ms)
| or_struct n fs ms : sub (map fst ms) (nonempty_keys fs) -> Forall (fun kx => exists m t, In (m, t) fs /\ fm_key m = fst kx /\ fst kx <> "" /\ ord t (snd kx)) ms -> ord (GStruct n fs) (JObj ms)
| or_any_arr l : Forall (ord GIface) l -> ord GIface (JArr l)
| or_any_obj ms : msorted ms = true -> Forall (fun kx => ord GIface (snd kx)) ms -> ord GIface (JObj ms).

Lemma triples_perm (l : list (string * json * json)) ms ms' : Permutation ms (map (fun m => (fst (fst m), snd (fst m))) l) -> Permutation ms' (map (fun m => (fst (fst m), snd m)) l) ->
  (forall k x y, In (k, x, y) l -> x = y) -> Permutation ms ms'.
Proof.
  intros P P' E. rewrite P, P'. erewrite map_ext_in; [reflexivity|]. intros [[k x] y] I. cbn [fst snd]. now rewrite (E _ _ _ I).
Qed.
Lemma fields_unique fs m t m' t' : NoDup (nonempty_keys fs) -> In (m, t) fs -> In (m', t') fs -> fm_key m = fm_key m' -> fm_key m <> "" -> t = t'.
Proof.
  unfold nonempty_keys. induction fs as [|[m0 t0] fs IH]; intros N I I' E K; [destruct I|]. cbn [map filter fst] in N.
  assert (X : forall m t, In (m, t) fs -> fm_key m <> "" -> In (fm_key m) (filter (fun k => negb (is_empty k)) (map (fun ft => fm_key (fst ft)) fs))).
  { intros m1 t1 J Z. apply filter_In. split; [apply in_map_iff; exists (m1, t1); auto|]. destruct (fm_key m1); [contradiction|reflexivity]. }
  assert (N2 : NoDup (filter (fun k => negb (is_empty k)) (map (fun ft => fm_key (fst ft)) fs))) by (destruct (negb (is_empty (fm_key m0))); [now inversion N|exact N]).
  destruct I as [Q|I], I' as [Q'|I'].
  - congruence.
  - injection Q as -> ->. assert (Z : negb (is_empty (fm_key m)) = true) by (destruct (fm_key m); [contradiction|reflexivity]). rewrite Z in N. inversion N; subst. exfalso. apply H1. rewrite E in *. eapply X; eauto.
  - injection Q' as -> ->. assert (Z : negb (is_empty (fm_key m')) = true) by (rewrite <- E; destruct (fm_key m); [contradiction|reflexivity]). rewrite Z in N. inversion N; subst. exfalso. apply H1. rewrite <- E in *. eapply X; eauto.
  - eauto.
Qed.
Definition same_order (j : json) : Prop := forall t j', tags_apart t = true -> ord t j -> ord t j' -> reordered j j' -> j = j'.
Lemma ord_arr l l' (ll : list (json * json)) t : Forall same_order l -> tags_apart t = true -> Forall (ord t) l -> Forall (ord t) l' -> l = map fst ll -> l' = map snd ll -> (forall x y, In (x, y) ll -> reordered x y) -> l = l'.
Proof.
  intros S T F F' -> -> R. rewrite Forall_forall in *. apply map_ext_in. intros [x y] I. cbn [fst snd].
  apply (S x (in_map fst _ _ I) t); auto; [exact (F x (in_map fst _ _ I))|exact (F' y (in_map snd _ _ I))].
Qed.
Lemma ord_mems (ms ms' : list (string * json)) (tl : list (string * json * json)) :
  Forall (fun kx => same_order (snd kx)) ms -> Permutation ms (map (fun m => (fst (fst m), snd (fst m))) tl) -> Permutation ms' (map (fun m => (fst (fst m), snd m)) tl) ->
  (forall k x y, In (k, x, y) tl -> reordered x y) ->
  (forall k x y, In (k, x) ms -> In (k, y) ms' -> exists t, tags_apart t = true /\ ord t x /\ ord t y) -> Permutation ms ms'.
Proof.
  intros S P P' R C. apply (triples_perm tl); auto. intros k x y I.
  assert (I1 : In (k, x) ms) by (apply (Permutation_in _ (Permutation_sym P)); apply in_map_iff; exists (k, x, y); auto).
  assert (I2 : In (k, y) ms') by (apply (Permutation_in _ (Permutation_sym P')); apply in_map_iff; exists (k, x, y); auto).
  rewrite Forall_forall in S. destruct (C _ _ _ I1 I2) as (t & A & B & D). exact (S _ I1 t y A B D (R _ _ _ I)).
Qed.
Lemma sorted_ord (ms ms' : list (string * json)) tl (T : string -> gty) :
  Forall (fun kx => same_order (snd kx)) ms -> Permutation ms (map (fun m => (fst (fst m), snd (fst m))) tl) -> Permutation ms' (map (fun m => (fst (fst m), snd m)) tl) ->
  (forall k x y, In (k, x, y) tl -> reordered x y) -> (forall k, tags_apart (T k) = true) -> msorted ms = true -> msorted ms' = true ->
  Forall (fun kx => ord (T (fst kx)) (snd kx)) ms -> Forall (fun kx => ord (T (fst kx)) (snd kx)) ms' -> ms = ms'.
Proof.
  intros S P P' R TT O O' F F'. apply sorted_perm; auto. apply (ord_mems ms ms' tl); auto. rewrite Forall_forall in *.
  intros k x y I I'. exists (T k). repeat split; [apply TT|exact (F _ I)|exact (F' _ I')].
Qed.
Lemma struct_ord (ms ms' : list (string * json)) tl n fs :
  Forall (fun kx => same_order (snd kx)) ms -> Permutation ms (map (fun m => (fst (fst m), snd (fst m))) tl) -> Permutation ms' (map (fun m => (fst (fst m), snd m)) tl) ->
  (forall k x y, In (k, x, y) tl -> reordered x y) -> tags_apart (GStruct n fs) = true -> sub (map fst ms) (nonempty_keys fs) -> sub (map fst ms') (nonempty_keys fs) ->
  Forall (fun kx => exists m t, In (m, t) fs /\ fm_key m = fst kx /\ fst kx <> "" /\ ord t (snd kx)) ms ->
  Forall (fun kx => exists m t, In (m, t) fs /\ fm_key m = fst kx /\ fst kx <> "" /\ ord t (snd kx)) ms' -> ms = ms'.
Proof.
  intros S P P' R T O O' F F'. cbn [tags_apart] in T. apply andb_true_iff in T as [D T]. apply nodupb_NoDup in D. fold (nonempty_keys fs) in D. rewrite forallb_forall in T.
  assert (PP : Permutation ms ms').
  { apply (ord_mems ms ms' tl); auto. rewrite Forall_forall in *. intros k x y I I'.
    destruct (F _ I) as (m & t & A & B & C & G). destruct (F' _ I') as (m' & t' & A' & B' & C' & G'). cbn [fst snd] in *. subst k.
    assert (t = t') by exact (fields_unique fs m t m' t' D A A' (eq_sym B') C). subst t'. exists t. specialize (T _ A). apply andb_true_iff in T as [_ T]. auto. }
  assert (E : map fst ms = map fst ms').
  { apply (sub_same _ D); auto. intros k. split; apply Permutation_in; [|symmetry]; now apply Permutation_map. }
  apply named_perm; auto. clear -D O. remember (map fst ms) as ks. clear Heqks. induction O; [constructor|inversion D; auto|]. inversion D; subst. constructor; auto. intros I. apply H1. eapply sub_in; eauto.
Qed.
Lemma ord_same j : same_order j.
Proof.
  induction j as [|b|l|r|l IH|l IH] using json_ind'; intros t j' T O O' R; inversion R as [|ll RR E1 E2|tl ms ms' P P' RR E1 E2]; subst; try reflexivity.
  - f_equal. revert T O O'. induction t; intros T O O'; inversion O; subst; try contradiction; inversion O'; subst; try contradiction; cbn [tags_apart] in T; auto.
    + apply (ord_arr _ _ ll t); auto.
    + apply (ord_arr _ _ ll GIface); auto.
  - f_equal. revert T O O'. induction t; intros T O O'; inversion O; subst; try contradiction; inversion O'; subst; try contradiction; cbn [tags_apart] in T; auto.
    + apply (sorted_ord l ms' tl (fun _ => t)); auto.
    + apply (sorted_ord l ms' tl (fun _ => GIface)); auto.
    + apply (struct_ord l ms' tl name fields); auto.
    + apply (sorted_ord l ms' tl ext_ty); auto. exact ext_tags.
Qed.

(** ** What the encoder makes *)
Lemma enc_mems_In f : forall l js, enc_mems f l = Ok js -> forall k j, In (k, j) js -> exists x, In (k, x) l /\ f x = Ok j.
Proof.
  induction l as [|[k x] l IH]; intros js E k' j I; cbn [enc_mems] in E; [injection E as <-; destruct I|]. fold (enc_mems f) in E.
  apply bind_ok in E as (j0 & E1 & E). apply bind_ok in E as (js' & E2 & E). injection E as <-. destruct I as [Q|I]; [injection Q as <- <-; exists x; split; [now left|exact E1]|].
  destruct (IH js' E2 k' j I) as (y & Y & Z). exists y. split; [now right|exact Z].
Qed.
Lemma enc_fields_sub f : forall vs fs js, enc_fields f fs vs = Ok js -> sub (map fst js) (nonempty_keys fs).
Proof.
  assert (N : forall l : list string, sub [] l) by (induction l; constructor; auto).
  induction vs as [|[k x] vs IH]; intros [|[m t] fs] js E; cbn [enc_fields] in E; try (injection E as <-; apply N). fold (enc_fields f) in E.
  unfold nonempty_keys. cbn [map filter fst]. destruct (is_empty (fm_key m)); cbn [negb]; [now apply IH|].
  destruct (fm_omit m && is_empty_val x); [apply sub_skip; now apply IH|].
  apply bind_ok in E as (j & E1 & E). apply bind_ok in E as (js' & E2 & E). injection E as <-. cbn [map fst]. apply sub_take. now apply IH.
Qed.
Definition mems_sorted (l : list (string * gval)) (js : list (string * json)) : map fst js = map fst l -> msorted l = true -> msorted js = true.
Proof. intros E S. rewrite <- S. now apply msorted_keys. Qed.
Lemma like_ord v : (forall j, json_like v = true -> names_apart v = true -> enc GIface v = Ok j -> ord GIface j) /\
  match v with
  | VSlice l => forall x j, In x l -> json_like x = true -> names_apart x = true -> enc GIface x = Ok j -> ord GIface j
  | VMap l => forall k x j, In (k, x) l -> json_like x = true -> names_apart x = true -> enc GIface x = Ok j -> ord GIface j
  | _ => True
  end.
Proof.
  induction v using gval_ind'; (split; [intros jo L N E; try discriminate L|try exact Logic.I]).
  - injection E as <-. constructor. exact Logic.I.
  - rewrite Forall_forall in H. intros x j I. now apply H.
  - rewrite Forall_forall in H. intros k x j I. now apply (H _ I).
  - cbn [json_like] in L. cbn [enc] in E. cbn [names_apart] in N. apply andb_true_iff in N as [_ N]. destruct IHv as [_ IHv]. destruct t; try discriminate.
    + assert (X : exists s, v = VStr s). { repeat (try discriminate; match goal with J : (match ?x with _ => _ end) = true |- _ => destruct x end); eauto. }
      destruct X as (s & ->). injection E as <-. constructor. exact Logic.I.
    + destruct v; try discriminate. injection E as <-. constructor. exact Logic.I.
    + destruct v; try discriminate. cbn [enc] in E. destruct (fmt_float f); [|discriminate]. injection E as <-. constructor. exact Logic.I.
    + destruct t; try discriminate. destruct v; try discriminate. cbn [enc names_apart] in *. apply bind_ok in E as (js & E1 & E). injection E as <-. rewrite forallb_forall in *.
      apply or_any_arr. eapply enc_list_all; [|exact E1]. intros x j I. apply IHv; auto.
    + destruct name; try discriminate.
      assert (X : key = "string" /\ t = GIface /\ exists l, v = VMap l /\ forallb (fun kv => json_like (snd kv)) l = true).
      { repeat (try discriminate; match goal with
        | J : (match ?x with _ => _ end) = true |- _ => destruct x end). repeat split. eauto. }
      destruct X as (-> & -> & l & -> & Jl). clear L. cbn [enc names_apart] in *. apply bind_ok in E as (js & E1 & E). injection E as <-. apply andb_true_iff in N as [S N]. rewrite forallb_forall in *.
      apply (enc_mems_all (fun kv => ord GIface (snd kv))) in E1 as [A B]; [apply or_any_obj; [now apply (mems_sorted l)|exact A]|].
      intros k x j I F. cbn [snd]. specialize (N _ I). apply andb_true_iff in N as [_ N]. exact (IHv k x j I (Jl _ I) N F).
Qed.
Lemma enc_ord v : (forall t j, generic t v = true -> names_apart v = true -> enc t v = Ok j -> ord t j) /\
  match v with
  | VDyn _ (VPtr w) => forall t j, generic t w = true -> names_apart w = true -> enc t w = Ok j -> ord t j
  | VPtr w => forall t j, generic t w = true -> names_apart w = true -> enc t w = Ok j -> ord t j
  | _ => True
  end.
Proof.
  induction v using gval_ind'; (split; [intros t0 jo G N E; cbn [generic enc] in *|try exact Logic.I]); try (injection E as <-; constructor; exact Logic.I).
  - destruct (fmt_float f); [|discriminate]. injection E as <-. constructor. exact Logic.I.
  - destruct t0; try discriminate. injection E as <-. constructor. exact Logic.I.
  - destruct t0; try discriminate. apply or_ptr. now apply IHv.
  - intros t j. apply IHv.
  - destruct t0; try discriminate. cbn [names_apart] in N. apply bind_ok in E as (js & E1 & E). injection E as <-. rewrite forallb_forall in *. rewrite Forall_forall in H.
    apply or_slice. eapply enc_list_all; [|exact E1]. intros x j I. apply H; auto.
  - cbn [names_apart] in N. apply andb_true_iff in N as [S N]. rewrite forallb_forall in N. rewrite Forall_forall in H.
    destruct t0; try discriminate; apply bind_ok in E as (js & E1 & E); injection E as <-; rewrite forallb_forall in G.
    + apply (enc_mems_all (fun kv => ord t0 (snd kv))) in E1 as [A B]; [apply or_map; [now apply (mems_sorted l)|exact A]|].
      intros k x j I F. cbn [snd]. specialize (N _ I). apply andb_true_iff in N as [_ N]. exact (proj1 (H _ I) t0 j (G _ I) N F).
    + apply (enc_mems_all (fun kv => ord (ext_ty (fst kv)) (snd kv))) in E1 as [A B]; [apply or_ext; [now apply (mems_sorted l)|exact A]|].
      intros k x j I F. specialize (N _ I). apply andb_true_iff in N as [_ N]. specialize (G _ I). destruct (H _ I) as [_ Y]. cbn [fst snd] in *.
      destruct x as [| | | | | | | | | | | |t' w|]; try discriminate. destruct w as [| | | | | | | |w| | | | |]; try discriminate. apply andb_true_iff in G as [G1 G2]. apply gty_eqb_eq in G1. subst t'.
      cbn [names_apart enc] in *. apply andb_true_iff in N as [_ N]. now apply Y.
  - destruct t0; try discriminate. cbn [names_apart] in N. apply bind_ok in E as (js & E1 & E). injection E as <-. rewrite forallb_forall in N. rewrite Forall_forall in H. apply or_struct; [eapply enc_fields_sub; eauto|].
    rewrite Forall_forall. intros [k x] I. destruct (enc_fields_In _ _ _ _ E1 _ _ I) as (m & t & n & v & H1 & H2 & H3 & H4 & H5). exists m, t. cbn [fst snd].
    destruct (wf_fields_combine _ _ _ G _ _ _ _ H1) as [_ Gv]. split; [exact (in_combine_l _ _ _ _ H1)|]. split; [now symmetry|]. split; [exact H3|]. assert (I2 := in_combine_r _ _ _ _ H1). exact (proj1 (H _ I2) t x Gv (N _ I2) H5).
  - destruct t0; try discriminate. exact (proj1 (like_ord (VDyn t v)) jo G N E).
  - destruct v; try exact Logic.I. intros t0 j. apply (proj2 IHv).
  - discriminate G.
Qed.

(** ** Objects *)
Lemma generic_struct n fs x : generic (GStruct n fs) x = true -> (exists vs, x = VStruct vs) -> exists vs, x = VStruct vs /\ wf_fields generic fs vs = true.
Proof. intros G (vs & ->). eauto. Qed.
Lemma generic_path rnd n fs v p m t : flat_ok fs -> wf rnd (GStruct n fs) v = true -> generic (GStruct n fs) v = true -> has_path fs p m t -> generic t (get_path p v) = true.
Proof.
  intros (N & _ & E) W G H. assert (X : forall n fs v, wf rnd (GStruct n fs) v = true -> exists vs, v = VStruct vs /\ wf_fields (wf rnd) fs vs = true).
  { clear. intros n fs v W. destruct v; try discriminate. cbn [wf] in W. apply andb_true_iff in W as [_ W]. eauto. }
  destruct (X _ _ _ W) as (vs & -> & WF). cbn [generic] in G.
  destruct H as [m t Hin Em|mb nb fsb m t Hin Em Hin'].
  - destruct (combine_ex _ vs _ (wf_fields_len _ _ _ G) Hin) as ([nm x] & Hc).
    cbn [get_path]. rewrite (combine_get _ _ _ _ _ _ _ N G Hc). now destruct (wf_fields_combine _ _ _ G _ _ _ _ Hc).
  - destruct (combine_ex _ vs _ (wf_fields_len _ _ _ G) Hin) as ([nm x] & Hc).
    cbn [get_path]. rewrite (combine_get _ _ _ _ _ _ _ N G Hc).
    destruct (wf_fields_combine _ _ _ G _ _ _ _ Hc) as [_ Gx]. destruct (wf_fields_combine _ _ _ WF _ _ _ _ Hc) as [_ Wx].
    destruct (X _ _ _ Wx) as (vs' & -> & WF'). cbn [generic] in Gx.
    destruct (E _ _ Hin Em) as (n' & fs' & Q & N'). injection Q as <- <-.
    destruct (combine_ex _ vs' _ (wf_fields_len _ _ _ Gx) Hin') as ([nm' x'] & Hc').
    rewrite (combine_get _ _ _ _ _ _ _ N' Gx Hc'). now destruct (wf_fields_combine _ _ _ Gx _ _ _ _ Hc').
Qed.
Lemma apart_field n v : names_apart v = true -> names_apart (get_field n v) = true.
Proof.
  intros G. unfold get_field. destruct v; try reflexivity. destruct (alookup n l) as [x|] eqn:E; [|reflexivity].
  apply alookup_Some_In in E. cbn [names_apart] in G. rewrite forallb_forall in G. exact (G _ E).
Qed.
Lemma apart_path p v : names_apart v = true -> names_apart (get_path p v) = true.
Proof. destruct p as [[b|] f]; cbn [get_path]; intros N; repeat apply apart_field; exact N. Qed.
Lemma enc_obj_order rnd name n fs v v' j j' : In (name, GStruct n fs) builtin_types -> obj_ok (GStruct n fs) = true -> props_ok (GStruct n fs) = true ->
  wf rnd (GStruct n fs) v = true -> wf rnd (GStruct n fs) v' = true -> generic (GStruct n fs) v = true -> generic (GStruct n fs) v' = true ->
  names_apart v = true -> names_apart v' = true -> apart (GStruct n fs) (props_of (GStruct n fs) v) -> apart (GStruct n fs) (props_of (GStruct n fs) v') ->
  enc_obj (GStruct n fs) v = Ok j -> enc_obj (GStruct n fs) v' = Ok j' -> reordered j j' -> j = j'.
Proof.
  intros HB O P W W' G G' N N' A A' E E' R. assert (F := builtin_flat _ _ _ HB).
  destruct (enc_obj_members rnd n fs v j O P W A E) as (ms & -> & S & M1 & M2 & M3). destruct (enc_obj_members rnd n fs v' j' O P W' A' E') as (ms' & -> & S' & M1' & M2' & M3').
  inversion R as [|ll RR E1 E2|tl ? ? PP PP' RR E1 E2]; subst; [reflexivity|]. f_equal. apply sorted_perm; auto. apply (ord_mems ms ms' tl); auto.
  { apply Forall_forall. intros kx _. apply ord_same. }
  intros k x y I I'. apply alookup_In in I; [|now apply msorted_nodup]. apply alookup_In in I'; [|now apply msorted_nodup].
  destruct (in_dec string_dec k (own_keys (GStruct n fs))) as [K|K].
  - apply own_keys_In in K as (p & m & t & HP & <- & K). exists t. specialize (M1 _ _ _ HP K). specialize (M1' _ _ _ HP K). rewrite I in M1. rewrite I' in M1'. destruct M1 as [M1 _], M1' as [M1' _].
    split.
    + assert (T := builtin_tags). rewrite forallb_forall in T. specialize (T _ HB). cbn [snd] in T. destruct p as [b f]. apply (flat_tags n fs (fm_key m) (b, f) t T). apply flat_fields_In. exists m. auto.
    + split; [apply (enc_ord (get_path p v))|apply (enc_ord (get_path p v'))]; auto using apart_path; eapply generic_path; eauto.
  - assert (X : forall v ms z, wf rnd (GStruct n fs) v = true -> generic (GStruct n fs) v = true -> names_apart v = true ->
      (forall k x, In (k, x) (props_of (GStruct n fs) v) -> exists jx, alookup k ms = Some jx /\ enc GIface x = Ok jx) ->
      (forall k, In k (akeys ms) -> In k (own_keys (GStruct n fs)) \/ In k (akeys (props_of (GStruct n fs) v))) -> alookup k ms = Some z -> ord GIface z).
    { clear -HB F K. intros v ms z W G N M2 M3 L. assert (Ik : In k (akeys ms)) by (apply alookup_Some_In in L; exact (in_map fst _ _ L)).
      destruct (M3 _ Ik) as [|Kp]; [contradiction|]. unfold akeys in Kp. apply in_map_iff in Kp as ([k' u] & Q & Iu). cbn [fst] in Q. subst k'.
      destruct (M2 _ _ Iu) as (jx & L' & Ex). assert (jx = z) by congruence. subst jx.
      unfold props_of in Iu. destruct (props_path (GStruct n fs)) as [p|] eqn:Ep; [|destruct Iu]. destruct (builtin_props _ _ _ _ HB Ep) as (m & HP & _).
      assert (Gp := generic_path rnd _ _ _ _ _ _ F W G HP). assert (Np := apart_path p v N).
      destruct (get_path p v) as [| | | | | | | |w| | | | |]; try (now destruct Iu). destruct w as [| | | | | | | | | |l| | |]; try (now destruct Iu).
      cbn [generic ty_CustomObject names_apart] in Gp, Np. apply andb_true_iff in Np as [_ Np]. rewrite forallb_forall in Gp, Np. specialize (Gp _ Iu). specialize (Np _ Iu). apply andb_true_iff in Np as [_ Np].
      apply (enc_ord u); auto. }
    exists GIface. split; [reflexivity|]. split; [exact (X v ms x W G N M2 M3 I)|exact (X v' ms' y W' G' N' M2' M3' I')].
Qed.
Lemma marshal_order rnd name t v v' j j' : In (name, t) builtin_types -> wf rnd t v = true -> wf rnd t v' = true -> generic t v = true -> generic t v' = true ->
  names_apart v = true -> names_apart v' = true -> apart t (props_of t v) -> apart t (props_of t v') ->
  marshal t v = Ok j -> marshal t v' = Ok j' -> reordered j j' -> j = j'.
Proof.
  intros H W W' G G' N N' A A' E E' R. destruct (builtin_cases _ _ H) as (n & fs & -> & [(M & O & P)|(M & O & P)]); unfold marshal in *; cbn [ty_name] in *; rewrite M in *.
  - exact (enc_obj_order rnd name n fs v v' j j' H O P W W' G G' N N' A A' E E' R).
  - assert (T := builtin_tags). rewrite forallb_forall in T. specialize (T _ H). apply (ord_same j (GStruct n fs) j'); auto; [apply (enc_ord v)|apply (enc_ord v')]; auto.
Qed.

(** ** What is read *)
Lemma neat_generic v : (forall t, neat t v = true -> generic t v = true) /\
  match v with
  | VDyn _ (VPtr w) => forall t, neat t w = true -> generic t w = true
  | VPtr w => forall t, neat t w = true -> generic t w = true
  | _ => True
  end.
Proof.
  induction v using gval_ind'; (split; [intros t0 N; cbn [neat generic] in *|try exact Logic.I]); try reflexivity.
  - destruct t0; try discriminate. now apply IHv.
  - intros t. apply IHv.
  - destruct t0; try discriminate. rewrite Forall_forall in H. destruct (is_enum t0); rewrite forallb_forall in *; intros x I; [specialize (N _ I); destruct x; try discriminate; reflexivity|]. apply H; auto.
  - rewrite Forall_forall in H. destruct t0; try discriminate; apply andb_true_iff in N as [_ N]; rewrite forallb_forall in *; intros kv I; specialize (N _ I).
    + apply H; auto.
    + assert (Y := proj2 (H _ I)). destruct (snd kv) as [| | | | | | | | | | | |t' w|]; try discriminate. destruct w as [| | | | | | | |w| | | | |]; try discriminate.
      apply andb_true_iff in N as [N1 N2]. rewrite N1. now apply Y.
  - destruct t0; try discriminate. revert fields N. induction H as [|[k x] l Hx Hl IH]; intros [|[m t] fs] N; cbn [wf_fields] in *; try discriminate; [reflexivity|].
    rewrite !andb_true_iff in *. destruct N as [[N1 N2] N3]. repeat split; auto. now apply (proj1 Hx).
  - exact N.
  - destruct v; try exact Logic.I. apply (proj2 IHv).
  - discriminate.
Qed.
