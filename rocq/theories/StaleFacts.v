(** Lemmas for PropStale. *)
From Verif Require Import GoStr GoStrFacts JsonStr Json JsonFacts Float Consts Enums GoTypes Schema GoVal GoValFacts Time Base64 Codec CodecSpec CodecFacts StructFacts DataTypes Ident Collection FromJson ReadExact Stale StaleSpec.

Lemma dbind_dval {A B C} (f : A -> B) d (g : B -> dres C) : dbind (dval f d) g = dbind d (fun a => g (f a)).
Proof. now destruct d. Qed.
Lemma dval_dbind {A B C} (f : B -> C) (d : dres A) g : dval f (dbind d g) = dbind d (fun a => dval f (g a)).
Proof. destruct d as [a e| |]; try reflexivity. cbn [dbind]. now destruct (g a). Qed.
Lemma dval_dval {A B C} (f : A -> B) (g : B -> C) d : dval g (dval f d) = dval (fun a => g (f a)) d.
Proof. now destruct d. Qed.
Lemma dval_id {A} (d : dres A) : dval (fun a => a) d = d.
Proof. now destruct d. Qed.
Lemma dbind_ext {A B} (d : dres A) (f g : A -> dres B) : (forall a, f a = g a) -> dbind d f = dbind d g.
Proof. intros H. destruct d; try reflexivity. cbn [dbind]. now rewrite H. Qed.

Lemma fpath_eqb_eq p q : fpath_eqb p q = true <-> p = q.
Proof.
  destruct p as [[a|] x], q as [[b|] y]; unfold fpath_eqb; cbn [fst snd]; rewrite ?andb_true_iff, ?String.eqb_eq; split; intros H; try discriminate H.
  - now destruct H; subst.
  - injection H as -> ->. now split.
  - destruct H; discriminate.
  - destruct H; discriminate.
  - now destruct H; subst.
  - injection H as ->. now split.
Qed.

(** ** Documents that repeat no name *)
Lemma dec_mems_ext f g : forall ms m, (forall k x, In (k, x) ms -> f x = g x) -> dec_mems f ms m = dec_mems g ms m.
Proof.
  induction ms as [|[k x] ms IH]; intros m H; cbn [dec_mems]; [reflexivity|]. rewrite (H k x (or_introl eq_refl)). apply dbind_ext. intros v. apply IH. intros k' x' Hin. apply (H k'). now right.
Qed.
Lemma dec_ext_ext f g : forall ms m, (forall k x, In (k, x) ms -> f x (ext_ty k) (fresh (ext_ty k)) = g x (ext_ty k) (fresh (ext_ty k))) -> dec_ext f ms m = dec_ext g ms m.
Proof.
  induction ms as [|[k x] ms IH]; intros m H; cbn [dec_ext]; [reflexivity|]. fold (dec_ext f) (dec_ext g).
  assert (IH' : forall m, dec_ext f ms m = dec_ext g ms m) by (intros m'; apply IH; intros k' x' Hin; apply H; now right).
  destruct (mem_str k (map fst ms)); [apply IH'|]. rewrite (H k x (or_introl eq_refl)). destruct (g x _ _) as [v [|]| |]; auto.
Qed.
Lemma zip_none l : zip l [] = map (fun v => (v, MNone)) l.
Proof. induction l as [|v l IH]; [reflexivity|]. cbn [zip map]. now rewrite IH. Qed.

Lemma mem_list_fresh f g z : forall l old, (forall x o, In x l -> dval fst (f x o MNone) = g x o) ->
  dval (map fst) (mem_list f z l (map (fun v => (v, MNone)) old)) = dec_list g z l old.
Proof.
  induction l as [|x l IH]; intros old H; cbn [mem_list dec_list]; [reflexivity|]. fold (mem_list f z) (dec_list g z).
  assert (E : dval fst (match map (fun v => (v, MNone)) old with o :: _ => f x (fst o) (snd o) | [] => f x z MNone end) = g x (match old with o :: _ => o | [] => z end)).
  { destruct old as [|o old]; cbn [map fst snd]; apply H; now left. }
  rewrite dval_dbind, <- E, dbind_dval. apply dbind_ext. intros [v m]. rewrite dval_dbind.
  replace (tl (map (fun v0 => (v0, MNone)) old)) with (map (fun v => (v, MNone)) (tl old)) by now destruct old.
  rewrite <- (IH (tl old)) by (intros; apply H; now right). rewrite dbind_dval. apply dbind_ext. reflexivity.
Qed.

Lemma mem_struct_fresh f g fl : (forall k p t k' t', In (k, p, t) fl -> In (k', p, t') fl -> k = k') ->
  forall ms cur l, NoDup (map (fun kx : string * json => fold_key (fst kx)) ms) ->
  (forall k x p t, In (k, x) ms -> find_field k fl = Some (p, t) -> behind p l = MNone) ->
  (forall k x p t o, In (k, x) ms -> find_field k fl = Some (p, t) -> dval fst (f x t o MNone) = g x t o) ->
  dval fst (mem_struct f fl ms cur l) = dec_struct g fl ms cur.
Proof.
  intros U. induction ms as [|[k x] ms IH]; intros cur l N B H; cbn [mem_struct dec_struct]; [reflexivity|]. fold (mem_struct f fl) (dec_struct g fl).
  cbn [map fst] in N. inversion N as [|? ? N1 N2]; subst. destruct (find_field k fl) as [[p t]|] eqn:E.
  - rewrite dval_dbind, (B k x p t (or_introl eq_refl) E), <- (H k x p t _ (or_introl eq_refl) E), dbind_dval. apply dbind_ext. intros [v m]. cbn [fst snd].
    apply IH; [exact N2| |].
    + intros k' x' p' t' Hin E'. cbn [behind]. destruct (fpath_eqb p' p) eqn:Q; [|apply (B k' x' p' t' (or_intror Hin) E')].
      apply fpath_eqb_eq in Q. subst p'. destruct N1. destruct (find_field_fold _ _ _ _ E) as (k1 & I1 & F1). destruct (find_field_fold _ _ _ _ E') as (k2 & I2 & F2).
      rewrite (U _ _ _ _ _ I1 I2) in F1. apply in_map_iff. exists (k', x'). cbn [fst]. split; [congruence|exact Hin].
    + intros k' x' p' t' o Hin. apply (H k' x' p' t' o (or_intror Hin)).
  - apply IH; [exact N2| |]; intros k' x' p' t' *; [intros Hin; apply (B k' x' p' t' (or_intror Hin))|intros Hin; apply (H k' x' p' t' _ (or_intror Hin))].
Qed.

Lemma go_type_in n fs : go_type (GStruct n fs) -> NoDup (map (fun ft => fm_name (fst ft)) fs) /\ forall m t, In (m, t) fs -> go_type t.
Proof.
  cbn [go_type]. intros [N F]. split; [exact N|]. clear N. induction fs as [|[m0 t0] fs IH]; [intros m t []|]. cbn [fold_right snd] in F. destruct F as [F1 F2].
  intros m t [Q|Hin]; [now injection Q as <- <-|now apply (IH F2 m)].
Qed.
Lemma names_uniq {A} (f : A -> string) (l : list A) a b : NoDup (map f l) -> In a l -> In b l -> f a = f b -> a = b.
Proof.
  induction l as [|x l IH]; [intros _ []|]. cbn [map]. intros N. inversion N as [|? ? N1 N2]; subst. intros [<-|Ha] [<-|Hb] E; auto.
  - destruct N1. rewrite E. now apply in_map.
  - destruct N1. rewrite <- E. now apply in_map.
Qed.
Lemma go_type_paths n fs : go_type (GStruct n fs) -> forall k p t k' t', In (k, p, t) (flat_fields fs) -> In (k', p, t') (flat_fields fs) -> k = k'.
Proof.
  intros G k p t k' t' H H'. destruct (go_type_in _ _ G) as [N F]. apply flat_fields_In in H as (m & HP & -> & _). apply flat_fields_In in H' as (m' & HP' & -> & _).
  destruct HP as [m t Hin Em|mb nb fsb m t Hin Em Hin'].
  - remember (None, fm_name m) as p eqn:P. destruct HP' as [m2 t2 Hin2 Em2|]; [|discriminate P]. injection P as P.
    assert (X := names_uniq (fun ft : fmeta * gty => fm_name (fst ft)) _ _ _ N Hin2 Hin P). now injection X as -> ->.
  - remember (Some (fm_name mb), fm_name m) as p eqn:P. destruct HP' as [|mb2 nb2 fsb2 m2 t2 Hin2 Em2 Hin2']; [discriminate P|]. injection P as P1 P2.
    assert (X := names_uniq (fun ft : fmeta * gty => fm_name (fst ft)) _ _ _ N Hin2 Hin P1). injection X as -> -> ->.
    destruct (go_type_in _ _ (F _ _ Hin)) as [N' _]. assert (X := names_uniq (fun ft : fmeta * gty => fm_name (fst ft)) _ _ _ N' Hin2' Hin' P2). now injection X as -> ->.
Qed.
Lemma go_type_field n fs : go_type (GStruct n fs) -> forall k p t, In (k, p, t) (flat_fields fs) -> go_type t.
Proof.
  intros G k p t H. destruct (go_type_in _ _ G) as [N F]. apply flat_fields_In in H as (m & HP & _ & _). destruct HP as [m t Hin Em|mb nb fsb m t Hin Em Hin']; [eauto|].
  destruct (go_type_in _ _ (F _ _ Hin)) as [_ F']. eauto.
Qed.
Fixpoint go_typeb (t : gty) : bool :=
  match t with
  | GPtr t' | GSlice t' | GMap _ _ t' => go_typeb t'
  | GStruct _ fs => nodupb (map (fun ft => fm_name (fst ft)) fs) && forallb (fun ft => go_typeb (snd ft)) fs
  | _ => true
  end.
Lemma go_typeb_sound : forall t, go_typeb t = true -> go_type t.
Proof.
  fix IH 1. intros t. destruct t as [| | | | | | |t|t|a b t| |n fs| |]; try exact (fun _ => Logic.I); try exact (IH t).
  cbn [go_typeb go_type]. intros H. apply andb_true_iff in H as [H1 H2]. split; [now apply nodupb_NoDup|]. clear H1.
  induction fs as [|[m t] fs IHfs]; [exact Logic.I|]. cbn [forallb fold_right snd] in *. apply andb_true_iff in H2 as [H2 H3]. split; [exact (IH t H2)|exact (IHfs H3)].
Qed.
Lemma ext_go_type k : go_type (ext_ty k).
Proof.
  apply go_typeb_sound. unfold ext_ty. destruct (alookup k ext_types) as [t|] eqn:E; [|reflexivity]. apply alookup_Some_In in E.
  assert (X : forallb (fun kv => go_typeb (snd kv)) ext_types = true) by (vm_compute; reflexivity). rewrite forallb_forall in X. exact (X _ E).
Qed.
Lemma builtin_go_type name t : In (name, t) builtin_types -> go_type t.
Proof.
  intros E. apply go_typeb_sound. assert (X : forallb (fun kv => go_typeb (snd kv)) builtin_types = true) by (vm_compute; reflexivity). rewrite forallb_forall in X. exact (X _ E).
Qed.

Section Facts.
Variable rnd : bool -> N -> Z -> option flt.

Lemma mdec_fresh_step j : no_repeats j ->
  (forall l x, j = JArr l -> In x l -> forall t old, go_type t -> dval fst (mdec rnd x t old MNone) = dec rnd x t old) ->
  (forall ms k x, j = JObj ms -> In (k, x) ms -> forall t old, go_type t -> dval fst (mdec rnd x t old MNone) = dec rnd x t old) ->
  forall t old, go_type t -> dval fst (mdec rnd j t old MNone) = dec rnd j t old.
Proof.
  intros NR HA HO. assert (LEAF : forall d : dres gval, dval fst (dval (fun v => (v, MNone)) d) = d) by (intros []; reflexivity).
  induction t as [| | | | | | |t IH|t IH|a b t IH| |n fs| |]; intros old G.
  all: try (destruct j; apply LEAF).
  - (* pointer *) destruct j; try reflexivity.
    all: cbn [mdec dec]; rewrite dval_dbind; cbn [dval].
    all: match goal with |- dbind ?d _ = _ => match goal with |- _ = dbind ?d' _ => assert (X : dval fst d = d') end end.
    all: try (destruct old; apply IH; exact G).
    all: rewrite <- X, dbind_dval; reflexivity.
  - (* slice *) destruct j as [| | | |l|]; try reflexivity; [apply LEAF|].
    cbn [mdec dec]. rewrite dval_dbind. cbn [dval refilled fst].
    rewrite <- (mem_list_fresh (fun x o mo => mdec rnd x t o mo) (fun x o => dec rnd x t o) (zero t) l (old_list old)).
    + rewrite dbind_dval. cbn [slots]. rewrite zip_none. reflexivity.
    + intros x o Hin. eapply HA; eauto.
  - (* map *) destruct j as [| | | | |ms]; try apply LEAF. cbn [mdec dec]. rewrite dval_dbind. cbn [dval fst].
    erewrite dec_mems_ext; [reflexivity|]. intros k x Hin. cbn beta. eapply HO; eauto.
  - (* struct *) destruct j as [| | | | |ms]; try reflexivity. cbn [mdec dec fields_mem]. inversion NR as [| | | | |? N F]; subst.
    apply mem_struct_fresh; [exact (go_type_paths _ _ G)|exact N|reflexivity|].
    intros k x p t o Hin E. eapply HO; eauto. apply find_field_fold in E as (k' & E & _). eapply go_type_field; eauto.
  - (* extensions *) destruct j as [| | | | |ms]; try apply LEAF. cbn [mdec dec]. rewrite dval_dbind. cbn [dval fst].
    erewrite dec_ext_ext; [reflexivity|]. intros k x Hin. cbn beta. eapply HO; eauto. apply ext_go_type.
Qed.
Lemma mdec_no_repeats : forall j, no_repeats j -> forall t old, go_type t -> dval fst (mdec rnd j t old MNone) = dec rnd j t old.
Proof.
  induction j as [|b|l|raw|l IH|l IH] using json_ind'; intros NR; apply mdec_fresh_step; try exact NR; intros l' *; try discriminate.
  - intros Q. injection Q as <-. intros Hin. rewrite Forall_forall in IH. apply IH; [exact Hin|]. inversion NR; subst. rewrite Forall_forall in *. auto.
  - intros Q. injection Q as <-. intros Hin. rewrite Forall_forall in IH. apply (IH _ Hin). inversion NR as [| | | | |? N F]; subst. rewrite Forall_forall in F. exact (F _ Hin).
Qed.

(** ** All documents: what decoding returns besides the elements of lists *)
Definition how {A} (d : dres A) : dres unit := dval (fun _ => tt) d.
Lemma how_dval {A B} (f : A -> B) d : how (dval f d) = how d.
Proof. now destruct d. Qed.
Lemma how_dbind {A B A' B'} (d : dres A) (d' : dres A') (f : A -> dres B) (g : A' -> dres B') : how d = how d' -> (forall a b, how (f a) = how (g b)) -> how (dbind d f) = how (dbind d' g).
Proof.
  intros H F. destruct d as [a e| |], d' as [b e'| |]; try discriminate H; try reflexivity. injection H as <-. cbn [dbind]. specialize (F a b).
  destruct (f a), (g b); try discriminate F; try reflexivity. now injection F as <-.
Qed.
Lemma how_mems (f g : json -> dres gval) : forall ms m m', (forall k x, In (k, x) ms -> how (f x) = how (g x)) -> how (dec_mems f ms m) = how (dec_mems g ms m').
Proof.
  induction ms as [|[k x] ms IH]; intros m m' H; cbn [dec_mems]; [reflexivity|]. apply how_dbind; [apply (H k); now left|]. intros a b. apply IH. intros k' x' Hin. apply (H k'). now right.
Qed.
Lemma how_ext (f g : json -> gty -> gval -> dres gval) : forall ms m m', (forall k x, In (k, x) ms -> how (f x (ext_ty k) (fresh (ext_ty k))) = how (g x (ext_ty k) (fresh (ext_ty k)))) ->
  how (dec_ext f ms m) = how (dec_ext g ms m').
Proof.
  induction ms as [|[k x] ms IH]; intros m m' H; cbn [dec_ext]; [reflexivity|]. fold (dec_ext f) (dec_ext g).
  assert (IH' : forall m m', how (dec_ext f ms m) = how (dec_ext g ms m')) by (intros; apply IH; intros k' x' Hin; apply H; now right).
  destruct (mem_str k (map fst ms)); [apply IH'|]. assert (E := H k x (or_introl eq_refl)).
  destruct (f x _ _) as [v [|]| |], (g x _ _) as [w [|]| |]; try discriminate E; try reflexivity. apply IH'.
Qed.
Lemma how_list f g z : forall l slots old, (forall x o m o', In x l -> how (f x o m) = how (g x o')) -> how (mem_list f z l slots) = how (dec_list g z l old).
Proof.
  induction l as [|x l IH]; intros slots old H; cbn [mem_list dec_list]; [reflexivity|]. fold (mem_list f z) (dec_list g z). apply how_dbind.
  - destruct slots as [|o slots]; apply H; now left.
  - intros a b. apply how_dbind; [apply IH; intros; apply H; now right|reflexivity].
Qed.
Lemma how_struct f g fl : forall ms cur l cur', (forall k x t o m o', In (k, x) ms -> how (f x t o m) = how (g x t o')) -> how (mem_struct f fl ms cur l) = how (dec_struct g fl ms cur').
Proof.
  induction ms as [|[k x] ms IH]; intros cur l cur' H; cbn [mem_struct dec_struct]; [reflexivity|]. fold (mem_struct f fl) (dec_struct g fl).
  destruct (find_field k fl) as [[p t]|].
  - apply how_dbind; [apply (H k); now left|]. intros a b. apply IH. intros k' x' *; intros Hin; apply (H k'); now right.
  - apply IH. intros k' x' *; intros Hin; apply (H k'); now right.
Qed.
Lemma how_leaf j t : match t with GPtr _ | GSlice _ | GMap _ _ _ | GExt | GStruct _ _ => False | _ => True end -> forall old old', how (dec rnd j t old) = how (dec rnd j t old').
Proof.
  destruct t; intros H old old'; try destruct H; destruct j; cbn [dec]; try reflexivity.
  - now destruct (unq raw).
  - now destruct (parse_int lexeme).
  - now destruct (parse_float rnd lexeme).
Qed.
Lemma how_step j :
  (forall l x, j = JArr l -> In x l -> forall t o m o', how (mdec rnd x t o m) = how (dec rnd x t o')) ->
  (forall ms k x, j = JObj ms -> In (k, x) ms -> forall t o m o', how (mdec rnd x t o m) = how (dec rnd x t o')) ->
  forall t o m o', how (mdec rnd j t o m) = how (dec rnd j t o').
Proof.
  intros HA HO. induction t as [| | | | | | |t IH|t IH|a b t IH| |n fs| |]; intros o m o'.
  1,2,3,4,5,6,7,11,14: match goal with |- how (mdec _ _ ?t _ _) = _ => transitivity (how (dval (fun v : gval => (v, MNone)) (dec rnd j t o))); [now destruct j|]; rewrite how_dval; now apply how_leaf end.
  - destruct j; try reflexivity. all: cbn [mdec dec]; apply how_dbind; [|reflexivity]; destruct o; apply IH.
  - destruct j as [| | |raw|l|]; try reflexivity; cbn [mdec].
    + rewrite how_dval. cbn [dec]. destruct t; try reflexivity. destruct (unq raw) as [s|]; [|reflexivity]. now destruct (b64_decode s).
    + cbn [dec]. apply how_dbind; [|reflexivity]. apply how_list. intros x oo mm oo' Hin. eapply HA; eauto.
  - destruct j as [| | | | |ms]; try reflexivity. cbn [mdec dec]. apply how_dbind; [|reflexivity]. apply how_mems. intros k x Hin. rewrite how_dval. eapply HO; eauto.
  - destruct j as [| | | | |ms]; try reflexivity. cbn [mdec dec]. apply how_struct. intros k x t oo mm oo' Hin. eapply HO; eauto.
  - destruct j as [| | | | |ms]; try reflexivity. cbn [mdec dec]. apply how_dbind; [|reflexivity]. apply how_ext. intros k x Hin. rewrite how_dval. eapply HO; eauto.
Qed.
Lemma how_same : forall j t o m o', how (mdec rnd j t o m) = how (dec rnd j t o').
Proof.
  induction j as [|b|l|raw|l IH|l IH] using json_ind'; apply how_step; intros l' *; try discriminate.
  - intros Q. injection Q as <-. rewrite Forall_forall in IH. apply IH.
  - intros Q. injection Q as <-. intros Hin. rewrite Forall_forall in IH. apply (IH _ Hin).
Qed.

Definition drel {A B} (R : A -> B -> Prop) (d : dres A) (d' : dres B) : Prop :=
  match d, d' with DOk a e, DOk b e' => R a b /\ e = e' | DAbort, DAbort => True | DPanic, DPanic => True | _, _ => False end.
Lemma drel_bind {A B A' B'} (R : A -> A' -> Prop) (S : B -> B' -> Prop) d d' f g : drel R d d' -> (forall a b, R a b -> drel S (f a) (g b)) -> drel S (dbind d f) (dbind d' g).
Proof.
  intros H F. destruct d as [a e| |], d' as [b e'| |]; try destruct H; try exact Logic.I. subst e'. cbn [dbind]. specialize (F a b H).
  destruct (f a), (g b); try destruct F; try exact Logic.I. subst. now split.
Qed.
Lemma drel_val {A A' B B'} (R : A -> A' -> Prop) (S : B -> B' -> Prop) f g d d' : drel R d d' -> (forall a b, R a b -> S (f a) (g b)) -> drel S (dval f d) (dval g d').
Proof. intros H F. destruct d, d'; try destruct H; try exact Logic.I. cbn. auto. Qed.
Lemma drel_eq {A} (d : dres A) : drel eq d d.
Proof. destruct d; cbn; auto. Qed.
Lemma drel_refl {A} (R : A -> A -> Prop) (d : dres A) : (forall a, R a a) -> drel R d d.
Proof. intros H. destruct d; cbn; auto. Qed.

Definition entry_like (x y : string * gval) : Prop := fst x = fst y /\ besides_lists (snd x) (snd y).
Lemma entries_refl l : Forall2 entry_like l l.
Proof. induction l; constructor; [split; [reflexivity|constructor]|assumption]. Qed.
Lemma struct_inv v w : besides_lists v w -> v = w \/ (exists l l', v = VStruct l /\ w = VStruct l' /\ Forall2 entry_like l l') \/
  ((forall l, v <> VStruct l) /\ (forall l, w <> VStruct l)).
Proof. intros H. inversion H; subst; auto; right; [right|right|right|left|right]; try (split; intros; discriminate). do 2 eexists. repeat split; eauto. Qed.
Lemma alookup_like k : forall l l', Forall2 entry_like l l' ->
  match alookup k l, alookup k l' with Some v, Some w => besides_lists v w | None, None => True | _, _ => False end.
Proof.
  induction 1 as [|[a v] [b w] l l' [Hk Hv] H IH]; cbn [alookup]; [exact Logic.I|]. cbn [fst snd] in *. subst b. destruct (String.eqb k a); [exact Hv|exact IH].
Qed.
Lemma get_field_like n v w : besides_lists v w -> besides_lists (get_field n v) (get_field n w).
Proof.
  intros H. destruct (struct_inv _ _ H) as [->|[(l & l' & -> & -> & F)|[N N']]]; [constructor| |].
  - cbn [get_field]. assert (X := alookup_like n _ _ F). destruct (alookup n l), (alookup n l'); try exact X; try contradiction; constructor.
  - replace (get_field n v) with VNil by (destruct v; try reflexivity; destruct (N l eq_refl)). replace (get_field n w) with VNil by (destruct w; try reflexivity; destruct (N' l eq_refl)). constructor.
Qed.
Lemma areplace_like k x y : besides_lists x y -> forall l l', Forall2 entry_like l l' -> Forall2 entry_like (areplace k x l) (areplace k y l').
Proof.
  intros X. induction 1 as [|[a v] [b w] l l' [Hk Hv] H IH]; cbn [areplace]; [constructor|]. cbn [fst snd] in *. subst b. destruct (String.eqb k a); constructor; auto; now split.
Qed.
Lemma set_field_like n x y v w : besides_lists x y -> besides_lists v w -> besides_lists (set_field n x v) (set_field n y w).
Proof.
  intros X H. destruct (struct_inv _ _ H) as [->|[(l & l' & -> & -> & F)|[N N']]].
  - destruct w; try apply BL_same. cbn [set_field]. apply BL_struct. apply areplace_like; [exact X|apply entries_refl].
  - cbn [set_field]. apply BL_struct. now apply areplace_like.
  - replace (set_field n x v) with v by (destruct v; try reflexivity; destruct (N l eq_refl)). replace (set_field n y w) with w by (destruct w; try reflexivity; destruct (N' l eq_refl)). exact H.
Qed.
Lemma get_path_like p v w : besides_lists v w -> besides_lists (get_path p v) (get_path p w).
Proof. intros H. destruct p as [[b|] n]; cbn [get_path]; repeat apply get_field_like; exact H. Qed.
Lemma set_path_like p x y v w : besides_lists x y -> besides_lists v w -> besides_lists (set_path p x v) (set_path p y w).
Proof. intros X H. destruct p as [[b|] n]; cbn [set_path]; repeat apply set_field_like; auto. now apply get_field_like. Qed.
Lemma minsert_like k x y : besides_lists x y -> forall l l', Forall2 entry_like l l' -> Forall2 entry_like (minsert k x l) (minsert k y l').
Proof.
  intros X. induction 1 as [|[a v] [b w] l l' [Hk Hv] H IH]; cbn [minsert]; [constructor; [now split|constructor]|]. cbn [fst snd] in *. subst b.
  destruct (String.eqb k a); [constructor; [now split|assumption]|]. destruct (str_ltb k a).
  - constructor; [now split|]. constructor; [now split|assumption].
  - constructor; [now split|exact IH].
Qed.
Lemma old_map_like v w : besides_lists v w -> Forall2 entry_like (old_map v) (old_map w).
Proof. intros H. inversion H; subst; cbn [old_map]; try constructor; try apply entries_refl. assumption. Qed.

Lemma mems_like f g : forall ms m m', (forall k x, In (k, x) ms -> drel besides_lists (f x) (g x)) -> Forall2 entry_like m m' ->
  drel (Forall2 entry_like) (dec_mems f ms m) (dec_mems g ms m').
Proof.
  induction ms as [|[k x] ms IH]; intros m m' H M; cbn [dec_mems]; [now split|].
  eapply drel_bind; [apply (H k); now left|]. intros a b R. apply IH; [|now apply minsert_like]. intros k' x' Hin. apply (H k'). now right.
Qed.
Lemma ext_like f g : forall ms m m', (forall k x, In (k, x) ms -> drel besides_lists (f x (ext_ty k) (fresh (ext_ty k))) (g x (ext_ty k) (fresh (ext_ty k)))) -> Forall2 entry_like m m' ->
  drel (Forall2 entry_like) (dec_ext f ms m) (dec_ext g ms m').
Proof.
  induction ms as [|[k x] ms IH]; intros m m' H M; cbn [dec_ext]; [now split|]. fold (dec_ext f) (dec_ext g).
  assert (IH' : forall m m', Forall2 entry_like m m' -> drel (Forall2 entry_like) (dec_ext f ms m) (dec_ext g ms m')) by (intros; apply IH; auto; intros k' x' Hin; apply H; now right).
  destruct (mem_str k (map fst ms)); [now apply IH'|]. assert (E := H k x (or_introl eq_refl)).
  destruct (f x _ _) as [v e| |], (g x _ _) as [w e'| |]; try destruct E; try exact Logic.I. subst e'. destruct e; [exact Logic.I|]. apply IH'. apply minsert_like; [|exact M]. do 2 constructor. assumption.
Qed.
Lemma struct_like f g fl : forall ms cur l cur', (forall k x t o m o', In (k, x) ms -> besides_lists o o' -> drel (fun vm v => besides_lists (fst vm) v) (f x t o m) (g x t o')) ->
  besides_lists cur cur' -> drel (fun vm v => besides_lists (fst vm) v) (mem_struct f fl ms cur l) (dec_struct g fl ms cur').
Proof.
  induction ms as [|[k x] ms IH]; intros cur l cur' H C; cbn [mem_struct dec_struct]; [now split|]. fold (mem_struct f fl) (dec_struct g fl).
  assert (IH' : forall cur l cur', besides_lists cur cur' -> drel (fun vm v => besides_lists (fst vm) v) (mem_struct f fl ms cur l) (dec_struct g fl ms cur')).
  { intros. apply IH; [|assumption]. intros k' x' *. intros Hin. apply (H k'). now right. }
  destruct (find_field k fl) as [[p t]|]; [|now apply IH'].
  eapply drel_bind; [apply (H k); [now left|now apply get_path_like]|]. intros a b R. apply IH'. now apply set_path_like.
Qed.
Lemma how_drel {A B} (d : dres A) (d' : dres B) : how d = how d' -> drel (fun _ _ => True) d d'.
Proof. destruct d, d'; intros H; try discriminate H; cbn; auto. injection H as ->. auto. Qed.
Lemma mem_list_length f z : forall l s, match mem_list f z l s with DOk vs _ => length vs = length l | _ => True end.
Proof.
  induction l as [|x l IH]; intros s; cbn [mem_list]; [reflexivity|]. fold (mem_list f z). unfold dbind at 1. destruct (match s with [] => _ | _ => _ end) as [v e| |]; try exact Logic.I.
  specialize (IH (tl s)). destruct (mem_list f z l (tl s)); try exact Logic.I. cbn [dbind length]. now rewrite IH.
Qed.
Lemma dec_list_length g z : forall l s, match dec_list g z l s with DOk vs _ => length vs = length l | _ => True end.
Proof.
  induction l as [|x l IH]; intros s; cbn [dec_list]; [reflexivity|]. fold (dec_list g z). unfold dbind at 1. destruct (g x _) as [v e| |]; try exact Logic.I.
  specialize (IH (tl s)). destruct (dec_list g z l (tl s)); try exact Logic.I. cbn [dbind length]. now rewrite IH.
Qed.
Lemma leaf_like j t : match t with GPtr _ | GSlice _ | GMap _ _ _ | GExt | GStruct _ _ => False | _ => True end -> forall o o', besides_lists o o' ->
  drel besides_lists (dec rnd j t o) (dec rnd j t o').
Proof.
  destruct t; intros H o o' B; try destruct H.
  all: destruct j; cbn [dec]; try (split; [exact B|reflexivity]); try (split; [constructor|reflexivity]).
  all: try (destruct (unq raw); split; auto; constructor); try (destruct (parse_int lexeme); split; auto; constructor); try (destruct (parse_float rnd lexeme); split; auto; constructor).
  all: apply drel_refl; constructor.
Qed.
Lemma like_step j :
  (forall l x, j = JArr l -> In x l -> forall t o m o', besides_lists o o' -> drel (fun vm v => besides_lists (fst vm) v) (mdec rnd x t o m) (dec rnd x t o')) ->
  (forall ms k x, j = JObj ms -> In (k, x) ms -> forall t o m o', besides_lists o o' -> drel (fun vm v => besides_lists (fst vm) v) (mdec rnd x t o m) (dec rnd x t o')) ->
  forall t o m o', besides_lists o o' -> drel (fun vm v => besides_lists (fst vm) v) (mdec rnd j t o m) (dec rnd j t o').
Proof.
  intros HA HO. assert (OLD : forall (o : gval) (m : mem) (o' : gval) e, besides_lists o o' -> drel (fun (vm : gval * mem) v => besides_lists (fst vm) v) (DOk (o, m) e) (DOk o' e)) by (intros; now split).
  induction t as [| | | | | | |t IH|t IH|a b t IH| |n fs| |]; intros o m o' B.
  1,2,3,4,5,6,7,11,14: match goal with |- drel _ (mdec _ _ ?t _ _) _ => replace (mdec rnd j t o m) with (dval (fun v : gval => (v, MNone)) (dec rnd j t o)) by (now destruct j);
     rewrite <- (dval_id (dec rnd j t o')); eapply drel_val; [apply leaf_like; [exact Logic.I|exact B]|]; auto end.
  - destruct j; [apply OLD; constructor|..]. all: cbn [mdec dec]; eapply drel_bind; [|intros ? ? R; split; [apply BL_ptr; exact R|reflexivity]].
    all: destruct o, o'; try (apply IH; solve [constructor|inversion B; subst; (constructor || assumption)]).
    all: try (inversion B; fail).
  - destruct j as [| | |raw|l|]; try (now apply OLD); try (apply OLD; constructor); cbn [mdec].
    + replace (dec rnd (JStr raw) (GSlice t) o') with (dval (fun v : gval => v) (dec rnd (JStr raw) (GSlice t) o')) by apply dval_id.
      apply (drel_val besides_lists); [|now intros]. cbn [dec]. destruct t; try (now split). destruct (unq raw) as [s|]; [|now split]. destruct (b64_decode s); split; auto; constructor.
    + cbn [dec]. apply (drel_bind (fun a b => length a = length b)); [|intros x y R; split; [apply BL_list; now rewrite map_length|reflexivity]].
      assert (X := how_list (fun x o mo => mdec rnd x t o mo) (fun x o => dec rnd x t o) (zero t) l (slots o m) (old_list o') ltac:(intros; apply how_same)). apply how_drel in X.
      assert (L1 := mem_list_length (fun x o mo => mdec rnd x t o mo) (zero t) l (slots o m)). assert (L2 := dec_list_length (fun x o => dec rnd x t o) (zero t) l (old_list o')).
      destruct (mem_list _ _ _ _), (dec_list _ _ _ _); try destruct X; try exact Logic.I. split; [congruence|assumption].
  - destruct j as [| | | | |ms]; try (now apply OLD); try (apply OLD; constructor). cbn [mdec dec].
    eapply drel_bind; [|intros x y R; split; [apply BL_map; exact R|reflexivity]]. apply mems_like; [|now apply old_map_like].
    intros k x Hin. rewrite <- (dval_id (dec rnd x t (zero t))). eapply drel_val; [eapply HO; eauto; constructor|]. auto.
  - destruct j as [| | | | |ms]; try (now apply OLD). cbn [mdec dec]. apply struct_like; [|exact B]. intros k x t oo mm oo' Hin. eapply HO; eauto.
  - destruct j as [| | | | |ms]; try exact Logic.I; try (apply OLD; constructor). cbn [mdec dec].
    eapply drel_bind; [|intros x y R; split; [apply BL_map; exact R|reflexivity]]. apply ext_like; [|constructor].
    intros k x Hin. rewrite <- (dval_id (dec rnd x _ _)). eapply drel_val; [eapply HO; eauto; constructor|]. auto.
Qed.
Lemma dec_like : forall j t o m o', besides_lists o o' -> drel (fun vm v => besides_lists (fst vm) v) (mdec rnd j t o m) (dec rnd j t o').
Proof.
  induction j as [|b|l|raw|l IH|l IH] using json_ind'; apply like_step; intros l' *; try discriminate.
  - intros Q. injection Q as <-. rewrite Forall_forall in IH. apply IH.
  - intros Q. injection Q as <-. intros Hin. rewrite Forall_forall in IH. apply (IH _ Hin).
Qed.
End Facts.
