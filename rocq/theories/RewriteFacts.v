(** Writing what was read back gives the same text (for C83). *)
From Verif Require Import GoStr GoStrFacts JsonStr JsonStrFacts Json JsonFacts Time TimeFacts Base64 Float FloatFacts Enums GoTypes Schema GoVal GoValFacts Codec CodecSpec CodecFacts StructFacts CodecRound ObjFacts TypedFacts Collection FromJson FromJsonFacts ReadFacts ParseFacts IndepFacts DocSpec DocFacts SettleFacts SettleRead DocSettle.

(** Enumerations have defined members, except in slices, where the missing ones
    have no name and zero neither, and interfaces what encoding/json puts there. *)
Definition is_enum (t : gty) : bool := match t with GEnum _ => true | _ => false end.
Lemma zero_unnamed name : enum_string name 0 = "".
Proof.
  unfold enum_string, enum_map. destruct (alookup name enum_table) as [m|] eqn:E; [|reflexivity]. apply alookup_Some_In in E.
  assert (X : forallb (fun kv : string * list (N * string) => match find (fun x => N.eqb (fst x) 0) (snd kv) with Some (_, s) => is_empty s | None => true end) enum_table = true) by (vm_compute; reflexivity).
  rewrite forallb_forall in X. specialize (X _ E). cbn [snd] in X. destruct (find _ m) as [[n s]|]; [now apply is_empty_true|reflexivity].
Qed.
Lemma enum_text name n : enum_string name (enum_norm name n) = enum_string name n.
Proof.
  unfold enum_norm. destruct (existsb _ _) eqn:E; [reflexivity|]. rewrite zero_unnamed. unfold enum_string. destruct (find _ _) as [[n' s]|] eqn:F; [|reflexivity].
  apply find_some in F as [F1 F2]. assert (X : existsb (fun kv => N.eqb (fst kv) n) (enum_map name) = true) by (apply existsb_exists; eauto). congruence.
Qed.
Definition tidy_fields (f : gty -> gval -> bool) : list (fmeta * gty) -> list (string * gval) -> bool :=
  fix go fs vs {struct vs} :=
    match fs, vs with
    | (fm, t) :: fs', (_, v) :: vs' => (is_empty (fm_key fm) || (fm_omit fm && blank_value v) || f t v) && go fs' vs'
    | _, _ => true
    end.
Fixpoint tidy (t : gty) (v : gval) {struct v} : bool :=
  match v with
  | VNil => match t with GExt => false | _ => true end
  | VEnum n => match t with GEnum name => N.eqb (enum_norm name n) n | _ => true end
  | VPtr w => match t with GPtr t' => tidy t' w | _ => true end
  | VSlice l => match t with GSlice t' => is_enum t' || forallb (tidy t') l | _ => true end
  | VMap l => match t with
              | GMap _ _ t' => forallb (fun kv => tidy t' (snd kv)) l
              | GExt => forallb (fun kv => match snd kv with VDyn (GPtr t') (VPtr w) => tidy t' w | _ => true end) l
              | _ => true
              end
  | VDyn t' w => json_like (VDyn t' w)
  | VStruct vs => match t with GStruct _ fs => tidy_fields tidy fs vs | _ => true end
  | _ => true
  end.

Section Same.
Variable rnd : bool -> N -> Z -> option flt.
Local Notation wf := (wf rnd).
Local Notation norm := (norm rnd).

Lemma enc_list_same f g l : Forall (fun x => f (g x) = f x) l -> enc_list f (map g l) = enc_list f l.
Proof. induction 1 as [|x l Hx Hl IH]; [reflexivity|]. cbn [map enc_list]. fold (enc_list f). now rewrite Hx, IH. Qed.
Lemma enc_mems_same f (g : string * gval -> gval) l : Forall (fun kv => f (g kv) = f (snd kv)) l -> enc_mems f (map (fun kv => (fst kv, g kv)) l) = enc_mems f l.
Proof. induction 1 as [|[k x] l Hx Hl IH]; [reflexivity|]. cbn [map enc_mems fst]. fold (enc_mems f). cbn [snd] in Hx. now rewrite Hx, IH. Qed.

Lemma same_enc v : (forall t, wf t v = true -> tidy t v = true -> enc t (norm t v) = enc t v /\ blank_value (norm t v) = blank_value v) /\
  match v with
  | VDyn (GPtr t') (VPtr w) => wf t' w = true -> tidy t' w = true -> enc t' (norm t' w) = enc t' w
  | VPtr w => forall t, wf t w = true -> tidy t w = true -> enc t (norm t w) = enc t w
  | _ => True
  end.
Proof.
  induction v using gval_ind'; (split; [intros t0 W T; cbn [CodecSpec.wf] in W; cbn [tidy] in T; cbn [CodecSpec.norm]|try exact I]); try (split; reflexivity).
  - destruct t0; try discriminate. apply N.eqb_eq in T. rewrite T. split; reflexivity.
  - destruct t0; try discriminate. cbn [enc]. rewrite ts_string_trunc. split; reflexivity.
  - destruct t0; try discriminate; split; reflexivity.
  - destruct t0; try discriminate. apply andb_true_iff in W as [_ W]. cbn [enc]. split; [|reflexivity]. now apply (proj1 IHv).
  - intros t W T. now apply (proj1 IHv).
  - destruct t0; try discriminate. rewrite forallb_forall in W. cbn [enc]. split; [|destruct l; reflexivity].
    rewrite enc_list_same; [reflexivity|]. apply orb_true_iff in T as [T|T].
    { destruct t0; try discriminate. apply Forall_forall. intros x Hx. specialize (W _ Hx). destruct x; try discriminate W. cbn [CodecSpec.norm enc]. now rewrite enum_text. }
    rewrite forallb_forall in T. rewrite Forall_forall in *. intros x Hx. apply (proj1 (H x Hx)); auto.
  - destruct t0; try discriminate; apply andb_true_iff in W as [_ W]; rewrite forallb_forall in W, T; cbn [enc]; (split; [|destruct l; reflexivity]).
    + rewrite (enc_mems_same (enc t0) (fun kv => norm t0 (snd kv))); [reflexivity|]. rewrite Forall_forall in *. intros kv Hx. specialize (W _ Hx). apply andb_true_iff in W as [_ W].
      apply (proj1 (H _ Hx)); auto.
    + rewrite (enc_mems_same (enc GIface) (fun kv => match snd kv with VDyn (GPtr t') (VPtr w) => VDyn (GPtr t') (VPtr (norm t' w)) | x => x end)); [reflexivity|].
      rewrite Forall_forall in *. intros kv Hx. specialize (W _ Hx). specialize (T _ Hx). assert (Hv := proj2 (H _ Hx)). apply andb_true_iff in W as [_ W].
      destruct (snd kv) as [| | | | | | | | | | | |t' w|] ; try reflexivity. destruct t'; try reflexivity. destruct w; try reflexivity. rewrite !andb_true_iff in W. destruct W as [[_ W] _].
      cbn [CodecSpec.wf] in W. apply andb_true_iff in W as [_ W]. cbn [enc]. now apply Hv.
  - destruct t0; try discriminate. apply andb_true_iff in W as [_ W]. cbn [enc]. split; [|reflexivity].
    assert (G : enc_fields enc fields (norm_fields norm fields l) = enc_fields enc fields l); [|now rewrite G].
    revert fields W T. induction H as [|[k x] l Hx Hl IH]; intros [|[m t] fs] W T; cbn [wf_fields] in W; try discriminate; [reflexivity|].
    rewrite !andb_true_iff in W. destruct W as [[W1 W2] W3]. cbn [tidy_fields] in T. apply andb_true_iff in T as [T1 T2]. cbn [norm_fields enc_fields].
    fold (enc_fields enc). fold (norm_fields norm). rewrite (IH _ W3 T2). cbn [snd] in Hx.
    destruct (is_empty (fm_key m)) eqn:K; [reflexivity|]. cbn [orb] in T1. destruct (fm_omit m) eqn:Om; cbn [andb orb] in *.
    + rewrite <- !blank_eq. destruct (blank_value x) eqn:Bx; cbn [orb] in T1.
      * destruct (blank_value (zero t)) eqn:Bz; [reflexivity|]. destruct t; try discriminate Bz; destruct x; try discriminate W2; discriminate Bx.
      * destruct (proj1 Hx t W2 T1) as [E1 E2]. rewrite E1. rewrite <- ?blank_eq, E2, ?Bx. reflexivity.
    + destruct (proj1 Hx t W2 T1) as [-> _]. reflexivity.
  - destruct t0; try discriminate. change (view rnd t v) with (norm GIface (VDyn t v)). rewrite (norm_canon rnd (VDyn t v) GIface W T). split; reflexivity.
  - destruct t; try exact I. destruct v; try exact I. intros W T. destruct IHv as [_ IH]. now apply IH.
Qed.
End Same.

(** Types of own properties: no times by value, structs by value only with
    named fields of simple types. *)
Definition steady (t : gty) : bool :=
  match t with
  | GTime => false
  | GStruct _ fs => forallb (fun ft : fmeta * gty => negb (is_empty (fm_key (fst ft))) &&
      match snd ft with GString _ | GInt _ | GBool | GPtr _ => true | _ => false end) fs
  | _ => true
  end.
Definition steady_obj (t : gty) : bool := match t with GStruct _ fs => forallb (fun f : string * fpath * gty => steady (snd f)) (flat_fields fs) | _ => false end.
Lemma builtin_steady : forallb (fun kt => steady_obj (snd kt)) builtin_types = true.
Proof. vm_compute. reflexivity. Qed.

Section Top.
Variable rnd : bool -> N -> Z -> option flt.
Hypothesis ST : settled rnd.
Local Notation wf := (wf rnd).
Local Notation norm := (norm rnd).

Lemma steady_zero t x : steady t = true -> wf t x = true -> tidy t x = true -> is_zero x = false -> is_zero (norm t x) = false.
Proof.
  intros S W T Z. destruct x; cbn [CodecSpec.wf] in W; cbn [tidy] in T; cbn [CodecSpec.norm]; try exact Z; destruct t; try discriminate; try reflexivity.
  - apply N.eqb_eq in T. now rewrite T.
  - apply andb_true_iff in W as [_ W]. cbn [steady] in S. cbn [is_zero] in *. clear T. revert fields S W Z.
    induction l as [|[k x] l IH]; intros [|[m t] fs] S W Z; cbn [wf_fields] in W; try discriminate.
    rewrite !andb_true_iff in W. destruct W as [[W1 W2] W3]. cbn [forallb fst snd] in S, Z. rewrite !andb_true_iff in S. destruct S as [[S1 S2] S3].
    cbn [norm_fields forallb snd]. apply negb_true_iff in S1. rewrite S1. fold (norm_fields norm). destruct (is_zero x) eqn:Zx; cbn [andb] in Z.
    + rewrite (IH fs S3 W3 Z). apply andb_false_r.
    + replace (is_zero _) with false; [reflexivity|]. symmetry. destruct x; cbn [CodecSpec.wf] in W2; destruct t; try discriminate; cbn [is_zero blank_value CodecSpec.norm] in *.
      * destruct s; [discriminate|]. now rewrite andb_false_r.
      * destruct z; [discriminate| |]; now rewrite andb_false_r.
      * destruct b; [|discriminate]. now rewrite andb_false_r.
      * now rewrite andb_false_r.
  - match goal with |- is_zero (view rnd ?a ?b) = false => change (view rnd a b) with (norm GIface (VDyn a b)); now rewrite (norm_canon rnd (VDyn a b) GIface W T) end.
Qed.
Lemma bool_val t x : wf t x = true -> is_bool_val x = match t with GBool => true | _ => false end.
Proof. destruct x; cbn [CodecSpec.wf]; destruct t; intros W; try discriminate W; reflexivity. Qed.

(** An object with the same members has the same text. *)
Lemma enc_obj_same n fs v v' j : obj_ok (GStruct n fs) = true -> props_ok (GStruct n fs) = true -> wf (GStruct n fs) v = true -> wf (GStruct n fs) v' = true ->
  apart (GStruct n fs) (props_of (GStruct n fs) v) -> props_of (GStruct n fs) v' = props_of (GStruct n fs) v ->
  (forall p m t, has_path fs p m t -> fm_key m <> "" -> is_zero (get_path p v') = is_zero (get_path p v) /\ enc t (get_path p v') = enc t (get_path p v)) ->
  enc_obj (GStruct n fs) v = Ok j -> enc_obj (GStruct n fs) v' = Ok j.
Proof.
  intros O P W W' A EP H E. destruct (obj_ok_facts _ _ O) as (_ & F & _ & _).
  assert (Wp := fun p m t HP => wf_path rnd n fs v p m t F W HP). assert (Wp' := fun p m t HP => wf_path rnd n fs v' p m t F W' HP).
  destruct (enc_obj_fails rnd n fs v O P W A) as [_ NF]. assert (A' : apart (GStruct n fs) (props_of (GStruct n fs) v')) by now rewrite EP.
  destruct (enc_obj_fails rnd n fs v' O P W' A') as [NP NF'].
  assert (X : exists j', enc_obj (GStruct n fs) v' = Ok j').
  { destruct (enc_obj (GStruct n fs) v') as [j'|e|] eqn:E'; [eauto| |contradiction]. exfalso.
    assert (NE : ~ exists e, enc_obj (GStruct n fs) v = Err e) by (intros (e1 & Q); congruence). apply NE, NF.
    destruct (proj1 NF' (ex_intro _ e eq_refl)) as [(p & m & t & HP & K & C)|C]; [left|right; now rewrite <- EP].
    exists p, m, t. split; [exact HP|]. split; [exact K|]. destruct (H p m t HP K) as [H1 H2].
    rewrite H1, (bool_val _ _ (Wp' _ _ _ HP)), <- (bool_val _ _ (Wp _ _ _ HP)) in C. destruct C as [C|C]; [now left|right].
    destruct (fin t (get_path p v)) eqn:Fn; [|reflexivity]. apply (enc_ok_iff rnd _ _ (Wp _ _ _ HP)) in Fn as (jx & Ex). rewrite <- H2 in Ex.
    assert (Y := proj1 (enc_ok_iff rnd _ _ (Wp' _ _ _ HP)) (ex_intro _ jx Ex)). congruence. }
  destruct X as (j' & E'). rewrite E'. f_equal.
  destruct (enc_obj_members rnd n fs v j O P W A E) as (ms & -> & S & Own & Pr & Ks). destruct (enc_obj_members rnd n fs v' j' O P W' A' E') as (ms' & -> & S' & Own' & Pr' & Ks').
  f_equal. apply msorted_ext; [exact S'|exact S|]. intros k. rewrite EP in Pr', Ks'.
  destruct (in_dec string_dec k (own_keys (GStruct n fs))) as [Hk|Hk].
  - apply own_keys_In in Hk as (p & m & t & HP & <- & K). specialize (Own _ _ _ HP K). specialize (Own' _ _ _ HP K). destruct (H p m t HP K) as [H1 H2].
    rewrite H1, H2, (bool_val _ _ (Wp' _ _ _ HP)), <- (bool_val _ _ (Wp _ _ _ HP)) in Own'.
    destruct (alookup (fm_key m) ms) as [jx|], (alookup (fm_key m) ms') as [jx'|]; try reflexivity.
    + destruct Own as [Q1 _], Own' as [Q2 _]. congruence.
    + destruct Own as [_ [Q1|Q1]], Own' as (Q2 & Q3 & _); congruence.
    + destruct Own' as [_ [Q1|Q1]], Own as (Q2 & Q3 & _); congruence.
  - destruct (in_dec string_dec k (akeys (props_of (GStruct n fs) v))) as [Hp|Hp].
    + apply in_map_iff in Hp as ([k' x] & Q & Hp). cbn [fst] in Q. subst k'. destruct (Pr _ _ Hp) as (jx & -> & E1). destruct (Pr' _ _ Hp) as (jx' & -> & E2). congruence.
    + assert (Y : forall l : list (string * json), (forall k, In k (akeys l) -> In k (own_keys (GStruct n fs)) \/ In k (akeys (props_of (GStruct n fs) v))) -> alookup k l = None).
      { intros l Hl. apply alookup_akeys. intros I. destruct (Hl _ I); contradiction. }
      now rewrite (Y ms), (Y ms').
Qed.

(** Own properties as a reader leaves them behind. *)
Definition tidy_top (t : gty) (v : gval) : Prop :=
  match t with
  | GStruct n fs => if mem_str n helper_types then forall p m t', has_path fs p m t' -> fm_key m <> "" -> is_zero (get_path p v) = true \/ tidy t' (get_path p v) = true
                    else tidy t v = true
  | _ => False
  end.
Lemma rewrite_marshal name t v l j : In (name, t) builtin_types -> wf t v = true -> tidy_top t v -> apart t (props_of t v) ->
  l = props_of t v -> marshal t v = Ok j -> marshal t (add_props t l (norm_top rnd t v)) = Ok j.
Proof.
  intros H W T A -> E. destruct (settle_top rnd ST name t v H W) as [W' _]. assert (Pn := norm_props rnd _ _ _ H W).
  destruct (builtin_cases _ _ H) as (n & fs & -> & [(M & O & P)|(M & O & P)]); unfold marshal, norm_top in *; cbn [ty_name tidy_top] in *; rewrite M in *.
  - assert (Sh := wf_shape rnd _ _ _ (builtin_flat _ _ _ H) W'). refine (enc_obj_same n fs v _ j O P W _ A _ _ E).
    + destruct (props_path (GStruct n fs)) as [p|] eqn:E'; [|unfold add_props; rewrite E'; destruct (props_of _ v); exact W'].
      apply (wf_add rnd name); [exact H|exact W'| |exact (props_fine rnd name _ v H W)].
      unfold props_of. rewrite E'. destruct (builtin_props _ _ _ _ H E') as (m & HP & K). assert (X := wf_path rnd _ _ _ _ _ _ (builtin_flat _ _ _ H) W HP).
      destruct (get_path p v) as [| | | | | | | |w| | | | |]; try reflexivity. destruct w; try reflexivity. cbn [CodecSpec.wf ty_CustomObject] in X. rewrite !andb_true_iff in X. now destruct X as [_ [X _]].
    + rewrite (add_props_props name n fs _ _ H Sh Pn). unfold props_of. now destruct (props_path (GStruct n fs)).
    + intros p m t HP K. rewrite (add_props_own name n fs _ _ p m t H Sh HP K), (norm_obj_path rnd _ _ _ _ _ _ O W HP). unfold norm_field.
      assert (K' : is_empty (fm_key m) = false) by (destruct (fm_key m); [contradiction|reflexivity]). rewrite K'. assert (Wx := wf_path rnd _ _ _ _ _ _ (builtin_flat _ _ _ H) W HP).
      destruct (is_zero (get_path p v)) eqn:Z.
      * rewrite <- (zero_eq rnd _ _ Wx Z). now split.
      * destruct (T _ _ _ HP K) as [Q|Tx]; [congruence|]. split; [|now apply (same_enc rnd)].
        apply steady_zero; auto. assert (X := builtin_steady). rewrite forallb_forall in X. specialize (X _ H). cbn [snd steady_obj] in X. rewrite forallb_forall in X.
        refine (X (fm_key m, p, t) _). apply flat_fields_In. exists m. auto.
  - unfold add_props. rewrite P. unfold props_of. rewrite P. destruct (proj1 (same_enc rnd v) _ W T) as [-> _]. exact E.
Qed.
End Top.

(** ** What is read *)
(** Values of a type with defined members of enumerations, and in interfaces
    what encoding/json puts there. *)
Fixpoint neat (t : gty) (v : gval) {struct v} : bool :=
  match v with
  | VNil => match t with GPtr _ | GSlice _ | GMap _ _ _ | GExt | GIface | GBinary => true | _ => false end
  | VStr _ => match t with GString _ => true | _ => false end
  | VInt _ => match t with GInt _ => true | _ => false end
  | VBool _ => match t with GBool => true | _ => false end
  | VFloat _ => match t with GFloat => true | _ => false end
  | VEnum n => match t with GEnum name => N.eqb (enum_norm name n) n | _ => false end
  | VTime _ => match t with GTime => true | _ => false end
  | VBin _ => match t with GBinary => true | _ => false end
  | VPtr w => match t with GPtr t' => neat t' w | _ => false end
  | VSlice l => match t with GSlice t' => if is_enum t' then forallb (fun x => match x with VEnum _ => true | _ => false end) l else forallb (neat t') l | _ => false end
  | VMap l => match t with
              | GMap _ _ t' => msorted l && forallb (fun kv => neat t' (snd kv)) l
              | GExt => msorted l && forallb (fun kv => match snd kv with VDyn t' (VPtr w) => gty_eqb t' (GPtr (ext_ty (fst kv))) && neat (ext_ty (fst kv)) w | _ => false end) l
              | _ => false
              end
  | VDyn t' w => match t with GIface => json_like (VDyn t' w) | _ => false end
  | VStruct vs => match t with GStruct _ fs => wf_fields neat fs vs | _ => false end
  | VRaw _ => false
  end.

(** Extensions occur only in fields that are left out when there are none. *)
Definition not_ext (t : gty) : bool := match t with GExt => false | _ => true end.
Fixpoint exts_omit (t : gty) : bool :=
  match t with
  | GPtr t' | GSlice t' | GMap _ _ t' => not_ext t' && exts_omit t'
  | GStruct _ fs => forallb (fun ft => (not_ext (snd ft) || fm_omit (fst ft)) && exts_omit (snd ft)) fs
  | GRaw => false
  | _ => true
  end.
Lemma builtin_exts : forallb (fun kt => exts_omit (snd kt)) builtin_types = true.
Proof. vm_compute. reflexivity. Qed.
Lemma ext_exts k : exts_omit (ext_ty k) = true /\ not_ext (ext_ty k) = true.
Proof.
  unfold ext_ty. destruct (alookup k ext_types) as [t|] eqn:E; [|split; reflexivity]. apply alookup_Some_In in E.
  assert (X : forallb (fun kt => exts_omit (snd kt) && not_ext (snd kt)) ext_types = true) by (vm_compute; reflexivity). rewrite forallb_forall in X. specialize (X _ E). now apply andb_true_iff in X.
Qed.
Lemma path_exts n fs p m t : exts_omit (GStruct n fs) = true -> has_path fs p m t -> exts_omit t = true.
Proof.
  intros U H. cbn [exts_omit] in U. rewrite forallb_forall in U. destruct H as [m t Hin _|mb nb fsb m t Hin _ Hin'].
  - specialize (U _ Hin). now apply andb_true_iff in U.
  - specialize (U _ Hin). apply andb_true_iff in U as [_ U]. cbn [snd exts_omit] in U. rewrite forallb_forall in U. specialize (U _ Hin'). now apply andb_true_iff in U.
Qed.

Lemma neat_tidy v : (forall t, exts_omit t = true -> neat t v = true -> (not_ext t = true \/ v <> VNil) -> tidy t v = true) /\
  match v with
  | VDyn _ (VPtr w) => forall t, exts_omit t = true -> not_ext t = true -> neat t w = true -> tidy t w = true
  | VPtr w => forall t, exts_omit t = true -> not_ext t = true -> neat t w = true -> tidy t w = true
  | _ => True
  end.
Proof.
  induction v using gval_ind'; (split; [intros t0 U N X; cbn [neat tidy] in *|try exact I]); try (destruct t0; try discriminate; reflexivity || assumption).
  - destruct t0; try discriminate; try reflexivity. destruct X as [X|X]; [discriminate|contradiction].
  - destruct t0; try discriminate. cbn [exts_omit] in U. apply andb_true_iff in U as [U1 U2]. apply IHv; auto.
  - intros t U N W. apply IHv; auto.
  - destruct t0; try discriminate. cbn [exts_omit] in U. apply andb_true_iff in U as [U1 U2]. destruct (is_enum t0); [reflexivity|]. cbn [orb]. rewrite forallb_forall in *. rewrite Forall_forall in H. intros x Hx. apply H; auto.
  - rewrite Forall_forall in H. destruct t0; try discriminate; apply andb_true_iff in N as [_ N]; rewrite forallb_forall in N; apply forallb_forall; intros kv Hk; specialize (N _ Hk).
    + cbn [exts_omit] in U. apply andb_true_iff in U as [U1 U2]. apply H; auto.
    + assert (Y := proj2 (H _ Hk)). destruct (snd kv) as [| | | | | | | | | | | |t' w|]; try discriminate. destruct w as [| | | | | | | |w| | | | |]; try discriminate.
      apply andb_true_iff in N as [N1 N2]. apply gty_eqb_eq in N1. subst t'. destruct (ext_exts (fst kv)). now apply Y.
  - destruct t0; try discriminate. cbn [exts_omit] in U. clear X. revert fields U N. induction H as [|[k x] l Hx Hl IH]; intros [|[m t] fs] U N; cbn [wf_fields] in N; try discriminate; [reflexivity|].
    cbn [tidy_fields forallb fst snd] in *. rewrite !andb_true_iff in U, N. destruct U as [[U1 U2] U3], N as [[N1 N2] N3]. fold (tidy_fields tidy). rewrite (IH _ U3 N3), andb_true_r.
    destruct (fm_omit m && blank_value x) eqn:B; [now rewrite orb_true_r|]. replace (tidy t x) with true; [now rewrite !orb_true_r|]. symmetry. apply Hx; auto.
    destruct (not_ext t); [now left|right]. intros ->. cbn [orb] in U1. rewrite U1 in B. discriminate B.
  - destruct v; try exact I. intros t0 U E N. now apply (proj2 IHv).
Qed.

Section Read.
Variable rnd : bool -> N -> Z -> option flt.
Notation dec := (dec rnd).

Lemma neat_struct n fs x : neat (GStruct n fs) x = true -> exists vs, x = VStruct vs /\ wf_fields neat fs vs = true.
Proof. destruct x; cbn [neat]; intros H; try discriminate. eauto. Qed.
Lemma neat_path n fs v p m t : flat_ok fs -> neat (GStruct n fs) v = true -> has_path fs p m t -> neat t (get_path p v) = true.
Proof.
  intros (N & _ & E) W H. destruct (neat_struct _ _ _ W) as (vs & -> & WF).
  destruct H as [m t Hin Em|mb nb fsb m t Hin Em Hin'].
  - destruct (combine_ex _ vs _ (wf_fields_len _ _ _ WF) Hin) as ([nm x] & Hc).
    cbn [get_path]. rewrite (combine_get _ _ _ _ _ _ _ N WF Hc).
    now destruct (wf_fields_combine _ _ _ WF _ _ _ _ Hc).
  - destruct (combine_ex _ vs _ (wf_fields_len _ _ _ WF) Hin) as ([nm x] & Hc).
    cbn [get_path]. rewrite (combine_get _ _ _ _ _ _ _ N WF Hc).
    destruct (wf_fields_combine _ _ _ WF _ _ _ _ Hc) as [_ Wx]. destruct (neat_struct _ _ _ Wx) as (vs' & -> & WF').
    destruct (E _ _ Hin Em) as (n' & fs' & Q & N'). injection Q as <- <-.
    destruct (combine_ex _ vs' _ (wf_fields_len _ _ _ WF') Hin') as ([nm' x'] & Hc').
    rewrite (combine_get _ _ _ _ _ _ _ N' WF' Hc').
    now destruct (wf_fields_combine _ _ _ WF' _ _ _ _ Hc').
Qed.
Lemma neat_set_field n fs v m t x : NoDup (names fs) -> neat (GStruct n fs) v = true -> In (m, t) fs -> neat t x = true ->
  neat (GStruct n fs) (set_field (fm_name m) x v) = true.
Proof.
  intros N W Hin Tx. destruct (neat_struct _ _ _ W) as (vs & -> & WF). cbn [set_field neat]. eapply wf_fields_areplace; eauto.
Qed.
Lemma neat_set_path n fs v p m t x : flat_ok fs -> neat (GStruct n fs) v = true -> has_path fs p m t -> neat t x = true ->
  neat (GStruct n fs) (set_path p x v) = true.
Proof.
  intros (N & K & E) W H Tx. destruct H as [m t Hin Em|mb nb fsb m t Hin Em Hin']; cbn [set_path].
  - eapply neat_set_field; eauto.
  - eapply neat_set_field; [exact N|exact W|exact Hin|]. destruct (E _ _ Hin Em) as (n' & fs' & Q & N'). injection Q as <- <-.
    eapply neat_set_field; [exact N'| |exact Hin'|exact Tx].
    destruct (neat_struct _ _ _ W) as (vs & -> & WF).
    destruct (combine_ex _ vs _ (wf_fields_len _ _ _ WF) Hin) as ([nm y] & Hc).
    rewrite (combine_get _ _ _ _ _ _ _ N WF Hc). now destruct (wf_fields_combine _ _ _ WF _ _ _ _ Hc).
Qed.
Lemma neat_zero t : exts_omit t = true -> neat t (zero t) = true.
Proof.
  induction t using gty_ind'; intros U; try reflexivity; try discriminate.
  - cbn [zero neat]. unfold enum_norm. now destruct (existsb _ _).
  - rewrite zero_struct. cbn [neat exts_omit] in *. rewrite forallb_forall in U. induction H as [|[m t] fs Ht Hf IH]; [reflexivity|].
    cbn [map fst snd wf_fields]. rewrite String.eqb_refl. cbn [fst snd andb] in *.
    assert (U1 := U _ (or_introl eq_refl)). cbn [fst snd] in U1. apply andb_true_iff in U1 as [_ U1]. rewrite (Ht U1). apply IH. intros x I. apply U. now right.
Qed.
Lemma neat_fresh k : neat (ext_ty k) (fresh (ext_ty k)) = true.
Proof. destruct (ext_ty_shape k) as [(n & fs & E)|E]; [assert (X := neat_zero _ (proj1 (ext_exts k))); rewrite E in *; exact X|rewrite E; reflexivity]. Qed.

Lemma dec_struct_neat (f : json -> gty -> gval -> dres gval) n fs : flat_ok fs -> forall ms cur v,
  (forall k x p m t old v, In (k, x) ms -> has_path fs p m t -> neat t old = true -> f x t old = DOk v false -> neat t v = true) ->
  neat (GStruct n fs) cur = true -> dec_struct f (flat_fields fs) ms cur = DOk v false -> neat (GStruct n fs) v = true.
Proof.
  intros F. induction ms as [|[k x] ms IH]; intros cur v H T D; cbn [dec_struct] in D.
  - injection D as <-. exact T.
  - fold (dec_struct f (flat_fields fs)) in D. assert (H' := fun k x p m t old v Hin => H k x p m t old v (or_intror Hin)).
    destruct (find_field k (flat_fields fs)) as [[p t]|] eqn:E; [|eapply IH; eauto].
    apply dbind_ok in D as (w & D1 & D2). destruct (find_field_In _ _ _ _ E) as [k' Hk].
    apply flat_fields_In in Hk as (m & HP & _). eapply IH; [exact H'| |exact D2].
    eapply neat_set_path; eauto. eapply H; [now left|exact HP| |exact D1]. eapply neat_path; eauto.
Qed.

Lemma dec_any_like j : forall v, dec_any rnd j = DOk v false -> json_like v = true.
Proof.
  induction j using json_ind'; intros v D; cbn [dec_any] in D.
  - injection D as <-. reflexivity.
  - injection D as <-. reflexivity.
  - destruct (parse_float rnd l) eqn:E; [|discriminate]. injection D as <-. reflexivity.
  - destruct (unq r) eqn:E; [|discriminate]. injection D as <-. reflexivity.
  - apply dbind_ok in D as (vs & D1 & D2). injection D2 as <-. cbn [json_like].
    revert vs D1. generalize (@nil gval). induction H as [|x l Hx Hl IH]; intros old vs D1; cbn [dec_list] in D1.
    + injection D1 as <-. reflexivity.
    + apply dbind_ok in D1 as (w & D1 & D3). apply dbind_ok in D3 as (ws & D3 & D4). injection D4 as <-.
      cbn [forallb]. rewrite (Hx _ D1). eapply IH; eauto.
  - apply dbind_ok in D as (vs & D1 & D2). injection D2 as <-. cbn [json_like].
    assert (G : forall acc vs, msorted acc = true -> forallb (fun kv => json_like (snd kv)) acc = true ->
       dec_mems (dec_any rnd) l acc = DOk vs false -> forallb (fun kv => json_like (snd kv)) vs = true); [|eapply G; [| |exact D1]; reflexivity].
    clear D1 vs. induction H as [|[k x] l Hx Hl IH]; intros acc vs A1 A2 D1; cbn [dec_mems] in D1.
    + injection D1 as <-. exact A2.
    + apply dbind_ok in D1 as (w & D1 & D3). assert (Y := minsert_forall (fun kv => json_like (snd kv)) k w acc A1 A2 (Hx _ D1)). apply andb_true_iff in Y as [Y1 Y2].
      eapply IH; [exact Y1|exact Y2|exact D3].
Qed.
Lemma like_neat v : json_like v = true -> neat GIface v = true.
Proof. destruct v; try discriminate; intros H; [reflexivity|exact H]. Qed.
Lemma enum_or_zero_neat name s : neat (GEnum name) (enum_or_zero name s) = true.
Proof.
  unfold enum_or_zero. destruct (enum_find name s) as [n|] eqn:E.
  - cbn [neat]. unfold enum_norm. replace (existsb _ _) with true; [apply N.eqb_refl|]. symmetry. apply existsb_exists.
    unfold enum_find in E. destruct (find _ (enum_map name)) as [[n' s']|] eqn:F; [|discriminate]. injection E as ->. apply find_some in F as [F _]. exists (n, s'). split; [exact F|]. apply N.eqb_refl.
  - cbn [neat]. unfold enum_norm. now destruct (existsb _ _).
Qed.
Lemma enum_neat name j v : enum_unmarshal name j = DOk v false -> neat (GEnum name) v = true.
Proof.
  assert (X := enum_or_zero_neat name). assert (Z : neat (GEnum name) (VEnum 0) = true) by (cbn [neat]; unfold enum_norm; now destruct (existsb _ _)).
  unfold enum_unmarshal. destruct (String.eqb name "ExtensionType").
  - destruct j; try discriminate; [|destruct (unq raw); [|discriminate]]; intros Q; injection Q as <-; apply X.
  - destruct (mem_str name _); [|destruct (String.length (print j) <? 3)%nat; [intros Q; injection Q as <-; exact Z|]];
      (destruct (inner_slice (print j)); try discriminate; intros Q; injection Q as <-; apply X).
Qed.

Definition T j := forall t old v, ty_ok t = true -> exts_omit t = true -> neat t old = true -> dec j t old = DOk v false -> neat t v = true.
Lemma dec_neat_step j : (forall l, j = JArr l -> Forall T l) -> (forall l, j = JObj l -> Forall (fun kv => T (snd kv)) l) -> T j.
Proof.
  intros HA HO t. induction t using gty_ind'; intros old v OK U TO D.
  - destruct j; cbn in D; try discriminate; try (injection D as <-; exact TO). destruct (unq raw) eqn:E; [|discriminate]. injection D as <-. reflexivity.
  - destruct j; cbn in D; try discriminate; try (injection D as <-; exact TO). destruct (parse_int lexeme) as [z|] eqn:E; [|discriminate]. injection D as <-. reflexivity.
  - destruct j; cbn in D; try discriminate; try (injection D as <-; exact TO || reflexivity).
  - destruct j; cbn in D; try discriminate; try (injection D as <-; exact TO). destruct (parse_float rnd lexeme) eqn:E; [|discriminate]. injection D as <-. reflexivity.
  - rewrite dec_enum in D. eapply enum_neat; eauto.
  - rewrite dec_time in D. unfold time_unmarshal in D. destruct (ts_unmarshal (print j)); try discriminate. injection D as <-. reflexivity.
  - rewrite dec_bin in D. apply bin_wfr with (rnd := rnd) in D. destruct v; try discriminate D; reflexivity.
  - rewrite dec_ptr in D. cbn [ty_ok exts_omit] in OK, U. apply andb_true_iff in OK as [OK1 OK]. apply andb_true_iff in U as [_ U].
    assert (TO' : neat t (match old with VPtr v => v | _ => zero t end) = true) by (destruct old; first [exact TO|now apply neat_zero]).
    destruct j; try (injection D as <-; reflexivity); apply dbind_ok in D as (w & D1 & D2); injection D2 as <-; exact (IHt _ _ OK U TO' D1).
  - cbn [ty_ok exts_omit] in OK, U. apply andb_true_iff in U as [_ U]. destruct j; try discriminate D; try (injection D as <-; exact TO || reflexivity).
    + destruct t; try discriminate D. cbn in D. destruct (unq raw) as [s|]; [|discriminate].
      destruct (b64_decode s); [|discriminate]. injection D as <-. cbn [neat]. apply forallb_forall. intros x Hx.
      apply in_map_iff in Hx as (c & <- & _). reflexivity.
    + rewrite dec_slice_arr in D. apply dbind_ok in D as (vs & D1 & D2). injection D2 as <-. cbn [neat].
      destruct (is_enum t) eqn:Et.
      { destruct t; try discriminate Et. clear -D1. revert vs D1. generalize (old_list old). induction l as [|x l IH]; intros ol vs D1; cbn [dec_list] in D1.
        - injection D1 as <-. reflexivity.
        - apply dbind_ok in D1 as (w & D1 & D3). apply dbind_ok in D3 as (ws & D3 & D4). injection D4 as <-.
          cbn [forallb]. rewrite dec_enum in D1. apply enum_neat in D1. destruct w; try discriminate D1. cbn [andb]. exact (IH _ _ D3). }
      assert (TL : forallb (neat t) (old_list old) = true) by (destruct old; try reflexivity; cbn [neat] in TO; rewrite Et in TO; exact TO).
      specialize (HA l eq_refl). clear HO TO IHt. revert vs D1 TL. generalize (old_list old). clear old.
      induction HA as [|x l Hx Hl IH]; intros ol vs D1 TL; cbn [dec_list] in D1.
      * injection D1 as <-. reflexivity.
      * apply dbind_ok in D1 as (w & D1 & D3). apply dbind_ok in D3 as (ws & D3 & D4). injection D4 as <-.
        cbn [forallb]. fold (dec_list (fun x o => dec x t o) (zero t)) in D3. apply andb_true_iff. split.
        -- eapply Hx; [exact OK|exact U| |exact D1]. destruct ol; [now apply neat_zero|]. cbn in TL. now apply andb_true_iff in TL.
        -- eapply IH; [exact D3|]. destruct ol; [reflexivity|]. cbn in TL. now apply andb_true_iff in TL.
  - cbn [ty_ok exts_omit] in OK, U. apply andb_true_iff in U as [_ U]. destruct j; try discriminate D; try (injection D as <-; exact TO || reflexivity).
    rewrite dec_map_obj in D. apply dbind_ok in D as (vs & D1 & D2). injection D2 as <-. cbn [neat].
    assert (TL : msorted (old_map old) && forallb (fun kv => neat t (snd kv)) (old_map old) = true) by (destruct old; try reflexivity; exact TO).
    specialize (HO l eq_refl). clear HA TO IHt. revert vs D1 TL. generalize (old_map old). clear old.
    induction HO as [|[k' x] l Hx Hl IH]; intros acc vs D1 TL; cbn [dec_mems] in D1.
    + injection D1 as <-. exact TL.
    + apply dbind_ok in D1 as (w & D1 & D3). fold (dec_mems (fun x => dec x t (zero t))) in D3. eapply IH; [exact D3|].
      apply andb_true_iff in TL as [A1 A2]. apply minsert_forall; auto. cbn [fst snd]. eapply Hx; [exact OK|exact U|now apply neat_zero|exact D1].
  - rewrite dec_iface in D. apply like_neat. eapply dec_any_like; eauto.
  - destruct (ty_ok_flat _ _ OK) as (F & FT & _). destruct j; try discriminate D; try (injection D as <-; exact TO).
    rewrite dec_struct_obj in D. eapply dec_struct_neat; [exact F| |exact TO|exact D].
    intros k x p m t o w Hin HP To De. specialize (HO l eq_refl). rewrite Forall_forall in HO.
    assert (Ux := path_exts _ _ _ _ _ U HP).
    destruct (has_path_plain _ _ _ _ (fun m t H => proj1 (FT m t H)) HP) as [_ Hin'].
    eapply (HO _ Hin); [|exact Ux|exact To|exact De]. now destruct (FT _ _ Hin') as (_ & _ & Tt).
  - destruct j; try (discriminate D); try (injection D as <-; reflexivity).
    rewrite dec_ext_obj in D. apply dbind_ok in D as (vs & D1 & D2). injection D2 as <-. cbn [neat].
    specialize (HO l eq_refl). clear HA TO.
    set (P := fun kv : string * gval => match snd kv with
                          | VDyn t' (VPtr w) => gty_eqb t' (GPtr (ext_ty (fst kv))) && neat (ext_ty (fst kv)) w
                          | _ => false
                          end).
    assert (G : forall acc vs, dec_ext dec l acc = DOk vs false -> msorted acc && forallb P acc = true -> msorted vs && forallb P vs = true); [|eapply G; [exact D1|reflexivity]].
    clear D1 vs. induction HO as [|[k x] l Hx Hl IH]; intros acc vs D1 TL; cbn [dec_ext] in D1.
    + injection D1 as <-. exact TL.
    + fold (dec_ext dec) in D1. destruct (mem_str k (map fst l)); [eapply IH; eauto|].
      destruct (dec x (ext_ty k) (fresh (ext_ty k))) as [w [|]| |] eqn:Dx; try discriminate. eapply IH; [exact D1|].
      apply andb_true_iff in TL as [A1 A2]. apply minsert_forall; auto. unfold P. cbn [fst snd]. rewrite gty_eqb_refl. cbn [andb].
      eapply Hx; [apply ext_ty_ok|apply ext_exts|apply neat_fresh|exact Dx].
  - discriminate U.
Qed.
Lemma dec_neat j : T j.
Proof. induction j using json_ind'; apply dec_neat_step; intros l' Q; try discriminate Q; injection Q as <-; assumption. Qed.

Lemma read_tidy name t j v : In (name, t) builtin_types -> dec j t (zero t) = DOk v false -> tidy_top t v /\ neat t v = true.
Proof.
  intros H D. assert (X := builtin_exts). rewrite forallb_forall in X. assert (U := X _ H). cbn [snd] in U.
  assert (Z := neat_zero t U). destruct (builtin_read _ _ H) as (n & fs & -> & _ & _ & _ & _ & _ & _ & F & FT).
  assert (N : neat (GStruct n fs) v = true).
  { destruct j; try discriminate D; try (injection D as <-; exact Z). rewrite dec_struct_obj in D. eapply dec_struct_neat; [exact F| |exact Z|exact D].
    intros k x p m t o w Hin HP To De. exact (dec_neat x t o w (FT _ _ _ HP) (path_exts _ _ _ _ _ U HP) To De). }
  split; [|exact N]. cbn [tidy_top]. destruct (mem_str n helper_types).
  - intros p m t' HP K. assert (Np := neat_path _ _ _ _ _ _ F N HP). destruct (get_path p v) eqn:G; try (right; apply neat_tidy; [exact (path_exts _ _ _ _ _ U HP)|exact Np|right; discriminate]). now left.
  - apply neat_tidy; auto.
Qed.
End Read.
