(** What is left after a round trip is left after a second one (for C74). *)
From Verif Require Import GoStr GoStrFacts JsonStr JsonStrFacts Json JsonFacts Time TimeFacts Float FloatFacts Enums GoTypes Schema GoVal GoValFacts Codec CodecSpec CodecFacts StructFacts CodecRound ObjFacts.

(** Rounded numbers are not rounded again. *)
Definition settled (rnd : bool -> N -> Z -> option flt) : Prop :=
  rnd false 0%N 0%Z = Some (FFin false 0 0) /\ forall neg m e f, rnd neg m e = Some f -> is_f64 rnd f = true.

Lemma In_minsert {A} k (v : A) m k' x : In (k', x) (minsert k v m) -> (k' = k /\ x = v) \/ In (k', x) m.
Proof.
  induction m as [|[k1 v1] m IH]; cbn [minsert].
  - intros [Q|[]]. injection Q as <- <-. auto.
  - destruct (String.eqb k k1); [intros [Q|I]; [injection Q as <- <-; auto|right; now right]|].
    destruct (str_ltb k k1); [intros [Q|I]; [injection Q as <- <-; auto|right; exact I]|].
    intros [Q|I]; [injection Q as <- <-; right; now left|]. destruct (IH I); [auto|right; now right].
Qed.

Section Settle.
Variable rnd : bool -> N -> Z -> option flt.
Hypothesis ST : settled rnd.
Local Notation wf := (wf rnd).
Local Notation norm := (norm rnd).
Local Notation view := (view rnd).

Lemma zero_f64 : is_f64 rnd (FFin false 0 0) = true.
Proof. destruct ST as [A B]. exact (B _ _ _ _ A). Qed.
Lemma wf_zero x : forall t, wf t x = true -> wf t (zero t) = true.
Proof.
  induction x using gval_ind'; intros t0 W; cbn [CodecSpec.wf] in W; destruct t0; try discriminate; try reflexivity.
  - cbn. destruct ST as [A _]. unfold int_to_float. cbn. now rewrite A.
  - exact zero_f64.
  - rewrite zero_struct. cbn [CodecSpec.wf]. apply andb_true_iff in W as [W1 W2]. rewrite W1. cbn [andb]. clear W1. revert fields W2.
    induction H as [|[k x] l Hx Hl IH]; intros [|[m t] fs] W; cbn [wf_fields] in W; try discriminate; [reflexivity|].
    rewrite !andb_true_iff in W. destruct W as [[W1 W2] W3]. cbn [map wf_fields fst snd]. rewrite String.eqb_refl. rewrite (Hx _ W2). now apply IH.
Qed.

Lemma plain_utf8 s : plain s = true -> utf8b s = true.
Proof. intros P. apply utf8b_spec. exact (unq_utf8 _ _ (unq_plain _ P)). Qed.

Lemma view_fields_ok fs : forall vs m, wf_fields wf fs vs = true -> forallb (fun ft : fmeta * gty => utf8b (fm_key (fst ft))) fs = true ->
  Forall (fun nv => forall t, wf t (snd nv) = true -> wf GIface (view t (snd nv)) = true /\ json_like (view t (snd nv)) = true) vs ->
  msorted m = true -> (forall k x, In (k, x) m -> utf8b k = true /\ wf GIface x = true /\ json_like x = true) ->
  msorted (view_fields view fs vs m) = true /\ forall k x, In (k, x) (view_fields view fs vs m) -> utf8b k = true /\ wf GIface x = true /\ json_like x = true.
Proof.
  induction fs as [|[fm t] fs IH]; intros [|[n v] vs] m W U F S H; cbn [wf_fields] in W; try discriminate; [cbn; auto|].
  rewrite !andb_true_iff in W. destruct W as [[W1 W2] W3]. cbn [forallb fst] in U. apply andb_true_iff in U as [U1 U2]. inversion F as [|? ? F1 F2]; subst. cbn [snd] in F1.
  cbn [view_fields]. destruct (is_empty (fm_key fm)); [now apply IH|]. destruct (fm_omit fm && blank_value v); [now apply IH|].
  apply IH; auto; [now apply msorted_minsert|]. intros k x I. apply In_minsert in I as [[-> ->]|I]; [|eauto]. split; [exact U1|]. now apply F1.
Qed.
Lemma view_ok v : forall t, wf t v = true -> wf GIface (view t v) = true /\ json_like (view t v) = true.
Proof.
  assert (S : forall s, utf8b s = true -> wf GIface (dyn_str s) = true /\ json_like (dyn_str s) = true) by (intros s U; split; [exact U|reflexivity]).
  induction v using gval_ind'; intros t0 W; cbn [CodecSpec.wf] in W; cbn [CodecSpec.view].
  - destruct t0; try discriminate. now apply S.
  - destruct t0; try discriminate. apply andb_true_iff in W as [_ W]. destruct (int_to_float rnd z) as [f|] eqn:E; [|discriminate]. split; [|reflexivity]. cbn.
    unfold int_to_float in E. destruct (norm10 _ _) as [m e]. exact (proj2 ST _ _ _ _ E).
  - split; reflexivity.
  - destruct t0; try discriminate. split; [exact W|reflexivity].
  - destruct t0; try discriminate. apply S, plain_utf8, enum_plain.
  - destruct t0; try discriminate. now apply S, plain_utf8, plain_ts.
  - apply S, plain_utf8, plain_b64.
  - split; reflexivity.
  - destruct t0; try discriminate. apply andb_true_iff in W as [_ W]. now apply IHv.
  - destruct t0; try discriminate. rewrite forallb_forall in W. rewrite Forall_forall in H.
    split; cbn [CodecSpec.wf json_like]; apply forallb_forall; intros x I; apply in_map_iff in I as (y & <- & I); now apply (H y I t0), W.
  - assert (G : msorted l = true -> forall t', (forall kv, In kv l -> utf8b (fst kv) = true /\ wf t' (snd kv) = true) ->
      wf GIface (VDyn (GMap "" "string" GIface) (VMap (map (fun kv => (fst kv, view t' (snd kv))) l))) = true /\
      json_like (VDyn (GMap "" "string" GIface) (VMap (map (fun kv => (fst kv, view t' (snd kv))) l))) = true).
    { intros Ms t' Hl. rewrite Forall_forall in H. split; cbn [CodecSpec.wf json_like].
      - rewrite msorted_map, Ms. cbn [andb]. apply forallb_forall. intros kv I. apply in_map_iff in I as (y & <- & I). cbn [fst snd]. destruct (Hl _ I) as [-> Wy]. cbn [andb]. now apply (H _ I t').
      - apply forallb_forall. intros kv I. apply in_map_iff in I as (y & <- & I). cbn [fst snd]. destruct (Hl _ I) as [_ Wy]. now apply (H _ I t'). }
    destruct t0; try discriminate; apply andb_true_iff in W as [Ms W]; rewrite forallb_forall in W; apply (G Ms); intros kv I; specialize (W _ I); apply andb_true_iff in W as [U W]; (split; [exact U|]); [exact W|].
    destruct (snd kv); try discriminate. cbn [CodecSpec.wf]. rewrite !andb_true_iff in W. tauto.
  - destruct t0; try discriminate. apply andb_true_iff in W as [U W]. destruct (view_fields_ok fields l [] W U) as [A B].
    + rewrite Forall_forall in *. intros nv I t Wt. exact (H _ I t Wt).
    + reflexivity.
    + intros k x [].
    + split; cbn [CodecSpec.wf json_like]; [rewrite A; cbn [andb]|]; apply forallb_forall; intros [k x] I; destruct (B _ _ I) as (B1 & B2 & B3); cbn [fst snd]; [now rewrite B1, B2|exact B3].
  - destruct t0; try discriminate. now apply IHv.
  - discriminate.
Qed.
Lemma view_blank v : forall t, blank_value (view t v) = true -> is_zero (view t v) = true.
Proof.
  induction v using gval_ind'; intros t0 B; cbn [CodecSpec.view] in *; try discriminate; try reflexivity; eauto.
  - destruct (int_to_float rnd z); [discriminate|reflexivity].
  - destruct t0; try discriminate; reflexivity.
  - destruct t0; try reflexivity. eauto.
  - destruct t0; try discriminate; reflexivity.
  - destruct t0; try discriminate; reflexivity.
Qed.

Lemma zero_is_zero t x : wf t x = true -> is_zero (zero t) = true.
Proof.
  intros _. revert t. fix IH 1. destruct t as [| | | | | | | | | | |n fs| |]; try reflexivity. rewrite zero_struct. cbn [is_zero].
  induction fs as [|[m t] fs IHf]; [reflexivity|]. cbn [map forallb fst snd]. now rewrite IH, IHf.
Qed.

Lemma settle v : (forall t, wf t v = true -> wf t (norm t v) = true /\ canon t (norm t v) = true /\
    (blank_value (norm t v) = true -> blank_value v = false -> is_zero (norm t v) = true)) /\
  match v with
  | VDyn (GPtr t') (VPtr w) => wf t' w = true -> wf t' (norm t' w) = true /\ canon t' (norm t' w) = true
  | VPtr w => forall t, wf t w = true -> wf t (norm t w) = true /\ canon t (norm t w) = true
  | _ => True
  end.
Proof.
  induction v using gval_ind'; (split; [intros t0 W; cbn [CodecSpec.wf] in W; cbn [CodecSpec.norm]|try exact I]).
  - destruct t0; try discriminate. repeat split; try assumption. cbn. destruct s; discriminate.
  - destruct t0; try discriminate. repeat split; try assumption. cbn. destruct z; discriminate.
  - destruct t0; try discriminate. repeat split. cbn. destruct b; discriminate.
  - destruct t0; try discriminate. repeat split; try assumption. cbn. intros A B. congruence.
  - destruct t0; try discriminate. split; [reflexivity|]. cbn. unfold enum_norm. destruct (existsb (fun kv => (fst kv =? n)%N) (enum_map name)) eqn:E.
    + rewrite E. split; [reflexivity|]. intros A. destruct n; [reflexivity|discriminate].
    + rewrite orb_true_r. auto.
  - destruct t0; try discriminate. cbn. unfold year_ok in *. rewrite year_trunc. split; [exact W|]. split; [|discriminate]. apply Z.eqb_eq. exact (trunc_ms_mult t).
  - destruct t0; try discriminate. repeat split. cbn. intros A B. congruence.
  - destruct t0; try discriminate; repeat split; cbn; discriminate.
  - destruct t0; try discriminate. apply andb_true_iff in W as [W1 W2]. destruct IHv as [IH _]. destruct (IH _ W2) as (A & B & _). cbn [CodecSpec.wf canon]. rewrite A, B.
    split; [|split; [reflexivity|discriminate]]. rewrite andb_true_r. destruct v; try discriminate; cbn [CodecSpec.norm]; destruct t0; try discriminate; reflexivity.
  - intros t W. destruct (proj1 IHv _ W) as (A & B & _). auto.
  - destruct t0; try discriminate. rewrite forallb_forall in W. rewrite Forall_forall in H. cbn [CodecSpec.wf canon].
    split; [|split].
    + apply forallb_forall. intros x I. apply in_map_iff in I as (y & <- & I). now apply (proj1 (H _ I)), W.
    + apply forallb_forall. intros x I. apply in_map_iff in I as (y & <- & I). now apply (proj1 (H _ I)), W.
    + destruct l; cbn; discriminate.
  - destruct t0; try discriminate; apply andb_true_iff in W as [Ms W]; rewrite forallb_forall in W; rewrite Forall_forall in H; cbn [CodecSpec.wf canon].
    + split; [|split].
      * rewrite msorted_map, Ms. cbn [andb]. apply forallb_forall. intros kv I. apply in_map_iff in I as (y & <- & I). cbn [fst snd]. specialize (W _ I). apply andb_true_iff in W as [-> W].
        cbn [andb]. now apply (proj1 (H _ I)).
      * apply forallb_forall. intros kv I. apply in_map_iff in I as (y & <- & I). cbn [fst snd]. specialize (W _ I). apply andb_true_iff in W as [_ W]. now apply (proj1 (H _ I)).
      * destruct l; cbn; discriminate.
    + assert (X : forall kv, In kv l -> exists w, snd kv = VDyn (GPtr (ext_ty (fst kv))) (VPtr w) /\ utf8b (fst kv) = true /\
          match w with VNil | VPtr _ | VDyn _ _ | VRaw _ => false | _ => true end = true /\ wf (ext_ty (fst kv)) w = true /\
          wf (ext_ty (fst kv)) (norm (ext_ty (fst kv)) w) = true /\ canon (ext_ty (fst kv)) (norm (ext_ty (fst kv)) w) = true).
      { intros kv I. specialize (W _ I). apply andb_true_iff in W as [U W]. assert (Hx := proj2 (H _ I)). destruct (snd kv); try discriminate.
        rewrite !andb_true_iff in W. destruct W as [[Et Wx] Nx]. apply gty_eqb_eq in Et. subst t. destruct g; try discriminate. cbn [CodecSpec.wf] in Wx. apply andb_true_iff in Wx as [W1 W2].
        exists g. destruct (Hx W2). repeat split; auto. }
      split; [|split].
      * rewrite msorted_keys with (m' := l) by (unfold akeys; rewrite map_map; reflexivity). rewrite Ms. cbn [andb]. apply forallb_forall. intros kv I. apply in_map_iff in I as (y & <- & I). cbn [fst snd].
        destruct (X _ I) as (w & -> & -> & N1 & W1 & A & B). rewrite gty_eqb_refl. cbn [CodecSpec.wf andb]. rewrite A, !andb_true_r.
        destruct w; try discriminate; cbn [CodecSpec.norm]; destruct (ext_ty (fst y)); try discriminate; reflexivity.
      * apply forallb_forall. intros kv I. apply in_map_iff in I as (y & <- & I). cbn [fst snd]. destruct (X _ I) as (w & -> & _ & _ & _ & _ & B). exact B.
      * destruct l; cbn; discriminate.
  - destruct t0; try discriminate. apply andb_true_iff in W as [U W]. cbn [CodecSpec.wf canon]. rewrite U. cbn [andb]. clear U.
    assert (G : wf_fields wf fields (norm_fields norm fields l) = true /\ canon_fields canon fields (norm_fields norm fields l) = true).
    { revert fields W. induction H as [|[k x] l Hx Hl IH]; intros [|[m t] fs] W; cbn [wf_fields] in W; try discriminate; [auto|].
      rewrite !andb_true_iff in W. destruct W as [[W1 W2] W3]. destruct (IH _ W3) as [A B]. cbn [norm_fields wf_fields canon_fields]. rewrite W1, A, B, !andb_true_r. cbn [andb].
      cbn [snd] in Hx. destruct (proj1 Hx _ W2) as (C & D & E). destruct (is_empty (fm_key m)); [split; [now apply (wf_zero x)|now apply (zero_is_zero t x)]|].
      destruct (fm_omit m) eqn:Om; cbn [andb]; [|auto]. destruct (blank_value x) eqn:Bx.
      - split; [now apply (wf_zero x)|]. assert (Z := zero_is_zero t x W2). destruct (blank_value (zero t)) eqn:Bz; [exact Z|].
        destruct t; try discriminate Bz; destruct x; try discriminate W2; discriminate Bx.
      - split; [exact C|]. destruct (blank_value (norm t x)) eqn:Bn; [now apply E|exact D]. }
    destruct G as [A B]. rewrite A, B. repeat split. destruct l; discriminate.
  - destruct t0; try discriminate. destruct (view_ok _ _ W) as [A B]. split; [exact A|]. split; [|intros Bn _; now apply view_blank].
    destruct (view t v) as [| | | | | | | | | | | |t1 v1|]; try discriminate; [reflexivity|exact B].
  - destruct t; try exact I. destruct v; try exact I. intros W. exact (proj2 IHv _ W).
  - discriminate.
Qed.
End Settle.

(** ** Whole objects *)
Lemma obj_ok_embed n fs : obj_ok (GStruct n fs) = true -> forall m t, In (m, t) fs -> fm_embed m = true -> exists n' fs', t = GStruct n' fs'.
Proof.
  intros O m t I E. cbn [obj_ok] in O. rewrite !andb_true_iff in O. destruct O as [_ O]. rewrite forallb_forall in O. specialize (O _ I). cbn in O. rewrite E in O.
  rewrite !andb_true_iff in O. destruct O as [_ [_ O]]. destruct t; try discriminate. eauto.
Qed.
Section Top.
Variable rnd : bool -> N -> Z -> option flt.
Hypothesis ST : settled rnd.
Local Notation wf := (wf rnd).

Lemma norm_flds_wf g fs : forall vs, wf_fields wf fs vs = true ->
  (forall m t nm x, In ((m, t), (nm, x)) (combine fs vs) -> wf t x = true -> wf t (g m t x) = true) -> wf_fields wf fs (norm_flds g fs vs) = true.
Proof.
  induction fs as [|[m0 t0] fs IH]; intros [|[n0 v0] vs] W H; cbn [wf_fields] in W; try discriminate; [reflexivity|].
  rewrite !andb_true_iff in W. destruct W as [[W1 W2] W3]. cbn [norm_flds wf_fields]. rewrite W1, (H m0 t0 n0 v0) by (auto; now left). cbn [andb].
  apply IH; [exact W3|]. intros m t nm x Hin. apply (H m t nm x). now right.
Qed.
Lemma norm_flds_in g fs : forall vs m t nm y, In ((m, t), (nm, y)) (combine fs (norm_flds g fs vs)) ->
  exists x, In ((m, t), (nm, x)) (combine fs vs) /\ y = g m t x.
Proof.
  induction fs as [|[m0 t0] fs IH]; intros [|[n0 v0] vs] m t nm y H; try destruct H.
  - injection H as <- <- <- <-. exists v0. split; [now left|reflexivity].
  - destruct (IH _ _ _ _ _ H) as (x & I & E). exists x. split; [now right|exact E].
Qed.
Lemma norm_field_wf m t x : wf t x = true -> wf t (norm_field rnd m t x) = true.
Proof.
  intros W. unfold norm_field. destruct (is_empty (fm_key m)); [now apply (wf_zero rnd ST x)|]. destruct (is_zero x); [now apply (wf_zero rnd ST x)|]. now apply (settle rnd ST x).
Qed.
Lemma norm_field_settled m t nm x : wf t x = true -> canon_field (m, t) (nm, norm_field rnd m t x) = true.
Proof.
  intros W. unfold canon_field, norm_field. cbn [fst snd]. destruct (is_empty (fm_key m)) eqn:K; [now rewrite (zero_is_zero rnd t x)|].
  destruct (is_zero x); [now rewrite (zero_is_zero rnd t x)|]. destruct (proj1 (settle rnd ST x) t W) as (_ & -> & _). now rewrite orb_true_r.
Qed.

Lemma settle_top name t v : In (name, t) builtin_types -> wf t v = true -> wf t (norm_top rnd t v) = true /\ canon_top t (norm_top rnd t v) = true.
Proof.
  intros H W. destruct (builtin_cases _ _ H) as (n & fs & -> & [(M & O & P)|(M & O & P)]); unfold canon_top, norm_top; cbn [ty_name]; rewrite M; [|destruct (proj1 (settle rnd ST v) _ W) as (A & B & _); auto].
  assert (W0 := W). cbn [CodecSpec.wf] in W0. destruct (wf_struct _ _ _ _ W) as (vs & -> & WF). apply andb_true_iff in W0 as [U _].
  cbn [norm_obj]. cbn [CodecSpec.wf canon_obj]. rewrite U. cbn [andb]. split.
  - apply norm_flds_wf; [exact WF|]. intros m t nm x Hin Wx. destruct (fm_embed m); [|now apply norm_field_wf].
    destruct t; try exact Wx. destruct x; try exact Wx. cbn [CodecSpec.wf] in *. apply andb_true_iff in Wx as [-> Wx]. apply norm_flds_wf; [exact Wx|]. intros m' t' nm' x' _. apply norm_field_wf.
  - apply forallb_forall. intros [[m t] [nm y]] Hin. apply norm_flds_in in Hin as (x & Hin & ->). destruct (wf_fields_combine _ _ _ WF _ _ _ _ Hin) as [_ Wx]. cbn [fst snd].
    destruct (fm_embed m) eqn:Em; [|now apply norm_field_settled].
    destruct (obj_ok_embed _ _ O m t (in_combine_l _ _ _ _ Hin) Em) as (n' & fs' & ->). destruct (wf_struct _ _ _ _ Wx) as (vs' & -> & WF').
    apply forallb_forall. intros [[m' t'] [nm' y']] Hin'. apply norm_flds_in in Hin' as (x' & Hin' & ->). destruct (wf_fields_combine _ _ _ WF' _ _ _ _ Hin') as [_ Wx']. now apply norm_field_settled.
Qed.
End Top.
