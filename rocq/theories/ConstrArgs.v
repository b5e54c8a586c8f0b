(** The argument checks of the constructors. *)
From Verif Require Import GoStr GoStrFacts Json Float FloatFacts Consts GoTypes Schema OptTable GoVal GoValFacts Codec CodecSpec CodecFacts
  StructFacts CodecRound ObjFacts TypedFacts StoreFacts DataTypes FromJson IndepFacts Options OptionFacts PropOptions Ident IdentFacts
  Canon CanonTotal Constructors ConstrSpec ConstrFacts.
From Coq Require Import QArith Qpower.

(** ** Floats *)
Local Open Scope Q_scope.
Lemma pow10_pos e : 0 < Qpower 10 e.
Proof. apply Qpower_0_lt. reflexivity. Qed.
Lemma pow10_split e k : (k <= e)%Z -> Qpower 10 e == inject_Z (10 ^ (e - k)) * Qpower 10 k.
Proof.
  intros H. rewrite <- (Z.sub_add k e) at 1. rewrite Qpower_plus by discriminate. apply Qmult_comp; [|reflexivity].
  change 10 with (inject_Z 10). rewrite Zpower_Qpower by lia. reflexivity.
Qed.
Lemma flt_lt_fin a m e b m' e' : flt_lt (FFin a m e) (FFin b m' e') = true <->
  inject_Z (signed a m) * Qpower 10 e < inject_Z (signed b m') * Qpower 10 e'.
Proof.
  cbn [flt_lt]. rewrite Z.ltb_lt. set (k := Z.min e e'). rewrite (pow10_split e k), (pow10_split e' k) by lia.
  rewrite !Qmult_assoc, <- !inject_Z_mult. rewrite Qmult_lt_r by apply pow10_pos. now rewrite <- Zlt_Qlt.
Qed.
Lemma signed_0 a m : signed a m = 0%Z <-> m = 0%N.
Proof. unfold signed. destruct a; lia. Qed.
Lemma is_0_spec x : is_0 x <-> flt_is_zero x = true.
Proof.
  unfold is_0. destruct x as [| |neg m e]; cbn [fvalue flt_is_zero].
  - split; [intros (q & Q & _); discriminate|discriminate].
  - split; [intros (q & Q & _); discriminate|discriminate].
  - rewrite N.eqb_eq. split.
    + intros (q & Q & Z). injection Q as <-. apply Qmult_integral in Z as [Z|Z].
      * change 0 with (inject_Z 0) in Z. apply (proj1 (inject_Z_injective _ _)) in Z. now apply signed_0 in Z.
      * assert (P := pow10_pos e). rewrite Z in P. discriminate P.
    + intros ->. eexists. split; [reflexivity|]. destruct neg; cbn [signed]; apply Qmult_0_l.
Qed.
Lemma within_spec x r rp rm : flt_int r = rp -> flt_int (- r) = rm ->
  (exists a m e, rp = FFin a m e /\ inject_Z (signed a m) * Qpower 10 e == inject_Z r) ->
  (exists a m e, rm = FFin a m e /\ inject_Z (signed a m) * Qpower 10 e == inject_Z (- r)) ->
  (within x r \/ x = FNaN) <-> flt_lt x rm = false /\ flt_lt rp x = false.
Proof.
  intros _ _ (a1 & m1 & e1 & -> & V1) (a2 & m2 & e2 & -> & V2). unfold within. destruct x as [|b|neg m e].
  - cbn [flt_lt]. split; [auto|]. intros _. now right.
  - cbn [flt_lt fvalue]. split; [intros [(q & Q & _)|Q]; discriminate|]. intros [H1 H2]. now destruct b.
  - assert (A := flt_lt_fin neg m e a2 m2 e2). assert (B := flt_lt_fin a1 m1 e1 neg m e). rewrite V2 in A. rewrite V1 in B.
    split.
    + intros [(q & Q & L1 & L2)|Q]; [|discriminate]. cbn [fvalue] in Q. injection Q as <-. split.
      * apply not_true_is_false. rewrite A. now apply Qle_not_lt.
      * apply not_true_is_false. rewrite B. now apply Qle_not_lt.
    + intros [H1 H2]. left. eexists. split; [reflexivity|]. split; apply Qnot_lt_le.
      * rewrite <- A. congruence.
      * rewrite <- B. congruence.
Qed.
Lemma within_90 x : (within x 90 \/ x = FNaN) <-> flt_lt x (flt_int (-90)) = false /\ flt_lt (flt_int 90) x = false.
Proof. apply (within_spec x 90); [reflexivity|reflexivity| |]; (eexists; eexists; eexists; split; [reflexivity|reflexivity]). Qed.
Lemma within_180 x : (within x 180 \/ x = FNaN) <-> flt_lt x (flt_int (-180)) = false /\ flt_lt (flt_int 180) x = false.
Proof. apply (within_spec x 180); [reflexivity|reflexivity| |]; (eexists; eexists; eexists; split; [reflexivity|reflexivity]). Qed.
Close Scope Q_scope.

(** ** Arguments *)
Lemma no_elements_len0 t v : typed (GSlice t) v = true -> (len0 v = true <-> no_elements v).
Proof.
  intros T. unfold no_elements. destruct v; try discriminate T; cbn [len0].
  - split; auto.
  - destruct l; split; auto; try discriminate; intros [Q|Q]; discriminate.
Qed.
Lemma is_nil_spec v : is_nil v = true <-> v = VNil.
Proof. destruct v; cbn; split; try discriminate; reflexivity. Qed.
Lemma if_some {A} (b : bool) (e : A) : (exists x, (if b then Some e else None) = Some x) <-> b = true.
Proof. destruct b; split; try discriminate; eauto. intros [x Q]; discriminate. Qed.


Lemma arg_typed c k x t : args_typed c = true -> In (k, x) (given c) -> own_field (call_fields c) k = Some t -> typed t x = true.
Proof.
  intros T Hin F. unfold args_typed in T. rewrite forallb_forall in T. specialize (T _ Hin). cbn [fst snd] in T. now rewrite F in T.
Qed.
Ltac slice k x := match goal with T : args_typed ?c = true |- _ =>
  let H := fresh "L" in assert (H : len0 x = true <-> no_elements x);
  [eapply no_elements_len0; eapply (arg_typed c k x); [exact T|cbn [given In]; tauto|vm_compute; reflexivity]|] end.

Lemma out_of x y : ~ (x = false /\ y = false) <-> x || y = true.
Proof. destruct x, y; cbn; intuition congruence. Qed.
Lemma if_if {A} (a b : bool) (e e' : A) : (exists x, (if a then Some e else if b then Some e' else None) = Some x) <-> a || b = true.
Proof. destruct a, b; cbn; split; try discriminate; eauto. intros [x Q]; discriminate. Qed.
Lemma arg_error_iff c : args_typed c = true -> (exists e, arg_error c = Some e) <-> args_bad c.
Proof.
  intros T. destruct c; cbn [arg_error args_bad]; cbv zeta; try (rewrite if_some; apply is_empty_true);
    try (split; [intros [e Q]; discriminate|contradiction]).
  - slice "Objects" objects. rewrite if_some, orb_true_iff, is_empty_true. tauto.
  - rewrite if_some, !orb_true_iff, !is_empty_true, is_nil_spec. tauto.
  - rewrite !is_0_spec, within_90, within_180, !out_of, if_if, !not_true_iff_false, <- !negb_true_iff, <- !andb_true_iff, <- !is_empty_true.
    rewrite <- !andb_true_iff, <- !orb_true_iff, !andb_assoc, !orb_assoc. tauto.
  - slice "AnalysisSCOs" scos. rewrite if_some, orb_true_iff, andb_true_iff, !is_empty_true. tauto.
  - slice "Objects" objects. rewrite if_some. tauto.
  - slice "ObjectRefs" refs. rewrite if_some, !orb_true_iff, !is_nil_spec, Z.ltb_lt. tauto.
  - slice "Objects" objects. rewrite if_some. tauto.
  - slice "Objects" objects. rewrite if_some, !orb_true_iff, is_nil_spec, is_empty_true. tauto.
  - rewrite if_some, !orb_true_iff, !is_empty_true. tauto.
  - rewrite if_some, orb_true_iff, is_empty_true, is_nil_spec. tauto.
  - rewrite if_some, orb_true_iff, is_empty_true, is_nil_spec. tauto.
  - slice "ExtensionTypes" ext_types. rewrite if_some, !orb_true_iff, !is_empty_true. tauto.
  - rewrite if_some. apply Z.eqb_eq.
  - rewrite if_some, andb_true_iff, is_empty_true, is_nil_spec. tauto.
  - slice "Protocols" proto. rewrite if_some. tauto.
Qed.

(** ** Panics *)
Section C.
Variable rb : string.
Variable now : Z.
Variable pf : string -> flt * bool.
Lemma canonicalize_total v : exists s, canonicalize_extensions pf v = Ok s.
Proof.
  unfold canonicalize_extensions. destruct (len0 _); [eauto|]. assert (P := enc_no_panic (get_path p_extensions v) GExt).
  destruct (enc GExt _); [|eauto|contradiction]. assert (Q := transform_total pf (print a)). destruct (transform pf (print a)); [eauto|eauto|contradiction].
Qed.
Lemma ext_part_total v : exists l, ext_part pf v = Ok l.
Proof. unfold ext_part. destruct (len0 _); [eauto|]. destruct (canonicalize_total v) as [s ->]. cbn [bind]. eauto. Qed.
(** A nil *RegistryValue in the values. *)
Definition nil_value (v : gval) : Prop := In VNil (old_list (get_field "Values" v)).
Lemma contribution_total c g v : contribution pf c = Some g ->
  (forall x, c = CRegistryKey -> In x (old_list (get_field "Values" v)) -> exists w, x = VPtr w) -> exists s, g v = Ok s.
Proof.
  intros G H. destruct c; try discriminate G; injection G as <-; eauto.
  - unfold file_parts. destruct (ext_part_total v) as [l ->]. cbn [bind]. eauto.
  - unfold network_parts. destruct (ext_part_total v) as [l ->]. cbn [bind]. eauto.
  - unfold registry_parts. assert (X : exists a, all_ok registry_value_part (old_list (get_field "Values" v)) = Ok a).
    { assert (H' := fun x => H x eq_refl). clear H. induction (old_list (get_field "Values" v)) as [|x l IH]; [cbn; eauto|].
      cbn [all_ok]. destruct (H' x (or_introl eq_refl)) as [w ->]. destruct IH as [a E]; [intros; apply H'; now right|].
      rewrite E. cbn [bind registry_value_part]. eauto. }
    destruct X as [a ->]. cbn [bind]. eauto.
Qed.
Lemma contribution_panics g v : contribution pf CRegistryKey = Some g ->
  (forall x, In x (old_list (get_field "Values" v)) -> x = VNil \/ exists w, x = VPtr w) -> nil_value v -> g v = Panic.
Proof.
  intros G H N. injection G as <-. unfold registry_parts, nil_value in *.
  assert (X : all_ok registry_value_part (old_list (get_field "Values" v)) = Panic).
  { induction (old_list (get_field "Values" v)) as [|x l IH]; [destruct N|]. cbn [all_ok].
    destruct (H x (or_introl eq_refl)) as [->|[w ->]]; [reflexivity|]. destruct N as [N|N]; [discriminate N|].
    rewrite IH; [cbn [bind registry_value_part]; reflexivity|intros; apply H; now right|exact N]. }
  now rewrite X.
Qed.
End C.
