(** Property theorems C70: numbers as IEEE 754 doubles. *)
From Coq Require Import Lia QArith Qabs Qpower Lqa.
From Verif Require Import GoStr GoStrFacts JsonStr Json JsonSpec JsonSpecFacts TimeSpec NumSpec NumSpecFacts Float FloatFacts GoTypes Schema GoVal Codec CodecSpec
  ConstrSpec Constructors ConstrArgs NumFmt NumFmtFacts CanonSpec Double DoubleFacts DoubleNear DoubleSpec DoubleReal.
Local Open Scope Q_scope.

Lemma parse_number l : json_number l -> parse_json l = Some (JNum l).
Proof.
  intros J. apply json_exact. exists ""%string, l, ""%string. split; [intros ? []|]. split; [intros ? []|]. split; [now constructor|].
  symmetry. apply sapp_nil_r.
Qed.
Lemma read_number l neg m e old : json_number l -> number_text l neg m e ->
  unmarshal go_rnd l GFloat old = match go_rnd neg m e with Some f => Ok (VFloat f) | None => Err "json" end /\
  unmarshal go_rnd l GIface old = match go_rnd neg m e with Some f => Ok (VDyn GFloat (VFloat f)) | None => Err "json" end.
Proof.
  intros J T. unfold unmarshal. rewrite (parse_number l J). cbn [dec dec_any]. apply num_ok_exact in J.
  apply (dec_exact l neg m e J) in T. unfold parse_float. rewrite T. destruct (go_rnd neg m e); split; reflexivity.
Qed.

(** ** C70 *)
(** A JSON number is read as the double nearest to it, by float64 properties and
    by interface values; a number out of range is an error. *)
Theorem number_read : forall l neg m e old, json_number l -> number_text l neg m e ->
  (in_range (decimal m e) -> exists y f, rounds_to (decimal m e) y /\ stands_for neg y f /\
     unmarshal go_rnd l GFloat old = Ok (VFloat f) /\ unmarshal go_rnd l GIface old = Ok (VDyn GFloat (VFloat f))) /\
  (~ in_range (decimal m e) -> exists x x', unmarshal go_rnd l GFloat old = Err x /\ unmarshal go_rnd l GIface old = Err x').
Proof.
  intros l neg m e old J T. destruct (read_number l neg m e old J T) as [-> ->]. split; intros R.
  - destruct (go_rnd_some neg m e R) as (_ & m' & e' & _ & _ & G). rewrite G.
    apply go_rnd_stands in G as (y & Y & S). exists y, (FFin neg m' e'). auto.
  - rewrite (go_rnd_none neg m e R). eauto.
Qed.
Print Assumptions number_read.

(** The double a number is read as is unique, and so is its shortest decimal. *)
Theorem number_read_once : forall m e y y', rounds_to (decimal m e) y -> rounds_to (decimal m e) y' -> y == y'.
Proof.
  assert (W : forall m e y, rounds_to (decimal m e) y -> y == real (read_bits m e)).
  { intros m e y Y. assert (P : 0 <= y). { destruct (Qlt_le_dec y 0) as [N|P]; [|exact P]. exfalso. destruct Y as (_ & _ & C).
      assert (D0 : is_double 0) by (exists 0%Z, 0%Z; split; [split; [reflexivity|lia]|reflexivity]).
      destruct (C 0 D0) as [X _]. assert (Dn := decimal_nonneg m e). rewrite (Qabs_pos (_ - 0)) in X by lra. rewrite Qabs_pos in X by lra. lra. }
    destruct (double_real y (proj1 (proj2 Y)) P) as (k & K & Yk). apply (rounds_ext _ _ _ Yk) in Y. apply read_rounds in Y; [|exact K].
    now rewrite Yk, Y. }
  intros m e y y' A B. rewrite (W m e y A), (W m e y' B). reflexivity.
Qed.
Print Assumptions number_read_once.
Theorem shortest_decimal_once : forall y m e m' e', is_double y -> 0 <= y -> shortest_decimal y m e -> shortest_decimal y m' e' -> m = m' /\ e = e'.
Proof.
  intros y m e m' e' D P A B. destruct (double_real y D P) as (k & K & Y).
  apply (shortest_ext _ _ _ _ Y), shortest_unique in A; [|exact K]. apply (shortest_ext _ _ _ _ Y), shortest_unique in B; [|exact K].
  rewrite A in B. now injection B.
Qed.
Print Assumptions shortest_decimal_once.

(** Every double, with either sign, has one value in the model; it is written as
    its shortest decimal, which is read as the same double. *)
Theorem number_written : forall neg y, is_double y -> 0 <= y -> exists f, stands_for neg y f /\ (forall g, stands_for neg y g -> g = f) /\
  exists l m e, marshal_bytes GFloat (VFloat f) = Ok l /\ json_number l /\ number_text l neg m e /\ shortest_decimal y m e /\
    forall old, unmarshal go_rnd l GFloat old = Ok (VFloat f).
Proof.
  intros neg y D P. destruct (stands_total neg y D P) as [f S]. exists f. split; [exact S|]. split; [intros g G; now apply (stands_unique neg y)|].
  assert (S0 := S). destruct S0 as (_ & _ & m & e & -> & Sh). exists (sgn neg (fmt_abs m e)), m, e.
  assert (F : is_f64 go_rnd (FFin neg m e) = true). { apply f64_double. intros n m0 e0 E. injection E as <- <- <-. now exists y. }
  assert (E : fmt_float (FFin neg m e) = Some (sgn neg (fmt_abs m e))) by (now destruct neg).
  destruct (fmt_float_ok go_rnd _ _ F E) as [Pf Nk]. assert (C : canonical m e = true) by (cbn in F; now apply andb_true_iff in F as [F _]).
  assert (T : number_text (sgn neg (fmt_abs m e)) neg m e) by (apply (dec_exact _ _ _ _ Nk); now apply dec_fmt).
  assert (J := proj1 (num_ok_exact _) Nk). split; [|split; [exact J|split; [exact T|split; [exact Sh|]]]].
  - unfold marshal_bytes, marshal. cbn [ty_name]. change (mem_str _ helper_types) with false. cbv iota. cbn [enc]. rewrite E. reflexivity.
  - intros old. destruct (read_number _ neg m e old J T) as [-> _]. now rewrite (go_rnd_own neg y m e S).
Qed.
Print Assumptions number_written.

(** The condition on float64 values in the theorems about encoding is true of
    exactly the doubles. *)
Theorem float_values_are_doubles : forall neg m e, is_f64 go_rnd (FFin neg m e) = true <-> exists y, stands_for neg y (FFin neg m e).
Proof.
  intros neg m e. rewrite f64_double. split; [intros H; exact (H neg m e eq_refl)|]. intros H n m0 e0 E. now injection E as <- <- <-.
Qed.
Print Assumptions float_values_are_doubles.

(** Comparison of float64 values, as in the range checks of a location, is
    comparison of the doubles. *)
Lemma signed_decimal a m e : inject_Z (signed a m) * Qpower 10 e == with_sign a (decimal m e).
Proof. unfold decimal. destruct a; cbn [signed with_sign]; [rewrite inject_Z_opp; ring|reflexivity]. Qed.
Lemma stands_order a y m e b z m' e' : stands_for a y (FFin a m e) -> stands_for b z (FFin b m' e') -> (decimal m e < decimal m' e' <-> y < z).
Proof.
  intros Y Z. apply stands_bits in Y as (j & J & -> & Ej). apply stands_bits in Z as (k & K & -> & Ek). unfold flt_of_bits in Ej, Ek.
  assert (O := shortest_order j k J K). destruct (shortest j) as [m1 e1]. destruct (shortest k) as [m2 e2]. injection Ej as -> ->. injection Ek as -> ->. exact O.
Qed.
Lemma stands_0 : forall a, stands_for a 0 (FFin a 0 0).
Proof. intros a. apply stands_bits. exists 0%N. split; [reflexivity|]. split; [now rewrite real_0|reflexivity]. Qed.
Theorem comparison_is_of_doubles : forall a y f b z g, stands_for a y f -> stands_for b z g -> (flt_lt f g = true <-> with_sign a y < with_sign b z).
Proof.
  intros a y f b z g Y Z. assert (Y0 := Y). assert (Z0 := Z). destruct Y0 as (_ & Py & m & e & -> & _). destruct Z0 as (_ & Pz & m' & e' & -> & _).
  rewrite flt_lt_fin, !signed_decimal. assert (A := stands_order a y m e b z m' e' Y Z). assert (B := stands_order b z m' e' a y m e Z Y).
  assert (Ny := stands_order false 0 0 0 a y m e (stands_0 false) Y). assert (Nz := stands_order false 0 0 0 b z m' e' (stands_0 false) Z).
  assert (D0 : decimal 0 0 == 0) by reflexivity. rewrite D0 in Ny, Nz. assert (P := decimal_nonneg m e). assert (P' := decimal_nonneg m' e').
  destruct a, b; cbn [with_sign].
  - split; intros H; [assert (z < y) by (apply B; lra)|assert (decimal m' e' < decimal m e) by (apply B; lra)]; lra.
  - split; intros H.
    + destruct (Qlt_le_dec 0 (decimal m e)) as [L|L]; [apply Ny in L; lra|]. assert (0 < decimal m' e') as L' by lra. apply Nz in L'. lra.
    + destruct (Qlt_le_dec 0 y) as [L|L]; [apply Ny in L; lra|]. assert (0 < z) as L' by lra. apply Nz in L'. lra.
  - split; intros H; exfalso; lra.
  - exact A.
Qed.
Print Assumptions comparison_is_of_doubles.

(** The range checks on a location: latitudes from -90 to 90 degrees, longitudes
    from -180 to 180. *)
Lemma stands_90 : stands_for false 90 (FFin false 9 1).
Proof. apply stands_bits. exists 4636033603912859648%N. split; [reflexivity|]. split; [vm_compute; reflexivity|vm_compute; reflexivity]. Qed.
Lemma stands_180 : stands_for false 180 (FFin false 18 1).
Proof. apply stands_bits. exists 4640537203540230144%N. split; [reflexivity|]. split; [vm_compute; reflexivity|vm_compute; reflexivity]. Qed.
Theorem degrees_of_doubles : forall neg y f r, stands_for neg y f -> r = 90%Z \/ r = 180%Z ->
  (within f r <-> - inject_Z r <= with_sign neg y /\ with_sign neg y <= inject_Z r).
Proof.
  intros neg y f r S R. assert (S0 := S). destruct S0 as (_ & _ & m & e & -> & _).
  assert (G : exists m' e', stands_for false (inject_Z r) (FFin false m' e') /\ decimal m' e' == inject_Z r).
  { destruct R as [->| ->]; [exists 9%N, 1%Z; split; [exact stands_90|reflexivity]|exists 18%N, 1%Z; split; [exact stands_180|reflexivity]]. }
  destruct G as (m' & e' & T & V). assert (T' : stands_for true (inject_Z r) (FFin true m' e')).
  { destruct T as (D & P & m0 & e0 & E & Sh). injection E as <- <-. split; [exact D|]. split; [exact P|]. now exists m', e'. }
  assert (A := comparison_is_of_doubles _ _ _ _ _ _ T S). assert (B := comparison_is_of_doubles _ _ _ _ _ _ S T').
  rewrite flt_lt_fin, !signed_decimal in A, B. cbn [with_sign] in A, B. rewrite V in A, B.
  unfold within. cbn [fvalue]. split.
  - intros (q & Q & L1 & L2). injection Q as <-. rewrite signed_decimal in L1, L2. rewrite inject_Z_opp in L1.
    split; apply Qnot_lt_le; intros H; [apply B in H|apply A in H]; lra.
  - intros [L1 L2]. eexists. split; [reflexivity|]. rewrite signed_decimal, inject_Z_opp.
    split; apply Qnot_lt_le; intros H; [apply B in H|apply A in H]; lra.
Qed.
Print Assumptions degrees_of_doubles.

(** strconv.ParseFloat meets what the theorems about the canonicalizer ask of
    it, so they hold of it. *)
Theorem parse_float_is_a_parser : forall other, (forall l neg m e, other l = (FFin neg m e, true) -> exists y, stands_for neg y (FFin neg m e)) ->
  float_parser go_rnd (go_parse_float go_rnd other).
Proof.
  assert (W : forall y neg m e, stands_for neg y (FFin neg m e) -> lowest m e /\ go_rnd neg m e = Some (FFin neg m e)).
  { intros y neg m e S. split; [|now apply (go_rnd_own neg y)]. destruct S as (_ & _ & m0 & e0 & E & (_ & L & _)). injection E as <- <-. exact L. }
  intros other O. split; [|split].
  - intros l f (J & n & m & e & T & R). unfold go_parse_float, parse_float. apply num_ok_exact in J. rewrite J. apply (dec_exact _ _ _ _ J) in T. now rewrite T, R.
  - intros l neg m e. unfold go_parse_float, parse_float. destruct (num_ok l).
    + destruct (dec_of_lexeme l) as [[[n m0] e0]|]; [|discriminate]. destruct (go_rnd n m0 e0) as [f|] eqn:R; [|discriminate]. intros H. injection H as ->.
      apply go_rnd_stands in R as (y & _ & S). assert (S0 := S). destruct S0 as (_ & _ & m1 & e1 & E & _). injection E as -> -> ->. now apply (W y).
    + intros H. apply O in H as [y S]. now apply (W y).
  - apply (go_rnd_own false 0), stands_0.
Qed.
Print Assumptions parse_float_is_a_parser.

(** The canonical text of a number in range is the ECMAScript text of the
    shortest decimal of the nearest double. *)
Theorem canonical_number : forall l neg m e, json_number l -> number_text l neg m e -> in_range (decimal m e) ->
  exists y m' e', rounds_to (decimal m e) y /\ shortest_decimal y m' e' /\ json_num go_rnd l (FFin neg m' e') /\
    forall f, json_num go_rnd l f -> f = FFin neg m' e' /\ number_to_json f = Some (es6 neg m' e', true).
Proof.
  intros l neg m e J T R. destruct (go_rnd_some neg m e R) as (y & m' & e' & Y & Sh & G). exists y, m', e'. split; [exact Y|]. split; [exact Sh|].
  split; [split; [exact J|]; now exists neg, m, e|]. intros f (_ & n & m0 & e0 & T0 & G0). apply num_ok_exact in J.
  apply (dec_exact _ _ _ _ J) in T. apply (dec_exact _ _ _ _ J) in T0. rewrite T in T0. injection T0 as <- <- <-. rewrite G in G0. injection G0 as <-.
  split; [reflexivity|apply number_to_json_es6].
Qed.
Print Assumptions canonical_number.

(** *** Concrete cases *)
(** Halfway between two doubles; a decimal that no double equals; too large;
    nearest to the least double. *)
Example case_tie : unmarshal go_rnd "9007199254740993" GFloat VNil = Ok (VFloat (FFin false 9007199254740992 0)) /\
  unmarshal go_rnd "-9007199254740995.0" GIface VNil = Ok (VDyn GFloat (VFloat (FFin true 9007199254740996 0))).
Proof. split; vm_compute; reflexivity. Qed.
Example case_tenth : go_rnd false 1 (-1) = Some (FFin false 1 (-1)) /\ go_rnd true 10000000000000000555 (-20) = Some (FFin true 1 (-1)).
Proof. split; vm_compute; reflexivity. Qed.
Example case_large : unmarshal go_rnd "1.8e308" GFloat VNil = Err "json".
Proof. vm_compute. reflexivity. Qed.
Example case_least : parse_bits 3 (-324) = Some 1%N /\ parse_bits 2 (-324) = Some 0%N.
Proof. split; vm_compute; reflexivity. Qed.
Example case_read : json_number "-0.1" /\ number_text "-0.1" true 1 (-1) /\ in_range (decimal 1 (-1)).
Proof.
  assert (N : num_ok "-0.1" = true) by reflexivity. split; [now apply num_ok_exact|]. split; [apply (dec_exact _ _ _ _ N); vm_compute; reflexivity|].
  apply (proj2 (parse_bits_range _ _)). eexists. vm_compute. reflexivity.
Qed.
Example case_out_of_range : ~ in_range (decimal 18 307).
Proof. intros H. apply (proj1 (parse_bits_range _ _)) in H as [k H]. vm_compute in H. discriminate H. Qed.
(** The double nearest to 1/10, which is not 1/10. *)
Example case_double : exists y, is_double y /\ ~ y == 1 # 10 /\ shortest_decimal y 1 (-1) /\ stands_for true y (FFin true 1 (-1)).
Proof.
  assert (S : stands_for true (inject_Z 7205759403792794 * Qpower 2 (-56)) (FFin true 1 (-1))).
  { apply stands_bits. exists 4591870180066957722%N. split; [reflexivity|]. split; vm_compute; reflexivity. }
  eexists. split; [exact (proj1 S)|]. split; [|split; [|exact S]].
  - vm_compute. discriminate.
  - destruct S as (_ & _ & m & e & E & Sh). now injection E as <- <-.
Qed.
Example case_order : flt_lt (FFin true 1 (-1)) (FFin false 0 0) = true /\ ~ within (FFin false 9000000000000001 (-14)) 90.
Proof.
  split; [reflexivity|]. intros H. assert (S : stands_for false (inject_Z 6333186975989761 * Qpower 2 (-46)) (FFin false 9000000000000001 (-14))).
  { apply stands_bits. exists 4636033603912859649%N. split; [reflexivity|]. split; vm_compute; reflexivity. }
  apply (degrees_of_doubles _ _ _ _ S (or_introl eq_refl)) in H as [_ H]. vm_compute in H. now apply H.
Qed.
Example case_canonical : number_to_json (FFin false 9007199254740992 0) = Some ("9007199254740992"%string, true) /\
  exists other : string -> flt * bool, forall l neg m e, other l = (FFin neg m e, true) -> exists y, stands_for neg y (FFin neg m e).
Proof.
  split; [vm_compute; reflexivity|]. exists (fun l => if String.eqb l "0x0" then (FFin false 0 0, true) else (FNaN, false)). intros l neg m e.
  destruct (String.eqb l "0x0"); [|discriminate]. intros H. injection H as <- <- <-. exists 0. apply stands_0.
Qed.
