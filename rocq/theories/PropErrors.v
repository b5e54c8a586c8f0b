(** The errors of the constructors: C75. *)
From Verif Require Import GoStr GoStrFacts Json Float Consts GoTypes Schema GoVal GoValFacts Codec CodecSpec StructFacts TypedFacts ObjFacts StoreFacts ShapeFacts OptTable FromJson DataTypes Options OptionFacts PropOptions Ident
  Constructors ConstrSpec ConstrFacts ConstrArgs PropConstr HelperTable Helpers HelperSpec PropHelpers ErrSpec.
Local Open Scope string_scope.

Lemma arg_error_value c e : args_typed c = true -> arg_error c = Some e -> (lacks c /\ e = lacks_error c) \/ (~ lacks c /\ out_of_range c /\ e = ErrInvalidProperty).
Proof.
  intros T A. assert (B : args_bad c) by (apply (arg_error_iff c T); eauto).
  destruct c; try (left; split; [exact B|]; cbn [arg_error] in A; cbv zeta in A;
    repeat match type of A with (if ?b then _ else _) = _ => destruct b end; [injection A as <-; reflexivity|discriminate A]); try contradiction.
  cbn [args_bad lacks out_of_range] in *. cbn [arg_error] in A.
  assert (L : (region = "" /\ country = "" /\ is_0 lat /\ is_0 long) <-> is_empty region && is_empty country && flt_is_zero lat && flt_is_zero long = true).
  { rewrite !andb_true_iff, !is_empty_true, !is_0_spec. tauto. }
  destruct (is_empty region && is_empty country && flt_is_zero lat && flt_is_zero long).
  - left. injection A as <-. split; [now apply L|reflexivity].
  - right. assert (NL : ~ (region = "" /\ country = "" /\ is_0 lat /\ is_0 long)) by (intros Q; apply L in Q; discriminate).
    split; [exact NL|]. split; [tauto|]. destruct (_ || _ : bool) in A; [now injection A as <-|discriminate].
Qed.
Lemma no_arg_error c : args_typed c = true -> arg_error c = None -> ~ lacks c /\ ~ out_of_range c.
Proof.
  intros T A. assert (NB : ~ args_bad c) by (intros Q; apply (arg_error_iff c T) in Q as [e Q]; congruence).
  destruct c; cbn [lacks out_of_range args_bad] in *; tauto.
Qed.
Lemma wanted_iff c : wants_option c = true <-> option_wanted c.
Proof. unfold option_wanted. destruct c; cbn [wants_option]; split; intros H; try discriminate H; try reflexivity; try tauto; destruct H as [H|[H|[H|H]]]; discriminate H. Qed.

Section Checks.
Variable c : call.
Variable v : gval.
Hypothesis ST : storable (call_ty c) v = true.
Lemma stored f t : field_by_name (call_fields c) f = Some ((None, f), t) -> ~ In f ext_bases -> storable t (get_field f v) = true /\ prop c f v = get_field f v.
Proof.
  intros F N. split.
  - destruct (field_by_name_path _ _ _ _ (call_opt c) N F) as (m & HP & E). destruct (call_struct c) as [n Q]. assert (S := ST). rewrite Q in S.
    exact (st_path _ _ _ _ _ _ (call_flat c) S HP).
  - unfold prop. now rewrite F.
Qed.
Lemma backwards : (exists t, field_by_name (call_fields c) "FirstSeen" = Some ((None, "FirstSeen"), t)) ->
  (exists t, field_by_name (call_fields c) "LastSeen" = Some ((None, "LastSeen"), t)) ->
  (bad_seen v = true <-> seen_backwards (fun f => prop c f v)).
Proof.
  intros [t1 F1] [t2 F2]. destruct (stored _ _ F1) as [_ P1]; [intros [Q|[Q|[Q|[]]]]; discriminate Q|].
  destruct (stored _ _ F2) as [_ P2]; [intros [Q|[Q|[Q|[]]]]; discriminate Q|].
  unfold bad_seen, seen_backwards. rewrite P1, P2. split.
  - intros H. apply andb_true_iff in H as [_ H]. destruct (get_field "FirstSeen" v) as [| | | | | | | |a| | | | |]; try discriminate H.
    destruct a as [| | | | |x| | | | | | | |]; try discriminate H. destruct (get_field "LastSeen" v) as [| | | | | | | |b| | | | |]; try discriminate H.
    destruct b as [| | | | |y| | | | | | | |]; try discriminate H. cbn [after] in H. apply Z.ltb_lt in H. eauto.
  - intros (a & b & -> & -> & L). cbn [is_nil negb andb after]. now apply Z.ltb_lt.
Qed.
End Checks.

Ltac field c v ST f := let F := fresh "F" in let S := fresh "S" in let P := fresh "P" in
  assert (F : exists t, field_by_name (call_fields c) f = Some ((None, f), t)) by (eexists; vm_compute; reflexivity);
  assert (P : prop c f v = get_field f v) by (destruct F as [t F]; apply (stored c v ST f t F); intros [Q|[Q|[Q|[]]]]; discriminate Q).
Ltac typed_field c v ST f t := let S := fresh "S" in
  assert (S : storable t (get_field f v) = true) by (apply (stored c v ST f t); [vm_compute; reflexivity|intros [Q|[Q|[Q|[]]]]; discriminate Q]).
Lemma some_iff (b : bool) (x e : string) : (if b then Some x else None) = Some e <-> e = x /\ b = true.
Proof. destruct b; split; [intros Q; injection Q as ->; auto|intros [-> _]; reflexivity|discriminate|intros [_ Q]; discriminate]. Qed.
Lemma empty_str {n} x : storable (GString n) x = true -> (is_empty (str_of x) = true <-> x = VStr "").
Proof. destruct x; cbn [storable]; intros S; try discriminate S. cbn [str_of]. rewrite is_empty_true. split; congruence. Qed.
Lemma post_error_conflict c v e : storable (call_ty c) v = true -> (post_error c v = Some e <-> conflict c (fun f => prop c f v) e).
Proof.
  intros ST. destruct c; cbn [post_error conflict]; cbv zeta; try (split; [discriminate|contradiction]); rewrite ?some_iff.
  - (* campaign *) rewrite (backwards _ v ST) by (eexists; vm_compute; reflexivity). tauto.
  - (* location *) field (CLocation region country lat long) v ST "Precision". rewrite P. typed_field (CLocation region country lat long) v ST "Precision" GFloat.
    rewrite andb_true_iff, negb_true_iff, orb_true_iff, !is_0_spec. destruct (get_field "Precision" v) as [| | |x| | | | | | | | | |] eqn:E; try discriminate S.
    cbn [flt_of]. split.
    + intros (-> & Z & L). split; [reflexivity|]. split; [exact L|]. exists x. split; [reflexivity|]. rewrite is_0_spec. congruence.
    + intros (-> & L & y & Q & Z). injection Q as <-. rewrite is_0_spec in Z. split; [reflexivity|]. split; [now destruct (flt_is_zero x)|exact L].
  - (* malware *) field (CMalware family) v ST "Name". rewrite P. typed_field (CMalware family) v ST "Name" (GString "string").
    rewrite andb_true_iff. unfold str_field. rewrite (empty_str _ S). tauto.
  - (* sighting *) field (CSighting s) v ST "Count". rewrite P. typed_field (CSighting s) v ST "Count" (GInt "int64").
    rewrite orb_true_iff, (backwards _ v ST) by (eexists; vm_compute; reflexivity).
    destruct (get_field "Count" v) as [|n| | | | | | | | | | | |]; try discriminate S. cbn [int_of].
    assert (X : (n <? 0)%Z || (999999999 <? n)%Z = true <-> exists n', VInt n = VInt n' /\ ~ (0 <= n' <= 999999999)%Z).
    { rewrite orb_true_iff, !Z.ltb_lt. split; [intros H; exists n; split; [reflexivity|lia]|intros (n' & Q & H); injection Q as <-; lia]. }
    rewrite X. tauto.
  - (* artifact *) field CArtifact v ST "Payload". field CArtifact v ST "URL". field CArtifact v ST "Hashes". rewrite P, P0, P1.
    typed_field CArtifact v ST "URL" (GString "string"). unfold str_field. assert (U := empty_str _ S).
    assert (PN := is_nil_spec (get_field "Payload" v)). assert (HN := is_nil_spec (get_field "Hashes" v)).
    assert (D1 : ErrPropertyMissing <> ErrInvalidParameter) by discriminate.
    destruct (is_nil (get_field "Payload" v)), (is_empty (str_of (get_field "URL" v))), (is_nil (get_field "Hashes" v)); cbn [andb negb];
      (split; [intros Q; try discriminate Q; injection Q as <-|intros Q; try reflexivity]); intuition (try congruence; try discriminate).
  - (* network *) field (CNetworkTraffic proto) v ST "Src". field (CNetworkTraffic proto) v ST "Dst". rewrite P, P0.
    typed_field (CNetworkTraffic proto) v ST "Src" (GString "Identifier"). typed_field (CNetworkTraffic proto) v ST "Dst" (GString "Identifier").
    rewrite andb_true_iff. unfold str_field. rewrite (empty_str _ S), (empty_str _ S0). tauto.
Qed.

Section Settings.
Variable rb : string.
Variable now : Z.
Lemma setting_prop c l v f : args_typed c = true -> Forall user_option l -> apply_opts (call_ty c) l (init rb now c) = (v, Ok tt) -> f <> "ID" -> ~ In f ext_bases ->
  prop c f v = setting c now l f.
Proof.
  intros AT UO E NI NB. unfold prop, setting. destruct (field_by_name (call_fields c) f) as [[p t]|] eqn:F; [|reflexivity].
  destruct (field_by_name_path _ _ _ _ (call_opt c) NB F) as (m & HP & <-). destruct (call_struct c) as [n Q]. rewrite Q in E.
  rewrite (opts_path _ _ _ _ _ _ (call_opt c) (user_tables _ UO) HP _ _ (init_inv rb now c AT) E), (init_path rb now c p m t HP).
  now rewrite (starts_props rb now c) by exact NI.
Qed.
Lemma conflict_ext c p p' e : (forall f, f <> "ID" -> ~ In f ext_bases -> p f = p' f) -> conflict c p e -> conflict c p' e.
Proof.
  intros H. assert (G : forall f, f <> "ID" -> mem_str f ext_bases = false -> p' f = p f).
  { intros f N M. symmetry. apply H; [exact N|]. intros Q. apply mem_str_In in Q. congruence. }
  destruct c; cbn [conflict]; unfold seen_backwards; rewrite ?(G "FirstSeen"), ?(G "LastSeen"), ?(G "Count"), ?(G "Precision"), ?(G "Name"), ?(G "Payload"), ?(G "URL"),
    ?(G "Hashes"), ?(G "Src"), ?(G "Dst") by (discriminate || reflexivity); exact (fun x => x).
Qed.
Lemma post_setting c l v e : args_typed c = true -> Forall go_option l -> apply_opts (call_ty c) l (init rb now c) = (v, Ok tt) ->
  (post_error c v = Some e <-> conflict c (setting c now l) e).
Proof.
  intros AT GO E. assert (S : storable (call_ty c) v = true).
  { assert (T := init_typed rb now c AT). apply typed_storable in T. destruct (call_struct c) as [n Q]. rewrite Q in *. exact (opts_storable _ _ _ (call_opt c) GO _ _ _ T E). }
  rewrite (post_error_conflict c v e S). assert (X := fun f => setting_prop c l v f AT (go_user _ GO) E).
  split; apply conflict_ext; intros f N M; [|symmetry]; exact (X f N M).
Qed.
End Settings.

(** ** C75 *)
(** A missing or invalid argument is reported before any option is looked at. *)
Theorem argument_errors : forall rb now pf c os, args_typed c = true ->
  (lacks c -> construct rb now pf c os = Ret None (Some (lacks_error c))) /\
  (~ lacks c -> out_of_range c -> construct rb now pf c os = Ret None (Some ErrInvalidProperty)) /\
  (option_wanted c -> construct rb now pf c [] = Ret None (Some ErrPropertyMissing)).
Proof.
  intros rb now pf c os AT. assert (A : forall e, arg_error c = Some e -> construct rb now pf c os = Ret None (Some e)).
  { intros e A. rewrite construct_uniform. unfold uniform. now rewrite A. }
  assert (B : lacks c \/ out_of_range c -> exists e, arg_error c = Some e).
  { intros L. apply (arg_error_iff c AT). destruct c; cbn [lacks out_of_range args_bad] in *; tauto. }
  split; [|split].
  - intros L. destruct (B (or_introl L)) as [e E]. rewrite (A e E). destruct (arg_error_value c e AT E) as [[_ ->]|[N _]]; [reflexivity|contradiction].
  - intros N L. destruct (B (or_intror L)) as [e E]. rewrite (A e E). destruct (arg_error_value c e AT E) as [[L' _]|(_ & _ & ->)]; [contradiction|reflexivity].
  - intros [->|[->|[->| ->]]]; reflexivity.
Qed.
Print Assumptions argument_errors.

(** An option never fails with one of the documented errors: they tell a mistake
    in the arguments, or in what the options set, from an option that does not
    apply to the object. *)
Theorem option_errors_undocumented : forall t o v v' e, apply_opt t o v = (v', Err e) -> ~ documented_error e.
Proof.
  assert (ND : forall e, In e ["base struct is not of struct type"; "field not found"; "field is of another kind"; "object can not have extensions"; "object has to be a pointer to struct"] ->
    ~ documented_error e).
  { intros e H [Q|[Q|Q]]; subst e; repeat (destruct H as [H|H]; [discriminate H|]); exact H. }
  assert (BF : forall f fs bases e, base_field bases fs f = Err e -> e = "base struct is not of struct type").
  { intros f fs. induction bases as [|b bases IH]; intros e E; [discriminate|]. cbn [base_field] in E. destruct (own_field fs b) as [[]|]; try (injection E as <-; reflexivity); [|exact (IH e E)].
    destruct (own_field fields f); [destruct (exported f); [discriminate|]|]; exact (IH e E). }
  intros t o v v' e E. apply ND. destruct o as [|r x|k x]; cbn [apply_opt] in E; [discriminate| |].
  - unfold set_field_opt in E. destruct t; try (injection E as _ <-; cbn; tauto).
    destruct (get_field_from_base fields (or_field r)) as [[p ft]|e'|] eqn:G.
    + destruct (match kind_of ft with Some k' => kind_eqb (or_kind r) k' | None => false end); [destruct (assignable (or_ty r) ft); discriminate|]. injection E as _ <-. cbn. tauto.
    + injection E as _ <-. unfold get_field_from_base in G. destruct (base_field base_structs_opt fields (or_field r)) as [[y|]|e''|] eqn:B; cbn [bind] in G; try discriminate.
      * destruct (field_by_name fields (or_field r)); [destruct (exported (or_field r)); [discriminate|]|]; injection G as <-; cbn; tauto.
      * injection G as <-. rewrite (BF _ _ _ _ B). cbn. tauto.
    + discriminate.
  - unfold set_extension in E. destruct t; try (injection E as _ <-; cbn; tauto). destruct (find_extension_field fields) as [[p []]|]; try discriminate; injection E as _ <-; cbn; tauto.
Qed.
Print Assumptions option_errors_undocumented.

(** Options that set properties that do not go together. *)
Theorem conflict_errors : forall rb now pf c os e, args_typed c = true -> Forall go_option os -> ~ lacks c -> ~ out_of_range c -> Forall (succeeds_on c) os ->
  conflict c (setting c now os) e -> construct rb now pf c os = Ret None (Some e).
Proof.
  intros rb now pf c os e AT GO NL NO S C. rewrite construct_uniform. unfold uniform.
  destruct (arg_error c) as [e'|] eqn:A; [exfalso; destruct (arg_error_value c e' AT A) as [[L _]|(_ & L & _)]; contradiction|].
  destruct (wants_option c) eqn:W; [exfalso; destruct c; try discriminate W; exact C|]. cbn [andb].
  assert (R := apply_opts_all (call_ty c) os (init rb now c) S). destruct (apply_opts (call_ty c) os (init rb now c)) as [v r] eqn:E. cbn [snd] in R. subst r.
  apply (post_setting rb now c os v e AT GO E) in C. unfold closing. replace (if strict c then err_of (Ok tt) else None) with (@None string) by (now destruct (strict c)). now rewrite C.
Qed.
Print Assumptions conflict_errors.

(** Every error has one of these causes. *)
Theorem error_cause : forall rb now pf c os ob e, args_typed c = true -> Forall go_option os -> construct rb now pf c os = Ret ob (Some e) ->
  (lacks c /\ ob = None /\ e = lacks_error c) \/
  (~ lacks c /\ out_of_range c /\ ob = None /\ e = ErrInvalidProperty) \/
  (option_wanted c /\ os = [] /\ ob = None /\ e = ErrPropertyMissing) \/
  (exists l1 o l2, os = (l1 ++ o :: l2)%list /\ Forall (succeeds_on c) l1 /\ (forall w, snd (apply_opt (call_ty c) o w) = Err e)) \/
  (ob = None /\ exists l1 l2, os = (l1 ++ l2)%list /\ Forall (succeeds_on c) l1 /\ conflict c (setting c now l1) e /\
    (l2 = [] \/ options_first c = false /\ exists o l3 e', l2 = o :: l3 /\ forall w, snd (apply_opt (call_ty c) o w) = Err e')).
Proof.
  intros rb now pf c os ob e AT GO H. rewrite construct_uniform in H. unfold uniform in H. destruct (arg_error c) as [e'|] eqn:A.
  - injection H as <- <-. destruct (arg_error_value c e' AT A) as [[L ->]|(N & L & ->)]; [left|right; left]; auto.
  - right. right. destruct (wants_option c && null os) eqn:W.
    { left. injection H as <- <-. apply andb_true_iff in W as [W N]. apply wanted_iff in W. destruct os; [auto|discriminate]. }
    right. destruct (apply_opts (call_ty c) os (init rb now c)) as [v r] eqn:E. unfold closing in H. destruct r as [[]|e1|]; [|destruct (first_failure_reported _ _ _ _ _ E ltac:(discriminate)) as (l1 & o & l2 & Q & E1 & E2)|discriminate].
    + right. assert (S := apply_opts_fail _ _ _ _ E). replace (if strict c then err_of (Ok tt) else None) with (@None string) in H by (now destruct (strict c)).
      destruct (post_error c v) as [e'|] eqn:P.
      * injection H as <- <-. split; [reflexivity|]. exists os, []. rewrite app_nil_r. apply (post_setting rb now c os v e' AT GO E) in P. split; [reflexivity|]. split; [exact S|]. split; [exact P|now left].
      * exfalso. destruct (contribution pf c) as [g|]; [destruct (g v); discriminate|discriminate].
    + assert (S1 := apply_opts_fail _ _ _ _ E1). assert (St : forall w, snd (apply_opt (call_ty c) o w) = Err e1) by (intros w; rewrite (apply_opt_stable _ _ w v), E2; reflexivity).
      cbn [err_of] in H. assert (GO1 : Forall go_option l1) by (rewrite Q in GO; now apply Forall_app in GO as [X _]).
      assert (D : e = e1 \/ (ob = None /\ post_error c v = Some e /\ strict c = false)).
      { destruct (strict c); [injection H as _ ->; now left|]. destruct (post_error c v) as [e'|]; [injection H as <- ->; right; auto|]. left.
        destruct (contribution pf c) as [g|]; [destruct (g v); try discriminate|]; injection H as _ ->; reflexivity. }
      destruct D as [->|(-> & P & SF)]; [left; exists l1, o, l2; auto|]. right. split; [reflexivity|]. exists l1, (o :: l2).
      apply (post_setting rb now c l1 v e AT GO1 E1) in P. split; [exact Q|]. split; [exact S1|]. split; [exact P|]. right. split; [now destruct c|]. exists o, l2, e1. auto.
Qed.
Print Assumptions error_cause.

(** Relationship helpers: [ErrInvalidParameter] tells that the identifier is never
    accepted as a target, and otherwise only an empty identifier leads to a
    documented error. *)
Theorem helper_errors : forall rb now pf h recv src id os ob e, In h helpers -> obj_id recv = Ok src -> Forall go_option os ->
  call_helper rb now pf h recv id os = Ret ob (Some e) ->
  (e = ErrInvalidParameter -> ob = None /\ forall os' v, call_helper rb now pf h recv id os' <> Ret (Some v) None) /\
  (e = ErrPropertyMissing -> ob = None /\ (src = "" \/ id = "")) /\
  e <> ErrInvalidProperty /\
  (e <> ErrInvalidParameter -> src <> "" -> id <> "" -> exists v, call_helper rb now pf h recv id [] = Ret (Some v) None).
Proof.
  intros rb now pf h recv src id os ob e Hh E GO H. unfold call_helper in *. destruct (target_ok (h_check h) id) eqn:T.
  - rewrite E in *. assert (AT : args_typed (CRelationship (h_rel h) src id) = true) by reflexivity.
    assert (NR : h_rel h <> "").
    { assert (Y : forallb (fun h => negb (is_empty (h_rel h))) helpers = true) by (vm_compute; reflexivity). rewrite forallb_forall in Y. specialize (Y _ Hh).
      intros Q. rewrite Q in Y. discriminate. }
    assert (C := error_cause _ _ _ _ _ _ _ AT GO H).
    assert (D : (ob = None /\ e = ErrPropertyMissing /\ (src = "" \/ id = "")) \/ ~ documented_error e).
    { destruct C as [(L & -> & ->)|[(_ & [] & _)|[([Q|[Q|[Q|Q]]] & _)|[(l1 & o & l2 & _ & _ & F)|(_ & l1 & l2 & _ & _ & [] & _)]]]]; try discriminate Q.
      - left. split; [reflexivity|]. split; [reflexivity|]. cbn [lacks args_bad] in L. tauto.
      - right. specialize (F VNil). destruct (apply_opt (call_ty (CRelationship (h_rel h) src id)) o VNil) as [w r] eqn:A. cbn [snd] in F. subst r.
        exact (option_errors_undocumented _ _ _ _ _ A). }
    split; [|split; [|split]].
    + intros ->. destruct D as [(_ & Q & _)|D]; [discriminate|]. exfalso. apply D. right. now right.
    + intros ->. destruct D as [(-> & _ & L)|D]; [auto|]. exfalso. apply D. now left.
    + intros ->. destruct D as [(_ & Q & _)|D]; [discriminate|]. apply D. right. now left.
    + intros _ NS NI. assert (X := constructor_without_options rb now pf (CRelationship (h_rel h) src id) AT). apply X. cbn [args_bad needs_options]. tauto.
  - injection H as <- <-. split; [|split; [|split]]; try discriminate; [|contradiction]. intros _. split; [reflexivity|]. discriminate.
Qed.
Print Assumptions helper_errors.

Example errors_example : forall rb now pf,
  construct rb now pf (CTool "") [OField (row "OptionName") (VStr "x")] = Ret None (Some ErrPropertyMissing) /\
  construct rb now pf (CURL "") [] = Ret None (Some ErrInvalidParameter) /\
  construct rb now pf (CLocation "" "se" (FFin false 91 0) (FFin false 18 0)) [] = Ret None (Some ErrInvalidProperty) /\
  construct rb now pf (CMalware true) [OField (row "OptionDescription") (VStr "d")] = Ret None (Some ErrInvalidProperty) /\
  construct rb now pf CArtifact [OField (row "OptionURL") (VStr "http://a")] = Ret None (Some ErrPropertyMissing) /\
  (exists e, construct rb now pf (CSighting "x") [OField (row "OptionPattern") (VStr "d")] = Ret None (Some e) /\ ~ documented_error e) /\
  lacks (CTool "") /\ out_of_range (CLocation "" "se" (FFin false 91 0) (FFin false 18 0)) /\
  conflict (CMalware true) (setting (CMalware true) now [OField (row "OptionDescription") (VStr "d")]) ErrInvalidProperty /\
  succeeds_on (CMalware true) (OField (row "OptionDescription") (VStr "d")).
Proof.
  intros rb now pf. split; [reflexivity|]. split; [reflexivity|]. split; [reflexivity|]. split; [reflexivity|]. split; [reflexivity|]. split.
  { eexists. split; [reflexivity|]. intros [Q|[Q|Q]]; discriminate Q. }
  split; [reflexivity|]. split.
  { left. rewrite within_90. intros [_ Q]. vm_compute in Q. discriminate Q. }
  split; [split; [reflexivity|]; split; [reflexivity|]; vm_compute; reflexivity|]. intros w. destruct w; reflexivity.
Qed.

(** ** Encoding *)
Definition empty_error (m : fmeta) : string := (fm_name m ++ " is empty but is required")%string.
Lemma put_field_err fm t x m e : put_field fm t x m = Err e -> missing fm x = true /\ e = empty_error fm.
Proof.
  intros H. destruct (put_field_spec fm t x m) as [[M _]|[_ E]]; [|congruence]. split; [exact M|]. unfold put_field in H. destruct (is_empty (fm_key fm)); [discriminate|].
  destruct (match x with VBool _ => false | _ => is_zero x end); [|discriminate]. destruct (fm_omit fm); [discriminate|]. now injection H as <-.
Qed.
Lemma put_fields_err e fs : forall vs m, put_fields fs vs m = Err e -> exists fm t nm x, In ((fm, t), (nm, x)) (combine fs vs) /\ missing fm x = true /\ e = empty_error fm.
Proof.
  induction fs as [|[fm t] fs IH]; intros [|[n x] vs] m H; cbn [put_fields] in H; try discriminate. cbn [combine].
  destruct (put_field fm t x m) as [m1|e1|] eqn:E; cbn [bind] in H; [|injection H as ->; exists fm, t, n, x; split; [now left|]; eapply put_field_err; eauto|discriminate].
  destruct (IH _ _ H) as (fm' & t' & nm & x' & Hin & R). exists fm', t', nm, x'. split; [now right|exact R].
Qed.
Lemma fields_to_map_err e fs : (forall m t, In (m, t) fs -> fm_embed m = mem_str (fm_name m) base_structs /\ (fm_embed m = true -> exists fs', t = GStruct (fm_name m) fs')) ->
  forall vs m, wf_fields storable fs vs = true -> fields_to_map fs vs m = Err e ->
  exists m t nm x, In ((m, t), (nm, x)) (combine fs vs) /\
    ((fm_embed m = false /\ missing m x = true /\ e = empty_error m) \/
     (fm_embed m = true /\ exists nb fsb vsb m' t' nm' x', t = GStruct nb fsb /\ x = VStruct vsb /\ In ((m', t'), (nm', x')) (combine fsb vsb) /\ missing m' x' = true /\ e = empty_error m')).
Proof.
  intros HF. induction fs as [|[fm t] fs IH]; intros [|[n x] vs] m W H; cbn [wf_fields] in W; try discriminate. cbn [fields_to_map] in H. cbn [combine].
  apply andb_true_iff in W as [W W3]. apply andb_true_iff in W as [W1 W2]. destruct (HF fm t (or_introl eq_refl)) as [E1 E2]. specialize (IH (fun m t H => HF m t (or_intror H))).
  destruct (if mem_str (fm_name fm) base_structs then base_to_map t x m else put_field fm t x m) as [m1|e1|] eqn:E; cbn [bind] in H; [| |discriminate].
  - destruct (IH _ _ W3 H) as (fm' & t' & nm & x' & Hin & R). exists fm', t', nm, x'. split; [now right|exact R].
  - injection H as ->. exists fm, t, n, x. split; [now left|]. rewrite <- E1 in E. destruct (fm_embed fm).
    + right. split; [reflexivity|]. destruct (E2 eq_refl) as [fs' ->]. destruct (st_struct _ _ _ W2) as (vs' & -> & _). cbn [base_to_map] in E.
      destruct (put_fields fs' vs' m) as [m1|e1|] eqn:P; cbn [bind] in E; try discriminate. injection E as ->. destruct (put_fields_err _ _ _ _ P) as (m' & t' & nm & x' & Hin & R).
      exists (fm_name fm), fs', vs', m', t', nm, x'. auto.
    + left. split; [reflexivity|]. eapply put_field_err; eauto.
Qed.

(** When a required property is empty, the error names such a property. *)
Theorem missing_property_named : forall name n fs v, In (name, GStruct n fs) builtin_types -> In n Schema.helper_types -> storable (GStruct n fs) v = true ->
  (exists p m t, has_path fs p m t /\ fm_key m <> "" /\ fm_omit m = false /\ is_zero (get_path p v) = true /\ is_bool_val (get_path p v) = false) ->
  exists p m t, has_path fs p m t /\ fm_key m <> "" /\ fm_omit m = false /\ is_zero (get_path p v) = true /\ is_bool_val (get_path p v) = false /\
    marshal (GStruct n fs) v = Err (fm_name m ++ " is empty but is required")%string.
Proof.
  intros name n fs v H Hn W (p & m & t & HP & K & O & Z & B). apply mem_str_In in Hn.
  destruct (builtin_cases _ _ H) as (n' & fs' & Q & [(M & OK & P)|(M & OK & P)]); injection Q as <- <-; [|congruence].
  unfold marshal. cbn [ty_name]. rewrite Hn. unfold enc_obj.
  assert (AM : any_missing (GStruct n fs) v = true).
  { apply (g_missing_by_path storable st_struct n fs v OK W). exists p, m, t. split; [exact HP|]. unfold missing. rewrite Z, B, O. cbn [negb andb]. now destruct (fm_key m). }
  destruct (g_value_to_map_spec storable st_struct (GStruct n fs) v OK W) as [[_ [e E]]|[Q _]]; [|congruence]. rewrite E. cbn [bind].
  destruct (obj_ok_facts _ _ OK) as (N0 & F & FT & X). destruct (st_struct _ _ _ W) as (vs & -> & WF). cbn [value_to_map] in E.
  destruct (fields_to_map fs vs []) as [m1|e1|] eqn:E1; cbn [bind] in E; try discriminate. injection E as ->.
  destruct (fields_to_map_err e fs) with (vs := vs) (m := @nil (string * (gty * gval))) as (m0 & t0 & nm & x & Hc & R); [|exact WF|exact E1|].
  { intros m0 t0 Hin. destruct (FT m0 t0 Hin) as (A & _ & _ & B'). split; [exact A|]. intros Em. now destruct (B' Em). }
  assert (Y := proj2 (g_fields_by_path storable st_struct n fs (VStruct vs) (fun m _ x => missing m x = true /\ e = empty_error m) F W)).
  destruct Y as (p' & m' & t' & HP' & MS & ->); [exists vs; split; [reflexivity|]; exists m0, t0, nm, x; split; [exact Hc|exact R]|].
  exists p', m', t'. unfold missing in MS. rewrite !andb_true_iff, !negb_true_iff in MS. split; [exact HP'|].
  assert (fm_key m' <> "") by (intros Q; rewrite Q in MS; cbn in MS; intuition discriminate). intuition.
Qed.
Print Assumptions missing_property_named.
Example missing_named_example : marshal ty_Malware (zero ty_Malware) = Err "Type is empty but is required".
Proof. vm_compute. reflexivity. Qed.
