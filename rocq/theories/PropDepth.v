(** The nesting limit of encoding/json (Depth.v) and what it means for users of
    the library: documents up to 10000 levels are untouched by it, deeper ones
    are errors. *)
From Coq Require Import Permutation.
From Verif Require Import GoStr GoStrFacts JsonStr StrSpec Json JsonFacts JsonSpec JsonSpecFacts Float Consts GoTypes Schema GoVal Codec Ident Collection CollectionSpec CollectionFacts
  FromJson PropFromJson TextSpec TextFacts Depth DepthSpec DepthFacts.
Local Open Scope N_scope.

(** The model without limit (C09 and others) is exact for documents of at most
    10000 levels; all deeper documents are rejected. *)
Theorem nesting_limit : forall rnd cf s j, json_text j s ->
  (levels j <= 10000 -> from_json_limited rnd cf s = from_json rnd cf s /\ forall t old, unmarshal_limited rnd s t old = unmarshal rnd s t old) /\
  (10000 < levels j -> (exists e, from_json_limited rnd cf s = Err e) /\ forall t old, exists e, unmarshal_limited rnd s t old = Err e).
Proof.
  intros rnd cf s j J. unfold from_json_limited, unmarshal_limited, from_json, unmarshal, parse_limited. rewrite (nesting_levels _ _ J). unfold max_nesting. split; intros L.
  - apply N.leb_le in L. rewrite L. now split.
  - apply N.leb_gt in L. rewrite L. split; eauto.
Qed.
Print Assumptions nesting_limit.

(** Texts that are no JSON are rejected as before. *)
Theorem limited_not_json : forall rnd cf s, (forall j, ~ json_text j s) ->
  (exists e, from_json_limited rnd cf s = Err e) /\ forall t old, exists e, unmarshal_limited rnd s t old = Err e.
Proof.
  intros rnd cf s N. assert (P : parse_limited s = None).
  { unfold parse_limited. destruct (_ <=? _); [|reflexivity]. destruct (parse_json s) as [j|] eqn:E; [|reflexivity]. apply json_exact in E. destruct (N j E). }
  unfold from_json_limited, unmarshal_limited. rewrite P. split; eauto.
Qed.
Print Assumptions limited_not_json.

Lemma lex_text j : lex j -> exists j', json_text j' (print j) /\ levels j' = levels j.
Proof.
  intros L. destruct (print_text _ L) as (j' & J). assert (T : json_text j' (print j)).
  { apply json_exact, parse_json_iff. exists "", (print j), "". repeat split; try apply ws_nil; [exact J|]. cbn [append]. now rewrite sapp_nil_r. }
  exists j'. split; [exact T|]. rewrite <- (nesting_levels _ _ T). apply nesting_takes. now apply print_takes.
Qed.

(** Encoding: a value of at most 10000 levels is encoded as without limit, and
    whatever a MarshalJSON method of the library returns is within the limit, so
    it can be read. *)
Theorem encoding_within_limit : forall rnd o, go_value rnd (snd o) = true ->
  (go_levels (snd o) <= 10000 -> marshal_limited o = marshal_obj o) /\
  (forall s, marshal_limited o = Ok s -> marshal_obj o = Ok s) /\
  (forall s t old, marshal_limited o = Ok s -> In (ty_name (fst o)) helper_types \/ go_levels (snd o) <= 10000 ->
     unmarshal_limited rnd s t old = unmarshal rnd s t old) /\
  (forall s j, marshal_obj o = Ok s -> json_text j s -> In (ty_name (fst o)) helper_types -> 10000 < levels j -> exists e, marshal_limited o = Err e).
Proof.
  intros rnd o G. unfold marshal_limited, marshal_obj, marshal_bytes. destruct (marshal (fst o) (snd o)) as [j| |] eqn:M; cbn [bind]; [|repeat split; discriminate..].
  assert (L := marshal_lex rnd _ _ _ G M). assert (NP : nesting (print j) = levels j) by (apply nesting_takes; now apply print_takes).
  assert (LL := marshal_levels _ _ _ M). destruct (lex_text _ L) as (j' & T & Q). unfold max_nesting. rewrite NP. split; [|split; [|split]].
  - intros B. assert (E : (10000 <? levels j) = false) by (apply N.ltb_ge; lia). rewrite E, andb_false_r. reflexivity.
  - intros s E. destruct (_ && _)%bool; [discriminate|exact E].
  - intros s t old E H. apply (nesting_limit rnd default_cf s j').
    + destruct (_ && _)%bool; [discriminate|]. now injection E as <-.
    + rewrite Q. destruct H as [H|H]; [|lia]. apply mem_str_In in H. rewrite H in E. cbn [andb] in E. destruct (10000 <? levels j) eqn:B; [discriminate|]. now apply N.ltb_ge in B.
  - intros s j0 E J H B. injection E as <-. rewrite <- (nesting_levels _ _ J), NP in B. apply mem_str_In in H. apply N.ltb_lt in B. rewrite H, B. cbn [andb]. eauto.
Qed.
Print Assumptions encoding_within_limit.

Lemma reached {O} ns (h : list (string * string * O)) c oks l ob : run (new_coll ns) h = (c, oks) -> all_objects c l -> In (Some ob) l -> exists x, In x h /\ snd x = ob.
Proof.
  intros R A I. apply (Permutation_in _ (all_objects_perm _ _ _ _ _ R A)) in I. apply in_map_iff in I as (id & L & _).
  apply latest_Some in L as (l1 & t & l2 & L & _). assert (I : In (Call id t ob true) (log h oks)) by (rewrite L; apply in_elt).
  unfold log in I. apply in_map_iff in I as (y & Y & I). assert (ob = snd (fst y)) by congruence. subst ob.
  destruct y as [x ok]. apply in_combine_l in I. now exists x.
Qed.
Lemma enc_all_ext {O} (f g : O -> res string) l : (forall o, In (Some o) l -> f o = g o) -> enc_all f l = enc_all g l.
Proof.
  induction l as [|o l IH]; intros H; [reflexivity|]. cbn [enc_all]. rewrite IH by (intros; apply H; now right).
  destruct o as [o|]; [rewrite (H o (or_introl eq_refl))|]; reflexivity.
Qed.

(** Bundles: if no object of a collection has more than 9998 levels, its bundle
    is made, written and read as without limit, so everything proved about that
    (C07, C17, C72, C74, C76) holds with it. *)
Theorem bundle_within_limit : forall rnd cf r ns (h : list (string * string * gobj)) c oks, run (new_coll ns) h = (c, oks) ->
  Forall (fun x => go_value rnd (snd (snd x)) = true /\ go_levels (snd (snd x)) <= 9998) h ->
  (forall b, to_bundle marshal_limited r c b <-> to_bundle marshal_obj r c b) /\
  forall b, to_bundle marshal_obj r c (Ok b) -> bundle_limited b = Ok (bundle_bytes b) /\
    from_json_limited rnd cf (bundle_bytes b) = from_json rnd cf (bundle_bytes b).
Proof.
  intros rnd cf r ns h c oks R H. rewrite Forall_forall in H.
  assert (HO : forall l ob, all_objects c l -> In (Some ob) l -> go_value rnd (snd ob) = true /\ go_levels (snd ob) <= 9998).
  { intros l ob A I. destruct (reached _ _ _ _ _ _ R A I) as (x & Ix & <-). now apply H. }
  split.
  - assert (E : forall l, all_objects c l -> new_bundle marshal_limited r l = new_bundle marshal_obj r l).
    { intros l A. unfold new_bundle. rewrite (enc_all_ext marshal_limited marshal_obj l); [reflexivity|]. intros ob I. destruct (HO l ob A I) as [G L].
      apply (proj1 (encoding_within_limit rnd ob G)). lia. }
    intros b. unfold to_bundle. split; intros (l & A & ->); exists l; split; try exact A; [|symmetry]; now apply E.
  - intros b (l & A & E). unfold new_bundle in E. symmetry in E. apply bind_ok in E as (ds & D & E). assert (b = Bundle "bundle" (new_identifier r "bundle") ds) by congruence. subst b.
    assert (X : exists js, ds = map print js /\ Forall lex js /\ Forall (fun j => levels j <= 9998) js).
    { assert (HO' := fun ob => HO l ob A). clear HO A E. revert ds D. induction l as [|o l IH]; intros ds D; cbn [enc_all] in D.
      - assert (ds = []) by congruence. subst. exists []. repeat split; constructor.
      - apply bind_ok in D as (d & D1 & D). apply bind_ok in D as (ds' & D2 & D). assert (ds = d :: ds') by congruence. subst ds.
        destruct (IH (fun ob I => HO' ob (or_intror I)) ds' D2) as (js & -> & F1 & F2). destruct o as [ob|].
        + destruct (HO' ob (or_introl eq_refl)) as [G L]. unfold marshal_obj, marshal_bytes in D1. apply bind_ok in D1 as (j & M & D1). assert (d = print j) by congruence. subst d.
          exists (j :: js). split; [reflexivity|]. split; constructor; try assumption; [eapply marshal_lex; eauto|]. apply marshal_levels in M. lia.
        + assert (d = "null") by congruence. subst d. exists (JNull :: js). split; [reflexivity|]. split; constructor; try assumption; [constructor|]. cbn. lia. }
    destruct X as (js & -> & F1 & F2). assert (BT := bundle_takes "bundle" (new_identifier r "bundle") js F1). apply nesting_takes in BT. split.
    + unfold bundle_limited. cbn [b_objects]. replace (forallb _ (map print js)) with true; [reflexivity|]. symmetry. apply forallb_forall. intros s I. apply in_map_iff in I as (j & <- & I).
      rewrite Forall_forall in F1, F2. rewrite (nesting_takes _ _ (print_takes _ (F1 _ I))). apply N.leb_le. unfold max_nesting. specialize (F2 _ I). cbv beta in F2. lia.
    + unfold from_json_limited, from_json, unmarshal_limited, unmarshal, parse_limited. rewrite BT.
      replace (_ <=? max_nesting) with true; [reflexivity|]. symmetry. apply N.leb_le. unfold max_nesting. destruct js as [|j js]; [lia|].
      assert (deepest levels (j :: js) <= 9998); [|lia]. apply deepest_le. rewrite Forall_forall in F2. exact F2.
Qed.
Print Assumptions bundle_within_limit.

(** Not everything that can be written can be read: a bundle adds two levels
    that are only counted when it is read. *)
Definition deep (n : nat) : gval := Nat.iter n (fun v => VDyn (GSlice GIface) (VSlice [v])) VNil.
Definition deep_json (n : nat) : json := Nat.iter n (fun j => JArr [j]) JNull.
Lemma deep_facts n : enc GIface (deep n) = Ok (deep_json n) /\ lex (deep_json n) /\ levels (deep_json n) = N.of_nat n.
Proof.
  induction n as [|n (A & B & C)]; [repeat split; constructor|].
  change (deep (S n)) with (VDyn (GSlice GIface) (VSlice [deep n])). change (deep_json (S n)) with (JArr [deep_json n]). split; [|split].
  - cbn [enc enc_list]. rewrite A. reflexivity.
  - constructor. constructor; [exact B|constructor].
  - cbn [levels deepest fold_right]. rewrite C. lia.
Qed.
Definition deep_id : string := "x-a--a932fcc6-e032-476c-826f-cb970a5a1ade".
Definition deep_object (n : nat) : gobj := (ty_CustomObject, VMap [("id", dyn_str deep_id); ("type", dyn_str "x-a"); ("x", deep n)]).
Theorem write_then_read_refuted : exists o c b s,
  run (new_coll false) [(deep_id, "x-a", o)] = (c, [true]) /\ obj_id o = Ok deep_id /\ obj_type o = Ok "x-a" /\
  to_bundle marshal_limited "0123456789abcdef" c (Ok b) /\ bundle_limited b = Ok s /\
  forall rnd cf, exists e, from_json_limited rnd cf s = Err e.
Proof.
  assert (X : forall n, let j := JObj [("id", JStr deep_id); ("type", JStr "x-a"); ("x", deep_json n)] in
    marshal_limited (deep_object n) = Ok (print j) /\ lex j /\ levels j = 1 + N.of_nat n).
  { intros n. destruct (deep_facts n) as (A & B & C). cbv zeta. split; [|split].
    - unfold marshal_limited, marshal, deep_object, ty_CustomObject. cbn [fst snd ty_name]. replace (mem_str "CustomObject" helper_types) with false by reflexivity.
      cbn [enc enc_mems dyn_str]. rewrite A. cbn [bind andb]. reflexivity.
    - constructor. repeat constructor; cbn [snd]; [apply plain_lex; reflexivity|apply plain_lex; reflexivity|exact B].
    - cbn [levels deepest fold_right snd]. rewrite C. lia. }
  set (n := N.to_nat 9999). assert (Hn : N.of_nat n = 9999) by (unfold n; apply N2Nat.id). clearbody n. destruct (X n) as (M & L & D). cbv zeta in *.
  set (j := JObj [("id", JStr deep_id); ("type", JStr "x-a"); ("x", deep_json n)]) in *.
  exists (deep_object n), (fst (run (new_coll false) [(deep_id, "x-a", deep_object n)])), (Bundle "bundle" (new_identifier "0123456789abcdef" "bundle") [print j]),
    (bundle_bytes (Bundle "bundle" (new_identifier "0123456789abcdef" "bundle") (map print [j]))).
  split; [reflexivity|]. split; [reflexivity|]. split; [reflexivity|]. split; [|split].
  - exists [Some (deep_object n)]. split; [reflexivity|]. unfold new_bundle. cbn [enc_all]. rewrite M. reflexivity.
  - unfold bundle_limited. cbn [b_objects forallb]. rewrite (nesting_takes _ _ (print_takes _ L)), D, Hn. reflexivity.
  - intros rnd cf. assert (BT := bundle_takes "bundle" (new_identifier "0123456789abcdef" "bundle") [j] (Forall_cons _ L (Forall_nil _))). apply nesting_takes in BT.
    unfold from_json_limited, unmarshal_limited, parse_limited. rewrite BT. cbn [deepest fold_right]. rewrite D, Hn. eexists. reflexivity.
Qed.
Print Assumptions write_then_read_refuted.

(** Three levels, brackets within strings do not count. *)
Example nesting_example : json_text (JObj [("a", JArr [JStr "[[[\""{"; JObj []])]) "{ ""a"" : [""[[[\""{"",{}]}" /\
  levels (JObj [("a", JArr [JStr "[[[\""{"; JObj []])]) = 3 /\ nesting "{ ""a"" : [""[[[\""{"",{}]}" = 3.
Proof. split; [apply json_exact; vm_compute; reflexivity|split; vm_compute; reflexivity]. Qed.

(** A collection that meets the hypotheses of [bundle_within_limit]. *)
Example bundle_within_limit_example : forall rnd,
  Forall (fun x : string * string * gobj => go_value rnd (snd (snd x)) = true /\ go_levels (snd (snd x)) <= 9998) [(deep_id, "x-a", deep_object 3)] /\
  go_levels (snd (deep_object 3)) = 4 /\ marshal_limited (deep_object 2) = Ok ("{""id"":""" ++ deep_id ++ """,""type"":""x-a"",""x"":[[null]]}")%string.
Proof. intros rnd. split; [|split; reflexivity]. constructor; [|constructor]. split; [reflexivity|]. now vm_compute. Qed.
