(** Facts for C93 and C94. *)
From Verif Require Import GoStr GoStrFacts JsonStr StrSpec JsonSpec Json Float Consts GoTypes Schema GoVal Codec CodecSpec Ident
  Collection CollectionSpec CollectionFacts FromJson FromJsonSpec FromJsonFacts ReadFacts ParseFacts IndepFacts CollectFacts FromJsonProps DataTypes JoinSpec JoinFacts AppendSpec.

Section A.
Variable rnd : bool -> N -> Z -> option flt.

(** ** Longer documents *)
Section Cfg.
Variable cf : config.
Notation read := (read rnd cf).
Notation read_all := (read_all rnd cf).
Lemma read_all_app a b : forall p, match read_all a p with
  | Ok oa => exists q, read_all (a ++ b) p = do ob <- read_all b q; Ok (oa ++ ob)%list
  | Err e => read_all (a ++ b) p = Err e
  | Panic => read_all (a ++ b) p = Panic
  end.
Proof.
  induction a as [|j a IH]; intros p.
  - cbn [app FromJsonFacts.read_all]. exists p. destruct (read_all b p); reflexivity.
  - cbn [app FromJsonFacts.read_all]. destruct (read j p) as [[o p']| |]; [|reflexivity|reflexivity]. cbn [bind fst snd]. specialize (IH p').
    destruct (read_all a p') as [oa| |]; cbn [bind]; [|now rewrite IH|now rewrite IH]. destruct IH as (q & ->). exists q. destruct (read_all b q); reflexivity.
Qed.
Lemma read_all_length js : forall p outs, read_all js p = Ok outs -> length outs = length js.
Proof.
  induction js as [|j js IH]; intros p outs R; cbn [FromJsonFacts.read_all] in R; [now injection R as <-|].
  destruct (read j p) as [[o p']| |]; try discriminate. cbn [bind fst snd] in R. destruct (read_all js p') as [os| |] eqn:E; try discriminate.
  injection R as <-. cbn [length]. f_equal. eauto.
Qed.

Lemma contributes_more ts ts' j o : (forall t, In t ts -> In t ts') -> contributes rnd cf ts j o -> contributes rnd cf ts' j o.
Proof. intros H C. destruct C; [constructor|constructor; assumption|eapply c_typed; eauto|eapply c_stale; eauto]. Qed.
Lemma contribute_all_Forall2 ts js outs : contribute_all rnd cf ts js outs -> forall ts', (forall t, In t (types_of js) \/ In t ts -> In t ts') ->
  Forall2 (contributes rnd cf ts') js outs.
Proof.
  induction 1 as [|ts j js o os C CA IH]; intros ts' H; [constructor|]. unfold types_of in H. cbn [flat_map] in H. constructor.
  - eapply contributes_more; [|exact C]. intros t Ht. apply H. now right.
  - apply IH. intros t Ht. apply H. destruct Ht as [Ht|Ht]; [left; apply in_or_app; now right|]. apply in_app_or in Ht as [Ht|Ht]; [|now right].
    left. apply in_or_app. left. unfold types_of in Ht. cbn [flat_map] in Ht. now rewrite app_nil_r in Ht.
Qed.

Lemma longer a b s1 s : document a s1 -> document (a ++ b) s ->
  match from_json rnd cf s1 with
  | Ok c1 => forall c, from_json rnd cf s = Ok c ->
      exists outs, Forall2 (contributes rnd cf (types_of (a ++ b))) b outs /\ Forall acceptable outs /\ joined c1 (collect (cf_nosort cf) outs) c
  | r => from_json rnd cf s = r
  end.
Proof.
  intros D1 D. rewrite (from_json_read _ _ _ _ D1), (from_json_read _ _ _ _ D). assert (X := read_all_app a b VNil).
  destruct (read_all a VNil) as [oa|e|] eqn:Ea; cbn [bind]; [|now rewrite X|now rewrite X]. destruct X as (q & X). intros c. rewrite X.
  destruct (read_all b q) as [ob| |] eqn:Eb; try discriminate. cbn [bind] in *. intros Q. injection Q as <-.
  exists ob. assert (A := read_all_acceptable _ _ _ _ _ X). split; [|split; [|apply collect_joined]].
  - assert (CA : contribute_all rnd cf [] (a ++ b) (oa ++ ob)).
    { apply (read_all_contributes rnd cf _ [] VNil); auto; [|now apply (document_ok _ s)]. intros tv Q. discriminate. }
    apply contribute_all_Forall2 with (ts' := types_of (a ++ b)) in CA; [|intros t [H|[]]; exact H].
    apply Forall2_app_inv_l in CA as (l1 & l2 & F1 & F2 & Q).
    assert (L : l1 = oa /\ l2 = ob); [|destruct L as [-> ->]; exact F2].
    assert (L1 : length l1 = length oa) by (rewrite (read_all_length _ _ _ Ea); clear -F1; induction F1; cbn; congruence).
    clear -Q L1. revert oa Q L1. induction l1 as [|x l1 IH]; intros [|y oa] Q L1; try discriminate; [split; [reflexivity|now symmetry]|].
    cbn [app] in Q. injection Q as -> Q. injection L1 as L1. destruct (IH _ Q L1) as [-> ->]. now split.
  - apply Forall_app in A as [_ A]. exact A.
Qed.
End Cfg.

(** ** With and without DropCustomOption *)
Variable cf : config.
Let kp := keeping cf.
Let dp := dropping cf.
Lemma start_dropping typ j o : start kp typ j = Ok (Some o) ->
  start dp typ j = Ok (Some o) \/ (start dp typ j = Ok None /\ parser_of cf typ = None /\ ~ In typ (akeys builtin_types) /\ o = (ty_CustomObject, VMap [])).
Proof.
  unfold start, parser_of, kp, dp, keeping, dropping. cbn [cf_handlers cf_drop]. destruct (alookup typ (cf_handlers cf)) as [[h|]|]; [tauto| |].
  - destruct (alookup typ builtin_types) as [t|] eqn:E; [tauto|]. intros Q. injection Q as <-. right. repeat split. now apply alookup_None.
  - destruct (alookup typ builtin_types) as [t|] eqn:E; [tauto|]. intros Q. injection Q as <-. right. repeat split. now apply alookup_None.
Qed.
Lemma start_keeping typ j : start kp typ j <> Ok None.
Proof.
  unfold start, kp, keeping. cbn [cf_handlers cf_drop]. destruct (alookup typ (cf_handlers cf)) as [[h|]|].
  - destruct (h j) as [[o|]| |]; cbn [bind]; discriminate.
  - destruct (alookup typ builtin_types); discriminate.
  - destruct (alookup typ builtin_types); discriminate.
Qed.
Lemma start_no_parser typ j t v0 : start kp typ j = Ok (Some (t, v0)) -> parser_of cf typ = None -> In typ (akeys builtin_types) -> In (typ, t) builtin_types /\ v0 = zero t.
Proof.
  unfold start, parser_of, kp, keeping. cbn [cf_handlers cf_drop]. intros H P I.
  assert (X : match alookup typ builtin_types with Some t' => Ok (Some (t', zero t')) | None => Ok (Some (ty_CustomObject, VMap [])) end = Ok (Some (t, v0))) by (destruct (alookup typ (cf_handlers cf)) as [[h|]|]; [discriminate|exact H|exact H]).
  destruct (alookup typ builtin_types) as [t'|] eqn:E; [|apply alookup_None in E; contradiction]. injection X as <- <-. split; [now apply alookup_builtin|reflexivity].
Qed.

Lemma read_left_out j p q o p' : json_okb j = true -> msorted (old_map p) = true -> msorted (old_map q) = true ->
  (forall ms, j = JObj ms -> member "type" j <> None) -> read rnd kp j p = Ok (o, p') ->
  exists o' q', read rnd dp j q = Ok (o', q') /\ left_out cf j o o'.
Proof.
  intros O Sp Sq T R. assert (R0 := R). unfold read in R0 |- *. destruct (peak_status rnd j p) as [(e & H)|(pk & E & H)]; [rewrite H in R0; discriminate|].
  destruct (H q) as (pk' & E'). rewrite E'. clear R0 H. cbn [bind].
  destruct (read_inv _ _ _ _ _ _ Sp R) as [(-> & -> & ->)|(ms & m & -> & M & C)].
  - destruct (peak_inv _ _ _ _ Sq E') as [[_ ->]|(ms & m & Q & _)]; [|discriminate]. exists None, VNil. split; [reflexivity|constructor].
  - destruct (peak_inv _ _ _ _ Sq E') as [[Q _]|(ms' & m' & Q & -> & M')]; [discriminate|]. injection Q as <-. cbn [map_get old_map].
    specialize (T _ eq_refl). assert (JT : forall typ, alookup "type" m = Some (dyn_str typ) -> alookup "type" m' = Some (dyn_str typ) /\ json_type (JObj ms) = Some typ).
    { intros typ L. destruct (typed_member _ _ _ _ _ M L) as [Y|[Y _]]; [|congruence]. split; [|exact Y].
      destruct M as (_ & L1 & _), M' as (_ & L2 & _). rewrite L1 in L. rewrite L2. cbn [member] in T. destruct (last_member "type" ms); [exact L|congruence]. }
    destruct C as [(L & _)|(typ & L & C)].
    { destruct M as (_ & L1 & _). rewrite L1 in L. cbn [member] in T. destruct (last_member "type" ms); congruence. }
    destruct (JT _ L) as [L' J]. rewrite L'. cbn [as_string dyn_str bind].
    destruct C as [(St & _)|(t & v0 & v1 & St & Dc & -> & _)]; [now apply start_keeping in St|].
    destruct (start_dropping _ _ _ St) as [St'|(St' & P & NB & Q)]; rewrite St'; cbn [bind].
    + unfold read_finish. rewrite Dc. cbn [unmarshal_res bind]. change (cf_drop dp) with true. cbn iota.
      destruct (read_acceptable _ _ _ _ _ _ R) as (id & ty & I1 & I2 & V). unfold obj_id, obj_type in *. rewrite add_props_field in I1, I2 by discriminate.
      rewrite I1, I2. cbn [bind]. rewrite V. eexists. eexists. split; [reflexivity|]. apply (lo_props cf _ typ); [exact J|].
      intros P. destruct (in_dec string_dec typ (akeys builtin_types)) as [I|NI].
      * destruct (start_no_parser _ _ _ _ St P I) as [B ->]. split; [exact B|]. eapply dec_props; eauto.
      * exfalso. unfold start, dp, dropping in St'. cbn [cf_handlers cf_drop] in St'. unfold parser_of in P.
        apply alookup_None in NI. rewrite NI in St'. destruct (alookup typ (cf_handlers cf)) as [[h|]|]; discriminate.
    + exists None. eexists. split; [reflexivity|]. injection Q as -> ->. change (add_props ty_CustomObject (props_of_read kp ty_CustomObject m) v1) with (add_props ty_CustomObject (props_of_read kp ty_CustomObject m) v1).
      apply (lo_custom cf _ typ); assumption.
Qed.
Lemma read_all_left_out js : forallb json_okb js = true -> typed js -> forall p q outs, msorted (old_map p) = true -> msorted (old_map q) = true ->
  read_all rnd kp js p = Ok outs -> exists outs', read_all rnd dp js q = Ok outs' /\ length outs' = length outs /\
  Forall2 (fun j oo => left_out cf j (fst oo) (snd oo)) js (combine outs outs').
Proof.
  induction js as [|j js IH]; intros O T p q outs Sp Sq R; cbn [read_all] in R |- *.
  - injection R as <-. exists []. repeat constructor.
  - cbn [forallb] in O. apply andb_true_iff in O as [O1 O2]. destruct (read rnd kp j p) as [[o p']| |] eqn:E; try discriminate. cbn [bind fst snd] in R.
    destruct (read_all rnd kp js p') as [os| |] eqn:E2; try discriminate. injection R as <-.
    destruct (read_left_out j p q o p' O1 Sp Sq) as (o' & q' & E' & L); [intros ms ->; apply T; now left|exact E|]. rewrite E'. cbn [bind fst snd].
    destruct (IH O2 (fun ms H => T ms (or_intror H)) p' q' os) as (os' & Es & Ln & F); [exact (read_sorted _ _ _ _ _ _ Sp E)|exact (read_sorted _ _ _ _ _ _ Sq E')|exact E2|].
    rewrite Es. exists (o' :: os'). split; [reflexivity|]. split; [cbn; congruence|]. constructor; assumption.
Qed.
End A.
