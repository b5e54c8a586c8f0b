(** What FromJSON reads from one JSON object. *)
From Verif Require Import GoStr GoStrFacts JsonStr Json JsonFacts Float Consts GoTypes Schema GoVal GoValFacts Codec CodecSpec CodecFacts
  StructFacts CodecRound ObjFacts TypedFacts DataTypes DataTypesFacts Ident IdentFacts Collection CollectionSpec CollectionFacts FromJson FromJsonSpec FromJsonFacts.

Section R.
Variable rnd : bool -> N -> Z -> option flt.

Lemma dec_any_total j : exists v e, dec_any rnd j = DOk v e.
Proof.
  induction j using json_ind'; cbn [dec_any]; eauto.
  - destruct (parse_float rnd l); eauto.
  - destruct (unq r); eauto.
  - assert (G : forall old, exists vs e, dec_list (fun x _ => dec_any rnd x) VNil l old = DOk vs e).
    { induction H as [|x l (v & e & Hx) Hl IH]; intros old; [exists [], false; reflexivity|]. cbn [dec_list]. rewrite Hx. cbn [dbind].
      destruct (IH (tl old)) as (vs & e' & E). fold (dec_list (fun x (_ : gval) => dec_any rnd x) VNil). rewrite E. cbn [dbind]. eauto. }
    destruct (G []) as (vs & e & E). rewrite E. cbn [dbind]. eauto.
  - assert (G : forall acc, exists vs e, dec_mems (dec_any rnd) l acc = DOk vs e).
    { induction H as [|[k x] l (v & e & Hx) Hl IH]; intros acc; [exists acc, false; reflexivity|]. cbn [dec_mems]. cbn [snd] in Hx. rewrite Hx. cbn [dbind].
      destruct (IH (minsert k v acc)) as (vs & e' & E). fold (dec_mems (dec_any rnd)). rewrite E. eauto. }
    destruct (G []) as (vs & e & E). rewrite E. cbn [dbind]. eauto.
Qed.
Definition dval (j : json) : gval := match dec_any rnd j with DOk v _ => v | _ => VNil end.

Lemma dec_mems_spec ms : forall acc m e, msorted acc = true ->
  dec_mems (dec_any rnd) ms acc = DOk m e ->
  msorted m = true /\ (forall k, alookup k m = match last_member k ms with Some x => Some (dval x) | None => alookup k acc end) /\
  (e = false -> forall k x, In (k, x) ms -> dec_any rnd x = DOk (dval x) false).
Proof.
  induction ms as [|[k x] ms IH]; intros acc m e S D; cbn [dec_mems] in D.
  - injection D as <- <-. split; [exact S|]. split; [reflexivity|]. intros _ k x [].
  - apply dbind_inv in D as (v & e1 & e2 & D1 & D2 & ->). fold (dec_mems (dec_any rnd)) in D2.
    destruct (IH _ _ _ (msorted_minsert k v acc S) D2) as (S' & L & O). split; [exact S'|].
    assert (V : dval x = v) by (unfold dval; now rewrite D1). split.
    + intros k'. rewrite L. cbn [last_member]. destruct (last_member k' ms); [reflexivity|]. rewrite alookup_minsert by exact S.
      destruct (String.eqb k' k); [now rewrite V|reflexivity].
    + intros Q k' x' [Q'|Hin]; apply orb_false_iff in Q as [-> ->]; [injection Q' as -> ->; now rewrite D1, V|eauto].
Qed.

(** The peek map after a JSON value. *)
Definition merged (p : gval) (ms : list (string * json)) (m : list (string * gval)) : Prop :=
  msorted m = true /\ (forall k, alookup k m = match last_member k ms with Some x => Some (dval x) | None => alookup k (old_map p) end) /\
  (forall k x, In (k, x) ms -> dec_any rnd x = DOk (dval x) false).

Lemma peak_inv j p pk : msorted (old_map p) = true -> unmarshal_res (dec rnd j peak_ty p) = Ok pk ->
  (j = JNull /\ pk = VNil) \/ exists ms m, j = JObj ms /\ pk = VMap m /\ merged p ms m.
Proof.
  intros S E. destruct j; try discriminate E.
  - injection E as <-. now left.
  - right. unfold peak_ty in E. rewrite dec_map_obj in E.
    destruct (dec_mems (fun x => dec rnd x GIface (zero GIface)) l (old_map p)) as [m e| |] eqn:D; try discriminate.
    cbn [dbind] in E. rewrite orb_false_r in E. destruct e; [discriminate|]. injection E as <-. exists l, m. split; [reflexivity|]. split; [reflexivity|].
    assert (D' : dec_mems (dec_any rnd) l (old_map p) = DOk m false).
    { rewrite <- D. clear. generalize (old_map p). induction l as [|[k x] l IH]; intros acc; [reflexivity|]. cbn [dec_mems]. rewrite dec_iface.
      destruct (dec_any rnd x); try reflexivity. cbn [dbind]. fold (dec_mems (fun x => dec rnd x GIface (zero GIface))). fold (dec_mems (dec_any rnd)). now rewrite IH. }
    destruct (dec_mems_spec _ _ _ _ S D') as (A & B & C). split; [exact A|]. split; [exact B|]. now apply C.
Qed.

Lemma peak_obj ms p m : msorted (old_map p) = true -> unmarshal_res (dec rnd (JObj ms) peak_ty p) = Ok (VMap m) -> merged p ms m.
Proof.
  intros S E. destruct (peak_inv _ _ _ S E) as [[Q _]|(ms' & m' & Q & Q' & M)]; [discriminate|]. injection Q as <-. now injection Q' as <-.
Qed.

Lemma as_string_dval x s : dec_any rnd x = DOk (dval x) false -> as_string (dval x) = Ok s <-> exists raw, x = JStr raw /\ unq raw = Some s.
Proof.
  intros D. unfold dval in *. split.
  - intros E. destruct x; cbn [dec_any] in *; try discriminate E.
    + destruct (parse_float rnd lexeme); discriminate.
    + destruct (unq raw) as [s'|] eqn:U; [|discriminate]. cbn in E. injection E as ->. eauto.
    + destruct (dec_list _ VNil l []); cbn [dbind] in E; discriminate.
    + destruct (dec_mems _ l []); cbn [dbind] in E; discriminate.
  - intros (raw & -> & U). cbn [dec_any]. rewrite U. reflexivity.
Qed.

Lemma last_member_In {A} k (ms : list (string * A)) x : last_member k ms = Some x -> In (k, x) ms.
Proof.
  induction ms as [|[k' y] ms IH]; [discriminate|]. cbn [last_member]. destruct (last_member k ms) as [z|].
  - intros Q. injection Q as ->. right. now apply IH.
  - destruct (String.eqb_spec k k'); [|discriminate]. intros Q. injection Q as ->. subst. now left.
Qed.
Lemma last_member_None {A} k (ms : list (string * A)) : last_member k ms = None <-> ~ In k (akeys ms).
Proof.
  induction ms as [|[k' y] ms IH]; [now split|]. cbn [last_member akeys map fst In]. destruct (last_member k ms) as [z|].
  - split; [discriminate|]. intros H. exfalso. apply H. right. destruct (in_dec string_dec k (akeys ms)) as [i|n]; [exact i|]. apply IH in n. discriminate.
  - destruct (String.eqb_spec k k').
    + split; [discriminate|]. intros H. exfalso. apply H. left. congruence.
    + split; [intros _ [Q|Q]; [congruence|now apply IH in Q]|reflexivity].
Qed.

Section Cfg.
Variable cf : config.
Notation read := (read rnd cf).

(** Everything a successful read does. *)
Definition props_of_read (t : gty) (m : list (string * gval)) : list (string * gval) := if cf_drop cf then [] else filter_out t m.
Definition peak_after (t : gty) (m : list (string * gval)) : list (string * gval) := if cf_drop cf then m else filter_out t m.

Lemma read_inv j p o p' : msorted (old_map p) = true -> read j p = Ok (o, p') ->
  (j = JNull /\ o = None /\ p' = VNil) \/
  (exists ms m, j = JObj ms /\ merged p ms m /\
    ((alookup "type" m = None /\ o = None /\ p' = VMap m) \/
     exists typ, alookup "type" m = Some (dyn_str typ) /\
       ((start cf typ j = Ok None /\ o = None /\ p' = VMap m) \/
        exists t v0 v1, start cf typ j = Ok (Some (t, v0)) /\ dec rnd j t v0 = DOk v1 false /\
          o = Some (t, add_props t (props_of_read t m) v1) /\ p' = VMap (peak_after t m)))).
Proof.
  intros S. unfold FromJsonFacts.read. destruct (unmarshal_res (dec rnd j peak_ty p)) as [pk| |] eqn:E; try discriminate. cbn [bind].
  destruct (peak_inv _ _ _ S E) as [[-> ->]|(ms & m & -> & -> & M)].
  - cbn [map_get]. intros Q. injection Q as <- <-. now left.
  - cbn [map_get old_map]. intros R. right. exists ms, m. split; [reflexivity|]. split; [exact M|].
    destruct (alookup "type" m) as [tv|] eqn:L; [|injection R as <- <-; now left]. right.
    destruct (as_string tv) as [typ| |] eqn:A; try discriminate. cbn [bind] in R.
    assert (Q : tv = dyn_str typ).
    { destruct tv; try discriminate. destruct t; try discriminate. cbn in A. destruct (String.eqb_spec name "string").
      - subst. destruct tv; try discriminate. now injection A as ->.
      - exfalso. clear -A n. cbn in A.
        repeat match type of A with match ?x with _ => _ end = _ => destruct x; try discriminate A end. congruence. }
    subst tv. exists typ. split; [reflexivity|].
    destruct (start cf typ (JObj ms)) as [[[t v0]|]| |] eqn:St; try discriminate; cbn [bind] in R; [|injection R as <- <-; now left]. right.
    unfold read_finish in R. destruct (dec rnd (JObj ms) t v0) as [v1 [|]| |] eqn:D; try discriminate. cbn [unmarshal_res bind] in R.
    exists t, v0, v1. split; [reflexivity|]. split; [exact D|].
    assert (AP : (if cf_drop cf then v1 else add_props t (if cf_drop cf then m else filter_out t m) v1) = add_props t (props_of_read t m) v1).
    { unfold props_of_read. destruct (cf_drop cf); reflexivity. }
    rewrite AP in R. destruct (obj_id _) as [id| |]; try discriminate. cbn [bind] in R. destruct (obj_type _) as [ty| |]; try discriminate. cbn [bind] in R.
    destruct (has_valid_identifier id ty); [|discriminate]. injection R as <- <-. split; reflexivity.
Qed.

Lemma filter_msorted {A} (f : string * A -> bool) m : msorted m = true -> msorted (filter f m) = true.
Proof.
  intros S. assert (N : forall k v (m : list (string * A)), msorted ((k, v) :: m) = true -> forall k' v', In (k', v') m -> str_ltb k k' = true).
  { clear. intros k v m. revert k v. induction m as [|[k1 v1] m IH]; intros k v S k' v' Hin; [destruct Hin|]. cbn [msorted] in S.
    apply andb_true_iff in S as [S1 S2]. destruct Hin as [Q|Hin]; [now injection Q as <- <-|].
    eapply str_ltb_trans; [exact S1|]. eapply (IH k1 v1); [|exact Hin]. exact S2. }
  induction m as [|[k v] m IH]; [reflexivity|]. cbn [filter]. assert (S' := S). cbn [msorted] in S'. apply andb_true_iff in S' as [_ S2]. specialize (IH S2).
  destruct (f (k, v)); [|exact IH]. cbn [msorted]. rewrite IH, andb_true_r. destruct (filter f m) as [|[k1 v1] r] eqn:E; [reflexivity|].
  eapply (N k v); [exact S|]. assert (Hin : In (k1, v1) (filter f m)) by (rewrite E; now left). apply filter_In in Hin as [Hin _]. exact Hin.
Qed.
Lemma filter_out_msorted t m : msorted m = true -> msorted (filter_out t m) = true.
Proof. intros S. destruct t; try exact S. now apply filter_msorted. Qed.

Lemma read_sorted j p o p' : msorted (old_map p) = true -> read j p = Ok (o, p') -> msorted (old_map p') = true.
Proof.
  intros S R. destruct (read_inv _ _ _ _ S R) as [(_ & _ & ->)|(ms & m & _ & (Sm & _) & [(_ & _ & ->)|(typ & _ & [(_ & _ & ->)|(t & v0 & v1 & _ & _ & _ & ->)])])];
    cbn [old_map]; auto. unfold peak_after. destruct (cf_drop cf); [exact Sm|now apply filter_out_msorted].
Qed.

Lemma alookup_akeys {A} k (m : list (string * A)) : alookup k m = None <-> ~ In k (akeys m).
Proof.
  induction m as [|[k' v] m IH]; [now split|]. cbn [alookup akeys map fst In]. destruct (String.eqb_spec k k').
  - split; [discriminate|]. intros H. exfalso. apply H. left. congruence.
  - rewrite IH. split; [intros H [Q|Q]; [congruence|now apply H in Q]|tauto].
Qed.

Lemma unmarshal_dec j t v0 v : json_okb j = true -> unmarshal rnd (print j) t v0 = Ok v <-> dec rnd j t v0 = DOk v false.
Proof.
  intros O. unfold unmarshal. rewrite parse_print by exact O. destruct (dec rnd j t v0) as [w [|]| |]; cbn [unmarshal_res]; split; intros Q; try discriminate Q; congruence.
Qed.

Lemma start_builds typ j t v0 v1 l : json_okb j = true -> start cf typ j = Ok (Some (t, v0)) -> dec rnd j t v0 = DOk v1 false ->
  (cf_drop cf = true -> l = []) -> builds rnd cf typ j (Some (t, add_props t l v1)).
Proof.
  intros O St D Hl. apply unmarshal_dec in D; [|exact O]. unfold start in St.
  assert (C : parser_of cf typ = None -> (match alookup typ builtin_types with
      | Some t => Ok (Some (t, zero t))
      | None => if cf_drop cf then Ok None else Ok (Some (ty_CustomObject, VMap []))
      end) = Ok (Some (t, v0)) -> builds rnd cf typ j (Some (t, add_props t l v1))).
  { intros P E. destruct (alookup typ builtin_types) as [t'|] eqn:B.
    - injection E as -> <-. apply alookup_Some_In in B. eapply b_builtin; eauto.
    - apply alookup_akeys in B. destruct (cf_drop cf) eqn:Dr; [discriminate|]. injection E as <- <-.
      assert (X : forall l v, add_props ty_CustomObject l v = v) by (intros [|? ?] ?; reflexivity). rewrite X. now apply b_custom. }
  unfold parser_of in C. destruct (alookup typ (cf_handlers cf)) as [[h|]|] eqn:P; [|apply C; [reflexivity|exact St]|apply C; [reflexivity|exact St]].
  destruct (h j) as [[[t' v']|]| |] eqn:H; try discriminate. cbn [bind] in St. injection St as -> ->.
  eapply (b_parser _ _ _ _ h); eauto. unfold parser_of. now rewrite P.
Qed.
Lemma start_none typ j : start cf typ j = Ok None -> builds rnd cf typ j None.
Proof.
  unfold start. intros St.
  assert (C : parser_of cf typ = None -> (match alookup typ builtin_types with
      | Some t => Ok (Some (t, zero t))
      | None => if cf_drop cf then Ok None else Ok (Some (ty_CustomObject, VMap []))
      end) = Ok None -> builds rnd cf typ j None).
  { intros P E. destruct (alookup typ builtin_types) as [t'|] eqn:B; [discriminate|].
    apply alookup_akeys in B. destruct (cf_drop cf) eqn:Dr; [|discriminate]. now apply b_dropped. }
  unfold parser_of in C. destruct (alookup typ (cf_handlers cf)) as [[h|]|] eqn:P; [|apply C; [reflexivity|exact St]|apply C; [reflexivity|exact St]].
  destruct (h j) as [[[t' v']|]| |] eqn:H; discriminate.
Qed.

(** Types left in the peek map by earlier objects. *)
Definition stale_ok (ts : list string) (p : gval) : Prop :=
  forall tv, alookup "type" (old_map p) = Some tv -> exists typ, tv = dyn_str typ /\ In typ ts.

Lemma typed_member ms m p typ : merged p ms m -> alookup "type" m = Some (dyn_str typ) ->
  (json_type (JObj ms) = Some typ) \/ (member "type" (JObj ms) = None /\ alookup "type" (old_map p) = Some (dyn_str typ)).
Proof.
  intros (_ & L & O) E. rewrite L in E. unfold json_type, member. destruct (last_member "type" ms) as [x|] eqn:M; [left|right; now split].
  injection E as E. apply last_member_In in M. specialize (O _ _ M).
  assert (A : as_string (dval x) = Ok typ) by (rewrite E; reflexivity). apply as_string_dval in A as (raw & -> & U); [exact U|exact O].
Qed.

Lemma alookup_filter {A} (f : string -> bool) k (m : list (string * A)) :
  alookup k (filter (fun kv => f (fst kv)) m) = if f k then alookup k m else None.
Proof.
  induction m as [|[k' v] m IH]; [now destruct (f k)|]. cbn [filter fst]. destruct (f k') eqn:F; cbn [alookup].
  - destruct (String.eqb_spec k k'); [subst; now rewrite F|exact IH].
  - rewrite IH. destruct (String.eqb_spec k k'); [subst; now rewrite F|reflexivity].
Qed.
Lemma alookup_filter_out t m k : alookup k (filter_out t m) =
  match t with GStruct _ fs => if mem_str k (tag_keys fs) then None else alookup k m | _ => alookup k m end.
Proof. destruct t; try reflexivity. unfold filter_out. rewrite (alookup_filter (fun k => negb (mem_str k (tag_keys fields)))). now destruct (mem_str k _). Qed.
Lemma peak_after_sub t m k x : alookup k (peak_after t m) = Some x -> alookup k m = Some x.
Proof.
  unfold peak_after. destruct (cf_drop cf); [trivial|]. rewrite alookup_filter_out. destruct t; trivial. destruct (mem_str k _); [discriminate|trivial].
Qed.

Lemma read_contributes ts j p o p' : msorted (old_map p) = true -> stale_ok ts p -> json_okb j = true -> read j p = Ok (o, p') ->
  contributes rnd cf ts j o /\ stale_ok (types_of [j] ++ ts) p'.
Proof.
  intros S St O R. destruct (read_inv _ _ _ _ S R) as [(-> & -> & ->)|(ms & m & -> & M & C)].
  - split; [constructor|]. intros tv Q. discriminate.
  - assert (SM : forall tv, alookup "type" m = Some tv -> exists typ, tv = dyn_str typ -> In typ (types_of [JObj ms] ++ ts)).
    { intros tv E. destruct tv; try (exists ""; discriminate). destruct t; try (exists ""; discriminate).
      destruct tv; try (exists ""; discriminate). exists s. unfold dyn_str. intros Q. injection Q as ->.
      destruct (typed_member _ _ _ _ M E) as [T|[_ T]].
      - unfold types_of. cbn [flat_map]. rewrite T. now left.
      - destruct (St _ T) as (typ & Q & Hin). injection Q as <-. apply in_or_app. now right. }
    assert (ST : forall typ p', alookup "type" m = Some (dyn_str typ) -> (forall x, alookup "type" (old_map p') = Some x -> alookup "type" m = Some x) ->
       stale_ok (types_of [JObj ms] ++ ts) p').
    { intros typ p1 E H tv Q. apply H in Q. rewrite E in Q. injection Q as <-. exists typ. split; [reflexivity|].
      destruct (typed_member _ _ _ _ M E) as [T|[_ T]].
      - unfold types_of. cbn [flat_map]. rewrite T. now left.
      - destruct (St _ T) as (typ' & Q & Hin). injection Q as <-. apply in_or_app. now right. }
    destruct C as [(E & -> & ->)|(typ & E & C)].
    + split; [|intros tv Q; cbn [old_map] in Q; congruence].
      apply c_untyped. cbn [member]. destruct M as (_ & L & _). rewrite L in E. destruct (last_member "type" ms); [discriminate|reflexivity].
    + assert (B : builds rnd cf typ (JObj ms) o /\ stale_ok (types_of [JObj ms] ++ ts) p').
      { destruct C as [(Sn & -> & ->)|(t & v0 & v1 & Ss & D & -> & ->)].
        - split; [now apply start_none|]. apply (ST typ); [exact E|]. now intros x.
        - split; [|apply (ST typ); [exact E|]; intros x; apply peak_after_sub].
          eapply start_builds; eauto. unfold props_of_read. intros ->. reflexivity. }
      destruct B as [B B2]. split; [|exact B2]. destruct (typed_member _ _ _ _ M E) as [T|[T T2]].
      * eapply c_typed; eauto.
      * destruct (St _ T2) as (typ' & Q & Hin). injection Q as <-. eapply c_stale; eauto.
Qed.

Lemma read_all_contributes js : forall ts p outs, msorted (old_map p) = true -> stale_ok ts p -> forallb json_okb js = true ->
  read_all rnd cf js p = Ok outs -> contribute_all rnd cf ts js outs.
Proof.
  induction js as [|j js IH]; intros ts p outs S St O R; cbn [read_all] in R.
  - injection R as <-. constructor.
  - cbn [forallb] in O. apply andb_true_iff in O as [O1 O2].
    destruct (read j p) as [[o p']| |] eqn:E; try discriminate. cbn [bind fst snd] in R.
    destruct (read_all rnd cf js p') as [os| |] eqn:E2; try discriminate. injection R as <-.
    destruct (read_contributes _ _ _ _ _ S St O1 E) as [C St']. constructor; [exact C|]. apply (IH _ p'); auto. eapply read_sorted; eauto.
Qed.
End Cfg.
End R.
