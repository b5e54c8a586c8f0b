(** When the objects of a document are read independently of each other. *)
From Verif Require Import GoStr GoStrFacts JsonStr StrSpec StrSpecFacts JsonSpec JsonSpecFacts Json JsonFacts Float Consts GoTypes Schema GoVal GoValFacts Codec CodecSpec CodecFacts
  StructFacts CodecRound ObjFacts TypedFacts DataTypes DataTypesFacts Ident IdentFacts Collection CollectionSpec CollectionFacts FromJson FromJsonSpec FromJsonFacts ReadFacts.

(** ** Checks over the built in types *)
Definition subsetb (a b : list string) : bool := forallb (fun k => mem_str k b) a.
Lemma subsetb_In a b k : subsetb a b = true -> In k a -> In k b.
Proof. unfold subsetb. rewrite forallb_forall. intros H Hk. apply mem_str_In. now apply H. Qed.

Definition fpath_eqb (p q : fpath) : bool :=
  match fst p, fst q with
  | Some a, Some b => String.eqb a b
  | None, None => true
  | _, _ => false
  end && String.eqb (snd p) (snd q).
Lemma fpath_eqb_eq p q : fpath_eqb p q = true -> p = q.
Proof.
  destruct p as [[a|] b], q as [[c|] d]; unfold fpath_eqb; cbn [fst snd]; rewrite ?andb_true_iff, ?String.eqb_eq; try discriminate;
    intros H; destruct H as [H1 ->]; congruence.
Qed.
Definition has_string_field (t : gty) (key name : string) : bool :=
  match t with
  | GStruct _ fs =>
      match find_field key (flat_fields fs) with
      | Some (p, GString _) => fpath_eqb p (field_path t name) && mem_str key (own_keys t)
      | _ => false
      end
  | _ => false
  end.
Lemma builtin_read_check : forallb (fun kv => let t := snd kv in
    match t with
    | GStruct _ fs => subsetb (own_keys t) (tag_keys fs) && subsetb (tag_keys fs) ("" :: own_keys t) && nodupb (map fold_key (own_keys t))
    | _ => false end && has_string_field t "type" "Type" && has_string_field t "id" "ID") builtin_types = true.
Proof. vm_compute. reflexivity. Qed.

Lemma builtin_read name t : In (name, t) builtin_types -> exists n fs, t = GStruct n fs /\
  (forall k, In k (tag_keys fs) <-> In k (own_keys t) \/ (k = "" /\ In "" (tag_keys fs))) /\
  NoDup (map fold_key (own_keys t)) /\
  (exists n', In ("type", field_path t "Type", GString n') (flat_fields fs)) /\ (exists n', In ("id", field_path t "ID", GString n') (flat_fields fs)) /\
  In "type" (own_keys t) /\ In "id" (own_keys t) /\ flat_ok fs /\ (forall p m t, has_path fs p m t -> ty_ok t = true).
Proof.
  intros H. assert (X := builtin_read_check). rewrite forallb_forall in X. specialize (X _ H). cbn [snd] in X.
  destruct (builtin_cases _ _ H) as (n & fs & -> & C). exists n, fs. split; [reflexivity|].
  rewrite !andb_true_iff in X. destruct X as [[[[X1 X2] X3] X4] X5].
  assert (FO : flat_ok fs /\ (forall p m t, has_path fs p m t -> ty_ok t = true)).
  { destruct C as [(_ & O & _)|(_ & O & _)].
    - destruct (obj_ok_facts _ _ O) as (_ & F & FT & _). split; [exact F|]. intros p m t HP.
      now apply (has_path_ok _ _ _ _ _ O HP).
    - destruct (ty_ok_flat _ _ O) as (F & FT & _). split; [exact F|]. intros p m t HP.
      destruct (has_path_plain _ _ _ _ (fun m t H => proj1 (FT m t H)) HP) as [_ Hin']. now destruct (FT _ _ Hin') as (_ & _ & Tt). }
  destruct FO as [F FT].
  assert (HS : forall key nm, has_string_field (GStruct n fs) key nm = true ->
    (exists n', In (key, field_path (GStruct n fs) nm, GString n') (flat_fields fs)) /\ In key (own_keys (GStruct n fs))).
  { intros key nm Q. unfold has_string_field in Q. destruct (find_field key (flat_fields fs)) as [[p t]|] eqn:E; [|discriminate].
    destruct t; try discriminate. apply andb_true_iff in Q as [Qp Q]. apply fpath_eqb_eq in Qp. subst p.
    assert (K : In key (own_keys (GStruct n fs))) by now apply mem_str_In. split; [|exact K].
    cbn [own_keys] in K. apply in_map_iff in K as ([[k' p'] t'] & Q' & Hin). cbn [fst] in Q'. subst k'.
    rewrite (find_field_exact _ _ _ _ F Hin) in E. assert (p' = field_path (GStruct n fs) nm /\ t' = GString name0) as [-> ->] by (split; congruence). eauto. }
  destruct (HS _ _ X4) as [A1 A2]. destruct (HS _ _ X5) as [B1 B2].
  split; [|split; [now apply nodupb_NoDup|tauto]].
  intros k. split.
  - intros Hk. assert (Hk' := subsetb_In _ _ _ X2 Hk). destruct Hk' as [<-|Hk']; [right; now split|now left].
  - intros [Hk|[-> Hk]]; [exact (subsetb_In _ _ _ X1 Hk)|exact Hk].
Qed.

Lemma builtin_nodup : NoDup (akeys builtin_types).
Proof. apply nodupb_NoDup. vm_compute. reflexivity. Qed.
Lemma alookup_builtin name t : alookup name builtin_types = Some t <-> In (name, t) builtin_types.
Proof. split; [apply alookup_Some_In|]. apply alookup_In. exact builtin_nodup. Qed.

Section R.
Variable rnd : bool -> N -> Z -> option flt.

(** ** The peek *)
Lemma dec_mems_flag ms : exists e, forall acc, exists m, dec_mems (dec_any rnd) ms acc = DOk m e.
Proof.
  induction ms as [|[k x] ms (e & IH)]; [exists false; intros acc; now exists acc|].
  destruct (dec_any_total rnd x) as (v & e1 & D). exists (e1 || e). intros acc. cbn [dec_mems]. rewrite D. cbn [dbind].
  fold (dec_mems (dec_any rnd)). destruct (IH (minsert k v acc)) as (m & E). rewrite E. eauto.
Qed.
Lemma dec_peak_obj ms p : dec rnd (JObj ms) peak_ty p = dbind (dec_mems (dec_any rnd) ms (old_map p)) (fun m => DOk (VMap m) false).
Proof.
  unfold peak_ty. rewrite dec_map_obj. f_equal. generalize (old_map p). clear p.
  induction ms as [|[k x] ms IH]; intros acc; [reflexivity|]. cbn [dec_mems]. rewrite dec_iface.
  destruct (dec_any rnd x); try reflexivity. cbn [dbind]. fold (dec_mems (fun x => dec rnd x GIface (zero GIface))). fold (dec_mems (dec_any rnd)). now rewrite IH.
Qed.
(** Whether the peek of a JSON value fails does not depend on what was there. *)
Lemma peak_status j p : (exists e, forall q, unmarshal_res (dec rnd j peak_ty q) = Err e) \/
  (exists pk, unmarshal_res (dec rnd j peak_ty p) = Ok pk /\ forall q, exists pk', unmarshal_res (dec rnd j peak_ty q) = Ok pk').
Proof.
  destruct j; try (left; eexists; intros q; reflexivity).
  - right. exists VNil. split; [reflexivity|]. intros q. exists VNil. reflexivity.
  - destruct (dec_mems_flag l) as ([|] & H).
    + left. eexists. intros q. rewrite dec_peak_obj. destruct (H (old_map q)) as (m & ->). reflexivity.
    + right. destruct (H (old_map p)) as (m & E). exists (VMap m). rewrite dec_peak_obj, E. split; [reflexivity|].
      intros q. destruct (H (old_map q)) as (m' & E'). exists (VMap m'). rewrite dec_peak_obj, E'. reflexivity.
Qed.

Section Cfg.
Variable cf : config.
Notation read := (read rnd cf).
Notation read_all := (read_all rnd cf).

Definition out1 (r : res (option gobj * gval)) : res (option gobj) := do x <- r; Ok (fst x).

Lemma read_same_old j p q : old_map p = old_map q -> read j p = read j q.
Proof.
  intros E. unfold FromJsonFacts.read.
  assert (X : unmarshal_res (dec rnd j peak_ty p) = unmarshal_res (dec rnd j peak_ty q)).
  { destruct j; try reflexivity. rewrite !dec_peak_obj, E. reflexivity. }
  now rewrite X.
Qed.

(** With [cf_drop] the peek map is only used for the type. *)
Lemma read_drop j p q : cf_drop cf = true -> msorted (old_map p) = true -> msorted (old_map q) = true ->
  (forall ms, j = JObj ms -> member "type" j <> None) -> out1 (read j p) = out1 (read j q).
Proof.
  intros Dr Sp Sq T. unfold FromJsonFacts.read. destruct (peak_status j p) as [(e & H)|(pk & E & H)]; [now rewrite !H|].
  destruct (H q) as (pk' & E'). rewrite E, E'. cbn [bind].
  destruct (peak_inv _ _ _ _ Sp E) as [[-> ->]|(ms & m & -> & -> & M)].
  - destruct (peak_inv _ _ _ _ Sq E') as [[_ ->]|(ms & m & Q & _)]; [reflexivity|discriminate].
  - destruct (peak_inv _ _ _ _ Sq E') as [[Q _]|(ms' & m' & Q & -> & M')]; [discriminate|]. injection Q as <-.
    cbn [map_get old_map]. destruct M as (_ & L & _), M' as (_ & L' & _). rewrite L, L'. specialize (T _ eq_refl). cbn [member] in T.
    destruct (last_member "type" ms) as [x|]; [|congruence].
    destruct (as_string (dval rnd x)) as [typ| |]; [|reflexivity|reflexivity]. cbn [bind].
    destruct (start cf typ (JObj ms)) as [[[t v]|]| |]; [|reflexivity|reflexivity|reflexivity]. cbn [bind].
    unfold read_finish. rewrite Dr. destruct (unmarshal_res (dec rnd (JObj ms) t v)) as [v1| |]; [|reflexivity|reflexivity]. cbn [bind].
    destruct (obj_id (t, v1)) as [id| |]; [|reflexivity|reflexivity]. cbn [bind]. destruct (obj_type (t, v1)) as [ty| |]; [|reflexivity|reflexivity]. cbn [bind].
    destruct (has_valid_identifier id ty); reflexivity.
Qed.

Lemma sorted_nil {A} (m : list (string * A)) : (forall k, alookup k m = None) -> m = [].
Proof. destruct m as [|[k v] m]; [reflexivity|]. intros H. specialize (H k). cbn [alookup] in H. rewrite String.eqb_refl in H. discriminate. Qed.

Lemma start_builtin typ t j : parser_of cf typ = None -> In (typ, t) builtin_types -> start cf typ j = Ok (Some (t, zero t)).
Proof.
  intros P H. unfold start, parser_of in *. rewrite <- alookup_builtin in H. rewrite H. destruct (alookup typ (cf_handlers cf)) as [[h|]|]; [discriminate|reflexivity|reflexivity].
Qed.

(** Nothing stays in the peek map after a clean object. *)
Lemma read_clean j p o p' : cf_drop cf = false -> clean cf j -> old_map p = [] -> read j p = Ok (o, p') -> old_map p' = [].
Proof.
  intros Dr [->|(ms & typ & t & -> & JT & P & B & K)] Ep R; assert (S : msorted (old_map p) = true) by now rewrite Ep.
  - destruct (read_inv _ _ _ _ _ _ S R) as [(_ & _ & ->)|(ms & m & Q & _)]; [reflexivity|discriminate].
  - destruct (read_inv _ _ _ _ _ _ S R) as [(Q & _)|(ms' & m & Q & M & C)]; [discriminate|]. injection Q as <-.
    assert (T : alookup "type" m = Some (dyn_str typ)).
    { destruct M as (_ & L & O). rewrite L. unfold json_type in JT. cbn [member] in JT. destruct (last_member "type" ms) as [x|] eqn:LM; [|discriminate].
      destruct x; try discriminate. unfold dval. cbn [dec_any]. now rewrite JT. }
    destruct C as [(E & _)|(typ' & E & C)]; [congruence|]. rewrite T in E. injection E as <-. rewrite (start_builtin _ _ _ P B) in C.
    destruct C as [(Q & _)|(t' & v0 & v1 & Q & D & _ & ->)]; [discriminate|]. injection Q as <- <-. cbn [old_map]. unfold peak_after. rewrite Dr.
    apply sorted_nil. intros k. rewrite alookup_filter_out. destruct (builtin_read _ _ B) as (n & fs & -> & TK & _).
    destruct (mem_str k (tag_keys fs)) eqn:Mk; [reflexivity|]. destruct M as (_ & L & _). rewrite L, Ep.
    destruct (last_member k ms) as [x|] eqn:LM; [|reflexivity]. exfalso. apply last_member_In in LM. apply K in LM.
    assert (In k (tag_keys fs)) as Q by (apply TK; now left). apply mem_str_In in Q. congruence.
Qed.

Lemma document_alone j : json_okb j = true -> document [j] (alone j).
Proof. intros O. apply doc_array. apply json_exact. apply parse_print. cbn [json_okb forallb]. now rewrite O. Qed.
Lemma from_json_alone j : json_okb j = true ->
  from_json rnd cf (alone j) = do o <- out1 (read j VNil); Ok (collect (cf_nosort cf) [o]).
Proof.
  intros O. rewrite (from_json_read _ _ _ _ (document_alone j O)). cbn [FromJsonFacts.read_all]. destruct (read j VNil) as [[o p]| |]; reflexivity.
Qed.
Lemma document_ok js s : document js s -> forallb json_okb js = true.
Proof.
  intros D. destruct D as [js s H|s H|ms s H Hm]; [|reflexivity|]; apply json_exact in H; apply parse_ok in H; cbn [json_okb] in H; [exact H|].
  destruct (last_fold "objects" ms) as [x|] eqn:E; [|reflexivity]. assert (Hin : exists k, In (k, x) ms).
  { clear -E. induction ms as [|[k y] ms IH]; [discriminate|]. cbn [last_fold] in E. destruct (last_fold "objects" ms).
    - destruct (IH E) as [k' Hk]. exists k'. now right.
    - destruct (String.eqb "objects" (fold_key k)); [|discriminate]. injection E as ->. exists k. now left. }
  destruct Hin as [k Hin]. rewrite forallb_forall in H. specialize (H _ Hin). cbn [fst snd] in H. apply andb_true_iff in H as [_ H].
  destruct x; try reflexivity. exact H.
Qed.

(** The outcome of a document is composed of the outcomes of its objects alone. *)
Definition composed (js : list json) (r : res (list (option gobj))) : Prop :=
  match r with
  | Ok outs => Forall2 (fun j o => acceptable o /\ out1 (read j VNil) = Ok o) js outs
  | Err e => exists j, In j js /\ out1 (read j VNil) = Err e
  | Panic => exists j, In j js /\ out1 (read j VNil) = Panic
  end.
Lemma composed_cons j js p p' : out1 (read j p) = out1 (read j VNil) ->
  match read j p with
  | Ok (o, p1) => p' = p1 /\ composed js (read_all js p')
  | _ => True
  end -> composed (j :: js) (read_all (j :: js) p).
Proof.
  intros E H. cbn [FromJsonFacts.read_all]. destruct (read j p) as [[o p1]| |] eqn:R; cbn [bind fst snd].
  - destruct H as [-> H]. destruct (read_all js p1) as [os|e|]; cbn [bind composed] in *.
    + constructor; [|exact H]. split; [eapply read_acceptable; eauto|]. now rewrite <- E.
    + destruct H as (j' & Hj & Hr). exists j'. split; [now right|exact Hr].
    + destruct H as (j' & Hj & Hr). exists j'. split; [now right|exact Hr].
  - cbn [composed]. exists j. split; [now left|now rewrite <- E].
  - cbn [composed]. exists j. split; [now left|now rewrite <- E].
Qed.

Lemma composed_clean js j : cf_drop cf = false -> Forall (clean cf) js -> forall p, old_map p = [] -> composed (js ++ [j]) (read_all (js ++ [j]) p).
Proof.
  intros Dr. induction 1 as [|j1 js C _ IH]; intros p Ep.
  - cbn [app]. apply (composed_cons _ _ _ (match read j p with Ok (_, p1) => p1 | _ => VNil end)).
    + now rewrite (read_same_old j p VNil) by exact Ep.
    + destruct (read j p) as [[o p1]| |]; [|exact I|exact I]. split; [reflexivity|]. constructor.
  - cbn [app]. apply (composed_cons _ _ _ (match read j1 p with Ok (_, p1) => p1 | _ => VNil end)).
    + now rewrite (read_same_old j1 p VNil) by exact Ep.
    + destruct (read j1 p) as [[o p1]| |] eqn:R; [|exact I|exact I]. split; [reflexivity|]. apply IH. eapply read_clean; eauto.
Qed.
Lemma composed_drop js : cf_drop cf = true -> (forall ms, In (JObj ms) js -> member "type" (JObj ms) <> None) ->
  forall p, msorted (old_map p) = true -> composed js (read_all js p).
Proof.
  intros Dr. induction js as [|j js IH]; intros T p S; [constructor|].
  apply (composed_cons _ _ _ (match read j p with Ok (_, p1) => p1 | _ => VNil end)).
  - apply read_drop; auto. intros ms ->. apply T. now left.
  - destruct (read j p) as [[o p1]| |] eqn:R; [|exact I|exact I]. split; [reflexivity|]. apply IH; [|eapply read_sorted; eauto].
    intros ms Hin. apply T. now right.
Qed.

(** In terms of FromJSON *)
Local Notation independent := (independent rnd cf).
Lemma composed_independent js s : document js s -> composed js (read_all js VNil) -> independent js (from_json rnd cf s).
Proof.
  intros D C. rewrite (from_json_read _ _ _ _ D). assert (O := document_ok _ _ D). rewrite forallb_forall in O.
  destruct (read_all js VNil) as [outs|e|]; cbn [bind composed independent] in *.
  - exists outs. split; [reflexivity|]. clear D. induction C as [|j o js outs [A R] C IH]; [constructor|]. constructor.
    + split; [exact A|]. rewrite from_json_alone by (apply O; now left). now rewrite R.
    + apply IH. intros x Hx. apply O. now right.
  - destruct C as (j & Hj & R). exists j. split; [exact Hj|]. rewrite from_json_alone by now apply O. now rewrite R.
  - destruct C as (j & Hj & R). exists j. split; [exact Hj|]. rewrite from_json_alone by now apply O. now rewrite R.
Qed.
End Cfg.
End R.
