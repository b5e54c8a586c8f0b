(** Facts about FromJSON. *)
From Verif Require Import GoStr GoStrFacts JsonStr StrSpec StrSpecFacts JsonSpec JsonSpecFacts Json JsonFacts Float Consts GoTypes Schema GoVal GoValFacts Codec CodecSpec CodecFacts
  StructFacts CodecRound ObjFacts TypedFacts DataTypes DataTypesFacts Ident IdentFacts Collection CollectionSpec CollectionFacts FromJson FromJsonSpec.

(** ** Documents *)
Lemma bundle_find k : find_field k (flat_fields [(Fmeta "Type" "type" false false, GString "STIXType");
                    (Fmeta "ID" "id" false false, GString "Identifier");
                    (Fmeta "Objects" "objects" true false, GSlice GRaw)]) =
  if String.eqb "type" (fold_key k) then Some ((None, "Type"), GString "STIXType")
  else if String.eqb "id" (fold_key k) then Some ((None, "ID"), GString "Identifier")
  else if String.eqb "objects" (fold_key k) then Some ((None, "Objects"), GSlice GRaw) else None.
Proof.
  unfold find_field.
  change (flat_fields _) with [("type", (@None string, "Type"), GString "STIXType"); ("id", (@None string, "ID"), GString "Identifier"); ("objects", (@None string, "Objects"), GSlice GRaw)].
  cbn [find fst snd].
  change (fold_key "type") with "type". change (fold_key "id") with "id". change (fold_key "objects") with "objects".
  destruct (String.eqb "type" k) eqn:E1; [apply String.eqb_eq in E1; subst; reflexivity|].
  destruct (String.eqb "id" k) eqn:E2; [apply String.eqb_eq in E2; subst; reflexivity|].
  destruct (String.eqb "objects" k) eqn:E3; [apply String.eqb_eq in E3; subst; reflexivity|].
  destruct (String.eqb "type" (fold_key k)); [reflexivity|].
  destruct (String.eqb "id" (fold_key k)); [reflexivity|].
  destruct (String.eqb "objects" (fold_key k)); reflexivity.
Qed.

Section F.
Variable rnd : bool -> N -> Z -> option flt.

Lemma dec_raws l : forall old z, dec_list (fun x o => dec rnd x GRaw o) z l old = DOk (map VRaw l) false.
Proof.
  induction l as [|j l IH]; intros old z; [reflexivity|]. cbn [dec_list].
  replace (dec rnd j GRaw match old with [] => z | o :: _ => o end) with (DOk (VRaw j) false) by (now destruct j).
  cbn [dbind]. rewrite IH. reflexivity.
Qed.
Lemma raws_map l : raws (VSlice (map VRaw l)) = l.
Proof. unfold raws. induction l as [|j l IH]; [reflexivity|]. cbn [map flat_map app]. now rewrite IH. Qed.

Definition bval (a b o : gval) : gval := VStruct [("Type", a); ("ID", b); ("Objects", o)].
Definition str_or_nil (j : json) (old : gval) : dres gval := dec rnd j (GString "x") old.
Lemma str_ok j old n : json_okb j = true -> dec rnd j (GString n) old =
  match j with JNull => DOk old false | JStr raw => match unq raw with Some s => DOk (VStr s) false | None => DOk old true end | _ => DOk old true end.
Proof. now destruct j. Qed.

Lemma dec_bundle_ok ms : forallb (fun kv => utf8b (fst kv) && json_okb (snd kv)) ms = true -> forall a b o,
  (forall k x, In (k, x) ms ->
       (fold_key k = "objects" -> null_or_array x) /\
       (fold_key k = "type" -> null_or_string x) /\ (fold_key k = "id" -> null_or_string x)) ->
  exists a' b', dec_struct (dec rnd) (flat_fields [(Fmeta "Type" "type" false false, GString "STIXType");
                    (Fmeta "ID" "id" false false, GString "Identifier");
                    (Fmeta "Objects" "objects" true false, GSlice GRaw)]) ms (bval a b o) =
    DOk (bval a' b' (match last_fold "objects" ms with Some (JArr l) => VSlice (map VRaw l) | Some _ => VNil | None => o end)) false.
Proof.
  induction ms as [|[k x] ms IH]; intros Hok a b o H; [eexists; eexists; reflexivity|].
  cbn [forallb fst snd] in Hok. apply andb_true_iff in Hok as [Hx Hok]. apply andb_true_iff in Hx as [_ Hx].
  cbn [dec_struct]. rewrite bundle_find.
  assert (H' : forall k x, In (k, x) ms -> (fold_key k = "objects" -> null_or_array x) /\
       (fold_key k = "type" -> null_or_string x) /\ (fold_key k = "id" -> null_or_string x)) by (intros; apply H; now right).
  destruct (H k x (or_introl eq_refl)) as (Ho & Ht & Hi). cbn [last_fold].
  assert (S : null_or_string x -> forall n old, exists v, dec rnd x (GString n) old = DOk v false).
  { intros [->|[raw ->]] n old; [exists old; reflexivity|]. cbn [json_okb] in Hx. cbn [dec]. destruct (unq raw); [eauto|discriminate]. }
  destruct (String.eqb "type" (fold_key k)) eqn:E1.
  { apply String.eqb_eq in E1. destruct (S (Ht (eq_sym E1)) "STIXType" (get_path (None, "Type") (bval a b o))) as [v Ev]. rewrite Ev. cbn [dbind].
    change (set_path (None, "Type") v (bval a b o)) with (bval v b o).
    destruct (IH Hok v b o H') as (a' & b' & E). exists a', b'. rewrite E. cbn [orb]. rewrite <- E1.
    change (String.eqb "objects" "type") with false. destruct (last_fold "objects" ms) as [[]|]; reflexivity. }
  destruct (String.eqb "id" (fold_key k)) eqn:E2.
  { apply String.eqb_eq in E2. destruct (S (Hi (eq_sym E2)) "Identifier" (get_path (None, "ID") (bval a b o))) as [v Ev]. rewrite Ev. cbn [dbind].
    change (set_path (None, "ID") v (bval a b o)) with (bval a v o).
    destruct (IH Hok a v o H') as (a' & b' & E). exists a', b'. rewrite E. cbn [orb]. rewrite <- E2.
    change (String.eqb "objects" "id") with false. destruct (last_fold "objects" ms) as [[]|]; reflexivity. }
  destruct (String.eqb "objects" (fold_key k)) eqn:E3; [|].
  - apply String.eqb_eq in E3. destruct (Ho (eq_sym E3)) as [->|[l ->]].
    + cbn [dec dbind]. change (set_path (None, "Objects") VNil (bval a b o)) with (bval a b VNil).
      destruct (IH Hok a b VNil H') as (a' & b' & E). exists a', b'. rewrite E. cbn [orb].
      destruct (last_fold "objects" ms) as [[]|]; reflexivity.
    + cbn [dec]. rewrite dec_raws. cbn [dbind orb].
      change (set_path (None, "Objects") (VSlice (map VRaw l)) (bval a b o)) with (bval a b (VSlice (map VRaw l))).
      destruct (IH Hok a b (VSlice (map VRaw l)) H') as (a' & b' & E). exists a', b'. rewrite E. cbn [orb].
      destruct (last_fold "objects" ms) as [[]|]; reflexivity.
  - destruct (IH Hok a b o H') as (a' & b' & E). exists a', b'. rewrite E. destruct (last_fold "objects" ms) as [[]|]; reflexivity.
Qed.

(** Otherwise an error is saved. *)
Lemma dec_bundle_bad ms : forall a b o,
  (exists k x, In (k, x) ms /\ ~
       ((fold_key k = "objects" -> null_or_array x) /\
       (fold_key k = "type" -> null_or_string x) /\ (fold_key k = "id" -> null_or_string x))) ->
  forall v, dec_struct (dec rnd) (flat_fields [(Fmeta "Type" "type" false false, GString "STIXType");
                    (Fmeta "ID" "id" false false, GString "Identifier");
                    (Fmeta "Objects" "objects" true false, GSlice GRaw)]) ms (bval a b o) <> DOk v false.
Proof.
  induction ms as [|[k x] ms IH]; intros a b o (k0 & x0 & Hin & Hn) v E; [destruct Hin|].
  cbn [dec_struct] in E. rewrite bundle_find in E.
  destruct (String.eqb "type" (fold_key k)) eqn:E1; [|destruct (String.eqb "id" (fold_key k)) eqn:E2; [|destruct (String.eqb "objects" (fold_key k)) eqn:E3]].
  - apply dbind_inv in E as (v1 & e1 & e2 & D & E & Q). symmetry in Q. apply orb_false_iff in Q as [-> ->]. destruct Hin as [Q|Hin].
    + injection Q as -> ->. apply String.eqb_eq in E1. apply Hn. rewrite <- E1. repeat split; try discriminate. intros _.
      destruct x0; try discriminate D; [now left|right; eauto].
    + eapply (IH v1 b o); [|exact E]. eauto.
  - apply dbind_inv in E as (v1 & e1 & e2 & D & E & Q). symmetry in Q. apply orb_false_iff in Q as [-> ->]. destruct Hin as [Q|Hin].
    + injection Q as -> ->. apply String.eqb_eq in E2. apply Hn. rewrite <- E2. repeat split; try discriminate. intros _.
      destruct x0; try discriminate D; [now left|right; eauto].
    + eapply (IH a v1 o); [|exact E]. eauto.
  - apply dbind_inv in E as (v1 & e1 & e2 & D & E & Q). symmetry in Q. apply orb_false_iff in Q as [-> ->]. destruct Hin as [Q|Hin].
    + injection Q as -> ->. apply String.eqb_eq in E3. apply Hn. rewrite <- E3. repeat split; try discriminate. intros _.
      destruct x0; try discriminate D; [now left|right; eauto].
    + eapply (IH a b v1); [|exact E]. eauto.
  - destruct Hin as [Q|Hin].
    + injection Q as -> ->. apply String.eqb_neq in E1, E2, E3. apply Hn. repeat split; intros Q; rewrite Q in *; congruence.
    + eapply IH; [|exact E]. eauto.
Qed.

Lemma dec_bundle_no_abort ms : forallb (fun kv => utf8b (fst kv) && json_okb (snd kv)) ms = true -> forall a b o,
  exists v e, dec_struct (dec rnd) (flat_fields [(Fmeta "Type" "type" false false, GString "STIXType");
                    (Fmeta "ID" "id" false false, GString "Identifier");
                    (Fmeta "Objects" "objects" true false, GSlice GRaw)]) ms (bval a b o) = DOk v e.
Proof.
  induction ms as [|[k x] ms IH]; intros Hok a b o; [eexists; eexists; reflexivity|].
  cbn [forallb fst snd] in Hok. apply andb_true_iff in Hok as [Hx Hok].
  assert (S : forall n old, exists v e, dec rnd x (GString n) old = DOk v e).
  { intros n old. destruct x; cbn [dec]; eauto. destruct (unq raw); eauto. }
  cbn [dec_struct]. rewrite bundle_find.
  destruct (String.eqb "type" (fold_key k)); [|destruct (String.eqb "id" (fold_key k)); [|destruct (String.eqb "objects" (fold_key k))]].
  - destruct (S "STIXType" (get_path (None, "Type") (bval a b o))) as (v & e & Ev). rewrite Ev. cbn [dbind].
    change (set_path (None, "Type") v (bval a b o)) with (bval v b o). destruct (IH Hok v b o) as (v' & e' & E). rewrite E. eauto.
  - destruct (S "Identifier" (get_path (None, "ID") (bval a b o))) as (v & e & Ev). rewrite Ev. cbn [dbind].
    change (set_path (None, "ID") v (bval a b o)) with (bval a v o). destruct (IH Hok a v o) as (v' & e' & E). rewrite E. eauto.
  - assert (R : exists v e, dec rnd x (GSlice GRaw) (get_path (None, "Objects") (bval a b o)) = DOk v e).
    { destruct x; cbn [dec]; eauto. rewrite dec_raws. cbn [dbind]. eauto. }
    destruct R as (v & e & Ev). rewrite Ev. cbn [dbind].
    change (set_path (None, "Objects") v (bval a b o)) with (bval a b v). destruct (IH Hok a b v) as (v' & e' & E). rewrite E. eauto.
  - apply IH, Hok.
Qed.

Definition member_okb (kx : string * json) : bool :=
  let (k, x) := kx in
  match x with
  | JNull => true
  | JStr _ => negb (String.eqb "objects" (fold_key k))
  | JArr _ => negb (String.eqb "type" (fold_key k)) && negb (String.eqb "id" (fold_key k))
  | _ => negb (String.eqb "objects" (fold_key k)) && negb (String.eqb "type" (fold_key k)) && negb (String.eqb "id" (fold_key k))
  end.
Lemma member_okb_spec k x : member_okb (k, x) = true <->
  ((fold_key k = "objects" -> null_or_array x) /\ (fold_key k = "type" -> null_or_string x) /\ (fold_key k = "id" -> null_or_string x)).
Proof.
  assert (N : forall a, negb (String.eqb a (fold_key k)) = true <-> fold_key k <> a).
  { intros a. rewrite negb_true_iff, String.eqb_neq. split; congruence. }
  assert (F1 : fold_key k = "objects" -> fold_key k <> "type") by congruence.
  assert (F2 : fold_key k = "objects" -> fold_key k <> "id") by congruence.
  unfold null_or_array, null_or_string.
  destruct x; cbn [member_okb]; rewrite ?andb_true_iff, ?N; (split; [intros H|intros (A & B & C)]).
  all: try (split; [|split]; intros Q); try tauto; try (split; [try split|]; intros Q).
  all: try (left; reflexivity); try (right; eexists; reflexivity).
  all: try (intros Q).
  all: try (specialize (A Q)); try (specialize (B Q)); try (specialize (C Q)).
  all: repeat match goal with H : _ \/ _ |- _ => destruct H end; try discriminate.
  all: repeat match goal with H : exists _, _ |- _ => destruct H end; try discriminate.
Qed.

(** What FromJSON does with a document. *)
Lemma from_json_document cf js s : document js s ->
  from_json rnd cf s = process_objects rnd cf js (new_coll (cf_nosort cf)) VNil.
Proof.
  intros D. unfold from_json, unmarshal. destruct D as [js s H|s H|ms s H Hm].
  - apply json_exact in H. rewrite H. cbn [dec ty_Bundle unmarshal_res]. rewrite dec_raws. cbn [dbind unmarshal_res orb].
    now rewrite raws_map.
  - apply json_exact in H. rewrite H. reflexivity.
  - apply json_exact in H. rewrite H. assert (O := parse_ok _ _ H). cbn [json_okb] in O.
    change (dec rnd (JObj ms) ty_Bundle (zero ty_Bundle)) with
      (dec_struct (dec rnd) (flat_fields [(Fmeta "Type" "type" false false, GString "STIXType");
                    (Fmeta "ID" "id" false false, GString "Identifier");
                    (Fmeta "Objects" "objects" true false, GSlice GRaw)]) ms (bval (VStr "") (VStr "") VNil)).
    destruct (dec_bundle_ok ms O (VStr "") (VStr "") VNil Hm) as (a & b & E). rewrite E. cbn [unmarshal_res].
    change (get_field "Objects" (bval a b ?o)) with o. destruct (last_fold "objects" ms) as [[]|]; try reflexivity. now rewrite raws_map.
Qed.
Lemma from_json_no_document cf s : (forall js, ~ document js s) -> from_json rnd cf s = Err "unknown JSON format".
Proof.
  intros N. unfold from_json, unmarshal. destruct (parse_json s) as [j|] eqn:P; [|reflexivity].
  assert (T := proj1 (json_exact _ _) P).
  destruct j as [|b|l|raw|l|ms]; try reflexivity.
  - exfalso. eapply N. now apply doc_null.
  - exfalso. eapply N. apply doc_array. exact T.
  - assert (O := parse_ok _ _ P). cbn [json_okb] in O.
    change (dec rnd (JObj ms) ty_Bundle (zero ty_Bundle)) with
      (dec_struct (dec rnd) (flat_fields [(Fmeta "Type" "type" false false, GString "STIXType");
                    (Fmeta "ID" "id" false false, GString "Identifier");
                    (Fmeta "Objects" "objects" true false, GSlice GRaw)]) ms (bval (VStr "") (VStr "") VNil)).
    destruct (forallb member_okb ms) eqn:M.
    + exfalso. eapply N. apply (doc_bundle ms); [exact T|]. intros k x Hin. apply member_okb_spec. rewrite forallb_forall in M. now apply M.
    + destruct (dec_bundle_no_abort ms O (VStr "") (VStr "") VNil) as (v & e & E). rewrite E. destruct e; [reflexivity|]. exfalso.
      revert E. apply dec_bundle_bad. 
      assert (X : existsb (fun kx => negb (member_okb kx)) ms = true).
      { clear -M. induction ms as [|a ms IH]; [discriminate|]. cbn [forallb existsb] in *. destruct (member_okb a); [now apply IH|reflexivity]. }
      apply existsb_exists in X as ([k x] & Hin & X). exists k, x. split; [exact Hin|]. intros Q. apply member_okb_spec in Q. rewrite Q in X. discriminate.
Qed.
Lemma document_dec s : (exists js, document js s) \/ (forall js, ~ document js s).
Proof.
  destruct (parse_json s) as [j|] eqn:P.
  - assert (T := proj1 (json_exact _ _) P). destruct j as [|b|l|raw|l|ms].
    1: left; eexists; now apply doc_null.
    4: left; eexists; apply doc_array; exact T.
    4: { destruct (forallb member_okb ms) eqn:M.
         - left. eexists. apply (doc_bundle ms); [exact T|]. intros k x Hin. apply member_okb_spec. rewrite forallb_forall in M. now apply M.
         - right. intros js D. inversion D as [js' s' H|s' H|ms' s' H Hm]; subst; apply json_exact in H; rewrite P in H; try discriminate.
           injection H as ->. assert (X : forallb member_okb ms' = true) by (apply forallb_forall; intros [k x] Hin; apply member_okb_spec; now apply Hm).
           congruence. }
    all: right; intros js D; inversion D as [js' s' H|s' H|ms' s' H Hm]; subst; apply json_exact in H; rewrite P in H; discriminate.
  - right. intros js D. inversion D as [js' s' H|s' H|ms' s' H Hm]; subst; apply json_exact in H; rewrite P in H; discriminate.
Qed.
Lemma document_fun js js' s : document js s -> document js' s -> js = js'.
Proof.
  intros D D'. inversion D as [a1 b1 H|b1 H|a1 b1 H Hm]; inversion D' as [a2 b2 H'|b2 H'|a2 b2 H' Hm']; subst;
    apply json_exact in H; apply json_exact in H'; rewrite H in H'; inversion H'; subst; reflexivity.
Qed.

(** ** One object, without the collection *)
Section Read.
Variable cf : config.
Definition read_finish (peak : list (string * gval)) (j : json) (o : gobj) : res (option gobj * gval) :=
  let (t, v) := o in
  do v1 <- unmarshal_res (dec rnd j t v);
  let peak1 := if cf_drop cf then peak else filter_out t peak in
  let v2 := if cf_drop cf then v1 else add_props t peak1 v1 in
  do id <- obj_id (t, v2);
  do ty <- obj_type (t, v2);
  if has_valid_identifier id ty then Ok (Some (t, v2), VMap peak1) else Err "failed to add object to collection".
Definition read (j : json) (peak0 : gval) : res (option gobj * gval) :=
  do peak <- unmarshal_res (dec rnd j peak_ty peak0);
  match map_get "type" peak with
  | None => Ok (None, peak)
  | Some tv =>
      do typ <- as_string tv;
      do st <- start cf typ j;
      match st with
      | None => Ok (None, peak)
      | Some o => read_finish (old_map peak) j o
      end
  end.
Fixpoint read_all (js : list json) (peak : gval) : res (list (option gobj)) :=
  match js with
  | [] => Ok []
  | j :: js' => do r <- read j peak; do os <- read_all js' (snd r); Ok (fst r :: os)
  end.

Lemma calls_cons o outs : calls_of (o :: outs) = calls_of [o] ++ calls_of outs.
Proof. unfold calls_of. cbn [flat_map]. now rewrite app_nil_r. Qed.
Lemma run_app (h1 h2 : list (string * string * gobj)) : forall c, fst (run c (h1 ++ h2)) = fst (run (fst (run c h1)) h2).
Proof.
  induction h1 as [|[[id t] o] h1 IH]; intros c; [reflexivity|]. cbn [app run]. destruct (add c id t o) as [c1 ok].
  specialize (IH c1). destruct (run c1 (h1 ++ h2)) as [c2 oks]. destruct (run c1 h1) as [c3 oks3]. exact IH.
Qed.

Lemma process_read j c peak : process_object rnd cf j c peak =
  do r <- read j peak; Ok (fst (run c (calls_of [fst r])), snd r).
Proof.
  unfold process_object, read. destruct (unmarshal_res (dec rnd j peak_ty peak)) as [pk| |]; [|reflexivity|reflexivity]. cbn [bind].
  destruct (map_get "type" pk) as [tv|]; [|reflexivity].
  destruct (as_string tv) as [typ| |]; [|reflexivity|reflexivity]. cbn [bind].
  destruct (start cf typ j) as [[o|]| |]; [|reflexivity|reflexivity|reflexivity]. cbn [bind].
  unfold finish, read_finish. destruct o as [t v]. destruct (unmarshal_res (dec rnd j t v)) as [v1| |]; [|reflexivity|reflexivity]. cbn [bind].
  set (p1 := if cf_drop cf then old_map pk else filter_out t (old_map pk)). set (v2 := if cf_drop cf then v1 else add_props t p1 v1).
  destruct (obj_id (t, v2)) as [id| |] eqn:Ei; [|reflexivity|reflexivity]. cbn [bind].
  destruct (obj_type (t, v2)) as [ty| |] eqn:Et; [|reflexivity|reflexivity]. cbn [bind].
  unfold add. destruct (has_valid_identifier id ty) eqn:V; cbn [negb]; [|reflexivity]. cbn [bind fst snd].
  unfold calls_of. cbn [flat_map]. rewrite Ei, Et. cbn [app run]. unfold add. rewrite V. reflexivity.
Qed.

Lemma process_read_all js : forall c peak, process_objects rnd cf js c peak =
  do outs <- read_all js peak; Ok (fst (run c (calls_of outs))).
Proof.
  induction js as [|j js IH]; intros c peak; [reflexivity|]. cbn [process_objects read_all]. rewrite process_read.
  destruct (read j peak) as [[o p]| |]; [|reflexivity|reflexivity]. cbn [bind fst snd]. rewrite IH.
  destruct (read_all js p) as [os| |]; [|reflexivity|reflexivity]. cbn [bind]. now rewrite (calls_cons o os), run_app.
Qed.

Lemma from_json_read js s : document js s ->
  from_json rnd cf s = do outs <- read_all js VNil; Ok (collect (cf_nosort cf) outs).
Proof. intros D. rewrite (from_json_document cf js s D). apply process_read_all. Qed.

Lemma read_acceptable j p o p' : read j p = Ok (o, p') -> acceptable o.
Proof.
  unfold read. destruct (unmarshal_res (dec rnd j peak_ty p)) as [pk| |]; try discriminate. cbn [bind].
  destruct (map_get "type" pk) as [tv|]; [|intros Q; injection Q as <- <-; exact I].
  destruct (as_string tv) as [typ| |]; try discriminate. cbn [bind].
  destruct (start cf typ j) as [[[t v]|]| |]; try discriminate; cbn [bind]; [|intros Q; injection Q as <- <-; exact I].
  unfold read_finish. destruct (unmarshal_res (dec rnd j t v)) as [v1| |]; try discriminate. cbn [bind].
  set (p1 := if cf_drop cf then old_map pk else filter_out t (old_map pk)). set (v2 := if cf_drop cf then v1 else add_props t p1 v1).
  destruct (obj_id (t, v2)) as [id| |] eqn:Ei; try discriminate. cbn [bind].
  destruct (obj_type (t, v2)) as [ty| |] eqn:Et; try discriminate. cbn [bind].
  destruct (has_valid_identifier id ty) eqn:V; try discriminate. intros Q. injection Q as <- <-. cbn [acceptable]. eauto.
Qed.
Lemma read_all_acceptable js : forall p outs, read_all js p = Ok outs -> Forall acceptable outs.
Proof.
  induction js as [|j js IH]; intros p outs; cbn [read_all]; [intros Q; injection Q as <-; constructor|].
  destruct (read j p) as [[o p']| |] eqn:E; try discriminate. cbn [bind fst snd].
  destruct (read_all js p') as [os| |] eqn:E2; try discriminate. intros Q. injection Q as <-. constructor; [eapply read_acceptable; eauto|eauto].
Qed.
End Read.
End F.
