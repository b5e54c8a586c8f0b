(** Proofs behind PropFromJson.v. *)
From Verif Require Import GoStr GoStrFacts JsonStr JsonStrFacts Json JsonFacts Float Consts GoTypes Schema Accessors GoVal GoValFacts Codec CodecSpec CodecFacts
  StructFacts CodecRound ObjFacts TypedFacts DataTypes DataTypesFacts Ident IdentFacts Collection CollectionSpec CollectionFacts
  FromJson FromJsonSpec FromJsonFacts ReadFacts IndepFacts ParseFacts CollectFacts PropCollectionAux BundleFacts.

Section R.
Variable rnd : bool -> N -> Z -> option flt.

(** ** C09 *)
Lemma all_or_nothing cf s :
  (forall c, from_json rnd cf s = Ok c -> exists js outs, document js s /\
     c = collect (cf_nosort cf) outs /\ Forall acceptable outs /\ contribute_all rnd cf [] js outs) /\
  ((forall js, ~ document js s) -> from_json rnd cf s = Err "unknown JSON format").
Proof.
  split; [|apply from_json_no_document]. intros c E. destruct (document_dec rnd s) as [(js & D)|D].
  - destruct (from_json_contributes _ _ _ _ _ D E) as (outs & H). exists js, outs. tauto.
  - rewrite (from_json_no_document _ _ _ D) in E. discriminate.
Qed.
Lemma contribute_all_each cf ts js outs : contribute_all rnd cf ts js outs -> forall j, In j js -> exists ts' o, contributes rnd cf ts' j o.
Proof. induction 1 as [|ts j js o os C A IH]; intros j' []; [subst; eauto|auto]. Qed.
Lemma bad_object cf js s j : document js s -> In j js -> (forall ts o, ~ contributes rnd cf ts j o) -> forall c, from_json rnd cf s <> Ok c.
Proof.
  intros D Hin B c E. destruct (from_json_contributes _ _ _ _ _ D E) as (outs & _ & _ & CA).
  destruct (contribute_all_each _ _ _ _ CA _ Hin) as (ts & o & C). now apply B in C.
Qed.

(** Success *)
Local Notation generic := (generic rnd).
Lemma generic_dec j v : json_okb j = true -> generic j = Ok v <-> dec_any rnd j = DOk v false.
Proof. intros O. unfold FromJsonSpec.generic. rewrite unmarshal_dec by exact O. now rewrite dec_iface. Qed.
Lemma dec_mems_ok ms : (forall k x, In (k, x) ms -> exists w, dec_any rnd x = DOk w false) -> forall acc, exists m, dec_mems (dec_any rnd) ms acc = DOk m false.
Proof.
  intros DA. induction ms as [|[k x] ms IH]; intros acc; [now exists acc|]. destruct (DA k x (or_introl eq_refl)) as (w & Dw). cbn [dec_mems].
  rewrite Dw, dbind_ok. apply IH. intros k' x' Hin. apply (DA k'). now right.
Qed.
Lemma dec_any_obj ms v : dec_any rnd (JObj ms) = DOk v false -> forall acc, exists m, dec_mems (dec_any rnd) ms acc = DOk m false.
Proof.
  destruct (dec_mems_flag rnd ms) as (e & F). intros D acc. destruct (F acc) as (m & Fm). exists m. rewrite Fm. f_equal.
  destruct (F []) as (m0 & F0). destruct e; [|reflexivity]. exfalso. revert D. cbn [dec_any].
  change ((fix dec_mems (f : json -> dres gval) (l : list (string * json)) (acc0 : list (string * gval)) {struct l} : dres (list (string * gval)) := _) _ ms [])
    with (dec_mems (dec_any rnd) ms []) || idtac. rewrite F0. unfold dbind. discriminate.
Qed.
Lemma alookup_areplace {A} b (y : A) l : alookup b (areplace b y l) = match alookup b l with Some _ => Some y | None => None end.
Proof. induction l as [|[k w] l IH]; [reflexivity|]. cbn [areplace alookup]. destruct (String.eqb b k) eqn:Ek; cbn [alookup]; rewrite ?String.eqb_refl, ?Ek; auto. Qed.
Lemma get_set_tp b f x v : f <> "toplevelProperties" -> get_path (b, f) (set_path (b, "toplevelProperties") x v) = get_path (b, f) v.
Proof.
  intros N. destruct b as [b|]; cbn [get_path set_path]; [|now apply set_field_other].
  destruct v; try reflexivity. cbn [set_field get_field]. rewrite alookup_areplace. destruct (alookup b l) as [y|]; [|reflexivity]. now apply set_field_other.
Qed.
Lemma add_props_field f key t l v : f <> "toplevelProperties" -> obj_field f key (t, add_props t l v) = obj_field f key (t, v).
Proof.
  intros N. unfold obj_field. cbn [fst snd]. destruct l as [|a l]; [reflexivity|]. unfold add_props, props_path, field_path. destruct t as [| | | | | | | | | | |n fs| |]; try reflexivity.
  destruct (find _ fs) as [[m tt]|]; [now rewrite get_set_tp|]. destruct (mem_str n _); [now rewrite get_set_tp|reflexivity].
Qed.
Lemma builds_read cf typ j o ms p : json_okb j = true -> j = JObj ms -> json_type j = Some typ -> builds rnd cf typ j o -> acceptable o ->
  (exists g, generic j = Ok g) -> msorted (old_map p) = true -> exists o' p', read rnd cf j p = Ok (o', p').
Proof.
  intros O -> JT B A (g & G) S. apply generic_dec in G; [|exact O].
  destruct (dec_any_obj _ _ G (old_map p)) as (m & Dm).
  assert (PK : unmarshal_res (dec rnd (JObj ms) peak_ty p) = Ok (VMap m)) by (rewrite dec_peak_obj, Dm; reflexivity).
  destruct (peak_obj rnd ms p m S PK) as (Sm & L & OK).
  assert (T : alookup "type" m = Some (dyn_str typ)).
  { unfold json_type in JT. cbn [member] in JT. rewrite L. destruct (last_member "type" ms) as [[]|]; try discriminate. unfold dval. cbn [dec_any]. now rewrite JT. }
  unfold read. rewrite PK. cbn [bind map_get old_map]. rewrite T. cbn [as_string dyn_str bind].
  assert (F : forall t v0 v l, dec rnd (JObj ms) t v0 = DOk v false -> acceptable (Some (t, add_props t l v)) ->
     exists o' p', read_finish rnd cf m (JObj ms) (t, v0) = Ok (o', p')).
  { intros t v0 v l D (id & ty & Ei & Et & V). unfold read_finish. rewrite D. cbn [unmarshal_res bind].
    unfold obj_id, obj_type in *. rewrite add_props_field in Ei by discriminate. rewrite add_props_field in Et by discriminate.
    destruct (cf_drop cf); rewrite ?add_props_field by discriminate; rewrite Ei, Et; cbn [bind]; rewrite V; eauto. }
  unfold start. inversion B as [h t v0 v l P Hh U Dr|t v l P Hb U Dr|v P Hb Dr U|P Hb Dr]; subst; unfold parser_of in P.
  - destruct (alookup typ (cf_handlers cf)) as [[h'|]|]; try discriminate. injection P as ->. rewrite Hh. cbn [bind]. apply unmarshal_dec in U; [|exact O]. eapply F; eauto.
  - apply alookup_builtin in Hb. apply unmarshal_dec in U; [|exact O]. destruct (alookup typ (cf_handlers cf)) as [[h'|]|]; try discriminate; rewrite Hb; cbn [bind]; eapply F; eauto.
  - apply alookup_akeys in Hb. apply unmarshal_dec in U; [|exact O]. destruct (alookup typ (cf_handlers cf)) as [[h'|]|]; try discriminate; rewrite Hb, Dr; cbn [bind]; apply (F ty_CustomObject (VMap []) v [] U A).
  - apply alookup_akeys in Hb. destruct (alookup typ (cf_handlers cf)) as [[h'|]|]; try discriminate; rewrite Hb, Dr; cbn [bind]; eauto.
Qed.
Local Notation good := (good rnd).
Lemma success cf js s : document js s -> Forall (good cf) js -> exists c, from_json rnd cf s = Ok c.
Proof.
  intros D G. rewrite (from_json_read _ _ _ _ D). assert (O := document_ok _ _ D). clear D.
  assert (X : forall p, msorted (old_map p) = true -> exists outs, read_all rnd cf js p = Ok outs).
  { induction G as [|j js Gj G IH]; intros p S; [eexists; reflexivity|]. cbn [forallb] in O. apply andb_true_iff in O as [Oj O]. cbn [read_all].
    assert (R : exists o' p', read rnd cf j p = Ok (o', p')).
    { destruct Gj as [->|(ms & typ & o & Q & JT & B & A & G1)]; [|eapply builds_read; eauto]. unfold read. exists None, VNil. reflexivity. }
    destruct R as (o' & p' & R). rewrite R. cbn [bind snd]. destruct (IH O p' (read_sorted _ _ _ _ _ _ S R)) as (outs & ->). eexists. reflexivity. }
  destruct (X VNil eq_refl) as (outs & ->). eexists. reflexivity.
Qed.

(** ** The outputs of a document, one per JSON object *)
Lemma outputs cf js s c : document js s -> from_json rnd cf s = Ok c ->
  exists outs, c = collect (cf_nosort cf) outs /\ Forall acceptable outs /\ Forall2 (fun j o => exists ts, contributes rnd cf ts j o) js outs.
Proof.
  intros D E. destruct (from_json_contributes _ _ _ _ _ D E) as (outs & -> & A & CA). exists outs. split; [reflexivity|]. split; [exact A|].
  clear -CA. induction CA; constructor; eauto.
Qed.
Lemma contributes_builds cf ts j o : contributes rnd cf ts j o -> o = None \/ exists typ, builds rnd cf typ j o /\ (json_type j = Some typ \/ member "type" j = None).
Proof. inversion 1; subst; auto; right; eauto. Qed.

(** ** C11 *)
Lemma own_fields cf js s c : document js s -> from_json rnd cf s = Ok c -> (forall typ, parser_of cf typ = None) ->
  exists outs, c = collect (cf_nosort cf) outs /\ Forall acceptable outs /\
  Forall2 (fun j o => forall name n fs v, o = Some (GStruct n fs, v) -> In (name, GStruct n fs) builtin_types ->
     exists v0, unmarshal rnd (print j) (GStruct n fs) (zero (GStruct n fs)) = Ok v0 /\
       forall k p t, In (k, p, t) (flat_fields fs) -> get_path p v = get_path p v0) js outs.
Proof.
  intros D E NP. destruct (outputs _ _ _ _ D E) as (outs & -> & A & F). exists outs. split; [reflexivity|]. split; [exact A|].
  assert (O := document_ok _ _ D). rewrite forallb_forall in O. clear -F NP O.
  induction F as [|j o js outs (ts & C) F IH]; constructor; [|apply IH; intros x Hx; apply O; now right]. specialize (O j (or_introl eq_refl)).
  intros name n fs v -> Hb. apply contributes_builds in C as [C|(typ & B & _)]; [discriminate|].
  inversion B as [h t v0 v' l P Hh U Dr|t v' l P Hb' U Dr|v' P Hb' Dr U|P Hb' Dr]; subst.
  - rewrite NP in P. discriminate.
  - exists v'. split; [exact U|]. intros k p t Hf. apply flat_fields_In in Hf as (m & HP & -> & Nk). apply unmarshal_dec in U; [|exact O].
    destruct (builtin_read _ _ Hb) as (? & ? & Q & _ & _ & _ & _ & _ & _ & FO & _). injection Q as <- <-.
    assert (Sh := dec_shape rnd _ _ _ _ _ FO U). eapply add_props_own; [exact Hb|exact Sh|exact HP|exact Nk].
Qed.

(** ** C12 *)
Lemma drop_custom cf js s c : document js s -> from_json rnd cf s = Ok c -> cf_drop cf = true ->
  exists outs, c = collect (cf_nosort cf) outs /\ Forall acceptable outs /\
  Forall2 (fun j o =>
     (forall typ t, json_type j = Some typ -> parser_of cf typ = None -> In (typ, t) builtin_types ->
        exists v, o = Some (t, v) /\ unmarshal rnd (print j) t (zero t) = Ok v) /\
     (forall typ, json_type j = Some typ -> parser_of cf typ = None -> ~ In typ (akeys builtin_types) -> o = None) /\
     ((forall typ, parser_of cf typ = None) -> forall t v, o = Some (t, v) -> In t (map snd builtin_types) /\ props_of t v = [])) js outs.
Proof.
  intros D E Dr. destruct (outputs _ _ _ _ D E) as (outs & -> & A & F). exists outs. split; [reflexivity|]. split; [exact A|].
  assert (O := document_ok _ _ D). rewrite forallb_forall in O. clear -F Dr O.
  induction F as [|j o js outs (ts & C) F IH]; constructor; [|apply IH; intros x Hx; apply O; now right]. specialize (O j (or_introl eq_refl)).
  assert (TY : forall typ, json_type j = Some typ -> builds rnd cf typ j o).
  { intros typ JT. inversion C as [|ms M|j' ty o' JT' B|ms ty o' M Hin B]; subst.
    - discriminate.
    - unfold json_type in JT. rewrite M in JT. discriminate.
    - rewrite JT in JT'. injection JT' as <-. exact B.
    - unfold json_type in JT. rewrite M in JT. discriminate. }
  split; [|split].
  - intros typ t JT P Hb. specialize (TY _ JT). inversion TY as [h t' v0 v' l P' Hh U Dr'|t' v' l P' Hb' U Dr'|v' P' Hb' Dr' U|P' Hb' Dr']; subst.
    + congruence.
    + apply alookup_builtin in Hb. apply alookup_builtin in Hb'. rewrite Hb in Hb'. injection Hb' as <-. rewrite (Dr' Dr). cbn [add_props]. eauto.
    + congruence.
    + exfalso. apply Hb'. exact (in_map fst _ _ Hb).
  - intros typ JT P Hb. specialize (TY _ JT). inversion TY as [h t' v0 v' l P' Hh U Dr'|t' v' l P' Hb' U Dr'|v' P' Hb' Dr' U|P' Hb' Dr']; subst.
    + congruence.
    + exfalso. apply Hb. exact (in_map fst _ _ Hb').
    + congruence.
    + reflexivity.
  - intros NP t v ->. apply contributes_builds in C as [C|(typ & B & _)]; [discriminate|].
    inversion B as [h t' v0 v' l P Hh U Dr'|t' v' l P Hb U Dr'|v' P Hb Dr' U|P Hb Dr']; subst.
    + rewrite NP in P. discriminate.
    + split; [exact (in_map snd _ _ Hb)|]. rewrite (Dr' Dr). cbn [add_props]. apply unmarshal_dec in U; [|exact O]. eapply dec_props; eauto.
    + congruence.
Qed.

(** ** C13 *)
Lemma typeless_skipped cf a j s1 s2 ms : document a s1 -> document (a ++ [j]) s2 -> j = JObj ms -> member "type" j = None -> (exists g, generic j = Ok g) ->
  cf_drop cf = false -> (forall j' typ, In j' a -> json_type j' = Some typ -> parser_of cf typ = None /\ In typ (akeys builtin_types)) ->
  from_json rnd cf s2 = from_json rnd cf s1.
Proof.
  intros D1 D2 -> M (g & G) Dr B. rewrite (from_json_read _ _ _ _ D1), (from_json_read _ _ _ _ D2).
  assert (O := document_ok _ _ D2). rewrite forallb_app in O. apply andb_true_iff in O as [_ O]. cbn [forallb] in O. apply andb_true_iff in O as [O _].
  apply generic_dec in G; [|exact O].
  rewrite (read_all_snoc_typeless rnd cf a (JObj ms)); auto.
  - destruct (read_all rnd cf a VNil) as [os| |]; [|reflexivity|reflexivity]. cbn [bind]. f_equal. unfold collect, calls_of. rewrite flat_map_app. cbn [flat_map]. now rewrite !app_nil_r.
  - eauto.
  - intros p. destruct (dec_any_obj _ _ G (old_map p)) as (m & Dm). exists (VMap m). rewrite dec_peak_obj, Dm. reflexivity.
Qed.

(** ** C14 *)
Lemma parser_used cf js s c : document js s -> from_json rnd cf s = Ok c ->
  exists outs, c = collect (cf_nosort cf) outs /\ Forall acceptable outs /\
  Forall2 (fun j o => forall typ, json_type j = Some typ ->
     match parser_of cf typ with
     | Some h => exists t v0 v l, h j = Ok (Some (t, v0)) /\ unmarshal rnd (print j) t v0 = Ok v /\ o = Some (t, add_props t l v) /\ (cf_drop cf = true -> l = [])
     | None =>
         (forall t, In (typ, t) builtin_types -> exists v l, unmarshal rnd (print j) t (zero t) = Ok v /\ o = Some (t, add_props t l v)) /\
         (~ In typ (akeys builtin_types) -> o = None \/ exists v, unmarshal rnd (print j) ty_CustomObject (VMap []) = Ok v /\ o = Some (ty_CustomObject, v))
     end) js outs.
Proof.
  intros D E. destruct (outputs _ _ _ _ D E) as (outs & -> & A & F). exists outs. split; [reflexivity|]. split; [exact A|].
  clear -F. induction F as [|j o js outs (ts & C) F IH]; constructor; [|exact IH].
  intros typ JT. assert (TY : builds rnd cf typ j o).
  { inversion C as [|ms M|j' ty o' JT' B|ms ty o' M Hin B]; subst.
    - discriminate.
    - unfold json_type in JT. rewrite M in JT. discriminate.
    - rewrite JT in JT'. injection JT' as <-. exact B.
    - unfold json_type in JT. rewrite M in JT. discriminate. }
  inversion TY as [h t' v0 v' l P' Hh U Dr'|t' v' l P' Hb' U Dr'|v' P' Hb' Dr' U|P' Hb' Dr']; subst; rewrite P'.
  - exists t', v0, v', l. auto.
  - split; [|intros N; exfalso; apply N; exact (in_map fst _ _ Hb')]. intros t Hb. apply alookup_builtin in Hb. apply alookup_builtin in Hb'. rewrite Hb in Hb'. injection Hb' as <-. eauto.
  - split; [|eauto]. intros t Hb. exfalso. apply Hb'. exact (in_map fst _ _ Hb).
  - split; [|auto]. intros t Hb. exfalso. apply Hb'. exact (in_map fst _ _ Hb).
Qed.
Lemma parser_error cf js s j typ h : document js s -> In j js -> json_type j = Some typ -> parser_of cf typ = Some h ->
  (forall t v, h j <> Ok (Some (t, v))) -> forall c, from_json rnd cf s <> Ok c.
Proof.
  intros D Hin JT P N. apply (bad_object _ _ _ _ D Hin). intros ts o C. inversion C as [|ms M|j' ty o' JT' B|ms ty o' M Hin' B]; subst.
  - discriminate.
  - unfold json_type in JT. rewrite M in JT. discriminate.
  - rewrite JT in JT'. injection JT' as <-. inversion B as [h0 t0 v0 v1 l P' Hh| | |]; subst; try congruence.
  - unfold json_type in JT. rewrite M in JT. discriminate.
Qed.
Lemma config_of_app o1 o2 : config_of (o1 ++ o2) = fold_left apply_option o2 (config_of o1).
Proof. unfold config_of. apply fold_left_app. Qed.
Lemma parser_last opts typ h typ' : parser_of (config_of (opts ++ [UseParser typ (Some h)])) typ' = if String.eqb typ typ' then Some h else parser_of (config_of opts) typ'.
Proof.
  rewrite config_of_app. cbn [fold_left apply_option]. unfold parser_of. cbn [cf_handlers]. destruct (String.eqb_spec typ typ') as [<-|N].
  - now rewrite alookup_ainsert, String.eqb_refl.
  - rewrite alookup_ainsert. destruct (String.eqb_spec typ' typ); [congruence|reflexivity].
Qed.
Lemma parser_other opts o typ : (forall h, o <> UseParser typ h) -> parser_of (config_of (opts ++ [o])) typ = parser_of (config_of opts) typ.
Proof.
  intros N. rewrite config_of_app. cbn [fold_left]. destruct o as [| |typ' h]; try reflexivity. unfold parser_of. cbn [apply_option cf_handlers].
  rewrite alookup_ainsert. destruct (String.eqb_spec typ typ'); [|reflexivity]. subst. exfalso. now apply (N h).
Qed.
Lemma drop_nosort opts : cf_drop (config_of opts) = true <-> In DropCustom opts.
Proof.
  induction opts as [|o opts IH] using rev_ind; [split; [discriminate|intros []]|]. rewrite config_of_app. cbn [fold_left]. rewrite in_app_iff. cbn [In].
  destruct o; cbn [apply_option cf_drop]; rewrite ?IH; intuition congruence.
Qed.
Lemma nosort_set opts : cf_nosort (config_of opts) = true <-> In NoSort opts.
Proof.
  induction opts as [|o opts IH] using rev_ind; [split; [discriminate|intros []]|]. rewrite config_of_app. cbn [fold_left]. rewrite in_app_iff. cbn [In].
  destruct o; cbn [apply_option cf_nosort]; rewrite ?IH; intuition congruence.
Qed.

(** ** C15 *)
Lemma panic_causes cf s : (forall typ, parser_of cf typ = None) -> from_json rnd cf s = Panic ->
  exists js j ms, document js s /\ In j js /\ j = JObj ms /\
    ((exists x, member "type" j = Some x /\ forall raw, x <> JStr raw) \/
     (exists x, member "id" j = Some x /\ (forall raw, x <> JStr raw) /\ forall typ, json_type j = Some typ -> ~ In typ (akeys builtin_types)) \/
     (exists typ t, In (typ, t) builtin_types /\ panics t j /\ (json_type j = Some typ \/ member "type" j = None))).
Proof.
  intros NP E. destruct (document_dec rnd s) as [(js & D)|D]; [|rewrite (from_json_no_document _ _ _ D) in E; discriminate].
  rewrite (from_json_read _ _ _ _ D) in E. destruct (read_all rnd cf js VNil) as [outs| |] eqn:R; try discriminate.
  destruct (read_all_panic rnd cf js NP VNil []) as (j & p' & Hin & S & (ts & St) & Rj); auto; [intros tv Q; discriminate|now apply (document_ok js s)|].
  destruct (read_panic rnd cf j p' NP S) as (ms & Q & X); auto.
  - intros tv H. destruct (St _ H) as (typ & -> & _). eauto.
  - exists js, j, ms. auto.
Qed.

(** ** C18 *)
Lemma filed cf js s c : document js s -> from_json rnd cf s = Ok c -> (forall typ, parser_of cf typ = None) ->
  (forall ms k x, In (JObj ms) js -> In (k, x) ms -> fold_key k = "type" -> k = "type") ->
  exists outs, c = collect (cf_nosort cf) outs /\ Forall acceptable outs /\
   forall t v typ, In (Some (t, v)) outs -> obj_type (t, v) = Ok typ ->
     In (typ, t) builtin_types \/ (~ In typ (akeys builtin_types) /\ t = ty_CustomObject).
Proof.
  intros D E NP K. destruct (outputs _ _ _ _ D E) as (outs & -> & A & F). exists outs. split; [reflexivity|]. split; [exact A|].
  assert (O := document_ok _ _ D). rewrite forallb_forall in O. intros t v typ Hin T. rewrite Forall_forall in A. specialize (A _ Hin).
  assert (X : exists j ts, In j js /\ contributes rnd cf ts j (Some (t, v))).
  { clear -F Hin. induction F as [|j o js outs (ts & C) F IH]; [destruct Hin|]. destruct Hin as [->|Hin]; [exists j, ts; split; [now left|exact C]|].
    destruct (IH Hin) as (j' & ts' & H1 & H2). exists j', ts'. split; [now right|exact H2]. }
  destruct X as (j & ts & Hj & C). specialize (O j Hj).
  assert (NE : typ <> "").
  { intros ->. destruct A as (id & ty & _ & T' & V). rewrite T in T'. injection T' as <-. apply has_valid_identifier_spec in V as (V & _). discriminate. }
  assert (Q : exists ms, j = JObj ms).
  { inversion C as [|ms M|j' ty o' JT' B|ms ty o' M Hin' B]; subst; eauto. unfold json_type in JT'. destruct j; try discriminate. eauto. }
  destruct Q as (ms & ->). specialize (K ms). 
  assert (K' : forall k x, In (k, x) ms -> fold_key k = "type" -> k = "type") by (intros k x; now apply K).
  apply contributes_builds in C as [C|(typ' & B & JT)]; [discriminate|].
  inversion B as [h t' v0 v' l P Hh U Dr'|t' v' l P Hb U Dr'|v' P Hb Dr' U|P Hb Dr']; subst.
  - rewrite NP in P. discriminate.
  - apply unmarshal_dec in U; [|exact O]. destruct (builtin_field rnd _ _ _ _ _ l Hb U) as [(s1 & T1 & G1) _]. rewrite T in T1. injection T1 as <-.
    destruct JT as [JT|M].
    + rewrite (dec_type rnd _ _ _ _ _ _ Hb K' JT U) in G1. injection G1 as <-. now left.
    + rewrite (dec_no_type rnd _ _ _ _ _ Hb) with (2 := U) in G1; [injection G1 as <-; congruence|].
      intros k x Hx Q. cbn [member] in M. apply last_member_None in M. apply M. rewrite <- (K' _ _ Hx Q). exact (in_map fst _ _ Hx).
  - right. split; [|reflexivity]. apply unmarshal_dec in U; [|exact O].
    assert (E2 : unmarshal_res (dec rnd (JObj ms) peak_ty (VMap [])) = Ok v) by (unfold ty_CustomObject in U; rewrite dec_map_obj in U; unfold peak_ty; rewrite dec_map_obj; rewrite U; reflexivity).
    destruct (peak_inv rnd (JObj ms) (VMap []) v eq_refl E2) as [[Q _]|(ms' & m1 & Q & -> & M1)]; [discriminate|]. injection Q as <-. destruct M1 as (S1 & L1 & OK1).
    unfold obj_type, obj_field in T. cbn [fst snd ty_CustomObject] in T. unfold co_field in T. cbn [map_get] in T. rewrite L1 in T. cbn [old_map alookup] in T.
    destruct JT as [JT|M].
    + unfold json_type in JT. cbn [member] in JT. destruct (last_member "type" ms) as [x|]; [|discriminate]. destruct x; try discriminate.
      unfold dval in T. cbn [dec_any] in T. rewrite JT in T. cbn [as_string dyn_str] in T. injection T as <-. exact Hb.
    + cbn [member] in M. rewrite M in T. injection T as <-. congruence.
Qed.
Lemma no_accessor_panic cf js s c : document js s -> from_json rnd cf s = Ok c -> (forall typ, parser_of cf typ = None) ->
  (forall ms k x, In (JObj ms) js -> In (k, x) ms -> fold_key k = "type" -> k = "type") ->
  (forall name typ goT id, In (name, typ, goT) singular_accessors -> typed_get (fun o : gobj => String.eqb (ty_name (fst o)) goT) c typ id <> Panic) /\
  (forall name typ goT r, In (name, typ, goT) plural_accessors -> typed_all (fun o : gobj => String.eqb (ty_name (fst o)) goT) c typ r -> r <> Panic).
Proof.
  intros D E NP K. destruct (filed _ _ _ _ D E NP K) as (outs & -> & A & F). unfold collect.
  destruct (run (new_coll (cf_nosort cf)) (calls_of outs)) as [c oks] eqn:R. cbn [fst].
  assert (L : oks = map (fun _ => true) (calls_of outs)) by (rewrite <- (calls_log _ A (cf_nosort cf)), R; reflexivity).
  destruct (typed_accessors _ (fun o : gobj => ty_name (fst o)) _ _ _ _ R) as [S P].
  - rewrite L, log_true. intros x goT Hx _ Hb. apply in_map_iff in Hx as ([[id ty] [t v]] & <- & Hx). cbn [fst snd c_typ c_obj] in *.
    apply In_calls in Hx as (Hx & _ & T). destruct (F _ _ _ Hx T) as [B|[N _]]; [eapply builtin_go_name; eauto|].
    exfalso. apply N. destruct names_check as (_ & _ & SB). eapply subsetb_In; [exact SB|]. exact (in_map fst _ _ Hb).
  - split.
    + intros name typ goT id H. rewrite (S name typ goT id H). discriminate.
    + intros name typ goT r H H2. destruct (P name typ goT r H H2) as (os & -> & _). discriminate.
Qed.

(** ** Extended properties *)
Definition origin (pre : list json) (m : list (string * gval)) : Prop :=
  forall k y, alookup k m = Some y -> exists j x, In j pre /\ member k j = Some x /\ generic x = Ok y.
Lemma okb_member k j x : json_okb j = true -> member k j = Some x -> json_okb x = true.
Proof.
  intros O M. destruct j; try discriminate. cbn [member] in M. apply last_member_In in M. cbn [json_okb] in O. rewrite forallb_forall in O. specialize (O _ M). cbn [fst snd] in O.
  now apply andb_true_iff in O as [_ O].
Qed.
Lemma merged_origin pre p ms m : json_okb (JObj ms) = true -> origin pre (old_map p) -> merged rnd p ms m -> origin (pre ++ [JObj ms]) m.
Proof.
  intros O Or (S & L & OK) k y H. rewrite L in H. destruct (last_member k ms) as [x|] eqn:M.
  - injection H as <-. exists (JObj ms), x. split; [apply in_or_app; right; now left|]. split; [exact M|].
    apply generic_dec; [|apply (OK k); now apply last_member_In]. eapply (okb_member k (JObj ms)); eauto.
  - destruct (Or _ _ H) as (j & x & H1 & H2 & H3). exists j, x. split; [apply in_or_app; now left|]. auto.
Qed.
Local Notation props_bound := (props_bound rnd).
Lemma helper_props name t : In (name, t) builtin_types -> In (ty_name t) helper_types -> exists pp, props_path t = Some pp.
Proof.
  assert (X : forallb (fun kv : string * gty => negb (mem_str (ty_name (snd kv)) helper_types) || match props_path (snd kv) with Some _ => true | None => false end) builtin_types = true) by (vm_compute; reflexivity).
  intros H Hh. rewrite forallb_forall in X. specialize (X _ H). cbn [snd] in X. apply mem_str_In in Hh. rewrite Hh in X. cbn [negb orb] in X.
  destruct (props_path t) as [pp|]; [now exists pp|discriminate].
Qed.
Lemma read_props cf pre j p o p' : cf_drop cf = false -> (forall typ, parser_of cf typ = None) -> json_okb j = true ->
  msorted (old_map p) = true -> origin pre (old_map p) -> read rnd cf j p = Ok (o, p') ->
  props_bound pre j o /\ origin (pre ++ [j]) (old_map p').
Proof.
  intros Dr NP O S Or R. destruct (read_inv _ _ _ _ _ _ S R) as [(-> & -> & ->)|(ms & m & -> & M & X)].
  - split; [intros ? ? ? Q; discriminate|]. intros k y Q. discriminate.
  - assert (Om := merged_origin _ _ _ _ O Or M). destruct X as [(_ & -> & ->)|(typ & T & [(_ & -> & ->)|(t & v0 & v1 & St & D & -> & ->)])].
    + split; [intros ? ? ? Q; discriminate|exact Om].
    + split; [intros ? ? ? Q; discriminate|exact Om].
    + split.
      * intros name t' v Q Hb Hh. injection Q as <- <-. unfold props_of_read. rewrite Dr.
        destruct (builtin_read _ _ Hb) as (n & fs & -> & TK & _ & _ & _ & _ & _ & FO & _).
        assert (Z : v0 = zero (GStruct n fs)).
        { unfold start in St. specialize (NP typ). unfold parser_of in NP. destruct (alookup typ (cf_handlers cf)) as [[h|]|]; try discriminate;
            destruct (alookup typ builtin_types); try (now injection St as <- <-); rewrite Dr in St; discriminate. }
        subst v0. assert (Sh := dec_shape rnd _ _ _ _ _ FO D).
        rewrite (add_props_props name n fs _ v1 Hb Sh (dec_props rnd _ _ _ _ _ Hb D)).
        assert (PP : exists pp, props_path (GStruct n fs) = Some pp).
        { exact (helper_props _ _ Hb Hh). }
        destruct PP as (pp & ->). destruct M as (Sm & L & OK). split.
        -- intros k x Mk No Ne. exists (dval rnd x). cbn [member] in Mk. split.
           ++ apply generic_dec; [exact (okb_member k (JObj ms) x O Mk)|]. apply (OK k). now apply last_member_In.
           ++ rewrite alookup_filter_out, L, Mk. destruct (mem_str k (tag_keys fs)) eqn:Mt; [|reflexivity]. exfalso. apply mem_str_In, TK in Mt. tauto.
        -- intros k y H. rewrite alookup_filter_out in H. destruct (mem_str k (tag_keys fs)) eqn:Mt; [discriminate|]. split.
           ++ intros Ho. assert (In k (tag_keys fs)) as X by (apply TK; now left). apply mem_str_In in X. congruence.
           ++ now apply Om.
      * intros k y H. cbn [old_map] in H. apply peak_after_sub in H. now apply Om.
Qed.
Lemma read_all_props cf : cf_drop cf = false -> (forall typ, parser_of cf typ = None) -> forall js pre p outs, forallb json_okb js = true ->
  msorted (old_map p) = true -> origin pre (old_map p) -> read_all rnd cf js p = Ok outs ->
  forall a j b, js = a ++ j :: b -> exists o, nth_error outs (length a) = Some o /\ props_bound (pre ++ a) j o.
Proof.
  intros Dr NP. induction js as [|j0 js IH]; intros pre p outs O S Or R a j b E; [destruct a; discriminate|].
  cbn [forallb] in O. apply andb_true_iff in O as [Oj O]. cbn [read_all] in R. destruct (read rnd cf j0 p) as [[o p']| |] eqn:R0; try discriminate. cbn [bind fst snd] in R.
  destruct (read_all rnd cf js p') as [os| |] eqn:R1; try discriminate. cbn [bind] in R. injection R as <-.
  destruct (read_props _ _ _ _ _ _ Dr NP Oj S Or R0) as [B Or'].
  destruct a as [|a0 a]; cbn [app] in E; injection E as <- E.
  - exists o. split; [reflexivity|]. rewrite app_nil_r. exact B.
  - destruct (IH (pre ++ [j0]) p' os O (read_sorted _ _ _ _ _ _ S R0) Or' R1 a j b E) as (o' & N & B'). exists o'. split; [exact N|]. now rewrite <- app_assoc in B'.
Qed.
Lemma from_json_props cf js s c : document js s -> from_json rnd cf s = Ok c -> cf_drop cf = false -> (forall typ, parser_of cf typ = None) ->
  exists outs, c = collect (cf_nosort cf) outs /\ Forall acceptable outs /\ length outs = length js /\
  forall a j b, js = a ++ j :: b -> exists o, nth_error outs (length a) = Some o /\ props_bound a j o.
Proof.
  intros D E Dr NP. rewrite (from_json_read _ _ _ _ D) in E. destruct (read_all rnd cf js VNil) as [outs| |] eqn:R; try discriminate. injection E as <-.
  exists outs. split; [reflexivity|]. split; [eapply read_all_acceptable; eauto|]. split.
  - clear -R. revert R. generalize VNil. revert outs. induction js as [|j js IH]; intros outs p R; [now injection R as <-|]. cbn [read_all] in R.
    destruct (read rnd cf j p) as [r| |]; try discriminate. cbn [bind] in R. destruct (read_all rnd cf js (snd r)) as [os| |] eqn:R'; try discriminate. injection R as <-. cbn [length]. f_equal. eauto.
  - apply (read_all_props cf Dr NP js [] VNil outs); auto; [now apply (document_ok js s)|]. intros k y Q. discriminate.
Qed.

(** ** C21 *)
Lemma single_round_trip cf ob s : own_object rnd cf ob ->
  (forall k, In k (akeys (props_of (fst ob) (snd ob))) -> free_name (fst ob) k = true /\ k <> "") ->
  marshal_bytes (fst ob) (snd ob) = Ok s ->
  from_json rnd cf ("[" ++ s ++ "]")%string = Ok (collect (cf_nosort cf) [Some (read_back rnd cf ob)]) /\ acceptable (Some (read_back rnd cf ob)) /\
  obj_id (read_back rnd cf ob) = obj_id ob /\ obj_type (read_back rnd cf ob) = obj_type ob.
Proof.
  intros Ow F E. unfold marshal_bytes in E. destruct (marshal (fst ob) (snd ob)) as [j| |] eqn:M; try discriminate. injection E as <-.
  destruct Ow as (name & id & Hb & NP & OT & OI & V & W).
  assert (O : json_okb j = true) by (eapply marshal_json_ok; eauto).
  destruct (read_marshal rnd cf ob j VNil) as (p' & R & _ & I & T); auto; [exists name, id; tauto|].
  split; [|split; [exists id, name; rewrite I, T; auto|auto]].
  replace ("[" ++ print j ++ "]")%string with (alone j) by reflexivity. rewrite (from_json_alone _ _ _ O). unfold out1. now rewrite R.
Qed.

(** ** C17 *)
Lemma read_all_marshal2 cf os : (forall ob, In ob os -> own_object rnd cf ob /\
    (forall k, In k (akeys (props_of (fst ob) (snd ob))) -> free_name (fst ob) k = true /\ k <> "") /\ (cf_drop cf = false -> props_of (fst ob) (snd ob) = [])) ->
  forall js p, Forall2 (fun ob j => marshal (fst ob) (snd ob) = Ok j) os js -> (cf_drop cf = true \/ old_map p = []) -> msorted (old_map p) = true ->
  read_all rnd cf js p = Ok (map (fun ob => Some (read_back rnd cf ob)) os).
Proof.
  intros H. induction os as [|ob os IH]; intros js p F Ep S; inversion F as [|? j ? js' E F']; subst; [reflexivity|].
  destruct (H ob (or_introl eq_refl)) as (Ow & Fr & Np).
  destruct (read_marshal rnd cf ob j p Ow Fr E Ep S) as (p' & R & P' & _).
  cbn [read_all map]. rewrite R. cbn [bind fst snd]. rewrite (IH (fun x Hx => H x (or_intror Hx)) js' p' F'); [reflexivity| |].
  - destruct (cf_drop cf); [now left|right]. rewrite (P' eq_refl), (Np eq_refl). reflexivity.
  - exact (read_sorted _ _ _ _ _ _ S R).
Qed.
Lemma hex_utf8 n s : hexn n s -> utf8 s.
Proof.
  intros [_ H]. apply utf8_ascii. intros c Hc. apply H in Hc. unfold is_hex in Hc.
  assert (X : forallb (fun c => (bt c <? 128)%N) (list_ascii_of_string hex_digits) = true) by (vm_compute; reflexivity).
  rewrite forallb_forall in X. now apply N.ltb_lt, X.
Qed.
Lemma canonical_utf8 s : uuid_canonical s -> utf8 s.
Proof.
  intros (a & b & c & d & e & A & B & C & D & E & ->).
  apply hex_utf8 in A, B, C, D, E. assert (Da : utf8 "-") by (apply utf8b_spec; reflexivity). repeat apply utf8_app; assumption.
Qed.
Lemma bundle_round_trip cf (r : string) (h : list (string * string * gobj)) c oks b :
  String.length r = 16%nat ->
  run (new_coll false) h = (c, oks) -> to_bundle marshal_obj r c (Ok b) ->
  (forall id ty ob, In (id, ty, ob) h -> obj_id ob = Ok id /\ obj_type ob = Ok ty) ->
  (forall id ob, get c id = Some ob -> own_object rnd cf ob /\
     (forall k, In k (akeys (props_of (fst ob) (snd ob))) -> free_name (fst ob) k = true /\ k <> "") /\ (cf_drop cf = false -> props_of (fst ob) (snd ob) = [])) ->
  exists c', from_json rnd cf (bundle_bytes b) = Ok c' /\
    (forall id, get c' id = option_map (read_back rnd cf) (get c id)) /\
    (cf_nosort cf = false -> forall os, all_objects c (map Some os) -> forall l, all_objects c' l <-> l = map Some (map (read_back rnd cf) os)).
Proof.
  intros Lr R TB Co Ow. destruct (to_bundle_full _ marshal_obj r h c oks (Ok b) Lr R TB) as (VB & os & F & _ & TB2).
  destruct (proj1 (TB2 b) eq_refl) as (ds & Fd & ->). set (lg := log h oks) in *.
  assert (G : forall id ob, get c id = Some ob <-> last_accepted lg id ob) by (intros id; now apply (get_spec false h c oks id R)).
  assert (Gi : forall id ob, get c id = Some ob -> obj_id ob = Ok id /\ In id (first_ids lg)).
  { intros id ob Hg. apply G in Hg as (l1 & t & l2 & E & _). split.
    - assert (X : In (Call id t ob true) lg) by (rewrite E; apply in_or_app; right; now left). unfold lg, log in X. apply in_map_iff in X as ([[[i ty] o] k] & Q & X). cbn [fst snd] in Q. injection Q as -> -> -> ->.
      apply in_combine_l in X. now destruct (Co _ _ _ X).
    - apply In_first_ids. exists (Call id t ob true). rewrite E. split; [apply in_or_app; right; now left|]. now split. }
  assert (FI : Forall2 (fun id ob => obj_id ob = Ok id) (first_ids lg) os).
  { assert (Gi1 : forall id ob, last_accepted lg id ob -> obj_id ob = Ok id) by (intros id ob L; apply (proj2 (G _ _)) in L; now apply Gi).
    clear -F Gi1. revert F. generalize (first_ids lg). intros ids F. induction F as [|id ob ids' os' L F IH]; constructor; [now apply Gi1|exact IH]. }
  assert (FO : forall ob, In ob os -> exists id, get c id = Some ob).
  { clear -F G. revert F. generalize (first_ids lg). intros ids0 F. induction F as [|id ob ids os L F IH]; intros o []; [subst; exists id; now apply G|auto]. }
  assert (J : exists js, Forall2 (fun ob j => marshal (fst ob) (snd ob) = Ok j) os js /\ ds = map print js).
  { clear -Fd. induction Fd as [|ob d os ds E Fd (js & H1 & H2)]; [exists []; split; constructor|]. unfold marshal_obj, marshal_bytes in E.
    destruct (marshal (fst ob) (snd ob)) as [j| |] eqn:M; try discriminate. injection E as <-. exists (j :: js). split; [now constructor|]. cbn [map]. now rewrite H2. }
  destruct J as (js & FJ & ->).
  assert (O : forallb json_okb js = true).
  { assert (X : Forall2 (fun ob j => json_okb j = true) os js).
    { clear -FJ FO Ow. induction FJ as [|ob j os js E FJ IH]; constructor.
      - destruct (FO ob (or_introl eq_refl)) as (id & Hg). destruct (Ow _ _ Hg) as ((name & id' & Hb & _ & _ & _ & _ & W) & Fr & _). eapply marshal_json_ok; eauto. 
      - apply IH. intros o Ho. apply FO. now right. }
    clear -X. induction X; [reflexivity|]. cbn [forallb]. now rewrite H. }
  assert (D : document js (bundle_bytes (Bundle "bundle" (new_identifier r "bundle") (map print js)))).
  { apply bundle_document; [reflexivity| |exact O]. destruct (new_identifier_v4 r "bundle" Lr) as (_ & _ & u & Eu & _ & C & _). rewrite Eu. apply utf8b_spec.
    apply utf8_app; [apply utf8b_spec; reflexivity|]. apply utf8_app; [apply utf8b_spec; reflexivity|]. now apply canonical_utf8. }
  rewrite (from_json_read _ _ _ _ D). rewrite (read_all_marshal2 cf os) with (js := js); auto.
  2: { intros ob Ho. destruct (FO _ Ho) as (id & Hg). now apply (Ow id). }
  cbn [bind]. eexists. split; [reflexivity|].
  assert (RB : forall ob, In ob os -> acceptable (Some (read_back rnd cf ob)) /\ obj_id (read_back rnd cf ob) = obj_id ob).
  { intros ob Ho. destruct (FO _ Ho) as (id & Hg). destruct (Ow _ _ Hg) as (Owo & Fr & _).
    assert (X : exists j, In j js /\ marshal (fst ob) (snd ob) = Ok j).
    { clear -FJ Ho. induction FJ as [|o j os js E FJ IH]; [destruct Ho|]. destruct Ho as [->|Ho]; [exists j; split; [now left|exact E]|]. destruct (IH Ho) as (j' & H1 & H2). exists j'. split; [now right|exact H2]. }
    destruct X as (j & _ & M). destruct (single_round_trip cf ob (print j) Owo Fr) as (_ & A & I & _); [unfold marshal_bytes; now rewrite M|]. auto. }
  assert (AC : Forall acceptable (map (fun ob => Some (read_back rnd cf ob)) os)).
  { apply Forall_forall. intros o Ho. apply in_map_iff in Ho as (ob & <- & Ho). now apply RB. }
  assert (ND : NoDup (first_ids lg)) by apply NoDup_first_ids.
  split.
  - intros id. destruct (get c id) as [ob|] eqn:Hg; cbn [option_map].
    + apply collect_get; [exact AC|]. destruct (Gi _ _ Hg) as [I Hi].
      assert (X : exists o1 o2, os = o1 ++ ob :: o2 /\ forall o', In o' o2 -> obj_id o' <> Ok id).
      { assert (Hin : In ob os).
        { clear -F G Hg Hi. induction F as [|i o ids os L F IH]; [destruct Hi|]. destruct Hi as [->|Hi]; [left; apply G in L; congruence|right; auto]. }
        clear -FI ND Hin I. revert Hin. induction FI as [|i o ids os E FI IH]; intros Hin; [destruct Hin|]. inversion ND as [|? ? N1 N2]; subst.
        destruct Hin as [->|Hin].
        - exists [], os. split; [reflexivity|]. intros o' Ho' Q. apply N1. replace i with id by congruence. clear -FI Ho' Q. induction FI as [|a b ids os E F IH]; [destruct Ho'|]. destruct Ho' as [->|Ho']; [left; congruence|right; auto].
        - destruct (IH N2 Hin) as (o1 & o2 & -> & N). exists (o :: o1), o2. now split. }
      destruct X as (o1 & o2 & -> & N). split; [rewrite (proj2 (RB ob (in_elt _ _ _))); exact I|].
      exists (map (fun ob => Some (read_back rnd cf ob)) o1), (map (fun ob => Some (read_back rnd cf ob)) o2). split; [now rewrite map_app|].
      intros ob' Ho'. apply in_map_iff in Ho' as (o & Q & Ho). injection Q as <-. rewrite (proj2 (RB o (in_or_app _ _ _ (or_intror (in_cons _ _ _ Ho))))). now apply N.
    + destruct (get (collect _ _) id) as [ob|] eqn:Hc; [|reflexivity]. exfalso. apply collect_get in Hc as (I & o1 & o2 & E & _); [|exact AC].
      assert (Ho : In (Some ob) (map (fun ob => Some (read_back rnd cf ob)) os)) by (rewrite E; apply in_elt). apply in_map_iff in Ho as (o & Q & Ho). injection Q as <-.
      rewrite (proj2 (RB o Ho)) in I. destruct (FO _ Ho) as (id' & Hg'). destruct (Gi _ _ Hg') as [I' _]. congruence.
  - intros Ns os' AO l. rewrite Ns. destruct (all_objects_sorted_total _ _ _ _ R) as [_ SO]. destruct (SO _ AO) as (os2 & Q & F2).
    assert (os' = os2) as -> by (clear -Q; revert os2 Q; induction os' as [|a l IH]; intros [|b l2] Q; try discriminate; [reflexivity|]; injection Q as <- Q; f_equal; auto).
    assert (os2 = os) as ->.
    { fold lg in F2. clear -F F2 G. revert F os2 F2. generalize (first_ids lg). intros ids0 F. induction F as [|i o ids os L F IH]; intros os2 F2; inversion F2 as [|? o2 ? os3 L2 F3]; subst; [reflexivity|]. f_equal; [|auto]. apply G in L, L2. congruence. }
    rewrite <- (map_map (read_back rnd cf) Some). apply collect_all with (ids := first_ids lg); [exact ND| |].
    + clear -FI RB. induction FI as [|i o ids os E FI IH]; constructor; [rewrite (proj2 (RB o (or_introl eq_refl))); exact E|]. apply IH. intros ob Ho. apply RB. now right.
    + now rewrite map_map.
Qed.
End R.
