(** Writing and reading documents again and again: C82. *)
From Verif Require Import GoStr GoStrFacts JsonStr JsonStrFacts StrSpec StrSpecFacts JsonSpec JsonSpecFacts Json JsonFacts Float Consts GoTypes Schema GoVal GoValFacts Codec CodecSpec CodecFacts
  StructFacts CodecRound ObjFacts TypedFacts DataTypes DataTypesFacts Ident IdentFacts Collection CollectionSpec CollectionFacts FromJson FromJsonSpec FromJsonFacts
  ReadFacts ParseFacts IndepFacts CollectFacts PropCollectionAux BundleFacts FromJsonProps Double DoubleFacts DocSpec DocFacts DocBundle SettleFacts SettleRead DocSettle PropCodec PropFromJson PropDoc PropSettle.

(** The extended properties of an object do not have the names of its own
    properties, in any case. *)
Definition names_apart (ob : gobj) : Prop :=
  forall k, In k (akeys (props_of (fst ob) (snd ob))) -> k <> "" /\ forall k', In k' (own_keys (fst ob)) -> fold_key k' <> fold_key k.
Lemma names_apart_free ob : names_apart ob -> names_free ob.
Proof.
  intros H k I. destruct (H k I) as [N A]. split; [|exact N]. unfold free_name. apply negb_true_iff. destruct (existsb _ _) eqn:E; [|reflexivity].
  apply existsb_exists in E as (k' & I' & Q). apply String.eqb_eq in Q. now apply A in I'.
Qed.

(** A collection of built in objects, with or without extended properties, and
    custom objects that was written to a bundle and read is, from then on, not
    changed by writing and reading. *)
Theorem bundle_settles : forall rnd cf (r r' : string) (h : list (string * string * gobj)) c oks b c' b',
  rounding rnd -> String.length r = 16%nat -> String.length r' = 16%nat -> cf_nosort cf = false ->
  run (new_coll false) h = (c, oks) -> to_bundle marshal_obj r c (Ok b) ->
  (forall id ty ob, In (id, ty, ob) h -> obj_id ob = Ok id) ->
  (forall id ob, get c id = Some ob -> (own_object rnd cf ob /\ names_apart ob) \/ own_custom rnd cf ob) ->
  from_json rnd cf (bundle_bytes b) = Ok c' -> (forall id ob, get c' id = Some ob -> names_apart ob) ->
  to_bundle marshal_obj r' c' (Ok b') -> from_json rnd cf (bundle_bytes b') = Ok c'.
Proof.
  intros rnd cf r r' h c oks b c' b' (R1 & R2 & _) L L' Ns R TB Co Hd FJ NF TB'.
  refine (settle_collection rnd cf r r' h c oks b c' b' (conj R1 R2) L L' Ns R TB Co _ FJ _ TB').
  - intros id ob G. destruct (Hd id ob G) as [[A B]|A]; [left; split; [exact A|now apply names_apart_free]|now right].
  - intros id ob G. exact (names_apart_free _ (NF id ob G)).
Qed.
Print Assumptions bundle_settles.

(** ** Documents *)
Section Read.
Variable rnd : bool -> N -> Z -> option flt.
Hypothesis RN : rounding rnd.
Variable cf : config.
Hypothesis NP : forall typ, parser_of cf typ = None.
Local Notation wfr := (wfr rnd).

Definition seen (M : memory) : Prop := forall k x, M k = Some x -> utf8b k = true /\ wfr GIface x = true.
Lemma stl : settled rnd. Proof. destruct RN as (A & B & _). now split. Qed.
Lemma overridden_seen M ms M' : json_okb (JObj ms) = true -> seen M -> overridden rnd M ms M' -> seen M'.
Proof.
  intros O S [_ H] k x Q. specialize (H k). destruct (last_member k ms) as [y|] eqn:L; [|rewrite H in Q; now apply S].
  destruct H as (z & G & E). apply last_member_In in L. assert (Oy := okb_In _ _ _ O L). apply generic_dec in G; [|exact Oy]. rewrite E in Q. injection Q as <-. split.
  - cbn [json_okb] in O. rewrite forallb_forall in O. specialize (O _ L). now apply andb_true_iff in O.
  - exact (dec_any_wfr rnd stl y Oy z G).
Qed.
Lemma receiver_wfr typ j t v0 v : json_okb j = true -> receiver cf typ j (t, v0) -> unmarshal rnd (print j) t v0 = Ok v ->
  wfr t v = true /\ ((In (typ, t) builtin_types) \/ t = ty_CustomObject).
Proof.
  intros O Rc U. apply unmarshal_dec in U; [|exact O]. inversion Rc as [h o P|t' P H|P H D]; subst.
  - rewrite NP in P. discriminate.
  - split; [|now left]. assert (X := builtin_utf8). rewrite forallb_forall in X. assert (Ut := X _ H). cbn [snd] in Ut. assert (Wz := wfr_zero rnd stl (proj2 (proj2 RN)) t Ut).
    destruct (builtin_read _ _ H) as (n & fs & -> & _ & _ & _ & _ & _ & _ & F & FT).
    refine (dec_obj_wfr rnd stl (proj2 (proj2 RN)) j n fs (zero (GStruct n fs)) v O F _ Wz U). intros p m t HP. split; [exact (FT _ _ _ HP)|]. exact (path_utf8 _ _ _ _ _ Ut HP).
  - split; [|now right]. exact (dec_wfr_all rnd stl (proj2 (proj2 RN)) j O ty_CustomObject (VMap []) v eq_refl eq_refl eq_refl U).
Qed.
Lemma wfr_add t l v : (exists typ, In (typ, t) builtin_types) \/ t = ty_CustomObject -> wfr t v = true -> msorted l = true ->
  (forall k x, In (k, x) l -> utf8b k = true /\ wfr GIface x = true) -> wfr t (add_props t l v) = true.
Proof.
  intros H W S Hl. unfold add_props. destruct l as [|kv l]; [exact W|]. destruct (props_path t) as [p|] eqn:E; [|exact W].
  destruct H as [(typ & H)| ->]; [|discriminate E].
  destruct (builtin_cases _ _ H) as (n & fs & -> & _). destruct (builtin_props _ _ _ _ H E) as (m & HP & K).
  eapply wfr_set_path; [exact (builtin_flat _ _ _ H)|exact W|exact HP|]. cbn [SettleRead.wfr ty_CustomObject]. rewrite S. cbn [andb].
  apply forallb_forall. intros [k x] Hin. destruct (Hl _ _ Hin) as [A B]. cbn [fst snd]. now rewrite A, B.
Qed.
Lemma step_wfr M j o M' : json_okb j = true -> seen M -> step rnd cf M j o M' ->
  seen M' /\ forall ob, o = Some ob -> wfr (fst ob) (snd ob) = true /\ ((exists typ, In (typ, fst ob) builtin_types) \/ fst ob = ty_CustomObject).
Proof.
  intros O S St. inversion St as [|ms M1 Ov|ms M1 typ Ov|ms M1 typ t v0 v Ov T Rc U D|ms M1 typ t v0 v l M2 Ov T Rc U D F [Sl Ll]]; subst.
  - split; [intros k x Q; discriminate Q|discriminate].
  - split; [eapply overridden_seen; eauto|discriminate].
  - split; [eapply overridden_seen; eauto|discriminate].
  - split; [eapply overridden_seen; eauto|]. intros ob Q. injection Q as <-. cbn [fst snd]. destruct (receiver_wfr _ _ _ _ _ O Rc U) as [A [B|B]]; eauto.
  - assert (S1 := overridden_seen _ _ _ O S Ov).
    assert (S2 : seen M').
    { intros k x Q. destruct (F k) as [F1 F2]. destruct (key_of_dec t k) as [K|K]; [rewrite (F1 K) in Q; discriminate|]. rewrite (F2 K) in Q. now apply S1. }
    split; [exact S2|]. intros ob Q. injection Q as <-. cbn [fst snd]. destruct (receiver_wfr _ _ _ _ _ O Rc U) as [A B].
    assert (B' : (exists typ, In (typ, t) builtin_types) \/ t = ty_CustomObject) by (destruct B; eauto). split; [|exact B'].
    apply wfr_add; auto. intros k x Hin. apply S2. rewrite <- Ll. apply alookup_In; [now apply msorted_nodup|exact Hin].
Qed.
Lemma walk_wfr M js outs M' : walk rnd cf M js outs M' -> forallb json_okb js = true -> seen M ->
  forall ob, In (Some ob) outs -> wfr (fst ob) (snd ob) = true /\ ((exists typ, In (typ, fst ob) builtin_types) \/ fst ob = ty_CustomObject).
Proof.
  induction 1 as [|M j o M1 js os M2 St W IH]; intros O S ob I; [destruct I|]. cbn [forallb] in O. apply andb_true_iff in O as [O1 O2].
  destruct (step_wfr _ _ _ _ O1 S St) as [S1 Ho]. destruct I as [->|I]; [now apply Ho|now apply IH].
Qed.
End Read.

(** The object's Go type is the one that goes with its type property. *)
Definition own_type (ob : gobj) : Prop :=
  exists name, obj_type ob = Ok name /\ match alookup name builtin_types with Some t => fst ob = t | None => fst ob = ty_CustomObject end.

Lemma document_held rnd cf s c : rounding rnd -> cf_nosort cf = false -> (forall typ, parser_of cf typ = None) -> from_json rnd cf s = Ok c ->
  (forall id ob, get c id = Some ob -> own_type ob /\ names_apart ob /\ years (snd ob) = true) ->
  exists h oks, run (new_coll false) h = (c, oks) /\ (forall id ty ob, In (id, ty, ob) h -> obj_id ob = Ok id) /\
    forall id ob, get c id = Some ob -> (own_object rnd cf ob /\ names_apart ob) \/ own_custom rnd cf ob.
Proof.
  intros RN Ns NP FJ Hc.
  apply from_json_walk in FJ as (js & outs & M & D & W & A & Ec). rewrite Ns in Ec. unfold collect in Ec.
  destruct (run (new_coll false) (calls_of outs)) as [c1 oks] eqn:R. cbn [fst] in Ec. subst c1.
  assert (Ids : forall id ty ob, In (id, ty, ob) (calls_of outs) -> obj_id ob = Ok id /\ obj_type ob = Ok ty /\ In (Some ob) outs).
  { intros id ty ob I. unfold calls_of in I. apply in_flat_map in I as ([o|] & Io & I); [|destruct I]. destruct (obj_id o) eqn:E1; try destruct I. destruct (obj_type o) eqn:E2; try destruct I; [|contradiction]. injection H as <- <- <-. auto. }
  exists (calls_of outs), oks. split; [exact R|]. split; [intros id ty ob I; exact (proj1 (Ids id ty ob I))|].
  intros id ob G. destruct (Hc id ob G) as ((name & Ty & T) & NA & Y).
  apply (get_spec false _ _ _ id R) in G. destruct G as (l1 & ty & l2 & E & _).
  assert (X : In (Call id ty ob true) (log (calls_of outs) oks)) by (rewrite E; apply in_or_app; right; now left). unfold log in X. apply in_map_iff in X as ([[[i ty'] o] k] & Q & X). cbn [fst snd] in Q. injection Q as -> -> -> ->.
  apply in_combine_l in X. destruct (Ids _ _ _ X) as (Id & Ty' & Io). rewrite Ty in Ty'. injection Ty' as <-.
  destruct (walk_wfr rnd RN cf NP _ _ _ _ W (document_ok _ _ D) (fun k x Q => ltac:(discriminate Q)) ob Io) as [Wr _].
  assert (Wf : wf rnd (fst ob) (snd ob) = true) by (apply (wfr_wf rnd); assumption).
  rewrite Forall_forall in A. destruct (A _ Io) as (id' & ty' & Id' & Ty' & V). rewrite Id in Id'. injection Id' as <-. rewrite Ty in Ty'. injection Ty' as <-.
  destruct (alookup name builtin_types) as [t|] eqn:B.
  - left. split; [|exact NA]. exists name, id. apply alookup_Some_In in B. rewrite <- T in B. auto 8.
  - right. apply alookup_akeys in B. destruct ob as [t v]. cbn [fst snd] in *. subst t.
    assert (Nn : name <> "") by (intros ->; revert V; unfold has_valid_identifier; destruct (split_dd id) as [|p0 [|u [|]]]; try discriminate; destruct (String.eqb p0 "") eqn:Q; cbn [negb]; discriminate).
    destruct v; try discriminate Wf.
    + exfalso. apply Nn. cbn in Ty. now injection Ty as <-.
    + exists l, name, id. auto 10.
Qed.
(** So for every document: what is read, written and read is settled. *)
Theorem document_settles : forall rnd cf (r r' s : string) c b c' b',
  rounding rnd -> String.length r = 16%nat -> String.length r' = 16%nat -> cf_nosort cf = false -> (forall typ, parser_of cf typ = None) ->
  from_json rnd cf s = Ok c -> (forall id ob, get c id = Some ob -> own_type ob /\ names_apart ob /\ years (snd ob) = true) -> to_bundle marshal_obj r c (Ok b) ->
  from_json rnd cf (bundle_bytes b) = Ok c' -> (forall id ob, get c' id = Some ob -> names_apart ob) -> to_bundle marshal_obj r' c' (Ok b') ->
  from_json rnd cf (bundle_bytes b') = Ok c'.
Proof.
  intros rnd cf r r' s c b c' b' RN L L' Ns NP FJ Hc TB FJ' Hc' TB'. destruct (document_held rnd cf s c RN Ns NP FJ Hc) as (h & oks & R & Ids & Hd).
  exact (bundle_settles rnd cf r r' h c oks b c' b' RN L L' Ns R TB Ids Hd FJ' Hc' TB').
Qed.
Print Assumptions document_settles.

(** The condition on the second collection follows from one on the first: the
    name of an extended property or of a member of a custom object is, for every
    type of a built in object in the collection, a name of its fields or
    different from all of them in every case. *)
Definition names_in (ob : gobj) (k : string) : Prop :=
  In k (akeys (props_of (fst ob) (snd ob))) \/ exists m, ob = (ty_CustomObject, VMap m) /\ In k (akeys m).
Definition names_clear (c : coll gobj) : Prop :=
  forall id1 ob1 id2 ob2 k, get c id1 = Some ob1 -> get c id2 = Some ob2 -> names_in ob1 k ->
    key_of (fst ob2) k \/ (k <> "" /\ forall k', In k' (own_keys (fst ob2)) -> fold_key k' <> fold_key k).
Lemma returns_names rnd cf (P : string -> Prop) (ST : settled rnd) os : (forall ob k, In ob os -> names_in ob k -> P k) ->
  (forall ob k, In ob os -> P k -> key_of (fst ob) k \/ (k <> "" /\ forall k', In k' (own_keys (fst ob)) -> fold_key k' <> fold_key k)) ->
  (forall ob, In ob os -> held rnd cf ob) ->
  forall M outs, (cf_drop cf = false -> forall k, M k <> None -> P k) -> return_all rnd cf M os outs -> forall o, In o (some_of outs) -> names_apart o.
Proof.
  induction os as [|ob os IH]; intros H1 H2 Hd M outs HM RA o Io; inversion RA as [|? ? x M' ? outs' R RA']; subst; [destruct Io|].
  assert (B : (cf_drop cf = false -> forall k, M' k <> None -> P k) /\ forall y, x = Some y -> names_apart y).
  { inversion R as [t v l M1 Hb Dr HK [Sl Ll]|m M1 Dr HK|t v M1 Hb Dr|]; subst.
    - specialize (HM Dr). assert (PM : forall k, M' k <> None -> ~ key_of t k /\ P k).
      { intros k N. destruct (HK k) as [K1 K2]. destruct (key_of_dec t k) as [K|K]; [rewrite (K1 K) in N; contradiction|]. split; [exact K|]. rewrite (K2 K) in N.
        destruct (alookup k (props_of t v)) as [z|] eqn:L; [|now apply HM]. apply (H1 _ _ (or_introl eq_refl)). left. apply alookup_Some_In in L. exact (in_map fst _ _ L). }
      split; [intros _ k N; now apply PM|]. intros y Q. injection Q as <-. intros k Ik. cbn [fst snd] in *.
      assert (Il : In k (akeys l)).
      { apply in_map_iff in Hb as ([nm t'] & Q & Hb). cbn [snd] in Q. subst t'. destruct (Hd _ (or_introl eq_refl)) as [[(name & id & H & Np & Ty & Id & Va & W) PF]|(m & name & id & Q & _)]; [|injection Q as -> _; destruct (builtin_cases _ _ Hb) as (? & ? & Q & _); discriminate Q].
        cbn [fst snd] in *. assert (Pn := norm_props rnd _ _ _ H W). destruct (settle_top rnd ST name t v H W) as [W' _].
        destruct (builtin_cases _ _ H) as (n & fs & -> & _). rewrite (add_props_props name n fs l _ H (wf_shape rnd _ _ _ (builtin_flat _ _ _ H) W') Pn) in Ik.
        destruct (props_path (GStruct n fs)); [exact Ik|destruct Ik]. }
      assert (N : M' k <> None) by (rewrite <- Ll; intros Q; apply alookup_akeys in Q; contradiction). destruct (PM k N) as [NK Pk].
      destruct (H2 _ _ (or_introl eq_refl) Pk) as [K|A]; [contradiction|exact A].
    - specialize (HM Dr). split; [intros _ k N|].
      + rewrite HK in N. destruct (alookup k m) as [z|] eqn:L; [|now apply HM]. apply (H1 _ _ (or_introl eq_refl)). right. exists m. split; [reflexivity|]. apply alookup_Some_In in L. exact (in_map fst _ _ L).
      + intros y Q. injection Q as <-. intros k [].
    - split; [intros Q; congruence|]. intros y Q. injection Q as <-. destruct (Hd _ (or_introl eq_refl)) as [[(name & id & H & Np & Ty & Id & Va & W) PF]|(m & name & id & Q & _)].
      + intros k. cbn [fst snd] in *. rewrite (norm_props rnd _ _ _ H W). intros [].
      + injection Q as -> _. intros k [].
    - split; [intros Q; congruence|discriminate]. }
  destruct B as [B1 B2]. cbn [some_of flat_map] in Io. apply in_app_or in Io as [Io|Io].
  - destruct x as [y|]; [|destruct Io]. destruct Io as [<-|[]]. now apply B2.
  - exact (IH (fun ob k I => H1 ob k (or_intror I)) (fun ob k I => H2 ob k (or_intror I)) (fun ob I => Hd ob (or_intror I)) M' outs' B1 RA' o Io).
Qed.

Lemma second_apart rnd cf (r : string) (h : list (string * string * gobj)) c oks b c' : settled rnd -> String.length r = 16%nat -> cf_nosort cf = false ->
  run (new_coll false) h = (c, oks) -> to_bundle marshal_obj r c (Ok b) ->
  (forall id ty ob, In (id, ty, ob) h -> obj_id ob = Ok id) -> (forall id ob, get c id = Some ob -> held rnd cf ob) -> names_clear c ->
  from_json rnd cf (bundle_bytes b) = Ok c' -> forall id ob, get c' id = Some ob -> names_apart ob.
Proof.
  intros ST L Ns R TB Co Hd NC FJ id ob G. destruct (bundle_returns rnd cf r h c oks b L R TB Co Hd) as (os & outs & AO & RA & SN & AC & FJ1 & LI).
  rewrite FJ1, Ns in FJ. injection FJ as <-. assert (LG := listed_get _ _ _ _ _ R AO).
  refine (returns_names rnd cf (fun k => exists ob1, In ob1 os /\ names_in ob1 k) ST os _ _ _ nothing outs _ RA ob _).
  - intros ob1 k I N. eauto.
  - intros ob2 k I (ob1 & I1 & N). apply LG in I as (id2 & G2). apply LG in I1 as (id1 & G1). exact (NC _ _ _ _ _ G1 G2 N).
  - intros ob1 I. apply LG in I as (id1 & G1). exact (Hd _ _ G1).
  - intros _ k N. now contradiction N.
  - unfold collect in *. destruct (run (new_coll false) (calls_of outs)) as [c1 oks1] eqn:R'. cbn [fst] in *. apply (listed_get _ _ _ _ _ R'); [|eauto]. apply LI. symmetry. apply filter_some.
Qed.
Theorem bundle_settles_clear : forall rnd cf (r r' : string) (h : list (string * string * gobj)) c oks b c' b',
  rounding rnd -> String.length r = 16%nat -> String.length r' = 16%nat -> cf_nosort cf = false ->
  run (new_coll false) h = (c, oks) -> to_bundle marshal_obj r c (Ok b) ->
  (forall id ty ob, In (id, ty, ob) h -> obj_id ob = Ok id) ->
  (forall id ob, get c id = Some ob -> (own_object rnd cf ob /\ names_apart ob) \/ own_custom rnd cf ob) -> names_clear c ->
  from_json rnd cf (bundle_bytes b) = Ok c' -> to_bundle marshal_obj r' c' (Ok b') -> from_json rnd cf (bundle_bytes b') = Ok c'.
Proof.
  intros rnd cf r r' h c oks b c' b' Rn L L' Ns R TB Co Hd NC FJ TB'. refine (bundle_settles rnd cf r r' h c oks b c' b' Rn L L' Ns R TB Co Hd FJ _ TB').
  destruct Rn as (R1 & R2 & _). refine (second_apart rnd cf r h c oks b c' (conj R1 R2) L Ns R TB Co _ NC FJ).
  intros id ob G. destruct (Hd id ob G) as [[A B]|A]; [left; split; [exact A|now apply names_apart_free]|now right].
Qed.
Print Assumptions bundle_settles_clear.
Theorem document_settles_clear : forall rnd cf (r r' s : string) c b c' b',
  rounding rnd -> String.length r = 16%nat -> String.length r' = 16%nat -> cf_nosort cf = false -> (forall typ, parser_of cf typ = None) ->
  from_json rnd cf s = Ok c -> (forall id ob, get c id = Some ob -> own_type ob /\ names_apart ob /\ years (snd ob) = true) -> names_clear c ->
  to_bundle marshal_obj r c (Ok b) -> from_json rnd cf (bundle_bytes b) = Ok c' -> to_bundle marshal_obj r' c' (Ok b') ->
  from_json rnd cf (bundle_bytes b') = Ok c'.
Proof.
  intros rnd cf r r' s c b c' b' RN L L' Ns NP FJ Hc NC TB FJ' TB'. destruct (document_held rnd cf s c RN Ns NP FJ Hc) as (h & oks & R & Ids & Hd).
  exact (bundle_settles_clear rnd cf r r' h c oks b c' b' RN L L' Ns R TB Ids Hd NC FJ' TB').
Qed.
Print Assumptions document_settles_clear.

(** The hypotheses are met by a document with a time that is cut, an extended
    property, a custom object and names that spread to a later object. *)
Definition ex_doc : string :=
  "{""type"":""bundle"",""id"":""bundle--30313233-3435-4637-b839-616263646566"",""objects"":[" ++
  "{""type"":""malware"",""id"":""" ++ mid ++ """,""spec_version"":""2.1"",""created"":""2020-09-13T12:26:40Z"",""modified"":""2020-09-13T12:26:40.123456Z"",""is_family"":true,""x_a"":[1,2.50]}," ++
  "{""type"":""x-foo"",""id"":""" ++ cid ++ """,""x_c"":{""b"":1e3}}," ++
  "{""type"":""tool"",""id"":""" ++ tid ++ """,""spec_version"":""2.1"",""created"":""2020-09-13T12:26:40Z"",""modified"":""2020-09-13T12:26:40Z"",""name"":""n""}]}".
Definition apartb (ob : gobj) : bool :=
  forallb (fun k => negb (is_empty k) && forallb (fun k' => negb (String.eqb (fold_key k') (fold_key k))) (own_keys (fst ob))) (akeys (props_of (fst ob) (snd ob))).
Definition own_typeb (ob : gobj) : bool :=
  match obj_type ob with Ok name => match alookup name builtin_types with Some t => gty_eqb (fst ob) t | None => gty_eqb (fst ob) ty_CustomObject end | _ => false end.
Lemma apartb_ok ob : apartb ob = true -> names_apart ob.
Proof.
  intros H k I. unfold apartb in H. rewrite forallb_forall in H. specialize (H k I). apply andb_true_iff in H as [A B]. split; [intros ->; discriminate A|].
  intros k' I' Q. rewrite forallb_forall in B. specialize (B k' I'). apply negb_true_iff, String.eqb_neq in B. contradiction.
Qed.
Lemma own_typeb_ok ob : own_typeb ob = true -> own_type ob.
Proof.
  unfold own_typeb, own_type. destruct (obj_type ob) as [name| |]; try discriminate. intros H. exists name. split; [reflexivity|]. destruct (alookup name builtin_types); now apply gty_eqb_eq in H.
Qed.
Definition held_objs (c : coll gobj) : list gobj := map snd (flat_map snd (objects c)).
Lemma get_held c id ob : get c id = Some ob -> In ob (held_objs c).
Proof.
  unfold get, get_object, held_objs. destruct (split_dd id) as [|t [|u [|]]]; try discriminate. intros G.
  destruct (alookup t (objects c)) as [b|] eqn:E; [|discriminate]. apply alookup_Some_In in E, G. apply (in_map snd) in G. cbn [snd] in G.
  rewrite in_map_iff in *. destruct G as ([i o] & Q & G). exists (i, o). split; [exact Q|]. apply in_flat_map. now exists (t, b).
Qed.
Lemma held_all (P : gobj -> bool) c : forallb P (held_objs c) = true -> forall id ob, get c id = Some ob -> P ob = true.
Proof. intros H id ob G. rewrite forallb_forall in H. apply H. eapply get_held; eauto. Qed.
Definition key_ofb (t : gty) (k : string) : bool := match t with GStruct _ fs => mem_str k (tag_keys fs) | _ => false end.
Definition names_inl (ob : gobj) : list string := (akeys (props_of (fst ob) (snd ob)) ++ match ob with (GMap _ _ _, VMap m) => akeys m | _ => [] end)%list.
Definition clearb (c : coll gobj) : bool :=
  forallb (fun ob1 => forallb (fun ob2 => forallb (fun k => key_ofb (fst ob2) k ||
    (negb (is_empty k) && forallb (fun k' => negb (String.eqb (fold_key k') (fold_key k))) (own_keys (fst ob2)))) (names_inl ob1)) (held_objs c)) (held_objs c).
Lemma clearb_ok c : clearb c = true -> names_clear c.
Proof.
  intros H id1 ob1 id2 ob2 k G1 G2 N. apply get_held in G1, G2. unfold clearb in H. rewrite forallb_forall in H. specialize (H _ G1). rewrite forallb_forall in H. specialize (H _ G2).
  rewrite forallb_forall in H. specialize (H k). assert (I : In k (names_inl ob1)).
  { apply in_or_app. destruct N as [N|(m & -> & N)]; [now left|now right]. }
  apply orb_true_iff in H as [H|H]; [left|right|exact I].
  - unfold key_ofb in H. destruct (fst ob2); try discriminate. apply tag_keys_spec. now apply mem_str_In.
  - apply andb_true_iff in H as [A B]. split; [intros ->; discriminate A|]. intros k' I' Q. rewrite forallb_forall in B. specialize (B k' I'). apply negb_true_iff, String.eqb_neq in B. contradiction.
Qed.
Definition ra : string := "0123456789abcdef".
Definition rb : string := "fedcba9876543210".
Example document_settles_ex : exists c b c' b' v, from_json go_rnd default_cf ex_doc = Ok c /\
  (forall id ob, get c id = Some ob -> own_type ob /\ names_apart ob /\ years (snd ob) = true) /\ names_clear c /\
  to_bundle marshal_obj ra c (Ok b) /\ from_json go_rnd default_cf (bundle_bytes b) = Ok c' /\ get c' mid <> get c mid /\
  (forall id ob, get c' id = Some ob -> names_apart ob) /\
  get c' tid = Some (ty_Tool, v) /\ akeys (props_of ty_Tool v) = ["x_a"; "x_c"] /\
  to_bundle marshal_obj rb c' (Ok b').
Proof.
  do 5 eexists. split; [vm_compute; reflexivity|]. split.
  { intros id ob G. eapply (held_all (fun ob => own_typeb ob && apartb ob && years (snd ob))) in G; [|vm_compute; reflexivity]. rename G into X. rewrite !andb_true_iff in X. destruct X as [[X1 X2] X3].
    auto using apartb_ok, own_typeb_ok. }
  split; [apply clearb_ok; vm_compute; reflexivity|].
  split; [eexists; split; [vm_compute; reflexivity|]; vm_compute; reflexivity|].
  split; [vm_compute; reflexivity|]. split; [vm_compute; discriminate|].
  split; [intros id ob G; apply apartb_ok; eapply (held_all apartb) in G; [exact G|vm_compute; reflexivity]|]. split; [vm_compute; reflexivity|]. split; [vm_compute; reflexivity|].
  eexists. split; [vm_compute; reflexivity|]. vm_compute. reflexivity.
Qed.

(** Without the condition on the names in the second collection it is wrong: a
    custom object that was replaced by one with a member "is_family", spelled
    with a long s, is written before the malware object that was read between
    the two.  The member becomes an extended property of the malware object, is
    then written after its is_family and read in its place. *)
Definition long_s : string := String (ascii_of_N 197) (String (ascii_of_N 191) "").
Definition odd_doc : string :=
  "{""type"":""bundle"",""id"":""bundle--30313233-3435-4637-b839-616263646566"",""objects"":[" ++
  "{""type"":""x-foo"",""id"":""" ++ cid ++ """}," ++
  "{""type"":""malware"",""id"":""" ++ mid ++ """,""spec_version"":""2.1"",""created"":""2020-09-13T12:26:40Z"",""modified"":""2020-09-13T12:26:40Z"",""is_family"":true}," ++
  "{""type"":""x-foo"",""id"":""" ++ cid ++ """,""i" ++ long_s ++ "_family"":false}]}".
Theorem document_settles_refuted : exists s c b c' b' c'',
  from_json go_rnd default_cf s = Ok c /\ (forall id ob, get c id = Some ob -> own_type ob /\ names_apart ob /\ years (snd ob) = true) /\
  to_bundle marshal_obj ra c (Ok b) /\ from_json go_rnd default_cf (bundle_bytes b) = Ok c' /\
  to_bundle marshal_obj rb c' (Ok b') /\ from_json go_rnd default_cf (bundle_bytes b') = Ok c'' /\
  get c'' mid <> get c' mid.
Proof.
  exists odd_doc. do 5 eexists. split; [vm_compute; reflexivity|]. split.
  { intros id ob G. eapply (held_all (fun ob => own_typeb ob && apartb ob && years (snd ob))) in G; [|vm_compute; reflexivity]. rename G into X. rewrite !andb_true_iff in X. destruct X as [[X1 X2] X3].
    auto using apartb_ok, own_typeb_ok. }
  split; [eexists; split; [vm_compute; reflexivity|]; vm_compute; reflexivity|].
  split; [vm_compute; reflexivity|]. split; [eexists; split; [vm_compute; reflexivity|]; vm_compute; reflexivity|].
  split; [vm_compute; reflexivity|]. vm_compute. discriminate.
Qed.
Print Assumptions document_settles_refuted.
