(** Writing what was read back reproduces the text: C83. *)
From Verif Require Import GoStr GoStrFacts JsonStr JsonStrFacts StrSpec StrSpecFacts JsonSpec JsonSpecFacts Json JsonFacts Float Consts GoTypes Schema GoVal GoValFacts Codec CodecSpec CodecFacts
  StructFacts CodecRound ObjFacts TypedFacts DataTypes DataTypesFacts Ident IdentFacts Collection CollectionSpec CollectionFacts FromJson FromJsonSpec FromJsonFacts
  ReadFacts ParseFacts IndepFacts CollectFacts PropCollectionAux BundleFacts FromJsonProps Double DoubleFacts DocSpec DocFacts DocBundle SettleFacts SettleRead DocSettle PropCodec PropFromJson PropDoc PropSettle PropDocSettle RewriteFacts.

(** An object that was read and written is, when the text is read, written as
    the same text. *)
Theorem rewrite_reproduces : forall rnd name t s0 v s, rounding rnd -> In (name, t) builtin_types -> unmarshal rnd s0 t (zero t) = Ok v -> years v = true ->
  marshal_bytes t v = Ok s -> exists v', unmarshal rnd s t (zero t) = Ok v' /\ marshal_bytes t v' = Ok s.
Proof.
  intros rnd name t s0 v s R H U Y M. destruct (read_value_well_formed rnd name t s0 v R H U Y) as [W P]. assert (ST : settled rnd) by (destruct R as (A & B & _); now split).
  exists (norm_top rnd t v). split; [apply (object_round_trip rnd name); auto; rewrite P; intros k []|].
  unfold unmarshal in U. destruct (parse_json s0) as [j|] eqn:E; [|discriminate]. destruct (dec rnd j t (zero t)) as [w [|]| |] eqn:D; try discriminate. injection U as ->.
  destruct (read_tidy rnd name t j v H D) as [T _]. unfold marshal_bytes in *. apply bind_ok in M as (jx & Mx & Q). injection Q as <-.
  assert (X := rewrite_marshal rnd ST name t v [] jx H W T). rewrite P in X. cbn [add_props] in X. rewrite X; auto. intros k [].
Qed.
Print Assumptions rewrite_reproduces.

(** A text that is not in normal form: a time with more digits and an empty list. *)
Definition ex_text : string := "{""type"":""opinion"",""id"":""opinion--30313233-3435-4637-b839-616263646566"",""spec_version"":""2.1"",""created"":""2020-09-13T12:26:40Z"",""modified"":""2020-09-13T12:26:40.1234567Z"",""authors"":[],""opinion"":""agree"",""object_refs"":[""" ++ mid ++ """]}".
Example rewrite_reproduces_ex : exists v s v', unmarshal go_rnd ex_text ty_Opinion (zero ty_Opinion) = Ok v /\ years v = true /\ marshal_bytes ty_Opinion v = Ok s /\
  unmarshal go_rnd s ty_Opinion (zero ty_Opinion) = Ok v' /\ v' <> v /\ marshal_bytes ty_Opinion v' = Ok s.
Proof. do 3 eexists. split; [vm_compute; reflexivity|]. split; [vm_compute; reflexivity|]. split; [vm_compute; reflexivity|]. split; [vm_compute; reflexivity|]. split; [vm_compute; discriminate|]. vm_compute. reflexivity. Qed.

Section Doc.
Variable rnd : bool -> N -> Z -> option flt.
Hypothesis RN : rounding rnd.
Variable cf : config.
Hypothesis NP : forall typ, parser_of cf typ = None.
Let ST : settled rnd := stl rnd RN.

(** Generic values. *)
Definition plain (M : memory) : Prop := forall k x, M k = Some x -> json_like x = true.
Lemma plain_norm x : wf rnd GIface x = true -> json_like x = true -> norm rnd GIface x = x.
Proof. intros W L. apply norm_canon; [exact W|]. destruct x; try discriminate L; [reflexivity|exact L]. Qed.
Lemma overridden_plain M ms M' : json_okb (JObj ms) = true -> plain M -> overridden rnd M ms M' -> plain M'.
Proof.
  intros O S [_ H] k x Q. specialize (H k). destruct (last_member k ms) as [y|] eqn:L; [|rewrite H in Q; eapply S; eauto].
  destruct H as (z & G & E). apply last_member_In in L. assert (Oy := okb_In _ _ _ O L). apply generic_dec in G; [|exact Oy]. rewrite E in Q. injection Q as <-.
  exact (dec_any_like rnd y z G).
Qed.
Definition within (N M : memory) : Prop := forall k, N k <> None -> M k <> None.
Lemma overridden_within M ms M' : overridden rnd M ms M' -> within M M'.
Proof. intros [_ H] k Nk. specialize (H k). destruct (last_member k ms); [destruct H as (y & _ & ->); discriminate|now rewrite H]. Qed.

Definition again (o : gobj) (o2 : option gobj) : Prop := exists x, o2 = Some x /\ forall s, marshal_obj o = Ok s -> marshal_obj x = Ok s.
Lemma again_builtin name t v l : In (name, t) builtin_types -> wf rnd t v = true -> tidy_top t v -> names_free (t, v) -> l = props_of t v ->
  forall s, marshal_obj (t, v) = Ok s -> marshal_obj (t, add_props t l (norm_top rnd t v)) = Ok s.
Proof.
  intros H W T NF E s M. unfold marshal_obj, marshal_bytes in *. cbn [fst snd] in *. apply bind_ok in M as (j & M & Q). injection Q as <-.
  rewrite (rewrite_marshal rnd ST name t v l j H W T); auto. intros k Ik. destruct (NF k Ik) as [F _]. intros Io. unfold free_name in F. cbn [fst] in F. apply negb_true_iff in F.
  assert (X : existsb (fun k' => String.eqb (fold_key k') (fold_key k)) (own_keys t) = true) by (apply existsb_exists; exists k; split; [exact Io|apply String.eqb_refl]). congruence.
Qed.
Lemma tidy_add name t l v : In (name, t) builtin_types -> (forall n fs, t = GStruct n fs -> shape fs v) -> tidy_top t v -> tidy_top t (add_props t l v).
Proof.
  intros H Sh T. destruct (builtin_cases _ _ H) as (n & fs & -> & [(M & O & P)|(M & O & P)]); cbn [tidy_top] in *; rewrite M in *.
  - intros p m t' HP K. rewrite (add_props_own name n fs l v p m t' H (Sh _ _ eq_refl) HP K). eauto.
  - unfold add_props. rewrite P. destruct l; exact T.
Qed.
Lemma dec_mems_keys (f : json -> dres gval) ms : forall acc m, dec_mems f ms acc = DOk m false -> forall k, In k (akeys m) -> In k (akeys acc) \/ exists x, In (k, x) ms.
Proof.
  induction ms as [|[k0 x] ms IH]; intros acc m D k Ik; cbn [dec_mems] in D; [injection D as <-; now left|]. fold (dec_mems f) in D.
  apply dbind_ok in D as (w & D1 & D2). destruct (IH _ _ D2 k Ik) as [A|(y & A)]; [|right; exists y; now right].
  apply akeys_minsert in A as [->|A]; [right; exists x; now left|now left].
Qed.

Lemma step_again M N j ob M' : json_okb j = true -> plain M -> (cf_drop cf = false -> within N M) -> step rnd cf M j (Some ob) M' -> held rnd cf ob ->
  plain M' /\ forall o2 N', returns rnd cf N ob o2 N' -> again ob o2 /\ (cf_drop cf = false -> within N' M').
Proof.
  intros O PM WN St Hd. inversion St as [|ms M1 Ov|ms M1 typ Ov|ms M1 typ t v0 v Ov Ty Rc U Dr|ms M1 typ t v0 v l M2 Ov Ty Rc U Dr F [Sl Ll]]; subst; clear St.
  - split; [eapply overridden_plain; eauto|]. intros o2 N' R. split; [|congruence].
    apply unmarshal_dec in U; [|exact O]. inversion Rc as [h o P|t' P H|P H D]; subst; [rewrite NP in P; discriminate| |congruence].
    destruct Hd as [[(name & id & Hb & _ & _ & _ & _ & W) PF]|(m & name & id & Q & _)]; [|injection Q as -> _; destruct (builtin_cases _ _ H) as (? & ? & Q & _); discriminate Q].
    cbn [fst snd] in *. destruct (read_tidy rnd typ t _ v H U) as [T _]. inversion R; subst; try congruence.
    + eexists. split; [reflexivity|]. assert (P0 := dec_props rnd typ t _ v _ H U). assert (X := again_builtin typ t v [] H W T PF). rewrite P0 in X. cbn [add_props] in X. now apply X.
    + destruct (builtin_cases _ _ H) as (? & ? & Q & _). discriminate Q.
  - assert (PM1 := overridden_plain _ _ _ O PM Ov). specialize (WN Dr).
    assert (PM2 : plain M'). { intros k x Q. destruct (F k) as [F1 F2]. destruct (key_of_dec t k) as [K|K]; [rewrite (F1 K) in Q; discriminate|]. rewrite (F2 K) in Q. eapply PM1; eauto. }
    split; [exact PM2|]. intros o2 N' R. assert (W1 : within N M1) by (intros k Q; eapply overridden_within; eauto).
    apply unmarshal_dec in U; [|exact O]. inversion Rc as [h o P|t' P H|P H D]; subst; [rewrite NP in P; discriminate| |].
    + destruct Hd as [[(name & id & Hb & _ & _ & _ & _ & W) PF]|(m & name & id & Q & _)]; [|injection Q as -> _; destruct (builtin_cases _ _ H) as (? & ? & Q & _); discriminate Q].
      cbn [fst snd] in *. destruct (read_tidy rnd typ t _ v H U) as [T Nt]. assert (P0 := dec_props rnd typ t _ v _ H U).
      assert (Sh : forall n fs, t = GStruct n fs -> shape fs v).
      { intros n fs ->. destruct (builtin_read _ _ H) as (n' & fs' & Q & _ & _ & _ & _ & _ & _ & Fl & _). injection Q as <- <-. exact (dec_shape rnd _ _ _ _ _ Fl U). }
      assert (T' := tidy_add typ t l v H Sh T).
      assert (Po : props_of t (add_props t l v) = match props_path t with Some _ => l | None => [] end).
      { destruct (builtin_cases _ _ H) as (n & fs & -> & _). exact (add_props_props typ n fs l v H (Sh _ _ eq_refl) P0). }
      inversion R as [t2 v2 l2 M2 Hb2 Dr2 HM2 [Sl2 Ll2]|m2 M2 Dr2 HM2|t2 v2 M2 Hb2 Dr2|]; subst; try congruence.
      2:{ destruct (builtin_cases _ _ H) as (? & ? & Q & _). discriminate Q. }
      rewrite Po in HM2. split.
      * eexists. split; [reflexivity|]. destruct (props_path t) as [p|] eqn:E.
        -- assert (l2 = l) as ->.
           { apply msorted_ext; auto. intros k. rewrite Ll2, Ll. destruct (F k) as [F1 F2]. destruct (HM2 k) as [G1 G2]. destruct (key_of_dec t k) as [K|K]; [now rewrite F1, G1|]. rewrite (G2 K).
             destruct (alookup k l) as [x|] eqn:L.
             - rewrite <- Ll, L. f_equal. assert (Mk := Ll k). rewrite L in Mk. symmetry in Mk. apply plain_norm; [|eapply PM2; eauto].
               apply alookup_Some_In in L. apply (props_fine rnd typ t _ H W k x). rewrite Po. exact L.
             - rewrite <- Ll, L. destruct (N k) eqn:Nk; [|reflexivity]. exfalso. apply (W1 k); [now rewrite Nk|]. rewrite <- (F2 K), <- Ll. exact L. }
           apply (again_builtin typ t _ l H W T' PF). now rewrite Po.
        -- assert (Q : forall l v, add_props t l v = v) by (intros [|] ?; unfold add_props; rewrite ?E; reflexivity). rewrite !Q in *.
           assert (X := again_builtin typ t v [] H W T PF). rewrite P0 in X. cbn [add_props] in X. now apply X.
      * intros _ k Nk. destruct (F k) as [F1 F2]. destruct (HM2 k) as [G1 G2]. destruct (key_of_dec t k) as [K|K]; [now rewrite G1 in Nk|]. rewrite (G2 K) in Nk. rewrite (F2 K).
        destruct (props_path t) as [p|]; cbn [alookup] in Nk; [|now apply W1]. destruct (alookup k l) eqn:L; [|now apply W1]. rewrite <- (F2 K), <- Ll, L. discriminate.
    + destruct Hd as [[(name & id & Hb & _) _]|(m & name & id & Q & _ & _ & _ & _ & _ & _ & W)]; [destruct (builtin_cases _ _ Hb) as (? & ? & Q & _); discriminate Q|].
      assert (Ea : forall x, add_props ty_CustomObject l x = x) by (intros x; unfold add_props; now destruct l). rewrite Ea in *. injection Q as ->.
      inversion R as [t2 v2 l2 M2 Hb2 Dr2 HM2 [Sl2 Ll2]|m2 M2 Dr2 HM2|t2 v2 M2 Hb2 Dr2|]; subst; try congruence.
      { exfalso. apply in_map_iff in Hb2 as ([nm t'] & Q & Hb2). cbn [snd] in Q. subst t'. destruct (builtin_cases _ _ Hb2) as (? & ? & Q & _). discriminate Q. }
      unfold ty_CustomObject in U. rewrite dec_map_obj in U. apply dbind_ok in U as (m' & D1 & D2). injection D2 as ->.
      split.
      * eexists. split; [reflexivity|]. intros s Ms.
        assert (Nt : neat ty_CustomObject (VMap m) = true) by (refine (dec_neat rnd (JObj ms) ty_CustomObject (VMap []) (VMap m) eq_refl eq_refl eq_refl _); unfold ty_CustomObject; rewrite dec_map_obj; cbn [old_map] in *; now rewrite D1).
        assert (En : norm rnd ty_CustomObject (VMap m) = VMap m); [|now rewrite En].
        unfold ty_CustomObject in *. cbn [CodecSpec.norm CodecSpec.wf neat] in *. f_equal. apply andb_true_iff in Nt as [_ Nt]. apply andb_true_iff in W as [_ W]. rewrite forallb_forall in Nt, W.
        rewrite <- (map_id m) at 2. apply map_ext_in. intros [k x] Hx. specialize (Nt _ Hx). specialize (W _ Hx). cbn [fst snd] in *. apply andb_true_iff in W as [_ W]. f_equal. apply plain_norm; [exact W|].
        destruct x; try discriminate W; [reflexivity|exact Nt].
      * intros _ k Nk. rewrite HM2 in Nk. destruct (F k) as [_ F2]. rewrite (F2 (fun Q => ltac:(inversion Q))).
        destruct (alookup k m) as [x|] eqn:L; [|now apply W1]. apply alookup_Some_In in L. destruct (dec_mems_keys _ _ _ _ D1 k (in_map fst _ _ L)) as [[]|(y & Hy)].
        destruct Ov as [_ Ov]. specialize (Ov k). destruct (last_member k ms) eqn:Lm; [destruct Ov as (z & _ & ->); discriminate|]. exfalso. apply last_member_None in Lm. apply Lm. exact (in_map fst _ _ Hy).
Qed.

Lemma walk_again M js outs M' : walk rnd cf M js outs M' -> forallb json_okb js = true -> ~ In JNull js -> plain M ->
  (forall ob, In ob (some_of outs) -> held rnd cf ob) -> forall N outs2, (cf_drop cf = false -> within N M) -> return_all rnd cf N (some_of outs) outs2 -> Forall2 again (some_of outs) outs2.
Proof.
  induction 1 as [|M j o M1 js os M2 St W IH]; intros O Nn PM Hd N outs2 WN RA; [inversion RA; constructor|].
  cbn [forallb] in O. apply andb_true_iff in O as [O1 O2]. assert (Nn' : ~ In JNull js) by (intros I; apply Nn; now right). destruct o as [ob|].
  - cbn [some_of flat_map app] in *. fold (some_of os) in *. inversion RA as [|? ? o2 N' ? outs3 R RA']; subst.
    destruct (step_again M N j ob M1 O1 PM WN St (Hd _ (or_introl eq_refl))) as [PM1 H2]. destruct (H2 _ _ R) as [Ag WN']. constructor; [exact Ag|].
    exact (IH O2 Nn' PM1 (fun x Hx => Hd x (or_intror Hx)) N' outs3 WN' RA').
  - cbn [some_of flat_map app] in *. fold (some_of os) in *. 
    assert (X : plain M1 /\ within M M1).
    { inversion St as [|ms M3 Ov|ms M3 typ Ov|ms M3 typ t v0 v Ov|ms M3 typ t v0 v l M4 Ov]; subst; [exfalso; apply Nn; now left| |]; (split; [eapply overridden_plain; eauto|eapply overridden_within; eauto]). }
    destruct X as [PM1 W1]. refine (IH O2 Nn' PM1 Hd N outs2 _ RA). intros Dr k Nk. apply W1. now apply WN.
Qed.
End Doc.

Lemma listed_ids outs : Forall acceptable outs -> NoDup (map obj_id (some_of outs)) -> forall l, all_objects (collect false outs) l <-> l = map Some (some_of outs).
Proof.
  intros A ND l. assert (F : exists ids, map obj_id (some_of outs) = map (@Ok string) ids).
  { clear ND. induction A as [|o outs Ao A (ids & E)]; [now exists []|]. destruct o as [ob|]; [|now exists ids]. destruct Ao as (id & ty & Id & _). exists (id :: ids). cbn [some_of flat_map app map]. fold (some_of outs). now rewrite Id, E. }
  destruct F as (ids & E). rewrite E in ND. apply NoDup_map_inv in ND.
  unfold collect. rewrite calls_some. fold (collect false (map Some (some_of outs))). apply (collect_all ids); [exact ND| |].
  - clear A ND. revert ids E. induction (some_of outs) as [|ob os IH]; intros [|id ids] E; try discriminate; constructor; cbn [map] in E; [congruence|]. apply IH. congruence.
  - apply Forall_forall. intros o Ho. apply in_map_iff in Ho as (ob & <- & Ho). rewrite Forall_forall in A. apply A.
    unfold some_of in Ho. apply in_flat_map in Ho as ([ob'|] & H1 & H2); [|destruct H2]. destruct H2 as [<-|[]]. exact H1.
Qed.
Lemma enc_again os outs : Forall2 again os outs -> forall ds, enc_all marshal_obj (map Some os) = Ok ds -> enc_all marshal_obj (filter (fun o => match o with Some _ => true | None => false end) outs) = Ok ds.
Proof.
  induction 1 as [|o o2 os outs (x & -> & Hx) F IH]; intros ds E; [exact E|]. cbn [map enc_all filter] in *. apply bind_ok in E as (d & E1 & E). apply bind_ok in E as (ds' & E2 & E).
  rewrite (Hx _ E1), (IH _ E2). exact E.
Qed.

(** A document without null values and without repeated identifiers that was
    read and written is, when the written text is read, written as the same
    objects, whatever the option for custom data. *)
Theorem document_rewrites : forall rnd cf (r r' s : string) js outs M c b c' x,
  rounding rnd -> String.length r = 16%nat -> String.length r' = 16%nat -> cf_nosort cf = false -> (forall typ, parser_of cf typ = None) ->
  document js s -> ~ In JNull js -> walk rnd cf nothing js outs M -> Forall acceptable outs -> NoDup (map obj_id (some_of outs)) ->
  from_json rnd cf s = Ok c -> (forall id ob, get c id = Some ob -> own_type ob /\ names_apart ob /\ years (snd ob) = true) -> to_bundle marshal_obj r c (Ok b) ->
  from_json rnd cf (bundle_bytes b) = Ok c' -> to_bundle marshal_obj r' c' x ->
  x = Ok (Bundle "bundle" (new_identifier r' "bundle") (b_objects b)).
Proof.
  intros rnd cf r r' s js outs M c b c' x RN L L' Ns NP D Nn W A ND FJ Hc TB FJ' TB'.
  destruct (document_held rnd cf s c RN Ns NP FJ Hc) as (h & oks & R & Ids & Hd0).
  assert (Hd : forall id ob, get c id = Some ob -> held rnd cf ob) by (intros id ob G; destruct (Hd0 id ob G) as [[A' B]|A']; [left; split; [exact A'|now apply names_apart_free]|now right]).
  destruct (bundle_returns rnd cf r h c oks b L R TB Ids Hd) as (os & outs2 & AO & RA & SN & AC & FJ1 & LI).
  rewrite FJ1, Ns in FJ'. injection FJ' as <-.
  assert (Ec : c = collect false outs).
  { assert (X : from_json rnd cf s = Ok (collect (cf_nosort cf) outs)) by (apply from_json_walk; exists js, outs, M; auto). rewrite Ns in X. congruence. }
  assert (AOc := listed_ids outs A ND). rewrite <- Ec in AOc.
  assert (os = some_of outs) as -> by (apply AOc in AO; now apply map_some_inj).
  assert (Ag : Forall2 again (some_of outs) outs2).
  { eapply (walk_again rnd RN cf NP); [exact W|exact (document_ok _ _ D)|exact Nn|intros k y Q; discriminate Q| | |exact RA].
    - intros ob Io. apply (listed_get _ _ _ _ _ R AO) in Io as (id & G). exact (Hd _ _ G).
    - intros _ k Q. now contradiction Q. }
  destruct TB as (l & Al & Eb). destruct TB' as (l' & Al' & ->). apply LI in Al'. subst l'. apply AOc in Al. subst l.
  unfold new_bundle in *. symmetry in Eb. apply bind_ok in Eb as (ds & E & Q). injection Q as <-. cbn [b_objects]. now rewrite (enc_again _ _ Ag _ E).
Qed.
Print Assumptions document_rewrites.

(** The hypotheses are met by an array with a time that is cut, an extended
    property, a custom object and names that spread to a later object. *)
Definition sdo_rest : list (string * json) := [("spec_version", JStr "2.1"); ("created", JStr "2020-09-13T12:26:40Z"); ("modified", JStr "2020-09-13T12:26:40.1234567Z")].
Definition ex_js : list json := [mal (sdo_rest ++ [("x_a", JArr [JNum "1"; JNum "2.50"]); ("kill_chain_phases", JNull)]); JObj [("x_b", JNum "1e3")]; cust [("x_c", JObj [("b", JBool true)])]; tool sdo_rest].
Example document_rewrites_ex : exists outs M c b c' v, document ex_js (arr ex_js) /\ ~ In JNull ex_js /\
  walk go_rnd default_cf nothing ex_js outs M /\ Forall acceptable outs /\ NoDup (map obj_id (some_of outs)) /\ from_json go_rnd default_cf (arr ex_js) = Ok c /\
  (forall id ob, get c id = Some ob -> own_type ob /\ names_apart ob /\ years (snd ob) = true) /\ to_bundle marshal_obj ra c (Ok b) /\
  from_json go_rnd default_cf (bundle_bytes b) = Ok c' /\ get c' tid = Some (ty_Tool, v) /\ akeys (props_of ty_Tool v) = ["x_a"; "x_b"; "x_c"].
Proof.
  assert (D : document ex_js (arr ex_js)) by (apply arr_document; reflexivity).
  assert (E : exists outs c b c' v, read_all go_rnd default_cf ex_js VNil = Ok outs /\ NoDup (map obj_id (some_of outs)) /\ from_json go_rnd default_cf (arr ex_js) = Ok c /\
    (forall id ob, get c id = Some ob -> own_type ob /\ names_apart ob /\ years (snd ob) = true) /\ to_bundle marshal_obj ra c (Ok b) /\
    from_json go_rnd default_cf (bundle_bytes b) = Ok c' /\ get c' tid = Some (ty_Tool, v) /\ akeys (props_of ty_Tool v) = ["x_a"; "x_b"; "x_c"]).
  { do 5 eexists. split; [vm_compute; reflexivity|]. split.
    { vm_compute. repeat constructor; cbn [In]; intuition discriminate. }
    split; [vm_compute; reflexivity|]. split.
    { intros id ob G. eapply (held_all (fun ob => own_typeb ob && apartb ob && years (snd ob))) in G; [|vm_compute; reflexivity]. rename G into X. rewrite !andb_true_iff in X. destruct X as [[X1 X2] X3].
      auto using apartb_ok, own_typeb_ok. }
    split; [eexists; split; [vm_compute; reflexivity|]; vm_compute; reflexivity|].
    split; [vm_compute; reflexivity|]. split; [vm_compute; reflexivity|]. vm_compute. reflexivity. }
  destruct E as (outs & c & b & c' & v & R & N & F & O & T & F' & G & K). destruct (proj1 (read_all_walk go_rnd default_cf _ (document_ok _ _ D) VNil nothing _ holds0) R) as (M & W & A).
  exists outs, M, c, b, c', v. split; [exact D|]. split; [cbn [ex_js In]; intuition discriminate|]. auto 12.
Qed.

(** With a null value in the document it is wrong: the null keeps the names of
    the first object from the second, and is not written. *)
Definition null_js : list json := [mal (sdo_rest ++ [("x_a", JNum "1")]); JNull; tool sdo_rest].
Theorem document_rewrites_refuted : exists js outs M c b c' b', document js (arr js) /\
  walk go_rnd default_cf nothing js outs M /\ Forall acceptable outs /\ NoDup (map obj_id (some_of outs)) /\ from_json go_rnd default_cf (arr js) = Ok c /\
  (forall id ob, get c id = Some ob -> own_type ob /\ names_apart ob /\ years (snd ob) = true) /\ to_bundle marshal_obj ra c (Ok b) /\
  from_json go_rnd default_cf (bundle_bytes b) = Ok c' /\ to_bundle marshal_obj rb c' (Ok b') /\ b_objects b' <> b_objects b.
Proof.
  assert (D : document null_js (arr null_js)) by (apply arr_document; reflexivity). exists null_js.
  assert (E : exists outs c b c' b', read_all go_rnd default_cf null_js VNil = Ok outs /\ NoDup (map obj_id (some_of outs)) /\ from_json go_rnd default_cf (arr null_js) = Ok c /\
    (forall id ob, get c id = Some ob -> own_type ob /\ names_apart ob /\ years (snd ob) = true) /\ to_bundle marshal_obj ra c (Ok b) /\
    from_json go_rnd default_cf (bundle_bytes b) = Ok c' /\ to_bundle marshal_obj rb c' (Ok b') /\ b_objects b' <> b_objects b).
  { do 5 eexists. split; [vm_compute; reflexivity|]. split.
    { vm_compute. repeat constructor; cbn [In]; intuition discriminate. }
    split; [vm_compute; reflexivity|]. split.
    { intros id ob G. eapply (held_all (fun ob => own_typeb ob && apartb ob && years (snd ob))) in G; [|vm_compute; reflexivity]. rename G into X. rewrite !andb_true_iff in X. destruct X as [[X1 X2] X3].
      auto using apartb_ok, own_typeb_ok. }
    split; [eexists; split; [vm_compute; reflexivity|]; vm_compute; reflexivity|].
    split; [vm_compute; reflexivity|]. split; [eexists; split; [vm_compute; reflexivity|]; vm_compute; reflexivity|]. vm_compute. discriminate. }
  destruct E as (outs & c & b & c' & b' & R & N & F & O & T & F' & T' & X). destruct (proj1 (read_all_walk go_rnd default_cf _ (document_ok _ _ D) VNil nothing _ holds0) R) as (M & W & A).
  exists outs, M, c, b, c', b'. auto 12.
Qed.
Print Assumptions document_rewrites_refuted.
