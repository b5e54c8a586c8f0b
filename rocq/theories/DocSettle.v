(** Writing and reading again what was read from a bundle (for C82). *)
From Verif Require Import GoStr GoStrFacts JsonStr JsonStrFacts StrSpec StrSpecFacts JsonSpec JsonSpecFacts Json JsonFacts Float Consts GoTypes Schema GoVal GoValFacts Codec CodecSpec CodecFacts
  StructFacts CodecRound ObjFacts TypedFacts MadeFacts DataTypes DataTypesFacts Ident IdentFacts Collection CollectionSpec CollectionFacts FromJson FromJsonSpec FromJsonFacts
  ReadFacts ParseFacts IndepFacts CollectFacts PropCollectionAux BundleFacts FromJsonProps DocSpec DocFacts DocBundle SettleFacts.

Section D.
Variable rnd : bool -> N -> Z -> option flt.
Hypothesis ST : settled rnd.
Variable cf : config.

(** Names and values as they are after a first reading. *)
Definition fine (M : memory) : Prop := forall k x, M k = Some x -> utf8b k = true /\ wf rnd GIface x = true /\ norm rnd GIface x = x.
Lemma norm_fine x : wf rnd GIface x = true -> wf rnd GIface (norm rnd GIface x) = true /\ norm rnd GIface (norm rnd GIface x) = norm rnd GIface x.
Proof. intros W. destruct (proj1 (settle rnd ST x) _ W) as (A & B & _). split; [exact A|]. now apply norm_canon. Qed.

(** ** Extended properties and the rest of an object *)
Lemma norm_flds_replace g f x fs : forall vs, (forall m t old, In (m, t) fs -> fm_name m = f -> g m t x = g m t old) ->
  wf_fields (wf rnd) fs vs = true -> norm_flds g fs (areplace f x vs) = norm_flds g fs vs.
Proof.
  induction fs as [|[m t] fs IH]; intros [|[nm y] vs] H W; cbn [wf_fields] in W; try discriminate; [reflexivity|].
  rewrite !andb_true_iff in W. destruct W as [[W1 W2] W3]. cbn [areplace]. destruct (String.eqb f nm) eqn:E; cbn [norm_flds].
  - apply String.eqb_eq in E. subst nm. apply String.eqb_eq in W1. f_equal. f_equal. apply H; [now left|]. auto.
  - f_equal. apply IH; [|exact W3]. intros m' t' old Hin. apply H. now right.
Qed.
Lemma norm_flds_at g f x x' fs : forall vs, (forall m t, In (m, t) fs -> fm_name m = f -> g m t x = g m t x') -> NoDup (names fs) ->
  wf_fields (wf rnd) fs vs = true -> alookup f vs = Some x' -> norm_flds g fs (areplace f x vs) = norm_flds g fs vs.
Proof.
  induction fs as [|[m t] fs IH]; intros [|[nm y] vs] H ND W L; cbn [wf_fields] in W; try discriminate.
  rewrite !andb_true_iff in W. destruct W as [[W1 W2] W3]. cbn [areplace]. cbn [alookup] in L. destruct (String.eqb f nm) eqn:E; cbn [norm_flds].
  - apply String.eqb_eq in E. subst nm. apply String.eqb_eq in W1. injection L as ->. f_equal. f_equal. apply H; [now left|]. auto.
  - f_equal. inversion ND; subst. apply IH; auto. intros m' t' Hin. apply H. now right.
Qed.
Lemma norm_top_add name t l v : In (name, t) builtin_types -> wf rnd t v = true -> norm_top rnd t (add_props t l v) = norm_top rnd t v.
Proof.
  intros H W. unfold add_props. destruct l as [|kv l]; [reflexivity|]. destruct (props_path t) as [p|] eqn:E; [|reflexivity].
  destruct (builtin_cases _ _ H) as (n & fs & -> & [(M & O & P)|(M & O & P)]); [|congruence].
  destruct (builtin_props _ _ _ _ H E) as (m & HP & K). destruct (builtin_read _ _ H) as (n' & fs' & Q & _ & _ & _ & _ & _ & _ & F & _). injection Q as <- <-.
  unfold norm_top. cbn [ty_name]. rewrite M. destruct (wf_struct _ _ _ _ W) as (vs & -> & WF). destruct F as (N & Kk & Eb).
  destruct HP as [m t Hin Em|mb nb fsb m t Hin Em Hin']; cbn [set_path set_field norm_obj]; f_equal.
  - apply norm_flds_replace; [|exact WF]. intros m' t' old Hin' Q.
    assert (X := names_inj _ _ _ _ _ N Hin Hin' (eq_sym Q)); injection X as <- <-. rewrite Em. unfold norm_field. now rewrite K.
  - destruct (combine_ex _ vs _ (wf_fields_len _ _ _ WF) Hin) as ([nm y] & Hc). assert (G := combine_get _ _ _ _ _ _ _ N WF Hc).
    destruct (wf_fields_combine _ _ _ WF _ _ _ _ Hc) as [_ Wy]. destruct (wf_struct _ _ _ _ Wy) as (ws & -> & WFy).
    destruct (Eb _ _ Hin Em) as (n2 & fs2 & Q & N'). injection Q as <- <-.
    unfold get_field in G. destruct (alookup (fm_name mb) vs) as [z|] eqn:Lz; [|discriminate]. subst z. unfold get_field. rewrite Lz. cbn [set_field].
    eapply norm_flds_at; [|exact N|exact WF|exact Lz]. intros m' t' Hin2 Q. assert (X := names_inj _ _ _ _ _ N Hin Hin2 (eq_sym Q)); injection X as <- <-. rewrite Em. f_equal.
    apply norm_flds_replace; [|exact WFy]. intros m2 t2 old Hin3 Q2. assert (X := names_inj _ _ _ _ _ N' Hin' Hin3 (eq_sym Q2)); injection X as <- <-. unfold norm_field. now rewrite K.
Qed.

Lemma builtin_flat name n fs : In (name, GStruct n fs) builtin_types -> flat_ok fs.
Proof. intros H. destruct (builtin_read _ _ H) as (n' & fs' & Q & _ & _ & _ & _ & _ & _ & F & _). injection Q as <- <-. exact F. Qed.
Lemma wf_add name t l v : In (name, t) builtin_types -> wf rnd t v = true -> msorted l = true ->
  (forall k x, In (k, x) l -> utf8b k = true /\ wf rnd GIface x = true) -> wf rnd t (add_props t l v) = true.
Proof.
  intros H W S Hl. unfold add_props. destruct l as [|kv l]; [exact W|]. destruct (props_path t) as [p|] eqn:E; [|exact W].
  destruct (builtin_cases _ _ H) as (n & fs & -> & _). destruct (builtin_props _ _ _ _ H E) as (m & HP & K).
  eapply wf_set_path; [exact (builtin_flat _ _ _ H)|exact W|exact HP|]. cbn [CodecSpec.wf ty_CustomObject]. rewrite S. cbn [andb].
  apply forallb_forall. intros [k x] Hin. destruct (Hl _ _ Hin) as [A B]. cbn [fst snd]. now rewrite A, B.
Qed.
Lemma props_fine name t v : In (name, t) builtin_types -> wf rnd t v = true ->
  forall k x, In (k, x) (props_of t v) -> utf8b k = true /\ wf rnd GIface x = true.
Proof.
  intros H W. unfold props_of. destruct (props_path t) as [p|] eqn:E; [|intros k x []].
  destruct (builtin_cases _ _ H) as (n & fs & -> & _). destruct (builtin_props _ _ _ _ H E) as (m & HP & K).
  assert (X := wf_path _ _ _ _ _ _ _ (builtin_flat _ _ _ H) W HP). destruct (get_path p v) as [| | | | | | | |w| | | | |]; try (intros k x []).
  destruct w; try (intros k x []). cbn [CodecSpec.wf ty_CustomObject] in X. rewrite !andb_true_iff in X. destruct X as [_ [_ X]].
  rewrite forallb_forall in X. intros k x Hin. specialize (X _ Hin). cbn [fst snd] in X. now apply andb_true_iff in X.
Qed.
Lemma norm_props name t v : In (name, t) builtin_types -> wf rnd t v = true -> props_of t (norm_top rnd t v) = [].
Proof.
  intros H W. unfold props_of. destruct (props_path t) as [p|] eqn:E; [|reflexivity].
  destruct (builtin_cases _ _ H) as (n & fs & -> & [(M & O & P)|(M & O & P)]); [|congruence]. destruct (builtin_props _ _ _ _ H E) as (m & HP & K).
  unfold norm_top. cbn [ty_name]. rewrite M, (norm_obj_path rnd _ _ _ _ _ _ O W HP). unfold norm_field. now rewrite K.
Qed.
Lemma norm_top_idem name t v : In (name, t) builtin_types -> wf rnd t v = true -> norm_top rnd t (norm_top rnd t v) = norm_top rnd t v.
Proof. intros H W. destruct (settle_top rnd ST name t v H W) as [W' C']. exact (norm_top_canon rnd name t _ H W' C'). Qed.

(** ** One object *)
Definition names_free (ob : gobj) : Prop := forall k, In k (akeys (props_of (fst ob) (snd ob))) -> free_name (fst ob) k = true /\ k <> "".
(** Unless custom properties are dropped, both runs remember the same. *)
Definition in_step (M N : memory) : Prop := cf_drop cf = false -> fine M /\ forall k, N k = M k.

Lemma settle_returns M N ob o M' : held rnd cf ob -> in_step M N -> returns rnd cf M ob (Some o) M' ->
  obj_id o = obj_id ob -> obj_type o = obj_type ob -> names_free o ->
  held rnd cf o /\ (cf_drop cf = false -> fine M') /\ forall o2 N', returns rnd cf N o o2 N' -> o2 = Some o /\ in_step M' N'.
Proof.
  intros Hd IS R EI ET NF. inversion R as [t v l M1 Hb Dr HM [Sl Ll]|m M1 Dr HM|t v M1 Hb Dr|]; subst; clear R.
  - destruct Hd as [[(name & id & H & Np & Ty & Id & Va & W) PF]|(m & name & id & Q & _)]; [|injection Q as -> _; exfalso; apply in_map_iff in Hb as ([nm t'] & Q & Hb); cbn [snd] in Q; subst t'; destruct (builtin_cases _ _ Hb) as (? & ? & Q & _); discriminate Q].
    cbn [fst snd] in *. destruct (settle_top rnd ST name t v H W) as [W' C']. destruct (IS Dr) as [FM NM].
    assert (FM' : fine M').
    { intros k x Hk. destruct (HM k) as [Hy Hn]. destruct (alookup k l) as [y|] eqn:La; [|congruence].
      assert (NK : ~ key_of t k) by (intros Kk; specialize (Hy Kk); congruence). rewrite (Hn NK) in Hk. destruct (alookup k (props_of t v)) as [z|] eqn:Lz.
      - apply alookup_Some_In in Lz. destruct (props_fine _ _ _ H W _ _ Lz) as [U Wz]. injection Hk as <-. split; [exact U|]. now apply norm_fine.
      - now apply FM. }
    assert (Hl : forall k x, In (k, x) l -> M' k = Some x).
    { intros k x Hin. rewrite <- Ll. apply alookup_In; [now apply msorted_nodup|exact Hin]. }
    assert (Wo : wf rnd t (add_props t l (norm_top rnd t v)) = true).
    { apply (wf_add name); auto. intros k x Hin. destruct (FM' _ _ (Hl _ _ Hin)) as (A & B & _). auto. }
    split; [|split; [intros _; exact FM'|]].
    + left. split; [|exact NF]. exists name, id. cbn [fst snd]. rewrite EI, ET. auto 8.
    + assert (Po : props_of t (add_props t l (norm_top rnd t v)) = match props_path t with Some _ => l | None => [] end).
      { destruct (builtin_cases _ _ H) as (n & fs & -> & _). apply (add_props_props name); auto; [|now apply (norm_props name)]. exact (wf_shape rnd _ _ _ (builtin_flat _ _ _ H) W'). }
      intros o2 N' R2. inversion R2 as [t2 v2 l2 M2 Hb2 Dr2 HM2 [Sl2 Ll2]|m2 M2 Dr2 HM2|t2 v2 M2 Hb2 Dr2|]; subst; try congruence.
      2:{ exfalso. destruct (builtin_cases _ _ H) as (? & ? & Q & _). discriminate Q. }
      assert (NN : forall k, N' k = M' k).
      { intros k. destruct (HM k) as [Hy Hn]. destruct (HM2 k) as [Hy2 Hn2]. rewrite Po in Hn2.
        destruct (key_of_dec t k) as [Kk|Kk]; [now rewrite Hy, Hy2|]. rewrite (Hn2 Kk). destruct (props_path t) as [p|] eqn:E.
        - destruct (alookup k l) as [x|] eqn:La.
          + assert (Mk := Ll k). rewrite La in Mk. symmetry in Mk. destruct (FM' _ _ Mk) as (_ & _ & Nx). now rewrite Nx.
          + assert (Mk := Ll k). rewrite La in Mk. rewrite <- Mk. rewrite (Hn Kk) in Mk. destruct (alookup k (props_of t v)); [discriminate|]. now rewrite NM.
        - cbn [alookup]. rewrite (Hn Kk). unfold props_of. rewrite E. apply NM. }
      split; [|intros _; now split]. f_equal. f_equal. assert (l2 = l) as -> by (apply msorted_ext; auto; intros k; now rewrite Ll, Ll2).
      rewrite (norm_top_add name) by auto. now rewrite (norm_top_idem name).
  - destruct Hd as [[(name & id & H & _) _]|(m0 & name & id & Q & Nn & NB & NP & OT & OI & Va & W)].
    { exfalso. cbn [fst] in H. destruct (builtin_cases _ _ H) as (? & ? & Q & _). discriminate Q. }
    injection Q as <-. destruct (IS Dr) as [FM NM]. destruct (proj1 (settle rnd ST (VMap m)) _ W) as (W' & C' & _).
    assert (NI := norm_canon rnd _ _ W' C'). cbn [CodecSpec.norm ty_CustomObject] in *.
    set (m' := map (fun kv => (fst kv, norm rnd GIface (snd kv))) m) in *.
    assert (Wm : forall k x, alookup k m = Some x -> utf8b k = true /\ wf rnd GIface x = true).
    { intros k x L. apply alookup_Some_In in L. cbn [CodecSpec.wf] in W. apply andb_true_iff in W as [_ W]. rewrite forallb_forall in W. specialize (W _ L). cbn [fst snd] in W. now apply andb_true_iff in W. }
    assert (FM' : fine M').
    { intros k x Hk. rewrite HM in Hk. destruct (alookup k m) as [y|] eqn:L; [|now apply FM]. injection Hk as <-. destruct (Wm _ _ L) as [U Wy]. split; [exact U|]. now apply norm_fine. }
    split; [|split; [intros _; exact FM'|]].
    + right. exists m', name, id. rewrite EI, ET. auto 10.
    + intros o2 N' R2. inversion R2 as [t2 v2 l2 M2 Hb2 Dr2 HM2 [Sl2 Ll2]|m2 M2 Dr2 HM2|t2 v2 M2 Hb2 Dr2|]; subst; try congruence.
      { exfalso. apply in_map_iff in Hb2 as ([nm t'] & Q & Hb2). cbn [snd] in Q. subst t'. destruct (builtin_cases _ _ Hb2) as (? & ? & Q & _). discriminate Q. }
      split; [unfold ty_CustomObject in *; cbn [CodecSpec.norm] in *; now rewrite NI|]. intros _. split; [exact FM'|].
      intros k. rewrite HM, HM2. unfold m'. rewrite alookup_map_snd. destruct (alookup k m) as [y|] eqn:L; [|apply NM]. cbn [option_map]. f_equal. apply norm_fine. now apply (Wm k).
  - destruct Hd as [[(name & id & H & Np & Ty & Id & Va & W) PF]|(m & name & id & Q & _)]; [|injection Q as -> _; exfalso; apply in_map_iff in Hb as ([nm t'] & Q & Hb); cbn [snd] in Q; subst t'; destruct (builtin_cases _ _ Hb) as (? & ? & Q & _); discriminate Q].
    cbn [fst snd] in *. destruct (settle_top rnd ST name t v H W) as [W' C']. split; [|split; [intros Q; congruence|]].
    + left. split; [|exact NF]. exists name, id. cbn [fst snd]. rewrite EI, ET. auto 8.
    + intros o2 N' R2. inversion R2 as [t2 v2 l2 M2 Hb2 Dr2 HM2 [Sl2 Ll2]|m2 M2 Dr2 HM2|t2 v2 M2 Hb2 Dr2|]; subst; try congruence.
      * split; [now rewrite (norm_top_idem name)|intros Q; congruence].
      * exfalso. destruct (builtin_cases _ _ H) as (? & ? & Q & _). discriminate Q.
Qed.

(** ** All of them *)
Lemma settle_all os : (forall ob, In ob os -> held rnd cf ob) -> forall M N outs, in_step M N -> return_all rnd cf M os outs -> Forall2 same_names os outs ->
  (forall o, In o (some_of outs) -> names_free o) ->
  (forall o, In o (some_of outs) -> held rnd cf o) /\ forall outs2, return_all rnd cf N (some_of outs) outs2 -> outs2 = map Some (some_of outs).
Proof.
  induction os as [|ob os IH]; intros Hd M N outs IS RA SN NF; inversion RA as [|? ? o M' ? os' R RA']; subst.
  - split; [intros o []|]. cbn. intros outs2 R2. now inversion R2.
  - inversion SN as [|? ? ? ? S1 S2]; subst. destruct o as [o|].
    + destruct (S1 o eq_refl) as [EI ET]. cbn [some_of flat_map app] in *. fold (some_of os') in *.
      destruct (settle_returns M N ob o M' (Hd _ (or_introl eq_refl)) IS R EI ET (NF _ (or_introl eq_refl))) as (Ho & FM' & H2). split.
      * intros x [<-|Hx]; [exact Ho|]. refine (proj1 (IH (fun ob' H => Hd ob' (or_intror H)) M' M' os' _ RA' S2 (fun x H => NF x (or_intror H))) x Hx). intros Dr. split; [now apply FM'|reflexivity].
      * intros outs2 R2. inversion R2 as [|? ? o2 N' ? os2 R3 R4]; subst. destruct (H2 _ _ R3) as [-> IS']. cbn [map]. f_equal.
        exact (proj2 (IH (fun ob' H => Hd ob' (or_intror H)) M' N' os' IS' RA' S2 (fun x H => NF x (or_intror H))) _ R4).
    + cbn [some_of flat_map app] in *. fold (some_of os') in *. apply (IH (fun ob' H => Hd ob' (or_intror H)) M' N os'); auto.
      intros Dr. inversion R; congruence.
Qed.
End D.

(** ** Collections *)
Lemma collect_some ns outs : collect ns (map Some (some_of outs)) = collect ns outs.
Proof. unfold collect. now rewrite <- calls_some. Qed.
Lemma map_some_inj {A} (l : list A) : forall l', map Some l = map Some l' -> l = l'.
Proof. induction l as [|x l IH]; intros [|y l'] Q; try discriminate; [reflexivity|]. injection Q as <- Q. f_equal. auto. Qed.
Lemma listed_get (O : Type) (h : list (string * string * O)) c oks os : run (new_coll false) h = (c, oks) -> all_objects c (map Some os) ->
  forall o, In o os <-> exists id, get c id = Some o.
Proof.
  intros R A o. destruct (all_objects_sorted_total _ _ _ _ R) as [_ SO]. destruct (SO _ A) as (os2 & Q & F). apply map_some_inj in Q. subst os2. split.
  - intros Io. assert (Y : exists id, last_accepted (log h oks) id o).
    { clear -F Io. induction F as [|i x ids os B F IH]; [destruct Io|]. destruct Io as [->|Io]; [now exists i|auto]. }
    destruct Y as (id & Y). exists id. now apply (get_spec false h c oks id R).
  - intros (id & G). apply (get_spec false h c oks id R) in G.
    assert (I : In id (first_ids (log h oks))).
    { destruct G as (l1 & t & l2 & E & _). apply In_first_ids. exists (Call id t o true). rewrite E. split; [apply in_or_app; right; now left|]. now split. }
    assert (X : exists o', In o' os /\ last_accepted (log h oks) id o').
    { clear -F I. induction F as [|i x ids os B F IH]; [destruct I|]. destruct I as [->|I]; [exists x; split; [now left|exact B]|]. destruct (IH I) as (o' & A' & B'). exists o'. split; [now right|exact B']. }
    destruct X as (o' & Io & A'). assert (o' = o) as <-; [|exact Io]. apply (get_spec false h c oks id R) in A', G. congruence.
Qed.
Lemma settle_collection rnd cf (r r' : string) (h : list (string * string * gobj)) c oks b c' b' :
  settled rnd -> String.length r = 16%nat -> String.length r' = 16%nat -> cf_nosort cf = false ->
  run (new_coll false) h = (c, oks) -> to_bundle marshal_obj r c (Ok b) ->
  (forall id ty ob, In (id, ty, ob) h -> obj_id ob = Ok id) ->
  (forall id ob, get c id = Some ob -> held rnd cf ob) ->
  from_json rnd cf (bundle_bytes b) = Ok c' -> (forall id ob, get c' id = Some ob -> names_free ob) ->
  to_bundle marshal_obj r' c' (Ok b') -> from_json rnd cf (bundle_bytes b') = Ok c'.
Proof.
  intros ST L L' Ns R TB Co Hd FJ NF TB'.
  destruct (bundle_returns rnd cf r h c oks b L R TB Co Hd) as (os & outs & AO & RA & SN & AC & FJ1 & LI).
  rewrite FJ1, Ns in FJ. injection FJ as <-. set (c' := collect false outs) in *.
  destruct (run (new_coll false) (calls_of outs)) as [c1 oks1] eqn:R'. assert (c1 = c') as -> by (unfold c', collect; now rewrite R').
  assert (Ids : forall id ty ob, In (id, ty, ob) (calls_of outs) -> obj_id ob = Ok id).
  { intros id ty ob I. unfold calls_of in I. apply in_flat_map in I as ([o|] & _ & I); [|destruct I]. destruct (obj_id o) eqn:E1; try destruct I. destruct (obj_type o) eqn:E2; try destruct I; [|contradiction]. injection H as <- <- <-. auto. }
  assert (AO' : all_objects c' (map Some (some_of outs))) by (apply LI; symmetry; apply filter_some).
  assert (Ex := listed_get _ _ _ _ _ R' AO').
  assert (Hos : forall ob, In ob os -> held rnd cf ob) by (intros ob Io; apply (listed_get _ _ _ _ _ R AO) in Io as (id & G); exact (Hd _ _ G)).
  destruct (settle_all rnd ST cf os Hos nothing nothing outs) as [Ho Hr]; auto.
  { intros _. split; [intros k x Q; discriminate Q|reflexivity]. }
  { intros o Io. apply Ex in Io as (id & G). exact (NF _ _ G). }
  destruct (bundle_returns rnd cf r' (calls_of outs) c' oks1 b' L' R' TB' Ids) as (os2 & outs2 & AO2 & RA2 & SN2 & AC2 & FJ2 & LI2).
  { intros id ob G. apply Ho, Ex. eauto. }
  rewrite FJ2, Ns. f_equal. apply LI in AO2. rewrite filter_some in AO2. apply map_some_inj in AO2. subst os2.
  rewrite (Hr _ RA2). apply collect_some.
Qed.
