(** The collection FromJSON returns, and the remaining facts about documents. *)
From Verif Require Import GoStr GoStrFacts JsonStr Json JsonFacts Float Consts GoTypes Schema Accessors GoVal GoValFacts Codec CodecSpec CodecFacts
  StructFacts CodecRound ObjFacts TypedFacts DataTypes DataTypesFacts Ident IdentFacts Collection CollectionSpec CollectionFacts PropCollectionAux
  FromJson FromJsonSpec FromJsonFacts ReadFacts IndepFacts ParseFacts.

(** ** collect *)
Definition call_of (ob : gobj) : list (string * string * gobj) :=
  match obj_id ob, obj_type ob with Ok id, Ok ty => [(id, ty, ob)] | _, _ => [] end.
Lemma calls_log outs : Forall acceptable outs -> forall ns,
  snd (run (new_coll ns) (calls_of outs)) = map (fun _ => true) (calls_of outs).
Proof.
  intros A ns. generalize (new_coll (O:=gobj) ns). induction A as [|o outs Ho A IH]; intros c; [reflexivity|].
  unfold calls_of. cbn [flat_map]. fold (calls_of outs). destruct o as [ob|]; [|apply IH].
  destruct Ho as (id & ty & Ei & Et & V). rewrite Ei, Et. cbn [app run map]. unfold add. rewrite V. cbn [negb].
  specialize (IH (Coll (ainsert ty (ainsert id ob match alookup ty (objects c) with Some b => b | None => [] end) (objects c))
    (if negb (no_sort c) && negb (match alookup id (match alookup ty (objects c) with Some b => b | None => [] end) with Some _ => true | None => false end) then order c ++ [id] else order c) (no_sort c))).
  destruct (run _ (calls_of outs)) as [c2 oks]. cbn [snd] in *. now rewrite IH.
Qed.
Lemma log_true (h : list (string * string * gobj)) : log h (map (fun _ => true) h) = map (fun x => Call (fst (fst x)) (snd (fst x)) (snd x) true) h.
Proof. unfold log. induction h as [|x h IH]; [reflexivity|]. cbn [map combine]. now rewrite IH. Qed.
Lemma In_calls outs id ty ob : In (id, ty, ob) (calls_of outs) <-> In (Some ob) outs /\ obj_id ob = Ok id /\ obj_type ob = Ok ty.
Proof.
  unfold calls_of. rewrite in_flat_map. split.
  - intros (o & Hin & H). destruct o as [ob'|]; [|destruct H]. destruct (obj_id ob') eqn:Ei; try destruct H. destruct (obj_type ob') eqn:Et; try destruct H; [|destruct H].
    injection H as <- <- <-. auto.
  - intros (Hin & Ei & Et). exists (Some ob). split; [exact Hin|]. rewrite Ei, Et. now left.
Qed.
Lemma calls_split outs l1 id ty ob l2 : calls_of outs = l1 ++ (id, ty, ob) :: l2 ->
  exists o1 o2, outs = o1 ++ Some ob :: o2 /\ calls_of o2 = l2 /\ obj_id ob = Ok id /\ obj_type ob = Ok ty.
Proof.
  revert l1. induction outs as [|o outs IH]; intros l1 E; [destruct l1; discriminate|].
  unfold calls_of in E. cbn [flat_map] in E. fold (calls_of outs) in E. destruct o as [ob'|].
  - destruct (obj_id ob') as [id'| |] eqn:Ei; destruct (obj_type ob') as [ty'| |] eqn:Et; cbn [app] in E;
      try (destruct (IH _ E) as (o1 & o2 & -> & X); exists (Some ob' :: o1), o2; now split).
    destruct l1 as [|x l1]; cbn [app] in E.
    + injection E as <- <- <- <-. exists [], outs. repeat split; auto.
    + injection E as _ E. destruct (IH _ E) as (o1 & o2 & -> & X). exists (Some ob' :: o1), o2. now split.
  - destruct (IH _ E) as (o1 & o2 & -> & X). exists (None :: o1), o2. now split.
Qed.

Lemma collect_get ns outs id ob : Forall acceptable outs ->
  get (collect ns outs) id = Some ob <->
  obj_id ob = Ok id /\ exists o1 o2, outs = o1 ++ Some ob :: o2 /\ forall ob', In (Some ob') o2 -> obj_id ob' <> Ok id.
Proof.
  intros A. unfold collect. destruct (run (new_coll ns) (calls_of outs)) as [c oks] eqn:R. cbn [fst].
  assert (L : oks = map (fun _ => true) (calls_of outs)) by (rewrite <- (calls_log _ A ns), R; reflexivity).
  destruct (get_spec ns _ c oks id R) as [G _]. rewrite G, L, log_true. unfold last_accepted. split.
  - intros (l1 & t & l2 & E & N). assert (Q : exists a b, calls_of outs = a ++ (id, t, ob) :: b /\ map (fun x => Call (fst (fst x)) (snd (fst x)) (snd x) true) b = l2).
    { clear -E. revert l1 E. induction (calls_of outs) as [|[[i y] o] cs IH]; intros l1 E; [destruct l1; discriminate|]. destruct l1 as [|x l1]; cbn [map app fst snd] in E.
      - injection E as -> -> -> <-. exists [], cs. now split.
      - injection E as _ E. destruct (IH _ E) as (a & b & -> & Q). exists ((i, y, o) :: a), b. now split. }
    destruct Q as (a & b & Q & Qb). destruct (calls_split _ _ _ _ _ _ Q) as (o1 & o2 & -> & Q2 & Ei & Et). split; [exact Ei|].
    exists o1, o2. split; [reflexivity|]. intros ob' Hin Ei'. rewrite Forall_forall in A.
    assert (Ao : acceptable (Some ob')) by (apply A; apply in_or_app; right; now right). destruct Ao as (id' & ty' & X1 & X2 & _).
    rewrite Ei' in X1. injection X1 as <-.
    assert (Hc : In (id, ty', ob') b) by (rewrite <- Q2; apply In_calls; auto).
    refine (N (Call id ty' ob' true) _ eq_refl eq_refl). rewrite <- Qb. apply in_map_iff. exists (id, ty', ob'). now split.
  - intros (Ei & o1 & o2 & -> & N). rewrite Forall_forall in A.
    assert (Ao : acceptable (Some ob)) by (apply A; apply in_or_app; right; now left). destruct Ao as (id' & ty' & X1 & X2 & _).
    rewrite Ei in X1. injection X1 as <-.
    exists (map (fun x => Call (fst (fst x)) (snd (fst x)) (snd x) true) (calls_of o1)), ty', (map (fun x => Call (fst (fst x)) (snd (fst x)) (snd x) true) (calls_of o2)).
    split.
    + unfold calls_of. rewrite flat_map_app. cbn [flat_map]. rewrite Ei, X2. cbn [app]. now rewrite map_app.
    + intros x Hx _ Q. apply in_map_iff in Hx as ([[i y] o] & <- & Hx). cbn [fst snd c_id] in Q. subst i. apply In_calls in Hx as (H1 & H2 & _). now apply (N o).
Qed.

Section C.
Variable rnd : bool -> N -> Z -> option flt.

(** ** Which JSON object an output comes from *)
Lemma contribute_all_In cf : forall ts js outs, contribute_all rnd cf ts js outs -> forall o, In o outs ->
  exists j ts', In j js /\ contributes rnd cf ts' j o /\ (forall typ, In typ ts' -> In typ ts \/ In typ (types_of js)).
Proof.
  induction 1 as [|ts j js o os C CA IH]; intros o' Ho; [destruct Ho|]. destruct Ho as [<-|Ho].
  - exists j, ts. split; [now left|]. split; [exact C|]. now left.
  - destruct (IH _ Ho) as (j' & ts' & Hj & C' & T). exists j', ts'. split; [now right|]. split; [exact C'|].
    intros typ Hin. unfold types_of. cbn [flat_map]. fold (types_of js). destruct (T _ Hin) as [X|X].
    + apply in_app_or in X as [X|X]; [right|now left]. unfold types_of in X. cbn [flat_map] in X. rewrite app_nil_r in X. apply in_or_app. now left.
    + right. apply in_or_app. now right.
Qed.
Lemma from_json_contributes cf js s c : document js s -> from_json rnd cf s = Ok c ->
  exists outs, c = collect (cf_nosort cf) outs /\ Forall acceptable outs /\ contribute_all rnd cf [] js outs.
Proof.
  intros D E. rewrite (from_json_read _ _ _ _ D) in E. destruct (read_all rnd cf js VNil) as [outs| |] eqn:R; try discriminate. injection E as <-.
  exists outs. split; [reflexivity|]. split; [eapply read_all_acceptable; eauto|].
  apply (read_all_contributes rnd cf js [] VNil outs); auto; [|now apply (document_ok js s)]. intros tv Q. discriminate.
Qed.

(** ** Panics *)
Lemma read_panic cf j p : (forall typ, parser_of cf typ = None) -> msorted (old_map p) = true -> (forall tv, alookup "type" (old_map p) = Some tv -> exists typ, tv = dyn_str typ) ->
  read rnd cf j p = Panic ->
  exists ms, j = JObj ms /\
    ((exists x, member "type" j = Some x /\ forall raw, x <> JStr raw) \/
     (exists x, member "id" j = Some x /\ (forall raw, x <> JStr raw) /\ forall typ, json_type j = Some typ -> ~ In typ (akeys builtin_types)) \/
     (exists typ t, In (typ, t) builtin_types /\ panics t j /\ (json_type j = Some typ \/ member "type" j = None))).
Proof.
  intros NP S ST R. unfold read in R. destruct (peak_status rnd j p) as [(e & H)|(pk & E & _)]; [now rewrite H in R|]. rewrite E in R. cbn [bind] in R.
  destruct (peak_inv _ _ _ _ S E) as [[-> ->]|(ms & m & -> & -> & M)]; [discriminate|]. exists ms. split; [reflexivity|]. cbn [map_get old_map] in R.
  destruct M as (Sm & L & OK). destruct (alookup "type" m) as [tv|] eqn:Tv; [|discriminate].
  destruct (as_string tv) as [typ| |] eqn:As; cbn [bind] in R.
  2: discriminate R.
  2: { left. rewrite L in Tv. cbn [member]. destruct (last_member "type" ms) as [x|] eqn:LM.
       - exists x. split; [reflexivity|]. intros raw ->. injection Tv as <-. assert (D := OK _ _ (last_member_In _ _ _ LM)). unfold dval in As. cbn [dec_any] in *.
         destruct (unq raw); [discriminate|congruence].
       - destruct (ST _ Tv) as (typ & ->). discriminate. }
  assert (JT : json_type (JObj ms) = Some typ \/ member "type" (JObj ms) = None).
  { rewrite L in Tv. unfold json_type. cbn [member]. destruct (last_member "type" ms) as [x|] eqn:LM; [left|now right]. injection Tv as <-.
    apply as_string_dval in As as (raw & -> & U); [exact U|]. apply (OK "type"). now apply last_member_In. }
  right. unfold start in R. specialize (NP typ). unfold parser_of in NP.
  destruct (alookup typ (cf_handlers cf)) as [[h|]|]; [discriminate| |].
  all: destruct (alookup typ builtin_types) as [t|] eqn:B; cbn [bind] in R;
    [right; apply alookup_Some_In in B; exists typ, t; split; [exact B|]; split; [|exact JT];
     unfold read_finish in R; destruct (dec rnd (JObj ms) t (zero t)) as [v1 [|]| |] eqn:D; try discriminate R; [|now apply (dec_panic rnd _ _ _ D)]; exfalso;
     cbn [unmarshal_res bind] in R;
     destruct (cf_drop cf); [destruct (builtin_field rnd _ _ _ _ _ [] B D) as [(s1 & T1 & _) (s2 & T2 & _)]; cbn [add_props] in T1, T2
                            |destruct (builtin_field rnd _ _ _ _ _ (filter_out t m) B D) as [(s1 & T1 & _) (s2 & T2 & _)]];
     rewrite T1, T2 in R; cbn [bind] in R; destruct (has_valid_identifier s2 s1); discriminate
    |left; destruct (cf_drop cf) eqn:Dr; cbn [bind] in R; [discriminate|]].
  all: assert (NB : ~ In typ (akeys builtin_types)) by now apply alookup_akeys.
  all: assert (NB' : forall ty, json_type (JObj ms) = Some ty -> ~ In ty (akeys builtin_types));
    [intros ty Hty; destruct JT as [JT|JT]; [rewrite JT in Hty; injection Hty as <-; exact NB|]; exfalso; unfold json_type in Hty; rewrite JT in Hty; discriminate|].
  all: unfold read_finish in R; rewrite Dr in R; destruct (dec rnd (JObj ms) ty_CustomObject (VMap [])) as [v1 [|]| |] eqn:D; try discriminate R.
  all: try (exfalso; apply dec_panic in D; inversion D; subst; match goal with X : panics GIface _ |- _ => inversion X end).
  all: cbn [unmarshal_res bind] in R.
  all: assert (E2 : unmarshal_res (dec rnd (JObj ms) peak_ty (VMap [])) = Ok v1) by (unfold ty_CustomObject in D; rewrite dec_map_obj in D; unfold peak_ty; rewrite dec_map_obj; rewrite D; reflexivity).
  all: destruct (peak_inv rnd (JObj ms) (VMap []) v1 eq_refl E2) as [[Q _]|(ms' & m1 & Q & -> & M1)]; [discriminate|]; injection Q as <-; destruct M1 as (S1 & L1 & OK1).
  all: replace (add_props ty_CustomObject (filter_out ty_CustomObject m) (VMap m1)) with (VMap m1) in R by (unfold add_props; now destruct (filter_out ty_CustomObject m)).
  all: unfold obj_id, obj_type, obj_field in R; cbn [fst snd ty_CustomObject] in R; unfold co_field in R; cbn [map_get] in R; rewrite !L1 in R; cbn [old_map alookup] in R.
  all: assert (TYOK : exists s, match match last_member "type" ms with Some x => Some (dval rnd x) | None => None end with None => Ok "" | Some v => as_string v end = Ok s).
  1,3: destruct (last_member "type" ms) as [x|] eqn:LM; [|eauto]; unfold json_type in JT; cbn [member] in JT; rewrite LM in JT;
       destruct JT as [JT|JT]; [|discriminate]; destruct x; try discriminate; exists typ; unfold dval; cbn [dec_any]; rewrite JT; reflexivity.
  all: destruct TYOK as (s & TY); destruct (last_member "id" ms) as [x|] eqn:LI.
  2,4: cbn [bind] in R; rewrite TY in R; cbn [bind] in R; destruct (has_valid_identifier "" s); discriminate.
  all: destruct (as_string (dval rnd x)) as [sid| |] eqn:Ai; cbn [bind] in R; [rewrite TY in R; cbn [bind] in R; destruct (has_valid_identifier sid s); discriminate|discriminate|].
  all: exists x; cbn [member]; split; [exact LI|]; split; [|exact NB']; intros raw ->; assert (Dx := OK1 _ _ (last_member_In _ _ _ LI)); unfold dval in Ai, Dx; cbn [dec_any] in *;
       destruct (unq raw); [discriminate|congruence].
Qed.

Lemma read_all_panic cf js : (forall typ, parser_of cf typ = None) -> forall p ts, msorted (old_map p) = true -> stale_ok ts p -> forallb json_okb js = true ->
  read_all rnd cf js p = Panic -> exists j p', In j js /\ msorted (old_map p') = true /\ (exists ts', stale_ok ts' p') /\ read rnd cf j p' = Panic.
Proof.
  intros NP. induction js as [|j js IH]; intros p ts S St O R; cbn [read_all] in R; [discriminate|].
  cbn [forallb] in O. apply andb_true_iff in O as [O1 O2].
  destruct (read rnd cf j p) as [[o p']| |] eqn:E; cbn [bind fst snd] in R; [|discriminate|exists j, p; split; [now left|]; split; [exact S|]; split; [now exists ts|exact E]].
  destruct (read_all rnd cf js p') as [os| |] eqn:E2; try discriminate.
  destruct (read_contributes _ _ _ _ _ _ _ S St O1 E) as [_ St'].
  destruct (IH p' _ (read_sorted _ _ _ _ _ _ S E) St' O2 E2) as (j' & q & Hj & X). exists j', q. split; [now right|exact X].
Qed.

(** ** Typeless objects at the end *)
Lemma read_no_stale cf j p o p' : cf_drop cf = false -> msorted (old_map p) = true -> alookup "type" (old_map p) = None ->
  (forall typ, json_type j = Some typ -> parser_of cf typ = None /\ In typ (akeys builtin_types)) ->
  read rnd cf j p = Ok (o, p') -> alookup "type" (old_map p') = None.
Proof.
  intros Dr S N T R. destruct (read_inv _ _ _ _ _ _ S R) as [(_ & _ & ->)|(ms & m & -> & M & C)]; [reflexivity|].
  destruct C as [(E & _ & ->)|(typ & E & C)]; [exact E|]. destruct (typed_member _ _ _ _ _ M E) as [JT|[_ Q]]; [|congruence].
  destruct (T _ JT) as [P B]. apply in_map_iff in B as ([typ' t] & Q & B). cbn [fst] in Q. subst typ'.
  rewrite (start_builtin _ _ _ _ P B) in C. destruct C as [(Q & _)|(t' & v0 & v1 & Q & _ & _ & ->)]; [discriminate|]. injection Q as <- <-.
  cbn [old_map]. unfold peak_after. rewrite Dr, alookup_filter_out. destruct (builtin_read _ _ B) as (n & fs & -> & TK & _ & _ & _ & KT & _).
  replace (mem_str "type" (tag_keys fs)) with true; [reflexivity|]. symmetry. apply mem_str_In. apply TK. now left.
Qed.
Lemma read_all_snoc_typeless cf a j : cf_drop cf = false -> member "type" j = None -> (exists ms, j = JObj ms) ->
  (forall p, exists pk, unmarshal_res (dec rnd j peak_ty p) = Ok pk) ->
  forall p, msorted (old_map p) = true -> alookup "type" (old_map p) = None ->
  (forall j' typ, In j' a -> json_type j' = Some typ -> parser_of cf typ = None /\ In typ (akeys builtin_types)) ->
  read_all rnd cf (a ++ [j]) p = do os <- read_all rnd cf a p; Ok (os ++ [None]).
Proof.
  intros Dr N (ms & Ej) PK. induction a as [|j1 a IH]; intros p S Np T; cbn [app read_all].
  - unfold read. destruct (PK p) as (pk & E). rewrite E. cbn [bind]. subst j.
    destruct (peak_inv _ _ _ _ S E) as [[Q _]|(ms' & m & Q & -> & (Sm & L & _))]; [discriminate|]. injection Q as <-. cbn [map_get]. rewrite L.
    cbn [member] in N. rewrite N, Np. reflexivity.
  - destruct (read rnd cf j1 p) as [[o p']| |] eqn:R; [|reflexivity|reflexivity]. cbn [bind fst snd]. rewrite IH.
    + destruct (read_all rnd cf a p') as [os| |]; reflexivity.
    + eapply read_sorted; eauto.
    + eapply read_no_stale; eauto. intros typ JT. apply (T j1); [now left|exact JT].
    + intros j' typ Hin. apply T. now right.
Qed.

(** ** Types of the stored objects *)
Lemma names_check : forallb (fun kv => match alookup (fst kv) builtin_names with Some g => String.eqb g (ty_name (snd kv)) | None => false end) builtin_types = true
  /\ nodupb (akeys builtin_names) = true /\ subsetb (akeys builtin_names) (akeys builtin_types) = true.
Proof. vm_compute. repeat split; reflexivity. Qed.
Lemma builtin_go_name typ t goT : In (typ, t) builtin_types -> In (typ, goT) builtin_names -> ty_name t = goT.
Proof.
  intros H1 H2. destruct names_check as (X & N & _). rewrite forallb_forall in X. specialize (X _ H1). cbn [fst snd] in X.
  rewrite (alookup_In _ _ _ (nodupb_NoDup _ N) H2) in X. apply String.eqb_eq in X. congruence.
Qed.
End C.
