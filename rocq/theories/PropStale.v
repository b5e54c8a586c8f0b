(** C84: what an earlier, longer list leaves in memory. *)
From Verif Require Import GoStr GoStrFacts JsonStr StrSpec StrSpecFacts JsonSpec JsonSpecFacts Json JsonFacts Float Double Consts Enums GoTypes Schema GoVal GoValFacts Time Base64 Codec CodecSpec CodecFacts
  StructFacts DataTypes Ident Collection FromJson FromJsonSpec FromJsonFacts ReadExact Stale StaleSpec StaleFacts.

(** ** The documents themselves *)
Lemma mem_struct_exact f g fl : (forall k p t x o m, In (k, p, t) fl -> dval fst (f x t o m) = g x t o) ->
  forall ms cur l, dval fst (mem_struct f fl ms cur l) = dec_struct g fl ms cur.
Proof.
  intros H. induction ms as [|[k x] ms IH]; intros cur l; cbn [mem_struct dec_struct]; [reflexivity|]. fold (mem_struct f fl) (dec_struct g fl).
  destruct (find_field k fl) as [[p t]|] eqn:E; [|apply IH]. apply find_field_fold in E as (k' & E & _).
  rewrite dval_dbind, <- (H _ _ _ x _ (behind p l) E), dbind_dval. apply dbind_ext. intros [v m]. apply IH.
Qed.
Lemma mem_raws rnd l : forall s, mem_list (fun x o mo => mdec rnd x GRaw o mo) (zero GRaw) l s = DOk (map (fun j => (VRaw j, MNone)) l) false.
Proof.
  induction l as [|x l IH]; intros s; cbn [mem_list]; [reflexivity|]. fold (mem_list (fun x o mo => mdec rnd x GRaw o mo) (zero GRaw)).
  replace (match s with [] => mdec rnd x GRaw (zero GRaw) MNone | o :: _ => mdec rnd x GRaw (fst o) (snd o) end) with (@DOk (gval * mem) (VRaw x, MNone) false) by (destruct s, x; reflexivity).
  cbn [dbind]. rewrite IH. reflexivity.
Qed.
Lemma raw_list_exact rnd j old m : dval fst (mdec rnd j (GSlice GRaw) old m) = dec rnd j (GSlice GRaw) old.
Proof.
  destruct j as [| | |raw|l|]; try reflexivity. cbn [mdec dec]. rewrite dec_raws, mem_raws. cbn [dbind orb dval refilled fst]. now rewrite map_map.
Qed.
Lemma bundle_exact rnd j : dval fst (mdec rnd j ty_Bundle (zero ty_Bundle) MNone) = dec rnd j ty_Bundle (zero ty_Bundle).
Proof.
  destruct j as [| | | | |ms]; try reflexivity. unfold ty_Bundle at 1 3. cbn [mdec dec]. apply mem_struct_exact.
  intros k p t x o m H. cbn in H. destruct H as [H|[H|[H|[]]]]; injection H as <- <- <-; [| |apply raw_list_exact]; destruct x; cbn [mdec]; now rewrite dval_dval, dval_id.
Qed.
Lemma peak_exact rnd j old m : dval fst (mdec rnd j peak_ty old m) = dec rnd j peak_ty old.
Proof.
  destruct j as [| | | | |ms]; try reflexivity. unfold peak_ty. cbn [mdec dec]. rewrite dval_dbind. cbn [dval fst]. erewrite dec_mems_ext; [reflexivity|].
  intros k x _. cbn beta. destruct x; cbn [mdec]; now rewrite dval_dval, dval_id.
Qed.
Lemma unmarshal_bundle rnd s : unmarshal_mem rnd s ty_Bundle (zero ty_Bundle) = unmarshal rnd s ty_Bundle (zero ty_Bundle).
Proof. unfold unmarshal_mem, unmarshal, mdec_fresh. destruct (parse_json s); [now rewrite bundle_exact|reflexivity]. Qed.
Lemma unmarshal_raws rnd s : unmarshal_mem rnd s (GSlice GRaw) VNil = unmarshal rnd s (GSlice GRaw) VNil.
Proof. unfold unmarshal_mem, unmarshal, mdec_fresh. destruct (parse_json s); [now rewrite raw_list_exact|reflexivity]. Qed.

Lemma from_json_mem_document rnd cf js s : document js s -> from_json_mem rnd cf s = process_objects_mem rnd cf js (new_coll (cf_nosort cf)) VNil.
Proof.
  intros D. unfold from_json_mem. rewrite unmarshal_bundle, unmarshal_raws. unfold unmarshal. destruct D as [js s H|s H|ms s H Hm].
  - apply json_exact in H. rewrite H. cbn [dec ty_Bundle unmarshal_res]. rewrite dec_raws. cbn [dbind unmarshal_res orb]. now rewrite raws_map.
  - apply json_exact in H. rewrite H. reflexivity.
  - apply json_exact in H. rewrite H. assert (O := parse_ok _ _ H). cbn [json_okb] in O.
    change (dec rnd (JObj ms) ty_Bundle (zero ty_Bundle)) with
      (dec_struct (dec rnd) (flat_fields [(Fmeta "Type" "type" false false, GString "STIXType");
                    (Fmeta "ID" "id" false false, GString "Identifier");
                    (Fmeta "Objects" "objects" true false, GSlice GRaw)]) ms (bval (VStr "") (VStr "") VNil)).
    destruct (dec_bundle_ok rnd ms O (VStr "") (VStr "") VNil Hm) as (a & b & E). rewrite E. cbn [unmarshal_res].
    change (get_field "Objects" (bval a b ?o)) with o. destruct (last_fold "objects" ms) as [[]|]; try reflexivity. now rewrite raws_map.
Qed.
Lemma from_json_mem_no_document rnd cf s : (forall js, ~ document js s) -> from_json_mem rnd cf s = Err "unknown JSON format".
Proof.
  intros N. unfold from_json_mem. rewrite unmarshal_bundle, unmarshal_raws. unfold unmarshal. destruct (parse_json s) as [j|] eqn:P; [|reflexivity].
  assert (T := proj1 (json_exact _ _) P).
  destruct j as [|b|l|raw|l|ms]; try reflexivity.
  - exfalso. eapply N. now apply doc_null.
  - exfalso. eapply N. apply doc_array. exact T.
  - assert (O := parse_ok _ _ P). cbn [json_okb] in O.
    change (dec rnd (JObj ms) ty_Bundle (zero ty_Bundle)) with
      (dec_struct (dec rnd) (flat_fields [(Fmeta "Type" "type" false false, GString "STIXType");
                    (Fmeta "ID" "id" false false, GString "Identifier");
                    (Fmeta "Objects" "objects" true false, GSlice GRaw)]) ms (bval (VStr "") (VStr "") VNil)).
    destruct (forallb member_okb ms) eqn:M.
    + exfalso. eapply N. apply (doc_bundle ms); [exact T|]. intros k x Hin. apply (member_okb_spec rnd). rewrite forallb_forall in M. now apply M.
    + destruct (dec_bundle_no_abort rnd ms O (VStr "") (VStr "") VNil) as (v & e & E). rewrite E. destruct e; [reflexivity|]. exfalso.
      revert E. apply (dec_bundle_bad rnd). 
      assert (X : existsb (fun kx => negb (member_okb kx)) ms = true).
      { clear -M. induction ms as [|a ms IH]; [discriminate|]. cbn [forallb existsb] in *. destruct (member_okb a); [now apply IH|reflexivity]. }
      apply existsb_exists in X as ([k x] & Hin & X). exists k, x. split; [exact Hin|]. intros Q. apply (member_okb_spec rnd) in Q. rewrite Q in X. discriminate.
Qed.

(** ** Documents that repeat no name *)
Definition parsers_go (cf : config) : Prop :=
  forall typ h j o, alookup typ (cf_handlers cf) = Some (Some h) -> h j = Ok (Some o) -> go_type (fst o).
Lemma start_go cf typ j o : parsers_go cf -> start cf typ j = Ok (Some o) -> go_type (fst o).
Proof.
  intros P. unfold start. destruct (alookup typ (cf_handlers cf)) as [[h|]|] eqn:E.
  - destruct (h j) as [[o'|]| |] eqn:Eh; cbn [bind]; intros Q; try discriminate. injection Q as <-. eapply P; eauto.
  - destruct (alookup typ builtin_types) as [t|] eqn:B; [|destruct (cf_drop cf)]; intros Q; try discriminate; injection Q as <-; [|exact Logic.I]. apply alookup_Some_In in B. exact (builtin_go_type _ _ B).
  - destruct (alookup typ builtin_types) as [t|] eqn:B; [|destruct (cf_drop cf)]; intros Q; try discriminate; injection Q as <-; [|exact Logic.I]. apply alookup_Some_In in B. exact (builtin_go_type _ _ B).
Qed.
Lemma process_no_repeats rnd cf : parsers_go cf -> forall js c peak, Forall no_repeats js -> process_objects_mem rnd cf js c peak = process_objects rnd cf js c peak.
Proof.
  intros P. induction js as [|j js IH]; intros c peak F; cbn [process_objects_mem process_objects]; [reflexivity|]. inversion F as [|? ? F1 F2]; subst.
  assert (E : process_object_mem rnd cf j c peak = process_object rnd cf j c peak).
  { unfold process_object_mem, process_object, mdec_fresh. rewrite peak_exact. destruct (unmarshal_res (dec rnd j peak_ty peak)) as [pk| |]; try reflexivity. cbn [bind].
    destruct (map_get "type" pk) as [tv|]; [|reflexivity]. destruct (as_string tv) as [typ| |]; try reflexivity. cbn [bind].
    destruct (start cf typ j) as [[o|]| |] eqn:S; try reflexivity. cbn [bind]. apply (start_go _ _ _ _ P) in S. destruct o as [t v]. unfold finish_mem, finish, mdec_fresh.
    now rewrite (mdec_no_repeats rnd j F1 t v S). }
  rewrite E. destruct (process_object rnd cf j c peak) as [r| |]; try reflexivity. cbn [bind]. now apply IH.
Qed.
Lemma document_no_repeats js j s : document js s -> json_text j s -> no_repeats j -> Forall no_repeats js.
Proof.
  intros D J NR. apply json_exact in J. destruct D as [js s H|s H|ms s H Hm]; apply json_exact in H; rewrite J in H; injection H as ->; inversion NR as [| | | |? F|? N F]; subst; try assumption; try constructor.
  assert (X : forall x, last_fold "objects" ms = Some x -> no_repeats x).
  { clear -F. induction ms as [|[k x] ms IH]; intros y; cbn [last_fold]; [discriminate|]. inversion F as [|? ? F1 F2]; subst. destruct (last_fold "objects" ms); [intros Q; injection Q as <-; now apply IH|].
    destruct (String.eqb _ _); [|discriminate]. intros Q. now injection Q as <-. }
  destruct (last_fold "objects" ms) as [[]|]; try constructor. specialize (X _ eq_refl). now inversion X.
Qed.

(** The full statement, that what is left in memory is never seen, is false (see
    below).  It holds if no object in the text names a property twice: FromJSON and
    json.Unmarshal into any variable return what they return without it. *)
Theorem leftovers_unseen_partial : forall rnd cf s j, json_text j s -> no_repeats j ->
  (parsers_go cf -> from_json_mem rnd cf s = from_json rnd cf s) /\
  forall t old, go_type t -> unmarshal_mem rnd s t old = unmarshal rnd s t old.
Proof.
  intros rnd cf s j J NR. split.
  - intros P. destruct (document_dec rnd s) as [(js & D)|N].
    + rewrite (from_json_mem_document _ _ _ _ D), (from_json_document _ _ _ _ D). apply process_no_repeats; [exact P|]. eapply document_no_repeats; eauto.
    + now rewrite (from_json_mem_no_document _ _ _ N), (from_json_no_document _ _ _ N).
  - intros t old G. unfold unmarshal_mem, unmarshal, mdec_fresh. apply json_exact in J. rewrite J. now rewrite (mdec_no_repeats rnd j NR t old G).
Qed.
Print Assumptions leftovers_unseen_partial.

(** ** Any document *)
Definition obj_like (o o' : gobj) : Prop := fst o = fst o' /\ besides_lists (snd o) (snd o').
Definition rrel {A} (R : A -> A -> Prop) (x y : res A) : Prop :=
  match x, y with Ok a, Ok b => R a b | Err e, Err e' => e = e' | Panic, Panic => True | _, _ => False end.

Lemma as_string_like v w : besides_lists v w -> as_string v = as_string w.
Proof. intros H. inversion H as [|? ? B|? ? B|? ? B|? ? B|t x y B]; subst; try reflexivity. inversion B; subst; try reflexivity; now destruct t. Qed.
Lemma obj_field_like f k t v w : besides_lists v w -> obj_field f k (t, v) = obj_field f k (t, w).
Proof.
  intros H. unfold obj_field. cbn [fst snd]. assert (CO : co_field k v = co_field k w).
  { unfold co_field, map_get. inversion H as [|? ? B|? ? B|l l' B|? ? B|? ? ? B]; subst; try reflexivity. assert (X := alookup_like k _ _ B).
    destruct (alookup k l), (alookup k l'); try contradiction; try reflexivity. now apply as_string_like. }
  destruct t; try exact CO. assert (X := get_path_like (field_path (GStruct name fields) f) _ _ H). revert X.
  generalize (get_path (field_path (GStruct name fields) f) v), (get_path (field_path (GStruct name fields) f) w). intros x y X. now destruct X.
Qed.
Lemma add_props_like t l v w : besides_lists v w -> besides_lists (add_props t l v) (add_props t l w).
Proof. intros H. unfold add_props. destruct l; [exact H|]. destruct (props_path t); [|exact H]. apply set_path_like; [constructor|exact H]. Qed.

Section Add.
Context {O : Type} (R : O -> O -> Prop).
Definition elike (x y : string * O) : Prop := fst x = fst y /\ R (snd x) (snd y).
Definition blike (x y : string * list (string * O)) : Prop := fst x = fst y /\ Forall2 elike (snd x) (snd y).
Lemma alookup_rel {A} (S : A -> A -> Prop) k : forall l l', Forall2 (fun x y => fst x = fst y /\ S (snd x) (snd y)) l l' ->
  match alookup k l, alookup k l' with Some v, Some w => S v w | None, None => True | _, _ => False end.
Proof. induction 1 as [|[a v] [b w] l l' [Hk Hv] H IH]; cbn [alookup]; [exact Logic.I|]. cbn [fst snd] in *. subst b. destruct (String.eqb k a); [exact Hv|exact IH]. Qed.
Lemma ainsert_rel {A} (S : A -> A -> Prop) k x y : S x y -> forall l l', Forall2 (fun x y => fst x = fst y /\ S (snd x) (snd y)) l l' ->
  Forall2 (fun x y => fst x = fst y /\ S (snd x) (snd y)) (ainsert k x l) (ainsert k y l').
Proof.
  intros X. induction 1 as [|[a v] [b w] l l' [Hk Hv] H IH]; cbn [ainsert]; [constructor; [now split|constructor]|]. cbn [fst snd] in *. subst b.
  destruct (String.eqb k a); constructor; auto; now split.
Qed.
Lemma add_rel c c' id typ o o' : same_coll R c c' -> R o o' -> same_coll R (fst (add c id typ o)) (fst (add c' id typ o')) /\ snd (add c id typ o) = snd (add c' id typ o').
Proof.
  intros (Ho & Hn & Hb) H. unfold add. destruct (negb (has_valid_identifier id typ)); [now repeat split|]. cbn [fst snd]. split; [|reflexivity].
  assert (X := alookup_rel _ typ _ _ Hb). cbn beta in X.
  assert (B : Forall2 elike (match alookup typ (objects c) with Some b => b | None => [] end) (match alookup typ (objects c') with Some b => b | None => [] end)).
  { destruct (alookup typ (objects c)), (alookup typ (objects c')); try contradiction; [exact X|constructor]. }
  assert (Y := alookup_rel _ id _ _ B). split; [|split]; cbn [order no_sort objects].
  - rewrite Hn, Ho. destruct (alookup id _) as [u|], (alookup id (match alookup typ (objects c') with Some b => b | None => [] end)) as [w|]; try contradiction; reflexivity.
  - exact Hn.
  - apply (ainsert_rel (Forall2 elike)); [|exact Hb]. now apply (ainsert_rel R).
Qed.
End Add.

Lemma finish_like rnd cf c c' peak j o : same_coll obj_like c c' ->
  rrel (fun x y => same_coll obj_like (fst x) (fst y) /\ snd x = snd y) (finish_mem rnd cf c peak j o) (finish rnd cf c' peak j o).
Proof.
  intros C. destruct o as [t v]. unfold finish_mem, finish, mdec_fresh. assert (X := dec_like rnd j t v MNone v (BL_same v)).
  destruct (mdec rnd j t v MNone) as [[w m] e| |], (dec rnd j t v) as [w' e'| |]; try contradiction; try exact Logic.I; cbn [dval unmarshal_res bind fst]; [|reflexivity].
  destruct X as [X <-]. cbn [fst] in X. destruct e; [reflexivity|]. cbn [bind].
  set (pk := if cf_drop cf then peak else filter_out t peak). 
  assert (B : besides_lists (if cf_drop cf then w else add_props t pk w) (if cf_drop cf then w' else add_props t pk w')) by (destruct (cf_drop cf); [exact X|now apply add_props_like]).
  unfold obj_id, obj_type. rewrite (obj_field_like "ID" "id" t _ _ B), (obj_field_like "Type" "type" t _ _ B).
  destruct (obj_field "ID" "id" _) as [id| |]; try reflexivity. cbn [bind]. destruct (obj_field "Type" "type" _) as [ty| |]; try reflexivity. cbn [bind].
  assert (A := add_rel obj_like c c' id ty (t, if cf_drop cf then w else add_props t pk w) (t, if cf_drop cf then w' else add_props t pk w') C (conj eq_refl B)).
  destruct (add c id ty _) as [c1 ok], (add c' id ty _) as [c1' ok']. cbn [fst snd] in A. destruct A as [A <-]. destruct ok; [|reflexivity]. now split.
Qed.
Lemma process_like rnd cf : forall js c c' peak, same_coll obj_like c c' -> rrel (same_coll obj_like) (process_objects_mem rnd cf js c peak) (process_objects rnd cf js c' peak).
Proof.
  induction js as [|j js IH]; intros c c' peak C; cbn [process_objects_mem process_objects]; [exact C|].
  assert (E : rrel (fun x y => same_coll obj_like (fst x) (fst y) /\ snd x = snd y) (process_object_mem rnd cf j c peak) (process_object rnd cf j c' peak)).
  { unfold process_object_mem, process_object, mdec_fresh. rewrite peak_exact. destruct (unmarshal_res (dec rnd j peak_ty peak)) as [pk| |]; try reflexivity. cbn [bind].
    destruct (map_get "type" pk) as [tv|]; [|now split]. destruct (as_string tv) as [typ| |]; try reflexivity. cbn [bind].
    destruct (start cf typ j) as [[o|]| |] eqn:S; try reflexivity; cbn [bind]; [|now split]. now apply finish_like. }
  destruct (process_object_mem rnd cf j c peak) as [[c1 p1]| |], (process_object rnd cf j c' peak) as [[c2 p2]| |]; try contradiction; try exact E. cbn [rrel fst snd] in E. destruct E as [E <-]. cbn [bind fst snd]. now apply IH.
Qed.

(** For every text, whatever it repeats: the calls succeed, fail or panic alike,
    the collections hold objects of the same types under the same identifiers in
    the same order, and the objects agree everywhere but within lists, whose
    lengths agree as well. *)
Theorem leftovers_only_in_lists : forall rnd cf s,
  match from_json_mem rnd cf s, from_json rnd cf s with
  | Ok c, Ok c' => same_coll (fun o o' => fst o = fst o' /\ besides_lists (snd o) (snd o')) c c'
  | Err e, Err e' => e = e'
  | Panic, Panic => True
  | _, _ => False
  end.
Proof.
  intros rnd cf s. destruct (document_dec rnd s) as [(js & D)|N].
  - rewrite (from_json_mem_document _ _ _ _ D), (from_json_document _ _ _ _ D). apply (process_like rnd cf js). repeat split. constructor.
  - now rewrite (from_json_mem_no_document _ _ _ N), (from_json_no_document _ _ _ N).
Qed.
Print Assumptions leftovers_only_in_lists.

(** Without the condition the two differ: of three lists of external references
    the second is shorter, and the third one's second reference gets the
    description of the first one's. *)
Definition thrice : string :=
  "[{""type"":""identity"",""id"":""identity--a932fcc6-e032-476c-826f-cb970a5a1ade"",""external_references"":[{""source_name"":""a""},{""source_name"":""b"",""description"":""old""}],""external_references"":[{""source_name"":""c""}],""external_references"":[{""source_name"":""d""},{""source_name"":""e""}]}]".
Definition second_reference (r : res (coll gobj)) : option gval :=
  match r with
  | Ok c => match get c "identity--a932fcc6-e032-476c-826f-cb970a5a1ade" with
            | Some (_, v) => match get_path (Some "STIXDomainObject", "ExternalReferences") v with
                             | VSlice [_; VPtr r] => Some (get_field "Description" r)
                             | _ => None
                             end
            | None => None
            end
  | _ => None
  end.
Theorem leftovers_unseen_refuted : exists cf s, parsers_go cf /\
  second_reference (from_json_mem go_rnd cf s) = Some (VStr "old") /\ second_reference (from_json go_rnd cf s) = Some (VStr "").
Proof.
  exists (config_of []), thrice. split; [intros typ h j o H; discriminate H|]. split; vm_compute; reflexivity.
Qed.
Print Assumptions leftovers_unseen_refuted.

(** A document that meets the conditions, read with its two references. *)
Definition once : string :=
  "[{""type"":""identity"",""id"":""identity--a932fcc6-e032-476c-826f-cb970a5a1ade"",""external_references"":[{""source_name"":""a""},{""source_name"":""b"",""description"":""new""}]}]".
Definition once_json : json :=
  JArr [JObj [("type", JStr "identity"); ("id", JStr "identity--a932fcc6-e032-476c-826f-cb970a5a1ade");
              ("external_references", JArr [JObj [("source_name", JStr "a")]; JObj [("source_name", JStr "b"); ("description", JStr "new")]])]].
Example leftovers_unseen_ex : json_text once_json once /\ no_repeats once_json /\ parsers_go (config_of []) /\
  second_reference (from_json_mem go_rnd (config_of []) once) = Some (VStr "new").
Proof.
  split; [apply json_exact; vm_compute; reflexivity|]. split; [|split; [intros typ h j o H; discriminate H|vm_compute; reflexivity]].
  unfold once_json. repeat match goal with
    | |- no_repeats (JObj _) => apply NR_obj; [vm_compute|]
    | |- no_repeats _ => constructor
    | |- Forall _ _ => constructor
    | |- no_repeats (snd _) => cbn [snd]
    | |- NoDup [] => constructor
    | |- NoDup (_ :: _) => constructor; [intros Q; repeat (destruct Q as [Q|Q]; [discriminate Q|]); exact Q|]
    end.
Qed.
