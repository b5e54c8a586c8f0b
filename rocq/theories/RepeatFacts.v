(** Facts for C100. *)
From Verif Require Import GoStr GoStrFacts JsonStr StrSpec JsonSpec Json Float Consts GoTypes Schema GoVal Codec CodecSpec Ident
  Collection CollectionSpec CollectionFacts FromJson FromJsonSpec FromJsonFacts ReadFacts IndepFacts CollectFacts PropMerge JoinSpec JoinFacts ObjOrderSpec.

Lemma collect_held rnd cf js s c os : document js s -> from_json rnd cf s = Ok c -> all_objects c (map Some os) -> no_sort c = cf_nosort cf /\ forall o, In o os -> get c (id_of o) = Some o.
Proof.
  intros D E A. rewrite (from_json_read _ _ _ _ D) in E. destruct (read_all rnd cf js VNil) as [outs| |] eqn:R; try discriminate. injection E as <-. unfold collect in *.
  destruct (run (new_coll (cf_nosort cf)) (calls_of outs)) as [c oks] eqn:Rn. cbn [fst] in *.
  destruct (held_objects id_of type_of _ _ _ _ _ Rn (calls_unchanged _) A) as (_ & _ & H & _). split; [|intros o; apply H].
  replace c with (fst (run (new_coll (cf_nosort cf)) (calls_of outs))) by now rewrite Rn. clear. generalize (calls_of outs). intros l.
  change (cf_nosort cf) with (no_sort (@new_coll gobj (cf_nosort cf))) at 2. generalize (@new_coll gobj (cf_nosort cf)). induction l as [|[[i t] o] l IH]; intros c0; [reflexivity|].
  cbn [run]. destruct (add c0 i t o) as [c1 ok] eqn:Ad. specialize (IH c1). destruct (run c1 l) as [c2 oks]. cbn [fst] in *. rewrite IH. unfold add in Ad. destruct (negb (has_valid_identifier i t)); now injection Ad as <- _.
Qed.
Lemma same_by_ids (g : string -> option gobj) os os' : (forall o, In o os -> g (id_of o) = Some o) -> (forall o, In o os' -> g (id_of o) = Some o) -> map id_of os' = map id_of os -> os' = os.
Proof.
  revert os. induction os' as [|o' os' IH]; intros [|o os] H H' Q; try discriminate; [reflexivity|]. cbn [map] in Q. injection Q as Q1 Q2.
  assert (g (id_of o) = Some o) by (apply H; now left). assert (g (id_of o') = Some o') by (apply H'; now left). rewrite Q1 in *. f_equal; [congruence|].
  apply IH; [intros x Hx; apply H; now right|intros x Hx; apply H'; now right|exact Q2].
Qed.
Lemma joined_twice rnd cf js js2 s s2 c c' : document js s -> document js2 s2 -> from_json rnd cf s = Ok c -> from_json rnd cf s2 = Ok c' -> joined c c c' ->
  (forall id, get c' id = get c id) /\ (cf_nosort cf = false -> forall os os', all_objects c (map Some os) -> all_objects c' (map Some os') -> os' = os).
Proof.
  intros D D2 E E2 [G A]. assert (G' : forall id, get c' id = get c id) by (intros id; rewrite G; now destruct (get c id)). split; [exact G'|].
  intros Ns os os' L L'. destruct (collect_held _ _ _ _ _ _ D E L) as [_ H]. destruct (collect_held _ _ _ _ _ _ D2 E2 L') as [N H']. rewrite Ns in N.
  apply (same_by_ids (get c)); [exact H|intros o Ho; rewrite <- G'; auto|]. rewrite (A N _ _ _ L L L'). rewrite <- (app_nil_r (map id_of os)) at 3. f_equal.
  assert (X : forall l l', (forall i, In i l -> In i l') -> filter (fun i => negb (mem_str i l')) l = []).
  { clear. induction l as [|i l IH]; intros l' Hi; [reflexivity|]. cbn [filter]. assert (M : mem_str i l' = true) by (apply mem_str_In, Hi; now left). rewrite M. cbn [negb]. apply IH. intros x Hx. apply Hi. now right. }
  apply X. auto.
Qed.
