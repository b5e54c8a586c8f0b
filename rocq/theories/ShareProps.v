(** The references of Share.v are the extended properties other files see. *)
From Verif Require Import GoStr GoStrFacts JsonStr Json StrSpec Float Consts GoTypes Schema GoVal GoValFacts Codec CodecSpec CodecFacts DataTypes Ident Collection
  FromJson FromJsonSpec FromJsonFacts IndepFacts DocSpec DocFacts ObjFacts ParseFacts Share ShareSpec ShareFacts.

Section P.
Variable rnd : bool -> N -> Z -> option flt.
Variable cf : config.
Hypothesis NP : forall typ, parser_of cf typ = None.

(** An object as the decoder left it. *)
Definition fresh_obj (o : mobj) : Prop :=
  (props_path (mo_ty o) = None -> mo_props o = []) /\
  forall l, props_of (mo_ty o) (add_props (mo_ty o) l (mo_val o)) = match props_path (mo_ty o) with Some _ => l | None => [] end.
Lemma m_read_fresh j h r ob h' r' : m_read rnd cf j h r = Ok (Some ob, h', r') -> fresh_obj ob.
Proof.
  unfold m_read. destruct (m_peek rnd j h r) as [[h1 r1]| |]; try discriminate. cbn [bind].
  destruct (alookup "type" (view h1 r1)) as [tv|]; [|discriminate]. destruct (as_string tv) as [typ| |]; try discriminate. cbn [bind].
  destruct (start cf typ j) as [[[t v]|]| |] eqn:St; try discriminate. cbn [bind]. unfold m_finish.
  destruct (unmarshal_res (dec rnd j t v)) as [v1| |] eqn:D; try discriminate. cbn [bind]. rewrite obj_of_same.
  destruct (obj_id _) as [id| |]; try discriminate. cbn [bind]. destruct (obj_type _) as [ty| |]; try discriminate. cbn [bind].
  destruct (has_valid_identifier id ty); try discriminate. intros Q. injection Q as <- _ _. apply start_receiver in St.
  unfold fresh_obj. cbn [mo_ty mo_val mo_props]. split.
  - intros P. unfold can_extend. rewrite P. now rewrite andb_false_r.
  - intros l. inversion St as [hd o' P Hh|t' P Hb|P Hb Dr]; subst.
    + rewrite NP in P. discriminate.
    + destruct (builtin_read _ _ Hb) as (n & fs & -> & _ & _ & _ & _ & _ & _ & F & _).
      assert (D' : dec rnd j (GStruct n fs) (zero (GStruct n fs)) = DOk v1 false) by (destruct (dec rnd j _ _) as [x [|]| |]; try discriminate D; now injection D as ->).
      apply (add_props_props typ); [exact Hb|exact (dec_shape _ _ _ _ _ _ F D')|eapply dec_props; eauto].
    + reflexivity.
Qed.
Lemma m_read_all_fresh js : forall h r w, m_read_all rnd cf js h r = Ok w -> forall i o, nth_error (snd w) i = Some (Some o) -> fresh_obj o.
Proof.
  induction js as [|j js IH]; intros h r w H; cbn [m_read_all] in H; [injection H as <-; intros [|i] o Q; discriminate|].
  destruct (m_read rnd cf j h r) as [[[o h1] r1]| |] eqn:R; try discriminate. cbn [bind] in H.
  destruct (m_read_all rnd cf js h1 r1) as [w1| |] eqn:E; try discriminate. cbn [bind] in H. injection H as <-. cbn [snd].
  intros [|i] o' Q; cbn [nth_error] in Q; [|eapply IH; eauto]. injection Q as ->. eapply m_read_fresh; eauto.
Qed.
Lemma from_json_fresh s w : m_from_json rnd cf s = Ok w -> forall i o, nth_error (snd w) i = Some (Some o) -> fresh_obj o.
Proof.
  unfold m_from_json. destruct (unmarshal rnd s ty_Bundle (zero ty_Bundle)); [apply m_read_all_fresh| |discriminate].
  destruct (unmarshal rnd s (GSlice GRaw) VNil); [apply m_read_all_fresh| |]; discriminate.
Qed.
End P.
Lemma after_fresh es : forall w, (forall i o, nth_error (snd w) i = Some (Some o) -> fresh_obj o) -> forall i o, nth_error (snd (after w es)) i = Some (Some o) -> fresh_obj o.
Proof.
  induction es as [|e es IH]; intros w H; [exact H|]. cbn [after fold_left]. apply IH. destruct e as [i k x|i k x]; cbn [step]; [|destruct (ref_of w i k); exact H].
  intros j o. cbn [snd]. rewrite nth_set_prop. destruct (Nat.eqb j i); [|apply H]. destruct (nth_error (snd w) j) as [[o'|]|] eqn:E; cbn [option_map]; try discriminate.
  intros Q. injection Q as <-. destruct (H _ _ E) as [A B]. destruct (mo_props o') as [|e r] eqn:P; [split; [rewrite P; trivial|exact B]|]. split; [|exact B]. cbn [mo_ty mo_props]. intros N. specialize (A N). discriminate.
Qed.
Lemma fresh_reading w i o k : fresh_obj o -> nth_error (snd w) i = Some (Some o) ->
  reading w i k = alookup k (props_of (fst (obj_of (fst w) o)) (snd (obj_of (fst w) o))).
Proof.
  intros [A B] H. unfold reading, ref_of. rewrite H. unfold obj_of. cbn [fst snd]. rewrite B. destruct (props_path (mo_ty o)); [now rewrite alookup_view|]. now rewrite (A eq_refl).
Qed.
