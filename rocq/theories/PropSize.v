(** How much FromJSON makes of a document (C90).  [rnd] is the rounding of
    decimals to doubles. *)
From Coq Require Import Lia.
From Verif Require Import GoStr GoStrFacts JsonStr StrSpec JsonSpec Json Float Consts GoTypes Schema GoVal GoValFacts Codec CodecSpec DataTypes Ident
  Collection FromJson FromJsonSpec FromJsonFacts IndepFacts DocSpec DocFacts PropCodec PropFromJson Share ShareSpec ShareFacts ShareProps SizeSpec SizeFacts.

(** ** C90 *)
Lemma walk_memory rnd cf js s outs M : document js s -> walk rnd cf nothing js outs M -> Forall acceptable outs ->
  exists w, m_read_all rnd cf js [] [] = Ok w /\ outs = map (option_map (obj_of (fst w))) (snd w).
Proof.
  intros D W A. assert (E : read_all rnd cf js VNil = Ok outs) by (apply (read_all_walk rnd cf js (document_ok _ _ D) VNil nothing outs holds0); eauto).
  assert (R := m_read_all_read rnd cf js [] [] VNil (fit_nil []) eq_refl). destruct (m_read_all rnd cf js [] []) as [w| |]; [|congruence..]. exists w. split; [reflexivity|congruence].
Qed.
(** An object has at most as many extended properties as its JSON value and those
    before it have members; all objects together have at most the product of
    the number of values and the number of members. *)
Theorem properties_bounded : forall rnd cf js s outs M, (forall typ, parser_of cf typ = None) ->
  document js s -> walk rnd cf nothing js outs M -> Forall acceptable outs ->
  (forall i o, nth_error outs i = Some o -> properties_of o <= members (firstn (S i) js)) /\
  properties outs <= List.length js * members js.
Proof.
  intros rnd cf js s outs M NP D W A. destruct (walk_memory _ _ _ _ _ _ D W A) as (w & R & ->).
  assert (B : forall i o, nth_error (map (option_map (obj_of (fst w))) (snd w)) i = Some o -> properties_of o <= members (firstn (S i) js)) by (intros i o; apply (object_count rnd cf NP js w i o R)).
  split; [exact B|]. destruct (m_read_all_spec rnd cf js _ _ _ (fit_nil []) R) as (_ & Len & _). rewrite <- Len, <- (map_length (option_map (obj_of (fst w))) (snd w)).
  apply sum_bound. intros i o H. apply B in H. assert (X := members_firstn js (S i)). lia.
Qed.
Print Assumptions properties_bounded.

(** If every extended property of an object is a member of its own JSON value, the
    objects together have no more of them than the document has members. *)
Theorem properties_proportional_partial : forall rnd cf js s outs M, (forall typ, parser_of cf typ = None) ->
  document js s -> walk rnd cf nothing js outs M -> Forall acceptable outs ->
  (forall i v ob k, nth_error js i = Some v -> nth_error outs i = Some (Some ob) -> In k (akeys (props_of (fst ob) (snd ob))) -> names v k) ->
  properties outs <= members js.
Proof.
  intros rnd cf js s outs M NP D W A O. destruct (walk_memory _ _ _ _ _ _ D W A) as (w & R & ->).
  destruct (m_read_all_spec rnd cf js _ _ _ (fit_nil []) R) as (_ & Len & _).
  assert (Ow : own_names js w).
  { intros i v k Ev Rk. destruct (nth_error (snd w) i) as [[o|]|] eqn:Eo; [|unfold reading, ref_of in Rk; rewrite Eo in Rk; cbn in Rk; congruence..].
    apply (O i v (obj_of (fst w) o) k Ev); [rewrite nth_error_map, Eo; reflexivity|].
    rewrite (fresh_reading w i o k (m_read_all_fresh rnd cf NP js _ _ _ R i o Eo) Eo) in Rk. destruct (alookup k _) as [y|] eqn:E; [|congruence]. apply alookup_Some_In in E. now apply (in_map fst) in E. }
  apply sum_pairs; [rewrite map_length; exact Len|]. intros i o v Ho Hv. exact (object_own rnd cf NP js w i v o R Ow Hv Ho).
Qed.
Print Assumptions properties_proportional_partial.

(** In general no factor bounds the extended properties by the members: a document
    of [n] objects with one extended member each makes at least [n*n/2] of
    them. *)
Lemma items_ok i n : forallb json_okb (items i n) = true.
Proof.
  apply forallb_forall. intros j H. apply in_map_iff in H as (k & <- & _). cbn. rewrite !andb_true_r. induction k as [|k IH]; [reflexivity|exact IH].
Qed.
Lemma items_members i n : members (items i n) = 4 * n.
Proof. unfold members, items. revert i. induction n as [|n IH]; intros i; [reflexivity|]. cbn [seq map list_sum fold_right members_of item tool List.app List.length]. specialize (IH (S i)). unfold list_sum in IH. rewrite IH. lia. Qed.
Lemma sum_lower (f : option gobj -> nat) l n : forall i, List.length l = n -> (forall j o, nth_error l j = Some o -> i + j < f o) -> n * (2 * i + n + 1) <= 2 * list_sum (map f l).
Proof.
  revert n. induction l as [|x l IH]; intros n i L H; cbn [List.length] in L; subst n; [cbn; lia|]. cbn [map list_sum fold_right].
  assert (A1 := H 0 x eq_refl). assert (A2 := IH _ (S i) eq_refl ltac:(intros j o Ho; specialize (H (S j) o Ho); lia)). unfold list_sum in A2. nia.
Qed.
Theorem properties_proportional_refuted : ~ exists c, forall rnd cf js s outs M, (forall typ, parser_of cf typ = None) ->
  document js s -> walk rnd cf nothing js outs M -> Forall acceptable outs -> properties outs <= c * members js.
Proof.
  intros (c & H). set (n := 8 * c + 1). destruct (items_read rnd_id n 0 [] [] (fit_nil []) ltac:(intros k L; lia)) as (w & R & P).
  assert (D : document (items 0 n) (arr (items 0 n))) by (apply arr_document; apply items_ok).
  assert (E := m_read_all_read rnd_id default_cf (items 0 n) [] [] VNil (fit_nil []) eq_refl). rewrite R in E.
  destruct (proj1 (read_all_walk rnd_id default_cf _ (document_ok _ _ D) VNil nothing _ holds0) E) as (M & W & A).
  specialize (H rnd_id default_cf _ _ _ M (fun _ => eq_refl) D W A). rewrite items_members in H.
  destruct (m_read_all_spec rnd_id default_cf _ _ _ _ (fit_nil []) R) as (_ & Len & _). unfold items in Len. rewrite map_length, seq_length in Len.
  assert (L : n * (2 * 0 + n + 1) <= 2 * properties (map (option_map (obj_of (fst w))) (snd w))).
  { apply sum_lower; [now rewrite map_length|]. intros j o Ho. assert (Lj : j < n) by (rewrite <- Len, <- (map_length (option_map (obj_of (fst w)))); apply nth_error_Some; rewrite Ho; discriminate).
    destruct (P j Lj) as (ob & Eo & Lo). rewrite nth_error_map, Eo in Ho. injection Ho as <-. cbn [option_map].
    rewrite fresh_count; [exact Lo|]. eapply m_read_all_fresh; [|exact R|exact Eo]. reflexivity. }
  subst n. nia.
Qed.
Print Assumptions properties_proportional_refuted.

(** A document that meets the hypotheses of the theorems above. *)
Definition size_doc : list json := [mal [("x_a", JBool true)]; tool [("x_a", JBool true); ("x_b", JNull)]].
Example properties_bounded_ex : exists outs M, document size_doc (arr size_doc) /\ walk rnd_id default_cf nothing size_doc outs M /\ Forall acceptable outs /\ properties outs = 3 /\
  (forall i v ob k, nth_error size_doc i = Some v -> nth_error outs i = Some (Some ob) -> In k (akeys (props_of (fst ob) (snd ob))) -> names v k).
Proof.
  assert (D : document size_doc (arr size_doc)) by (apply arr_document; reflexivity).
  destruct (read_all rnd_id default_cf size_doc VNil) as [outs| |] eqn:E; [|vm_compute in E; discriminate..].
  destruct (proj1 (read_all_walk rnd_id default_cf _ (document_ok _ _ D) VNil nothing _ holds0) E) as (M & W & A). exists outs, M.
  split; [exact D|]. split; [exact W|]. split; [exact A|]. clear W A. vm_compute in E. injection E as <-. split; [vm_compute; reflexivity|].
  intros [|[|i]] v ob k Hv Ho Hk; [| |destruct i; discriminate Hv]; injection Hv as <-; injection Ho as <-; vm_compute in Hk;
    repeat (destruct Hk as [<-|Hk]; [eexists; eexists; split; [reflexivity|cbn; auto 10]|]); destruct Hk.
Qed.
