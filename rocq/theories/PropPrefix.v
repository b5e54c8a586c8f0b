(** Torn and joined texts: C72.  [blank] of JsonSpec: white space only. *)
From Verif Require Import GoStr GoStrFacts JsonStr StrSpec StrSpecFacts JsonSpec JsonSpecFacts Json JsonFacts Float Consts GoTypes Schema GoVal Codec CodecSpec CodecFacts ObjFacts
  Ident Collection FromJson FromJsonSpec FromJsonFacts PropCodec PropFromJson PrefixFacts.
Local Open Scope string_scope.

Lemma document_text js s : document js s -> exists j, json_text j s /\ forall l, j <> JNum l.
Proof. intros D. destruct D as [js s H|s H|ms s H _]; eexists; (split; [exact H|discriminate]). Qed.
Lemma accepted_document rnd cf s : (forall e, from_json rnd cf s <> Err e) -> exists js, document js s.
Proof. intros H. destruct (document_dec rnd s) as [D|N]; [exact D|]. destruct (H _ (from_json_no_document rnd cf s N)). Qed.
Lemma accepted_text rnd cf s : (forall e, from_json rnd cf s <> Err e) -> exists j, json_text j s /\ forall l, j <> JNum l.
Proof. intros H. destruct (accepted_document _ _ _ H) as (js & D). exact (document_text _ _ D). Qed.
Lemma ok_no_err {A} (r : res A) c : r = Ok c -> forall e, r <> Err e.
Proof. congruence. Qed.

(** ** C72 *)
(** Cutting off more than white space at the end of an accepted document always
    leads to an error: never to a shorter collection or a panic. *)
Theorem truncated_document_rejected : forall rnd cf s c p u, from_json rnd cf s = Ok c -> s = p ++ u -> ~ blank u ->
  forall rnd' cf', exists e, from_json rnd' cf' p = Err e.
Proof.
  intros rnd cf s c p u E -> B rnd' cf'. destruct (accepted_text _ _ _ (ok_no_err _ _ E)) as (j & T & _).
  destruct (document_dec rnd' p) as [(js & D)|N]; [|exists "unknown JSON format"; now apply from_json_no_document].
  exfalso. destruct (document_text _ _ D) as (j' & T' & N'). destruct (text_end _ _ _ _ T' N' T) as [X _]. contradiction.
Qed.
Print Assumptions truncated_document_rejected.

(** So does putting more than white space after it, in particular another
    document. *)
Theorem trailing_data_rejected : forall rnd cf s c u, from_json rnd cf s = Ok c -> ~ blank u ->
  forall rnd' cf', exists e, from_json rnd' cf' (s ++ u) = Err e.
Proof.
  intros rnd cf s c u E B rnd' cf'. destruct (accepted_text _ _ _ (ok_no_err _ _ E)) as (j & T & N).
  destruct (document_dec rnd' (s ++ u)) as [(js & D)|N']; [|exists "unknown JSON format"; now apply from_json_no_document].
  exfalso. destruct (document_text _ _ D) as (j' & T' & _). destruct (text_end _ _ _ _ T N T') as [X _]. contradiction.
Qed.
Print Assumptions trailing_data_rejected.

Lemma brace_last p : forall u a, a ++ "}" = p ++ u -> u <> "" -> ~ blank u.
Proof.
  assert (X : forall a u, a ++ "}" = u -> ~ blank u).
  { intros a u <- B. assert (C : In "}"%char (list_ascii_of_string (a ++ "}"))) by (induction a as [|c a IH]; [now left|right; apply IH; intros d I; apply B; now right]).
    apply B in C. vm_compute in C. intuition discriminate. }
  induction p as [|c p IH]; intros u a E N; [now apply (X a)|]. destruct a as [|d a]; cbn [append] in E; injection E as E1 E2.
  - destruct p; cbn in E2; congruence.
  - now apply (IH u a).
Qed.

(** A bundle that was only written in part is not read as a smaller one: every
    proper beginning of its bytes is refused. *)
Theorem torn_bundle_rejected : forall rnd cf b c p u, from_json rnd cf (bundle_bytes b) = Ok c -> bundle_bytes b = p ++ u -> u <> "" ->
  forall rnd' cf', exists e, from_json rnd' cf' p = Err e.
Proof.
  intros rnd cf b c p u E Q N. apply (truncated_document_rejected _ _ _ _ _ _ E Q). revert Q N. generalize (b_objects b), (b_type b), (b_id b).
  intros _ _ _ Q. unfold bundle_bytes in Q. rewrite <- !sapp_assoc in Q. exact (brace_last p u _ Q).
Qed.
Print Assumptions torn_bundle_rejected.

Lemma marshal_object rnd name t v j : In (name, t) builtin_types -> wf rnd t v = true -> marshal t v = Ok j -> exists ms, j = JObj ms.
Proof.
  intros H W E. destruct (builtin_cases _ _ H) as (n & fs & -> & _). unfold marshal in E. destruct (mem_str _ helper_types).
  - unfold enc_obj in E. apply bind_ok in E as (m & _ & E). apply bind_ok in E as (js & _ & E). injection E as <-. eauto.
  - destruct v; try discriminate W. cbn [enc] in E. apply bind_ok in E as (js & _ & E). injection E as <-. eauto.
Qed.

(** The same for the encoding of a single object. *)
Theorem torn_object_rejected : forall rnd name t v s p u, In (name, t) builtin_types -> wf rnd t v = true ->
  marshal_bytes t v = Ok s -> s = p ++ u -> u <> "" ->
  forall rnd' t' v', exists e, unmarshal rnd' p t' v' = Err e.
Proof.
  intros rnd name t v s p u H W E Q N rnd' t' v'. unfold marshal_bytes in E. apply bind_ok in E as (j & E & Ej). injection Ej as <-.
  assert (O := marshal_json_ok _ _ _ _ _ H W E). destruct (marshal_object _ _ _ _ _ H W E) as (ms & ->).
  assert (T := proj1 (json_exact _ _) (parse_print _ O)). rewrite Q in T.
  unfold unmarshal. destruct (parse_json p) as [j'|] eqn:P; [|eauto]. exfalso. apply json_exact in P.
  assert (B : ~ blank u). { cbn [print] in Q. rewrite <- sapp_assoc in Q. exact (brace_last p u _ Q N). }
  destruct j' as [| |l| | |]; try (destruct (text_end _ _ _ _ P ltac:(discriminate) T) as [X _]; contradiction).
  (* a number does not begin like an object *)
  apply json_exact in P. apply parse_json_iff in P as (w1 & t1 & w2 & H1 & _ & V & ->). inversion V as [| | |l' Hl El| | | | |]; subst t1; subst l'.
  destruct (num_ok_all _ Hl) as [Ha Hn]. cbn [print] in Q. rewrite !sapp_assoc in Q. destruct w1 as [|c w1].
  - destruct l as [|c l]; [contradiction|]. cbn [append] in Q. injection Q as <- _. discriminate Ha.
  - apply ws_inv in H1 as [H1 _]. cbn [append] in Q. injection Q as <- _. discriminate H1.
Qed.
Print Assumptions torn_object_rejected.

(** Non-vacuity: a bundle with an object, cut before its last byte, and two
    copies of it one after the other. *)
Definition bundle1 : bundle := Bundle "bundle" ("bundle--" ++ "5a2d6a6c-2a2b-4c3d-8e4f-5a6b7c8d9e0f") [print (mal [])].
Example torn_ex : exists c p, from_json rnd_id default_cf (bundle_bytes bundle1) = Ok c /\ (exists o, all_objects c [Some o]) /\ bundle_bytes bundle1 = p ++ "}" /\
  from_json rnd_id default_cf p = Err "unknown JSON format" /\
  from_json rnd_id default_cf (bundle_bytes bundle1 ++ bundle_bytes bundle1) = Err "unknown JSON format" /\
  from_json rnd_id default_cf (bundle_bytes bundle1 ++ String "010" "") = Ok c.
Proof.
  exists (match from_json rnd_id default_cf (bundle_bytes bundle1) with Ok c => c | _ => new_coll false end).
  exists (match bundle_bytes bundle1 with s => substring 0 (String.length s - 1) s end).
  split; [vm_compute; reflexivity|]. split; [eexists; vm_compute; reflexivity|]. repeat split; vm_compute; reflexivity.
Qed.
(** The beginning of a number is a number: the documents and objects above are
    not numbers. *)
Example number_prefix_ex : json_text (JNum "12") "12" /\ json_text (JNum "1") "1" /\ ~ blank "2".
Proof.
  split; [apply json_exact; vm_compute; reflexivity|]. split; [apply json_exact; vm_compute; reflexivity|].
  intros B. specialize (B "2"%char (or_introl eq_refl)). vm_compute in B. intuition discriminate.
Qed.
