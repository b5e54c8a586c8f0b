(** A read object says what its JSON text says: C63.  [means t j v] of
    ReadSpec: the JSON value [j] stands for the Go value [v] of type [t]. *)
From Verif Require Import GoStr GoStrFacts JsonStr StrSpec StrSpecFacts JsonSpec JsonSpecFacts Json JsonFacts Float Consts GoTypes Schema GoVal GoValFacts TimeSpec NumSpec B64Spec Codec CodecSpec CodecFacts StructFacts CodecRound ObjFacts TypedFacts
  Ident Collection CollectionSpec FromJson FromJsonSpec FromJsonFacts ReadFacts IndepFacts ParseFacts BundleFacts FromJsonProps PropCodec PropFromJson ReadSpec ReadMeaning ReadExact NameSpec NameFacts.

Lemma builtin_fold : forallb (fun kv => fold_ok (snd kv)) builtin_types = true.
Proof. vm_compute. reflexivity. Qed.
Lemma builtin_facts name t : In (name, t) builtin_types -> exists n fs, t = GStruct n fs /\ flat_ok fs /\ NoDup (fold_keys fs) /\
  forall p m t, has_path fs p m t -> ty_ok t = true /\ fold_ok t = true.
Proof.
  intros H. assert (X := builtin_fold). rewrite forallb_forall in X. specialize (X _ H). cbn [snd] in X.
  destruct (builtin_read _ _ H) as (n & fs & -> & _ & _ & _ & _ & _ & _ & F & FT). cbn [fold_ok] in X. apply andb_true_iff in X as [X1 X2].
  exists n, fs. split; [reflexivity|]. split; [exact F|]. split; [now apply nodupb_NoDup|]. intros p m t HP. split; [eauto|]. rewrite forallb_forall in X2.
  destruct HP as [m t Hin _|mb nb fsb m t Hin _ Hin'].
  - exact (X2 _ Hin).
  - specialize (X2 _ Hin). cbn [snd fold_ok] in X2. apply andb_true_iff in X2 as [_ X2]. rewrite forallb_forall in X2. exact (X2 _ Hin').
Qed.

Lemma builtin_sound rnd name t j v : In (name, t) builtin_types -> json_okb j = true -> dec rnd j t (zero t) = DOk v false -> means rnd t j v.
Proof.
  intros H O D. destruct (builtin_facts _ _ H) as (n & fs & -> & F & ND & FT). destruct j as [|b|l|raw|l|ms]; try discriminate D.
  - injection D as <-. now apply (me_null rnd (GStruct n fs)).
  - apply struct_sound; [exact F|exact ND| |exact D]. intros k x p m t w I HP Dx. destruct (FT _ _ _ HP) as [A B]. apply (sound_all rnd x); auto.
    cbn [json_okb] in O. rewrite forallb_forall in O. specialize (O _ I). cbn in O. now apply andb_true_iff in O.
Qed.
Lemma builtin_complete rnd name t j v : In (name, t) builtin_types -> json_okb j = true -> plain_names j -> means rnd t j v -> dec rnd j t (zero t) = DOk v false.
Proof.
  intros H O P M. destruct (builtin_facts _ _ H) as (n & fs & -> & F & ND & FT). inversion M; subst; [reflexivity|].
  inversion P as [| | | | |ms' N Hm]; subst. apply struct_complete; [exact F|exact ND|exact N|assumption|assumption|assumption|].
  intros k p t kx Hin Q. assert (I : In kx ms). { assert (I : In kx (named k ms)) by (rewrite Q; now left). now apply filter_In in I. }
  cbn [json_okb] in O. rewrite forallb_forall in O. assert (Ox := O _ I). destruct (proj1 (flat_fields_In _ _ _ _) Hin) as (m & HP & _). destruct (FT _ _ _ HP) as [A B].
  destruct kx as [k' x]. cbn in Ox. apply andb_true_iff in Ox as [_ Ox]. apply complete_aux; eauto.
Qed.

(** Reading an object of a built-in type: what comes out is what the text
    stands for ... *)
Theorem object_means : forall rnd name t s v, In (name, t) builtin_types -> unmarshal rnd s t (zero t) = Ok v ->
  exists j, json_text j s /\ means rnd t j v.
Proof.
  intros rnd name t s v H U. unfold unmarshal in U. destruct (parse_json s) as [j|] eqn:P; [|discriminate U]. exists j. split; [now apply json_exact|].
  eapply builtin_sound; [exact H|eapply parse_ok; eauto|]. destruct (dec rnd j t (zero t)) as [w [|]| |]; try discriminate U. cbn in U. congruence.
Qed.
Print Assumptions object_means.

(** ... and texts that stand for something are read, when no object in them
    has two members of the same name up to case. *)
Theorem object_read_exact : forall rnd name t j s v, In (name, t) builtin_types -> json_text j s -> plain_names j ->
  (unmarshal rnd s t (zero t) = Ok v <-> means rnd t j v).
Proof.
  intros rnd name t j s v H T P. apply json_exact in T. assert (O := parse_ok _ _ T). unfold unmarshal. rewrite T. split.
  - intros U. eapply builtin_sound; [exact H|exact O|]. destruct (dec rnd j t (zero t)) as [w [|]| |]; try discriminate U. cbn in U. congruence.
  - intros M. now rewrite (builtin_complete _ _ _ _ _ H O P M).
Qed.
Print Assumptions object_read_exact.

(** Such a text stands for one value at most. *)
Theorem meaning_unique : forall rnd name t j s v w, In (name, t) builtin_types -> json_text j s -> plain_names j -> means rnd t j v -> means rnd t j w -> v = w.
Proof.
  intros rnd name t j s v w H T P M M'. apply (object_read_exact rnd name t j s v H T P) in M. apply (object_read_exact rnd name t j s w H T P) in M'. congruence.
Qed.
Print Assumptions meaning_unique.

Lemma builds_object rnd cf j o ts : contributes rnd cf ts j o -> o <> None -> exists ms, j = JObj ms.
Proof.
  intros C N. inversion C as [|ms H|j' typ out H B|ms typ out H I B]; subst; try (now destruct N); [|eauto].
  unfold json_type, member in H. destruct j; try discriminate H. eauto.
Qed.
Lemma custom_sound rnd j v : json_okb j = true -> unmarshal rnd (print j) ty_CustomObject (VMap []) = Ok v -> (exists ms, j = JObj ms) -> means rnd ty_CustomObject j v.
Proof.
  intros O U (ms & ->). apply (unmarshal_dec rnd) in U; [|exact O]. apply (sound_all rnd); auto.
Qed.

(** FromJSON without registered parsers: each object of a built-in type has in
    the fields of its type what its JSON object stands for, and a custom object
    is the map its JSON object stands for. *)
Theorem document_means : forall rnd cf js s c, document js s -> from_json rnd cf s = Ok c -> (forall typ, parser_of cf typ = None) ->
  exists outs, c = collect (cf_nosort cf) outs /\ Forall acceptable outs /\
  Forall2 (fun j o => forall t v, o = Some (t, v) -> exists ms, j = JObj ms /\
     ((t = ty_CustomObject /\ means rnd t j v) \/
      exists name n fs v0, t = GStruct n fs /\ In (name, t) builtin_types /\ means rnd t j v0 /\
        forall k p t, In (k, p, t) (flat_fields fs) -> get_path p v = get_path p v0)) js outs.
Proof.
  intros rnd cf js s c D E NP. destruct (outputs _ _ _ _ _ D E) as (outs & -> & A & F). exists outs. split; [reflexivity|]. split; [exact A|].
  apply document_ok in D. clear E A. induction F as [|j o js outs (ts & C) F IH]; [constructor|]. cbn [forallb] in D. apply andb_true_iff in D as [Oj D]. constructor; [|auto].
  intros t v ->. assert (J := builds_object _ _ _ _ _ C ltac:(discriminate)). assert (J' := J). destruct J' as (ms & Ej). exists ms. split; [exact Ej|].
  apply contributes_builds in C as [C|(typ & B & _)]; [discriminate|].
  inversion B as [h t' v0 v' l P Hh U Dr|t' v' l P Hb' U Dr|v' P Hb' Dr U|P Hb' Dr]; subst t v.
  - rewrite NP in P. discriminate.
  - right. destruct (builtin_read _ _ Hb') as (n & fs & -> & _ & _ & _ & _ & _ & _ & FO & _). exists typ, n, fs, v'. split; [reflexivity|]. split; [exact Hb'|].
    apply (unmarshal_dec rnd) in U; [|exact Oj]. split; [eapply builtin_sound; eauto|].
    intros k p t Hf. apply flat_fields_In in Hf as (m & HP & -> & Nk).
    assert (Sh := dec_shape rnd _ _ _ _ _ FO U). eapply add_props_own; [exact Hb'|exact Sh|exact HP|exact Nk].
  - left. split; [reflexivity|]. now apply custom_sound.
Qed.
Print Assumptions document_means.

(** What is written stands for the object, normalised as in C20. *)
Theorem written_means : forall rnd name t v s, In (name, t) builtin_types -> wf rnd t v = true ->
  (forall k, In k (akeys (props_of t v)) -> free_name t k = true) -> marshal_bytes t v = Ok s ->
  exists j, json_text j s /\ means rnd t j (norm_top rnd t v).
Proof.
  intros rnd name t v s H W P M. apply (object_round_trip rnd name t v s H W P) in M. eapply object_means; eauto.
Qed.
Print Assumptions written_means.

(** Which members go into a field: those that spell its key up to case. *)
Theorem member_names :
  (forall name t n fs k p t', In (name, t) builtin_types -> within t (GStruct n fs) -> In (k, p, t') (flat_fields fs) -> lower_ascii k) /\
  (forall f ms kx, lower_ascii f -> (In kx (named f ms) <-> In kx ms /\ spells (fst kx) f)).
Proof.
  split.
  - intros name t n fs k p t' H W. assert (X : forallb (fun kt => keys_lower (snd kt)) builtin_types = true) by (vm_compute; reflexivity).
    rewrite forallb_forall in X. apply X in H. cbn [snd] in H. apply (within_lower _ _ W) in H. now apply (flat_lower n fs).
  - intros f ms kx F. unfold named. rewrite filter_In, String.eqb_eq, (fold_ascii f F), (fold_exact (fst kx) f F). reflexivity.
Qed.
Print Assumptions member_names.

(** ** Non-vacuity *)
Example spelling_case : lower_ascii "kill_chain_phases" /\ spells ("Kill_Chain_PHA" ++ String "197" (String "191" "es")) "kill_chain_phases" /\ ~ spells "kill-chain-phases" "kill_chain_phases".
Proof.
  assert (L : lower_ascii "kill_chain_phases") by (apply lower_asciib_spec; vm_compute; reflexivity). split; [exact L|].
  split; [apply fold_exact; [exact L|vm_compute; reflexivity]|]. intros H. apply fold_exact in H; [discriminate H|exact L].
Qed.
Definition dir_json (ctime size : json) : json :=
  JObj [("type", JStr "file"); ("ID", JStr "file--1"); ("name", JStr "abc"); ("size", size); ("ctime", ctime); ("x_other", JBool true)].
Lemma dir_plain raw l : plain_names (dir_json (JStr raw) (JNum l)).
Proof.
  constructor; [cbn [map fst dir_json]; repeat constructor; cbn; intuition discriminate|].
  cbn. intros k x H. repeat (destruct H as [Q|H]; [injection Q as _ <-; constructor|]). destruct H.
Qed.
Example object_means_ex : exists v, unmarshal rnd_id (print (dir_json (JStr "2024-02-29T09:05:06Z") (JNum "25536"))) ty_File (zero ty_File) = Ok v /\
  get_path (None, "Name") v = VStr "abc" /\ get_path (None, "Size") v = VInt 25536 /\
  get_path (None, "Ctime") v = VPtr (VTime 1709197506000000000) /\ get_path (None, "Mtime") v = VNil /\ get_path (Some "STIXCyberObservableObject", "ID") v = VStr "file--1".
Proof. eexists. split; [vm_compute; reflexivity|]. vm_compute. repeat split. Qed.
(** A number too large for the property, and one with a fraction, stand for no value. *)
Example object_means_big : forall v, ~ means rnd_id ty_File (dir_json (JStr "2024-02-29T09:05:06Z") (JNum "9223372036854775808")) v /\
  ~ means rnd_id ty_File (dir_json (JStr "2024-02-29T09:05:06Z") (JNum "1.5")) v.
Proof.
  intros v. split; intros M.
  all: match type of M with means _ _ ?j _ => apply (object_read_exact rnd_id "file" ty_File j (print j)) in M end;
    [vm_compute in M; discriminate M|apply alookup_Some_In; vm_compute; reflexivity|apply json_exact; vm_compute; reflexivity|apply dir_plain].
Qed.
