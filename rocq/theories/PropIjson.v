(** What is written is I-JSON: C81. *)
From Coq Require Import QArith Qabs Qpower Lqa Lia Permutation.
From Verif Require Import GoStr GoStrFacts JsonStr JsonStrFacts Json JsonFacts JsonSpec JsonSpecFacts Float FloatFacts NumSpecFacts Consts Enums GoTypes Schema GoVal GoValFacts Time Base64
  Codec CodecSpec CodecFacts StructFacts Ident Collection CollectionSpec FromJson FromJsonSpec PropCodec PropFromJson TextSpec TextFacts
  SettleFacts Double DoubleFacts DoubleSpec DoubleReal PropDouble PropSettle Canon CanonSpec CanonFacts PropCanon IdSpec IjsonSpec IjsonFacts IjsonRead.
From Verif Require PropDepth.
Close Scope Q_scope.
Local Open Scope string_scope.

(** Go's rounding gives a double for all integers of 64 bits. *)
Theorem go_rounds_integers : rounds_ints go_rnd.
Proof.
  intros neg m e E L. assert (R : in_range (decimal m e)).
  { unfold in_range. rewrite Qabs_pos by apply decimal_nonneg. assert (V : (decimal m e == inject_Z (Z.of_N m * 10 ^ e))%Q).
    { unfold decimal. rewrite inject_Z_mult, Zpower_Qpower by exact E. reflexivity. }
    rewrite V. apply Qle_lt_trans with (inject_Z 9223372036854775808); [rewrite <- Zle_Qle; lia|]. reflexivity. }
  destruct (go_rnd_some neg m e R) as (y & m' & e' & _ & _ & G). eauto.
Qed.
Print Assumptions go_rounds_integers.

(** ** Objects *)
(** The encoding of an object is I-JSON text: UTF-8, surrogates in pairs, all
    numbers doubles; whatever bytes its strings hold. *)
Theorem encoded_ijson : forall rnd t v s, rounds_ints rnd -> plain_value rnd v = true -> (exists l, v = VStruct l \/ v = VMap l) ->
  marshal_bytes t v = Ok s -> exists a, ijson_text rnd a s.
Proof.
  intros rnd t v s RI P (l & L) M. unfold marshal_bytes in M. apply bind_ok in M as (j & M & E). assert (s = print j) by congruence. subst s.
  assert (S := marshal_sound rnd RI t v j P M). assert (O : exists ms, j = JObj ms).
  { unfold marshal in M. destruct (mem_str (ty_name t) helper_types).
    - unfold enc_obj in M. apply bind_ok in M as (m & _ & M). apply bind_ok in M as (js & _ & M). exists js. congruence.
    - destruct L as [->| ->]; cbn [enc] in M; destruct t; try discriminate M; apply bind_ok in M as (js & _ & M); exists js; congruence. }
  destruct O as (ms & ->). destruct (print_jc rnd _ S) as (a & J & _ & C). exists a. split; [exact C|]. exists "", (print (JObj ms)), "". repeat split; try apply IjsonFacts.blank_nil; [exact J|]. cbn [append]. now rewrite sapp_nil_r.
Qed.
Print Assumptions encoded_ijson.

(** If moreover the names of its maps are UTF-8, no name is repeated in an
    object of the text, at any depth, and the canonicalizer takes the text. *)
Theorem encoded_names : forall rnd pf t v s, rounds_ints rnd -> float_parser rnd pf ->
  tags_apart t = true -> plain_value rnd v = true -> names_apart v = true -> (exists l, v = VStruct l \/ v = VMap l) -> marshal_bytes t v = Ok s ->
  exists a c, ijson_text rnd a s /\ dup_free a /\ transform pf s = Ok c /\ jcs a c.
Proof.
  intros rnd pf t v s RI FP T P N (l & L) M. unfold marshal_bytes in M. apply bind_ok in M as (j & M & E). assert (s = print j) by congruence. subst s.
  assert (S := marshal_sound rnd RI t v j P M). assert (U := marshal_once rnd t v j T P N M). assert (O : exists ms, j = JObj ms).
  { unfold marshal in M. destruct (mem_str (ty_name t) helper_types).
    - unfold enc_obj in M. apply bind_ok in M as (m & _ & M). apply bind_ok in M as (js & _ & M). exists js. congruence.
    - destruct L as [->| ->]; cbn [enc] in M; destruct t; try discriminate M; apply bind_ok in M as (js & _ & M); exists js; congruence. }
  destruct O as (ms & ->). destruct (print_jc rnd _ S) as (a & J & D & C). 
  assert (I : ijson_text rnd a (print (JObj ms))).
  { split; [exact C|]. exists "", (print (JObj ms)), "". repeat split; try apply IjsonFacts.blank_nil; [exact J|]. cbn [append]. now rewrite sapp_nil_r. }
  destruct (canonical_text rnd pf a _ FP I (D U)) as (c & X & Y & _). exists a, c. auto.
Qed.
Print Assumptions encoded_names.

(** So the extensions of an observable have a contribution to its identifier
    (C80). *)
Theorem extensions_contribute : forall l t, l <> [] -> plain_value go_rnd (VMap l) = true -> names_apart (VMap l) = true -> marshal_bytes GExt (VMap l) = Ok t ->
  exists e, id_value go_rnd "Extensions" (VMap l) [e].
Proof.
  intros l t L P N M. assert (FP : float_parser go_rnd (go_parse_float go_rnd (fun _ => (FFin false 0 0, false)))) by (apply parse_float_is_a_parser; discriminate).
  destruct (encoded_names go_rnd _ GExt (VMap l) t go_rounds_integers FP eq_refl P N (ex_intro _ l (or_intror eq_refl)) M) as (a & c & J & D & _).
  exists a. now apply iv_extensions with t.
Qed.
Print Assumptions extensions_contribute.

(** All types of STIX objects and extensions are such types. *)
Theorem names_of_types_apart : (forall name t, In (name, t) builtin_types -> tags_apart t = true) /\ (forall name t, In (name, t) ext_types -> tags_apart t = true) /\
  tags_apart ty_CustomObject = true.
Proof.
  split; [|split; [|reflexivity]].
  - intros name t I. assert (X := builtin_tags). rewrite forallb_forall in X. exact (X _ I).
  - intros name t I. assert (X : forallb (fun kv => tags_apart (snd kv)) ext_types = true) by (vm_compute; reflexivity). rewrite forallb_forall in X. exact (X _ I).
Qed.
Print Assumptions names_of_types_apart.

(** ** Bundles *)
Definition bundle_json (id : string) (js : list json) : json :=
  JObj (("type", JStr (quote "bundle")) :: ("id", JStr (quote id)) :: match js with [] => [] | _ => [("objects", JArr js)] end).
Lemma bundle_print id js : bundle_bytes (Bundle "bundle" id (map print js)) = print (bundle_json id js).
Proof.
  unfold bundle_bytes, bundle_json. cbn [b_type b_id b_objects].
  destruct js as [|j js]; cbn [print map join fst snd]; change (quote "type") with "type"; change (quote "id") with "id"; change (quote "objects") with "objects";
        rewrite !sapp_assoc; cbn [append]; rewrite ?sapp_assoc; cbn [append]; rewrite ?sapp_assoc; reflexivity.
Qed.
Lemma enc_all_json (P : json -> Prop) : P JNull -> forall l ds, (forall ob j, In (Some ob) l -> marshal (fst ob) (snd ob) = Ok j -> P j) -> enc_all marshal_obj l = Ok ds ->
  exists js, ds = map print js /\ Forall P js.
Proof.
  intros PN. induction l as [|o l IH]; intros ds H E; cbn [enc_all] in E; [assert (ds = []) by congruence; subst; exists []; split; [reflexivity|constructor]|].
  apply bind_ok in E as (d & D & E). apply bind_ok in E as (ds' & D' & E). assert (ds = d :: ds') by congruence. subst ds.
  destruct (IH ds' (fun ob j I => H ob j (or_intror I)) D') as (js & -> & F). destruct o as [ob|].
  - unfold marshal_obj, marshal_bytes in D. apply bind_ok in D as (j & M & D). assert (d = print j) by congruence. subst d.
    exists (j :: js). split; [reflexivity|]. constructor; [|exact F]. eapply H; [now left|exact M].
  - assert (d = "null") by congruence. subst d. exists (JNull :: js). split; [reflexivity|]. now constructor.
Qed.
Lemma bundle_sound rnd id js : Forall (sound rnd) js -> sound rnd (bundle_json id js).
Proof.
  intros H. assert (S : forall s, sound rnd (JStr (quote s))) by (intros s; destruct (quote_clean s) as (x & C & _); econstructor; exact C).
  constructor. constructor; [apply S|]. constructor; [apply S|]. destruct js; [constructor|]. constructor; [now constructor|constructor].
Qed.
Lemma bundle_once id js : Forall once js -> once (bundle_json id js).
Proof.
  intros H. unfold bundle_json. constructor.
  - apply nodupb_NoDup. destruct js; reflexivity.
  - constructor; [split; [reflexivity|constructor]|]. constructor; [split; [reflexivity|constructor]|]. destruct js; [constructor|].
    constructor; [split; [reflexivity|now constructor]|constructor].
Qed.
Lemma print_ijson rnd ms : sound rnd (JObj ms) -> exists a, ijson_text rnd a (print (JObj ms)) /\ (once (JObj ms) -> dup_free a).
Proof.
  intros S. destruct (print_jc rnd _ S) as (a & J & D & C). exists a. split; [|exact D]. split; [exact C|].
  exists "", (print (JObj ms)), "". repeat split; try apply IjsonFacts.blank_nil; [exact J|]. cbn [append]. now rewrite sapp_nil_r.
Qed.

(** The bundle of a collection is I-JSON text, after any sequence of Add calls. *)
Theorem bundle_ijson : forall rnd r ns (h : list (string * string * gobj)) c oks b, rounds_ints rnd -> run (new_coll ns) h = (c, oks) ->
  Forall (fun x => plain_value rnd (snd (snd x)) = true) h -> to_bundle marshal_obj r c (Ok b) -> exists a, ijson_text rnd a (bundle_bytes b).
Proof.
  intros rnd r ns h c oks b RI R H (l & A & E). unfold new_bundle in E. symmetry in E. apply bind_ok in E as (ds & D & E).
  assert (b = Bundle "bundle" (new_identifier r "bundle") ds) by congruence. subst b.
  destruct (enc_all_json (sound rnd) (so_null rnd) l ds) as (js & -> & F); [|exact D|].
  - intros ob j I M. destruct (PropDepth.reached _ _ _ _ _ _ R A I) as (x & Ix & <-). rewrite Forall_forall in H. exact (marshal_sound rnd RI _ _ _ (H _ Ix) M).
  - rewrite bundle_print. destruct (print_ijson rnd _ (bundle_sound rnd (new_identifier r "bundle") js F)) as (a & J & _). now exists a.
Qed.
Print Assumptions bundle_ijson.

(** If the names of the maps in all objects are UTF-8, no name is repeated in
    an object of the text, and the canonicalizer takes the bundle. *)
Theorem bundle_names : forall rnd pf r ns (h : list (string * string * gobj)) c oks b, rounds_ints rnd -> float_parser rnd pf -> run (new_coll ns) h = (c, oks) ->
  Forall (fun x => tags_apart (fst (snd x)) = true /\ plain_value rnd (snd (snd x)) = true /\ names_apart (snd (snd x)) = true) h ->
  to_bundle marshal_obj r c (Ok b) ->
  exists a t, ijson_text rnd a (bundle_bytes b) /\ dup_free a /\ transform pf (bundle_bytes b) = Ok t /\ jcs a t.
Proof.
  intros rnd pf r ns h c oks b RI FP R H (l & A & E). unfold new_bundle in E. symmetry in E. apply bind_ok in E as (ds & D & E).
  assert (b = Bundle "bundle" (new_identifier r "bundle") ds) by congruence. subst b.
  destruct (enc_all_json (fun j => sound rnd j /\ once j) (conj (so_null rnd) on_null) l ds) as (js & -> & F); [|exact D|].
  - intros ob j I M. destruct (PropDepth.reached _ _ _ _ _ _ R A I) as (x & Ix & <-). rewrite Forall_forall in H. destruct (H _ Ix) as (T & P & N).
    split; [exact (marshal_sound rnd RI _ _ _ P M)|exact (marshal_once rnd _ _ _ T P N M)].
  - apply Forall_and_inv in F as [F1 F2]. rewrite bundle_print. destruct (print_ijson rnd _ (bundle_sound rnd (new_identifier r "bundle") js F1)) as (a & J & U). specialize (U (bundle_once _ _ F2)).
    destruct (canonical_text rnd pf a _ FP J U) as (c' & X & Y & _). exists a, c'. auto.
Qed.
Print Assumptions bundle_names.

(** ** Reading, then writing *)
(** The bundle of what was read from any document is I-JSON text without
    repeated names, and the canonicalizer takes it: names that are read are
    UTF-8, whatever bytes the document has.  Custom parsers are to return such
    objects themselves. *)
Theorem reread_ijson : forall rnd pf cf s c r b, rounding rnd -> rounds_ints rnd -> float_parser rnd pf ->
  (forall typ h j o, alookup typ (cf_handlers cf) = Some (Some h) -> h j = Ok (Some o) ->
     tags_apart (fst o) = true /\ plain_value rnd (snd o) = true /\ names_apart (snd o) = true) ->
  from_json rnd cf s = Ok c -> to_bundle marshal_obj r c (Ok b) ->
  exists a t, ijson_text rnd a (bundle_bytes b) /\ dup_free a /\ transform pf (bundle_bytes b) = Ok t /\ jcs a t.
Proof.
  intros rnd pf cf s c r b (R1 & R2 & _) RI FP HF E (l & A & Q). assert (ST : settled rnd) by (split; assumption). unfold new_bundle in Q. symmetry in Q. apply bind_ok in Q as (ds & D & Q).
  assert (b = Bundle "bundle" (new_identifier r "bundle") ds) by congruence. subst b.
  destruct (enc_all_json (fun j => sound rnd j /\ once j) (conj (so_null rnd) on_null) l ds) as (js & -> & F); [|exact D|].
  - intros ob j I M. destruct (all_fits rnd ST cf HF s c l ob E A I) as (T & P & N).
    split; [exact (marshal_sound rnd RI _ _ _ P M)|exact (marshal_once rnd _ _ _ T P N M)].
  - apply Forall_and_inv in F as [F1 F2]. rewrite bundle_print. destruct (print_ijson rnd _ (bundle_sound rnd (new_identifier r "bundle") js F1)) as (a & J & U). specialize (U (bundle_once _ _ F2)).
    destruct (canonical_text rnd pf a _ FP J U) as (c' & X & Y & _). exists a, c'. auto.
Qed.
Print Assumptions reread_ijson.

(** With Go's own numbers and without custom parsers, no condition is left. *)
Theorem reread_canonical : forall other cf s c r b, (forall l neg m e, other l = (FFin neg m e, true) -> exists y, stands_for neg y (FFin neg m e)) ->
  cf_handlers cf = [] -> from_json go_rnd cf s = Ok c -> to_bundle marshal_obj r c (Ok b) ->
  exists a t, ijson_text go_rnd a (bundle_bytes b) /\ dup_free a /\ transform (go_parse_float go_rnd other) (bundle_bytes b) = Ok t /\ jcs a t.
Proof.
  intros other cf s c r b O H. apply reread_ijson; [exact go_rounding|exact go_rounds_integers|now apply parse_float_is_a_parser|].
  intros typ h j o X. rewrite H in X. discriminate X.
Qed.
Print Assumptions reread_canonical.

(** ** Names that are no UTF-8 *)
(** Two names that are no UTF-8 may be written alike: then the text has a name
    twice, and the canonicalizer rejects what the library wrote. *)
Definition byte_name (n : N) : string := String (ascii_of_N n) "".
Definition two_names : gval := VMap [("id", dyn_str "x-a--0"); ("type", dyn_str "x-a"); (byte_name 254, dyn_str "a"); (byte_name 255, dyn_str "b")].
Definition two_names_text : string := "{""id"":""x-a--0"",""type"":""x-a"",""\ufffd"":""a"",""\ufffd"":""b""}".
Theorem encoded_names_refuted : ~ (forall t v s, tags_apart t = true -> plain_value go_rnd v = true -> (exists l, v = VStruct l \/ v = VMap l) ->
  marshal_bytes t v = Ok s -> exists a, ijson_text go_rnd a s /\ dup_free a).
Proof.
  intros H. destruct (H ty_CustomObject two_names two_names_text) as (a & J & D); [reflexivity|vm_compute; reflexivity|unfold two_names; eauto|vm_compute; reflexivity|].
  assert (FP : float_parser go_rnd (go_parse_float go_rnd (fun _ => (FFin false 0 0, false)))) by (apply parse_float_is_a_parser; discriminate).
  destruct (canonical_text go_rnd _ a _ FP J D) as (t & E & _). vm_compute in E. discriminate E.
Qed.
Print Assumptions encoded_names_refuted.

(** ** Examples *)
Definition no_floats : string -> flt * bool := go_parse_float go_rnd (fun _ => (FFin false 0 0, false)).
(** A malware with bytes that are no UTF-8 in its name and an extended property. *)
Definition odd_malware : gval := set_path (Some "STIXDomainObject", "toplevelProperties") (VPtr (VMap [("x_rank", VDyn GFloat (VFloat (FFin false 15 (-1))))]))
  (set_path (None, "Name") (VStr (byte_name 255 ++ "<")) ex_malware).
Example encoded_names_ex : tags_apart ty_Malware = true /\ plain_value go_rnd odd_malware = true /\ names_apart odd_malware = true /\
  (exists l, odd_malware = VStruct l) /\ float_parser go_rnd no_floats /\
  exists s, marshal_bytes ty_Malware odd_malware = Ok s.
Proof.
  split; [vm_compute; reflexivity|]. split; [vm_compute; reflexivity|]. split; [vm_compute; reflexivity|].
  split; [eexists; vm_compute; reflexivity|]. split; [apply parse_float_is_a_parser; discriminate|]. eexists. vm_compute. reflexivity.
Qed.
Definition odd_history : list (string * string * gobj) := [("malware--30313233-3435-4637-b839-616263646566", "malware", (ty_Malware, odd_malware))].
Example bundle_names_ex : exists c, run (new_coll false) odd_history = (c, [true]) /\ (exists b, to_bundle marshal_obj "0123456789abcdef" c (Ok b)) /\
  Forall (fun x => tags_apart (fst (snd x)) = true /\ plain_value go_rnd (snd (snd x)) = true /\ names_apart (snd (snd x)) = true) odd_history.
Proof.
  exists (fst (run (new_coll false) odd_history)). split; [vm_compute; reflexivity|]. split.
  - destruct (marshal_bytes ty_Malware odd_malware) as [s| |] eqn:M; [|exact (False_ind _ ltac:(vm_compute in M; discriminate M))..].
    exists (Bundle "bundle" (new_identifier "0123456789abcdef" "bundle") [s]). exists [Some (ty_Malware, odd_malware)]. split; [vm_compute; reflexivity|].
    unfold new_bundle. cbn [enc_all]. unfold marshal_obj. cbn [fst snd]. rewrite M. reflexivity.
  - constructor; [|constructor]. repeat split; vm_compute; reflexivity.
Qed.
(** A document with a repeated name and a name with a byte that is no UTF-8. *)
Definition odd_doc : string := "[{""type"":""x-a"",""id"":""x-a--30313233-3435-4637-b839-616263646566"",""n"":1.50,""n"":2e0,""" ++ byte_name 255 ++ """:""" ++ byte_name 254 ++ """}]".
Example reread_ex : cf_handlers default_cf = [] /\ exists c b, from_json go_rnd default_cf odd_doc = Ok c /\ to_bundle marshal_obj "0123456789abcdef" c (Ok b) /\
  bundle_bytes b = "{""type"":""bundle"",""id"":""bundle--30313233-3435-4637-b839-616263646566"",""objects"":[{""id"":""x-a--30313233-3435-4637-b839-616263646566"",""n"":2,""type"":""x-a"",""" ++ byte_name 239 ++ byte_name 191 ++ byte_name 189 ++ """:""" ++ byte_name 239 ++ byte_name 191 ++ byte_name 189 ++ """}]}".
Proof.
  split; [reflexivity|].
  destruct (from_json go_rnd default_cf odd_doc) as [c| |] eqn:E; [|exact (False_ind _ ltac:(vm_compute in E; discriminate E))..].
  exists c. vm_compute in E. injection E as <-.
  eexists. split; [reflexivity|]. split.
  - eexists. split; [vm_compute; reflexivity|]. vm_compute. reflexivity.
  - vm_compute. reflexivity.
Qed.
Example extensions_contribute_ex : let l := [("x-ext", VDyn (GMap "map[string]interface {}" "string" GIface) (VMap [("a", VDyn GFloat (VFloat (FFin false 1 0)))]))] in
  plain_value go_rnd (VMap l) = true /\ names_apart (VMap l) = true /\ exists t, marshal_bytes GExt (VMap l) = Ok t.
Proof. split; [vm_compute; reflexivity|]. split; [vm_compute; reflexivity|]. eexists. vm_compute. reflexivity. Qed.
