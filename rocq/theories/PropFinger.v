(** Canonical JSON as a fingerprint of objects: C86. *)
From Coq Require Import Lia Permutation.
From Verif Require Import GoStr GoStrFacts JsonStr JsonStrFacts Json JsonFacts JsonSpec JsonSpecFacts Float FloatFacts Consts Enums GoTypes Schema GoVal GoValFacts Time
  Codec CodecSpec CodecFacts StructFacts ObjFacts ParseFacts PropCodec DataTypes SettleFacts SettleRead Double DoubleSpec DoubleReal PropDouble PropSettle Canon CanonSpec CanonFacts PropCanon
  IjsonSpec IjsonFacts IjsonRead PropIjson OrderSpec RewriteFacts FingerSpec FingerFacts FingerOrd.
Local Open Scope string_scope.

Lemma free_apart t v : (forall k, In k (akeys (props_of t v)) -> free_name t k = true) -> apart t (props_of t v).
Proof.
  intros H k I O. specialize (H k I). unfold free_name in H. apply negb_true_iff in H. rewrite <- not_true_iff_false in H. apply H. apply existsb_exists. exists k. split; [exact O|apply String.eqb_refl].
Qed.
Lemma object_text t v j : tags_apart t = true -> exact_value v = true -> names_apart v = true -> plain_value go_rnd v = true -> (exists l, v = VStruct l \/ v = VMap l) -> marshal t v = Ok j ->
  exists a, can j a /\ ijson_text go_rnd a (print j) /\ dup_free a.
Proof.
  intros T E N P (l & L) M. destruct (marshal_can t v j T E N M) as (a & C). assert (S := marshal_sound go_rnd go_rounds_integers t v j P M). assert (U := marshal_once go_rnd t v j T P N M).
  assert (O : exists ms, j = JObj ms).
  { unfold marshal in M. destruct (mem_str (ty_name t) helper_types).
    - unfold enc_obj in M. apply bind_ok in M as (m & _ & M). apply bind_ok in M as (js & _ & M). exists js. congruence.
    - destruct L as [->| ->]; cbn [enc] in M; destruct t; try discriminate M; apply bind_ok in M as (js & _ & M); exists js; congruence. }
  destruct O as (ms & ->). exists a. split; [exact C|]. assert (I := can_ijson _ _ C). split; [exact I|].
  destruct (print_ijson go_rnd ms S) as (a' & I' & D). now rewrite (text_denotes_one_value go_rnd a a' _ I I') in *; auto.
Qed.
Lemma exact_plain v : exact_value v = true -> plain_value go_rnd v = true.
Proof.
  induction v using gval_ind'; cbn [exact_value plain_value]; intros E; try reflexivity; try discriminate; auto.
  - unfold int64_ok. apply Z.ltb_lt in E. change (2 ^ 53)%Z with 9007199254740992%Z in E. apply andb_true_iff. rewrite !Z.leb_le. lia.
  - now apply andb_true_iff in E.
  - rewrite forallb_forall in *. rewrite Forall_forall in H. auto.
  - rewrite forallb_forall in *. rewrite Forall_forall in H. auto.
  - rewrite forallb_forall in *. rewrite Forall_forall in H. auto.
Qed.
Lemma wf_shape_struct name t v : In (name, t) builtin_types -> wf go_rnd t v = true -> exists l, v = VStruct l \/ v = VMap l.
Proof. intros H W. destruct (builtin_cases _ _ H) as (n & fs & -> & _). destruct v; try discriminate. eauto. Qed.

(** Two objects of a type with the same canonical text have the same text: their
    numbers are to be safe, their names UTF-8, the values in their interfaces
    generic ones and their extended properties named unlike their own. *)
Theorem fingerprint_partial : forall pf name t v v' s s', float_parser go_rnd pf -> In (name, t) builtin_types ->
  wf go_rnd t v = true -> wf go_rnd t v' = true -> safe_numbers v = true -> safe_numbers v' = true -> generic t v = true -> generic t v' = true ->
  names_apart v = true -> names_apart v' = true ->
  (forall k, In k (akeys (props_of t v)) -> free_name t k = true) -> (forall k, In k (akeys (props_of t v')) -> free_name t k = true) ->
  marshal_bytes t v = Ok s -> marshal_bytes t v' = Ok s' ->
  exists c c', transform pf s = Ok c /\ transform pf s' = Ok c' /\ (c = c' <-> s = s').
Proof.
  intros pf name t v v' s s' FP H W W' N N' G G' A A' F F' M M'. unfold marshal_bytes in M, M'. apply bind_ok in M as (j & M & E). apply bind_ok in M' as (j' & M' & E').
  assert (s = print j) by congruence. assert (s' = print j') by congruence. subst s s'. assert (T := builtin_tags). rewrite forallb_forall in T. specialize (T _ H). cbn [snd] in T.
  assert (X := wf_exact _ _ W N). assert (X' := wf_exact _ _ W' N').
  destruct (object_text t v j T X A (exact_plain _ X) (wf_shape_struct _ _ _ H W) M) as (a & C & I & D). destruct (object_text t v' j' T X' A' (exact_plain _ X') (wf_shape_struct _ _ _ H W') M') as (a' & C' & I' & D').
  destruct (canonical_text go_rnd pf a _ FP I D) as (c & TC & _ & _). destruct (canonical_text go_rnd pf a' _ FP I' D') as (c' & TC' & _ & _).
  exists c, c'. split; [exact TC|]. split; [exact TC'|]. split; intros Q; [|rewrite Q in TC; congruence].
  assert (V : veq a a') by (apply (canonical_text_iff_same_value go_rnd pf a a' _ _ FP I I' D D'); congruence).
  f_equal. apply (marshal_order go_rnd name t v v'); auto using free_apart. exact (can_veq j a j' a' C C' V).
Qed.
Print Assumptions fingerprint_partial.

(** Objects that were read satisfy all of that except that numbers may be unsafe. *)
Lemma read_conditions name t s0 v : In (name, t) builtin_types -> unmarshal go_rnd s0 t (zero t) = Ok v ->
  props_of t v = [] /\ generic t v = true /\ names_apart v = true.
Proof.
  intros H U. unfold unmarshal in U. destruct (parse_json s0) as [j|] eqn:P; [|discriminate]. assert (J : json_okb j = true) by exact (parse_ok _ _ P). 
  assert (D : dec go_rnd j t (zero t) = DOk v false) by (destruct (dec go_rnd j t (zero t)) as [w [|]| |]; try discriminate; now injection U as ->).
  split; [exact (dec_props go_rnd name t j v _ H D)|]. split; [apply neat_generic; now apply (read_tidy go_rnd name t j v H D)|].
  assert (T := builtin_tags). rewrite forallb_forall in T. specialize (T _ H). cbn [snd] in T. destruct go_rounding as (R1 & R2 & _).
  exact (proj2 (dec_fits go_rnd (conj R1 R2) j J t (zero t) v T (zero_fits go_rnd (conj R1 R2) t) D)).
Qed.
Theorem read_fingerprint_partial : forall pf name t s0 s0' v v' s s', float_parser go_rnd pf -> In (name, t) builtin_types ->
  unmarshal go_rnd s0 t (zero t) = Ok v -> unmarshal go_rnd s0' t (zero t) = Ok v' -> years v = true -> years v' = true ->
  safe_numbers v = true -> safe_numbers v' = true -> marshal_bytes t v = Ok s -> marshal_bytes t v' = Ok s' ->
  exists c c', transform pf s = Ok c /\ transform pf s' = Ok c' /\ (c = c' <-> s = s').
Proof.
  intros pf name t s0 s0' v v' s s' FP H U U' Y Y' N N' M M'. destruct (read_value_well_formed go_rnd name t s0 v go_rounding H U Y) as [W _]. destruct (read_value_well_formed go_rnd name t s0' v' go_rounding H U' Y') as [W' _].
  destruct (read_conditions name t s0 v H U) as (P & G & A). destruct (read_conditions name t s0' v' H U') as (P' & G' & A').
  apply (fingerprint_partial pf name t v v'); auto; [rewrite P|rewrite P']; intros k [].
Qed.
Print Assumptions read_fingerprint_partial.

(** Objects that a round trip gives back have the same canonical text only if
    they are the same object. *)
Theorem object_fingerprint_partial : forall pf name t v v' s s', float_parser go_rnd pf -> In (name, t) builtin_types ->
  wf go_rnd t v = true -> wf go_rnd t v' = true -> safe_numbers v = true -> safe_numbers v' = true -> canon_top t v = true -> canon_top t v' = true ->
  props_of t v = [] -> props_of t v' = [] -> marshal_bytes t v = Ok s -> marshal_bytes t v' = Ok s' ->
  exists c c', transform pf s = Ok c /\ transform pf s' = Ok c' /\ (c = c' <-> v = v').
Proof.
  intros pf name t v v' s s' FP H W W' N N' C C' P P' M M'. assert (U := object_round_trip_exact go_rnd name t v s H W P C M). assert (U' := object_round_trip_exact go_rnd name t v' s' H W' P' C' M').
  destruct (read_conditions name t s v H U) as (_ & G & A). destruct (read_conditions name t s' v' H U') as (_ & G' & A').
  destruct (fingerprint_partial pf name t v v' s s' FP H W W' N N' G G' A A') as (c & c' & T & T' & E); auto; [rewrite P; intros k []|rewrite P'; intros k []|].
  exists c, c'. split; [exact T|]. split; [exact T'|]. rewrite E. split; intros Q; [subst; congruence|subst; congruence].
Qed.
Print Assumptions object_fingerprint_partial.

(** ** Numbers beyond 53 bits *)
(** The canonicalizer rounds to doubles, so two objects that were read and are
    written differently may have the same canonical text. *)
Definition as_text (n : string) : string := "{""defanged"":false,""id"":""autonomous-system--30313233-3435-4637-b839-616263646566"",""number"":" ++ n ++ ",""type"":""autonomous-system""}".
Theorem read_fingerprint_refuted : ~ (forall pf name t s0 s0' v v' s s', float_parser go_rnd pf -> In (name, t) builtin_types ->
  unmarshal go_rnd s0 t (zero t) = Ok v -> unmarshal go_rnd s0' t (zero t) = Ok v' -> years v = true -> years v' = true ->
  marshal_bytes t v = Ok s -> marshal_bytes t v' = Ok s' -> transform pf s = transform pf s' -> s = s').
Proof.
  intros X. destruct (unmarshal go_rnd (as_text "9007199254740992") ty_AutonomousSystem (zero ty_AutonomousSystem)) as [v| |] eqn:U; [|exact (False_ind _ ltac:(vm_compute in U; discriminate U))..].
  destruct (unmarshal go_rnd (as_text "9007199254740993") ty_AutonomousSystem (zero ty_AutonomousSystem)) as [v'| |] eqn:U'; [|exact (False_ind _ ltac:(vm_compute in U'; discriminate U'))..].
  assert (FP : float_parser go_rnd no_floats) by (apply parse_float_is_a_parser; discriminate).
  specialize (X no_floats _ _ _ _ v v' (as_text "9007199254740992") (as_text "9007199254740993") FP (or_introl eq_refl) U U').
  vm_compute in U. injection U as <-. vm_compute in U'. injection U' as <-.
  assert (Q : as_text "9007199254740992" = as_text "9007199254740993") by (apply X; vm_compute; reflexivity). discriminate Q.
Qed.
Print Assumptions read_fingerprint_refuted.

(** ** Values that are not generic *)
(** A struct in an extended property is written in the order of its fields, a map
    in the order of its names. *)
Definition with_prop (x : gval) : gval := set_path (Some "STIXDomainObject", "toplevelProperties") (VPtr (VMap [("x_ref", x)])) ex_malware.
Definition prop_struct : gval := VDyn ty_ExternalReference (build ty_ExternalReference [("Name", VStr "a"); ("Description", VStr "b")]).
Definition prop_map : gval := VDyn (GMap "" "string" GIface) (VMap [("description", dyn_str "b"); ("source_name", dyn_str "a")]).
Theorem fingerprint_refuted : ~ (forall pf name t v v' s s', float_parser go_rnd pf -> In (name, t) builtin_types ->
  wf go_rnd t v = true -> wf go_rnd t v' = true -> safe_numbers v = true -> safe_numbers v' = true -> names_apart v = true -> names_apart v' = true ->
  (forall k, In k (akeys (props_of t v)) -> free_name t k = true) -> (forall k, In k (akeys (props_of t v')) -> free_name t k = true) ->
  marshal_bytes t v = Ok s -> marshal_bytes t v' = Ok s' -> transform pf s = transform pf s' -> s = s').
Proof.
  intros X. destruct (marshal_bytes ty_Malware (with_prop prop_struct)) as [s| |] eqn:M; [|exact (False_ind _ ltac:(vm_compute in M; discriminate M))..].
  destruct (marshal_bytes ty_Malware (with_prop prop_map)) as [s'| |] eqn:M'; [|exact (False_ind _ ltac:(vm_compute in M'; discriminate M'))..].
  assert (FP : float_parser go_rnd no_floats) by (apply parse_float_is_a_parser; discriminate).
  assert (K : forall x k, In k (akeys (props_of ty_Malware (with_prop x))) -> free_name ty_Malware k = true).
  { intros x k I. assert (Q : akeys (props_of ty_Malware (with_prop x)) = ["x_ref"]) by (vm_compute; reflexivity). rewrite Q in I. destruct I as [<-|[]]. vm_compute. reflexivity. }
  assert (B : In (TypeMalware, ty_Malware) builtin_types) by (apply alookup_Some_In; vm_compute; reflexivity).
  assert (TT : transform no_floats s = transform no_floats s') by (clear -M M'; vm_compute in M; injection M as <-; vm_compute in M'; injection M' as <-; vm_compute; reflexivity).
  assert (Q : s = s').
  { refine (X no_floats TypeMalware ty_Malware (with_prop prop_struct) (with_prop prop_map) s s' FP B _ _ _ _ _ _ (K _) (K _) M M' TT); vm_compute; reflexivity. }
  subst s'. clear -M M'. vm_compute in M. injection M as <-. vm_compute in M'. discriminate M'.
Qed.
Print Assumptions fingerprint_refuted.

(** ** Examples *)
(** A malware with extended properties, and the same with another number. *)
Definition ranked (n : N) : gval := with_prop (VDyn (GMap "" "string" GIface) (VMap [("rank", VDyn GFloat (VFloat (FFin false n 0))); ("tags", VDyn (GSlice GIface) (VSlice [dyn_str "x"; VNil]))])).
Example fingerprint_ex : forall n, n = 1%N \/ n = 2%N -> wf go_rnd ty_Malware (ranked n) = true /\ safe_numbers (ranked n) = true /\ generic ty_Malware (ranked n) = true /\ names_apart (ranked n) = true /\
  forallb (free_name ty_Malware) (akeys (props_of ty_Malware (ranked n))) = true /\ exists s, marshal_bytes ty_Malware (ranked n) = Ok s.
Proof. intros n [->| ->]; (do 5 (split; [vm_compute; reflexivity|])); eexists; vm_compute; reflexivity. Qed.
(** Two texts of one object, with members and white space in another way. *)
Definition file_text : string := "{""type"":""file"",""id"":""file--30313233-3435-4637-b839-616263646566"",""spec_version"":""2.1"",""size"":9007199254740991,""hashes"":{""md5"":""x"",""MD5"":""y""}}".
Definition file_text' : string := "{ ""hashes"":{""MD5"":""y"",""md5"":""x""}, ""size"": 9007199254740991,""spec_version"":""2.1"",""id"":""file--30313233-3435-4637-b839-616263646566"",""type"":""file""}".
Example read_fingerprint_ex : exists v v' s, unmarshal go_rnd file_text ty_File (zero ty_File) = Ok v /\ unmarshal go_rnd file_text' ty_File (zero ty_File) = Ok v' /\
  years v = true /\ years v' = true /\ safe_numbers v = true /\ safe_numbers v' = true /\ marshal_bytes ty_File v = Ok s /\ marshal_bytes ty_File v' = Ok s /\
  transform no_floats file_text = transform no_floats file_text'.
Proof. do 3 eexists. do 8 (split; [vm_compute; reflexivity|]). vm_compute. reflexivity. Qed.
Example object_fingerprint_ex : In (TypeMalware, ty_Malware) builtin_types /\ wf go_rnd ty_Malware ex_malware = true /\ safe_numbers ex_malware = true /\ canon_top ty_Malware ex_malware = true /\
  props_of ty_Malware ex_malware = [] /\ exists s, marshal_bytes ty_Malware ex_malware = Ok s.
Proof. split; [apply alookup_Some_In; vm_compute; reflexivity|]. do 4 (split; [vm_compute; reflexivity|]). eexists. vm_compute. reflexivity. Qed.
