(** Properties of identifiers: C26, C27, C31, C32 and the exact accepted forms. *)
From Verif Require Import GoStr GoStrFacts Uuid Sha1 Ident IdentFacts Consts.

(** [u] has the bits of [d] but for version and variant: byte 6 keeps its low
    four bits, byte 8 its low six bits. *)
Definition same_but_version (u d : string) : Prop :=
  (forall i, (i < 16)%nat -> i <> 6 -> i <> 8 -> nth_byte i u = nth_byte i d) /\
  (nth_byte 6 u mod 16 = nth_byte 6 d mod 16)%N /\ (nth_byte 8 u mod 64 = nth_byte 8 d mod 64)%N.

Lemma stamp_same v d : (v < 16)%N -> (16 <= String.length d)%nat -> same_but_version (stamp v d) d.
Proof.
  intros Hv H. do 16 (destruct d as [|? d]; [cbn in H; lia|]). split.
  - intros i Hi H6 H8. unfold nth_byte, stamp. cbn [str_set]. do 16 (destruct i; [cbn [String.get]; congruence|]). lia.
  - unfold nth_byte, stamp. cbn [str_set String.get]. unfold set_version, set_variant.
    assert (M : forall c k, (0 < k)%N -> (N_of_ascii c mod k < k)%N) by (intros; apply N.mod_lt; lia).
    split.
    + assert (X := M a5 16%N ltac:(lia)). rewrite N_ascii_embedding by lia. rewrite N.mul_comm, N.mod_add by lia. apply N.mod_small. lia.
    + assert (X := M a7 64%N ltac:(lia)). rewrite N_ascii_embedding by lia. change 128%N with (2 * 64)%N. rewrite N.mod_add by lia. apply N.mod_small. lia.
Qed.
Lemma take_byte i n d : (i < n)%nat -> nth_byte i (str_take n d) = nth_byte i d.
Proof.
  unfold nth_byte. revert i d. induction n as [|n IH]; intros i d H; [lia|]. destruct d as [|c d]; [reflexivity|]. cbn [str_take].
  destruct i; [reflexivity|]. cbn [String.get]. apply IH. lia.
Qed.
Lemma same_sym u d : same_but_version u d -> same_but_version d u.
Proof. intros (A & B & C). split; [|split]; auto. intros. symmetry. auto. Qed.
Lemma same_trans u d w : same_but_version u d -> same_but_version d w -> same_but_version u w.
Proof. intros (A & B & C) (A' & B' & C'). split; [|split]; [|congruence|congruence]. intros. rewrite A by auto. auto. Qed.

(** C26: NewIdentifier(t) on any 16 random bytes [r]. *)
Theorem new_identifier_is_valid_v4 : forall r t,
  String.length r = 16 ->
  (type_name_ok t = true <-> has_valid_identifier (new_identifier r t) t = true) /\
  (type_name_ok t = true -> is_valid_identifier (new_identifier r t) = true) /\
  (exists u, new_identifier r t = (t ++ "--" ++ uuid_string u)%string /\
             uuid_parse (uuid_string u) = Some u /\ uuid_canonical (uuid_string u) /\
             uuid_version u = 4%N /\ uuid_variant u = 2%N /\ same_but_version u r).
Proof.
  intros r t H. destruct (new_identifier_v4 r t H) as (A & B & _). split; [exact A|]. split; [exact B|]. exists (uuid_v4 r).
  assert (Hl : String.length (uuid_v4 r) = 16) by (unfold uuid_v4; now rewrite stamp_length).
  split; [reflexivity|]. split; [now apply uuid_parse_string|]. split; [now apply uuid_string_canonical|].
  split; [now apply stamp_version|]. split; [now apply stamp_variant|]. apply stamp_same; [reflexivity|]. rewrite H. apply le_n.
Qed.
Print Assumptions new_identifier_is_valid_v4.

(** C26: every built-in type can be used. *)
Theorem new_identifier_builtin : forall r t,
  String.length r = 16 -> In t AllTypes -> has_valid_identifier (new_identifier r t) t = true.
Proof. exact new_identifier_builtin_valid. Qed.
Print Assumptions new_identifier_builtin.

Example new_identifier_ex :
  new_identifier "0123456789abcdef" "x-custom" = "x-custom--30313233-3435-4637-b839-616263646566"%string /\
  type_name_ok "x-custom" = true.
Proof. split; vm_compute; reflexivity. Qed.

(** C26 (freshness): different random bytes give different identifiers, up to
    the six bits overwritten by version and variant. *)
Theorem new_identifier_fresh : forall r r' t t',
  String.length r = 16 -> String.length r' = 16 ->
  type_name_ok t = true -> type_name_ok t' = true ->
  new_identifier r t = new_identifier r' t' -> t = t' /\ same_but_version r r'.
Proof.
  intros r r' t t' L L' T T' E. destruct (new_identifier_inj _ _ _ _ L L' T T' E) as [-> Q]. split; [reflexivity|]. unfold uuid_v4 in Q.
  eapply same_trans; [apply same_sym, (stamp_same 4); [reflexivity|rewrite L; apply le_n]|]. rewrite Q. apply stamp_same; [reflexivity|rewrite L'; apply le_n].
Qed.
Print Assumptions new_identifier_fresh.

Example new_identifier_fresh_ex :
  new_identifier "0123456789abcdef" "tool" <> new_identifier "0123456789abcdeg" "tool".
Proof. vm_compute. discriminate. Qed.

(** The name space of the standard for observables,
    00abedb4-aa42-466c-9c01-fed23315a9b7. *)
Definition oasis_namespace : string :=
  fold_right (fun n s => String (ascii_of_N n) s) EmptyString
    [0x00; 0xab; 0xed; 0xb4; 0xaa; 0x42; 0x46; 0x6c; 0x9c; 0x01; 0xfe; 0xd2; 0x33; 0x15; 0xa9; 0xb7]%N.
Lemma namespace_eq : cyber_observable_namespace = oasis_namespace.
Proof. vm_compute. reflexivity. Qed.

(** C27: observable identifiers: the first 16 bytes of the SHA-1 digest of the
    name space and the value, but for version and variant. *)
Theorem observable_identifier_is_valid_v5 : forall v t,
  (type_name_ok t = true <-> has_valid_identifier (new_observable_identifier v t) t = true) /\
  (exists u, new_observable_identifier v t = (t ++ "--" ++ uuid_string u)%string /\
             uuid_parse (uuid_string u) = Some u /\ uuid_canonical (uuid_string u) /\
             uuid_version u = 5%N /\ uuid_variant u = 2%N /\
             same_but_version u (sha1 (oasis_namespace ++ v)%string)).
Proof.
  intros v t. destruct (new_observable_identifier_v5 v t) as (A & u & B & C & D & E & F & Q). split; [exact A|]. exists u.
  repeat (split; [assumption|]). rewrite Q, namespace_eq. eapply same_trans.
  - apply stamp_same; [reflexivity|]. rewrite str_take_length, sha1_length. apply le_n.
  - split; [|split]; [intros i Hi _ _; now apply take_byte|rewrite take_byte by lia; reflexivity|rewrite take_byte by lia; reflexivity].
Qed.
Print Assumptions observable_identifier_is_valid_v5.

(** data-types_test.go:168 *)
Example observable_identifier_ex :
  new_observable_identifier "198.51.100.3" TypeIPv4Addr = "ipv4-addr--0ec1740c-3e52-5d42-8659-da680987dff8"%string.
Proof. vm_compute. reflexivity. Qed.

(** C27/C28: equal identifiers come from equal values or a collision. *)
Theorem observable_identifier_injective : forall v v' t t',
  type_name_ok t = true -> type_name_ok t' = true ->
  new_observable_identifier v t = new_observable_identifier v' t' ->
  t = t' /\ (v = v' \/ uuid5_collision v v').
Proof. exact observable_id_inj2. Qed.
Print Assumptions observable_identifier_injective.

(** What HasValidIdentifier and IsValidIdentifier accept, exactly. *)
Theorem has_valid_identifier_exact : forall id typ,
  has_valid_identifier id typ = true <->
  type_name_ok typ = true /\
  exists u, id = (typ ++ "--" ++ u)%string /\ no_dd u = true /\ uuid_text u.
Proof. exact has_valid_identifier_spec. Qed.
Print Assumptions has_valid_identifier_exact.

Theorem is_valid_identifier_exact : forall id,
  is_valid_identifier id = true <->
  exists t u, id = (t ++ "--" ++ u)%string /\ no_dd t = true /\ ends_dash t = false /\
              no_dd u = true /\ uuid_text u.
Proof. exact is_valid_identifier_spec. Qed.
Print Assumptions is_valid_identifier_exact.

(** An identifier belongs to at most one type. *)
Theorem valid_identifier_one_type : forall id t1 t2,
  has_valid_identifier id t1 = true -> has_valid_identifier id t2 = true -> t1 = t2.
Proof. exact valid_id_unique_type. Qed.
Print Assumptions valid_identifier_one_type.

(** Finding: IsValidIdentifier accepts an empty type part and a UUID between
    two arbitrary bytes. *)
Theorem is_valid_identifier_strict_refuted : exists id1 id2,
  is_valid_identifier id1 = true /\ id1 = "--8e2e2d2b-17d4-4cbf-938f-98ee46b3cd3f"%string /\
  is_valid_identifier id2 = true /\ has_valid_identifier id2 TypeMalware = true /\
  id2 = "malware--?8e2e2d2b-17d4-4cbf-938f-98ee46b3cd3f!"%string.
Proof.
  exists "--8e2e2d2b-17d4-4cbf-938f-98ee46b3cd3f"%string, "malware--?8e2e2d2b-17d4-4cbf-938f-98ee46b3cd3f!"%string.
  repeat split; vm_compute; reflexivity.
Qed.
Print Assumptions is_valid_identifier_strict_refuted.

(** C31 is false: ForType is a prefix test. *)
Theorem for_type_exact_refuted : exists id t ty,
  has_valid_identifier id ty = true /\ type_name_ok t = true /\ t <> ty /\ for_type id t = true.
Proof. exact for_type_exact_refuted_w. Qed.
Print Assumptions for_type_exact_refuted.

(** C31, the true part: on "ty--u" it holds iff [t] is a prefix of [ty]; in
    particular it never rejects an identifier of type [t].  Missing: equality. *)
Theorem for_type_exact_partial : forall ty t u,
  type_name_ok t = true ->
  (for_type (ty ++ "--" ++ u) t = true <-> exists r, ty = (t ++ r)%string).
Proof. exact for_type_exact_partial_w. Qed.
Print Assumptions for_type_exact_partial.

Theorem for_types_exact_partial : forall ty ts u,
  (forall t, In t ts -> type_name_ok t = true) ->
  (for_types (ty ++ "--" ++ u) ts = true <-> exists t r, In t ts /\ ty = (t ++ r)%string).
Proof. exact for_types_exact_partial_w. Qed.
Print Assumptions for_types_exact_partial.

(** C32: exact on built-in types with the one exception. *)
Theorem for_type_exact_on_builtin : forall ty t u,
  In ty AllTypes -> In t AllTypes ->
  (for_type (ty ++ "--" ++ u) t = true <->
   t = ty \/ (t = TypeMalware /\ ty = TypeMalwareAnalysis)).
Proof. exact for_type_builtin. Qed.
Print Assumptions for_type_exact_on_builtin.

Example for_type_builtin_ex :
  In TypeMalware AllTypes /\ In TypeMalwareAnalysis AllTypes /\
  for_type "malware-analysis--x" TypeMalware = true /\ for_type "tool--x" TypeMalware = false.
Proof. repeat split; vm_compute; intuition. Qed.
