(** Identifiers of observables are the name-based UUIDs of RFC 4122 over the
    SHA-1 of FIPS 180-4 (ShaSpec.v), so that other implementations of the STIX
    standard compute the same ones. *)
From Verif Require Import GoStr GoStrFacts Uuid Sha1 Ident IdentFacts PropIdent ShaSpec ShaFacts.
Local Open Scope N_scope.

(** The octets of a Go string. *)
Definition octets_of (s : string) : list N := map N_of_ascii (list_ascii_of_string s).
Lemma octets_octets s : octets (octets_of s).
Proof. apply Forall_forall. intros x I. apply in_map_iff in I as (c & <- & _). apply N_ascii_bounded. Qed.
Lemma octets_length s : length (octets_of s) = String.length s.
Proof. unfold octets_of. rewrite map_length. induction s as [|c s IH]; [reflexivity|]. cbn. now rewrite IH. Qed.
Lemma octets_app a b : octets_of (a ++ b)%string = (octets_of a ++ octets_of b)%list.
Proof. unfold octets_of. rewrite <- map_app. f_equal. induction a as [|c a IH]; [reflexivity|]. cbn. now rewrite IH. Qed.
Lemma octets_inj a b : octets_of a = octets_of b -> a = b.
Proof.
  revert b. induction a as [|c a IH]; intros [|c' b] E; try discriminate; [reflexivity|]. injection E as E1 E2. f_equal; [|now apply IH].
  rewrite <- (ascii_N_embedding c), E1. apply ascii_N_embedding.
Qed.
Lemma octets_nth s : forall i, nth i (octets_of s) 0 = nth_byte i s.
Proof. unfold nth_byte. induction s as [|c s IH]; intros [|i]; try reflexivity. apply IH. Qed.
Lemma octets_sha s : octets_of (sha1 s) = sha1_bytes (octets_of s).
Proof.
  unfold octets_of, sha1, of_bytes. rewrite list_ascii_of_string_of_list_ascii, map_map. change (bytes_of s) with (list_ascii_of_string s).
  set (l := sha1_bytes (map N_of_ascii (list_ascii_of_string s))). assert (O : Forall (fun x => x < 256) l).
  { unfold l, sha1_bytes. unfold be4. repeat (apply Forall_app; split); repeat constructor; apply N.mod_lt; discriminate. }
  rewrite <- (map_id l) at 2. apply map_ext_in. intros x I. rewrite Forall_forall in O. apply N_ascii_embedding. now apply O.
Qed.

(** The digest of every byte string is the one of the standard. *)
Theorem sha1_is_fips : forall s d, 8 * N.of_nat (String.length s) < 2 ^ 64 ->
  is_sha1 (octets_of s) d <-> d = octets_of (sha1 s).
Proof. intros s d H. rewrite octets_sha. apply sha1_exact_bytes; [apply octets_octets|now rewrite octets_length]. Qed.
Print Assumptions sha1_is_fips.

(** The identifier of an observable is the type and the UUID of the value in the
    name space of the standard, and no other UUID will do. *)
Theorem observable_identifier_is_uuid5 : forall v t u, 8 * (16 + N.of_nat (String.length v)) < 2 ^ 64 ->
  uuid5 (octets_of oasis_namespace) (octets_of v) (octets_of u) <-> String.length u = 16%nat /\ new_observable_identifier v t = (t ++ "--" ++ uuid_string u)%string.
Proof.
  intros v t u H. assert (HL : 8 * N.of_nat (String.length (oasis_namespace ++ v)) < 2 ^ 64).
  { rewrite slength_app. change (String.length oasis_namespace) with 16%nat. lia. }
  destruct (observable_identifier_is_valid_v5 v t) as (_ & u0 & E & P & _ & V1 & V2 & S1 & S2 & S3).
  assert (L0 : String.length u0 = 16%nat) by (eapply uuid_parse_length; eauto).
  unfold uuid5. rewrite <- octets_app. split.
  - intros (d & D & L & _ & A & B1 & B2 & C1 & C2). apply sha1_is_fips in D; [|exact HL]. subst d. rewrite octets_length in L. split; [exact L|].
    rewrite E. do 2 f_equal. f_equal. apply octets_inj. apply (nth_ext _ _ 0 0); [now rewrite !octets_length, L0|]. intros i I. rewrite octets_length, L0 in I.
    destruct (Nat.eq_dec i 6) as [->|N6]; [|destruct (Nat.eq_dec i 8) as [->|N8]].
    + rewrite !octets_nth in *. unfold uuid_version in V1. rewrite (N.div_mod (nth_byte 6 u0) 16), (N.div_mod (nth_byte 6 u) 16) by discriminate. rewrite V1, B1, B2, S2. reflexivity.
    + rewrite !octets_nth in *. unfold uuid_variant in V2. rewrite (N.div_mod (nth_byte 8 u0) 64), (N.div_mod (nth_byte 8 u) 64) by discriminate. rewrite V2, C1, C2, S3. reflexivity.
    + rewrite A by assumption. rewrite !octets_nth. now apply S1.
  - intros (L & E'). assert (u = u0); [|subst u].
    { rewrite E in E'. apply sapp_inj_l in E'. injection E' as E'. apply uuid_string_inj in E'; congruence. }
    exists (octets_of (sha1 (oasis_namespace ++ v))). split; [now apply sha1_is_fips|]. rewrite octets_length. split; [exact L|]. split; [apply octets_octets|].
    rewrite !octets_nth. unfold uuid_version in V1. unfold uuid_variant in V2. repeat split; try assumption. intros i I N6 N8. rewrite !octets_nth. now apply S1.
Qed.
Print Assumptions observable_identifier_is_uuid5.

(** FIPS 180-4 test vectors: one block, and two blocks. *)
Example sha1_one_block : is_sha1 (octets_of "abc")
  [0xa9; 0x99; 0x3e; 0x36; 0x47; 0x06; 0x81; 0x6a; 0xba; 0x3e; 0x25; 0x71; 0x78; 0x50; 0xc2; 0x6c; 0x9c; 0xd0; 0xd8; 0x9d].
Proof. apply sha1_is_fips; vm_compute; reflexivity. Qed.
Example sha1_two_blocks : is_sha1 (octets_of "abcdbcdecdefdefgefghfghighijhijkijkljklmklmnlmnomnopnopq")
  [0x84; 0x98; 0x3e; 0x44; 0x1c; 0x3b; 0xd2; 0x6e; 0xba; 0xae; 0x4a; 0xa1; 0xf9; 0x51; 0x29; 0xe5; 0xe5; 0x46; 0x70; 0xf1].
Proof. apply sha1_is_fips; vm_compute; reflexivity. Qed.
