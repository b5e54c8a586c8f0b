(** What binary properties are written as and which JSON values are read as
    which bytes: C62. *)
From Verif Require Import GoStr GoStrFacts JsonStr StrSpec StrSpecFacts JsonSpec JsonSpecFacts JsonStrFacts Json JsonFacts Float FloatFacts GoTypes GoVal Base64 Base64Facts B64Spec B64SpecFacts Codec CodecFacts NumSpec ReadSpec ReadMeaning.

Theorem binary_text : forall b, exists t spare, enc GBinary (VBin b) = Ok (JStr t) /\
  base64 b spare t /\ (forall x, In x spare -> x = false).
Proof. intros b. destruct (encode_base64 b) as (spare & H & Z). exists (b64_encode b), spare. repeat split; assumption. Qed.
Print Assumptions binary_text.

(** Read are: a string that is base64 text once line breaks are taken out and
    whatever the spare bits, an array of byte-sized numbers
    ([byte_json] of ReadSpec), and null. *)
Theorem binary_read_exact : forall rnd s old x, unmarshal rnd s GBinary old = Ok x <->
  exists j, json_text j s /\
    ((exists raw t b spare, j = JStr raw /\ str_means raw t /\ base64 b spare (without_breaks t) /\ x = VBin b) \/
     (exists l b, j = JArr l /\ Forall2 byte_json l (list_ascii_of_string b) /\ x = VBin b) \/
     (j = JNull /\ x = VNil)).
Proof.
  intros rnd s old x. unfold unmarshal. destruct (parse_json s) as [j|] eqn:PJ; [|split; [discriminate|intros (j & Q & _); apply json_exact in Q; congruence]].
  rewrite dec_bin. split.
  - intros E. exists j. split; [now apply json_exact|]. destruct j as [|b|l|raw|l|ms]; cbn [bin_unmarshal] in E; try discriminate E.
    + right. right. split; [reflexivity|]. cbn in E. now injection E as <-.
    + left. destruct (unq raw) as [t|] eqn:U; [|discriminate E]. destruct (b64_decode t) as [b|] eqn:B; [|discriminate E]. cbn in E. injection E as <-.
      apply decode_exact in B as (spare & B). apply unq_exact in U. now exists raw, t, b, spare.
    + right. left. destruct (dec_bytes l) as [b e| |] eqn:B; try discriminate E. destruct e; [discriminate E|]. cbn in E. injection E as <-.
      exists l, b. split; [reflexivity|]. split; [apply dec_bytes_exact; [exact (parse_ok _ _ PJ)|exact B]|reflexivity].
  - intros (j' & Q & H). apply json_exact in Q. assert (j' = j) by congruence. subst j'. assert (OK := parse_ok _ _ PJ). destruct H as [(raw & t & b & spare & -> & U & B & ->)|[(l & b & -> & F & ->)|[-> ->]]]; cbn [bin_unmarshal].
    + apply unq_exact in U. rewrite U. rewrite (proj2 (decode_exact t b)) by now exists spare. reflexivity.
    + apply dec_bytes_exact in F; [now rewrite F|exact OK].
    + reflexivity.
Qed.
Print Assumptions binary_read_exact.

(** Anything else is an error. *)
Theorem binary_read_total : forall rnd s old, (exists x, unmarshal rnd s GBinary old = Ok x) \/ (exists e, unmarshal rnd s GBinary old = Err e).
Proof.
  intros rnd s old. unfold unmarshal. destruct (parse_json s) as [j|]; [|eauto]. rewrite dec_bin.
  destruct j as [|b|l|raw|l|ms]; cbn [bin_unmarshal unmarshal_res]; eauto.
  - destruct (unq raw) as [t|]; [|cbn; eauto]. destruct (b64_decode t); cbn; eauto.
  - destruct (dec_bytes l) as [b e| |]; [destruct e|..]; cbn; eauto.
Qed.
Print Assumptions binary_read_total.

Example binary_text_ex : enc GBinary (VBin "ab") = Ok (JStr "YWI=") /\ base64 "ab" [false; false] "YWI=" /\
  base64 "ab" [true; false] "YWK=" /\ without_breaks (String "Y" (String "010" "WI=")) = "YWI="%string.
Proof.
  assert (X : forall i c, nth_error table i = Some c -> sextet c (bits 6 (N.of_nat i))) by (intros; now constructor).
  split; [reflexivity|]. split; [|split; [|reflexivity]].
  - exists ["Y"; "W"; "I"]%char, [bits 6 24; bits 6 22; bits 6 8], 1%nat.
    split; [constructor; [exact (X 24%nat _ eq_refl)|]; constructor; [exact (X 22%nat _ eq_refl)|]; constructor; [exact (X 8%nat _ eq_refl)|]; constructor|]. repeat split; cbn; lia.
  - exists ["Y"; "W"; "K"]%char, [bits 6 24; bits 6 22; bits 6 10], 1%nat.
    split; [constructor; [exact (X 24%nat _ eq_refl)|]; constructor; [exact (X 22%nat _ eq_refl)|]; constructor; [exact (X 10%nat _ eq_refl)|]; constructor|]. repeat split; cbn; lia.
Qed.
