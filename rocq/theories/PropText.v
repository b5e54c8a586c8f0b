(** Property theorems: JSON text and strings as Unicode text. *)
From Coq Require Import Permutation.
From Verif Require Import GoStr GoStrFacts JsonStr JsonStrFacts StrSpec StrSpecFacts Json JsonFacts JsonSpec JsonSpecFacts Float Consts GoTypes Schema GoVal GoValFacts
  Codec CodecSpec Ident Collection CollectionSpec CollectionFacts FromJson FromJsonSpec TextSpec TextFacts PropCodec PropFromJson.
Local Open Scope string_scope.

(** ** C65 *)
(** A string property holds the characters its JSON text stands for. *)
Theorem string_read_exact : forall rnd n s old x, unmarshal rnd s (GString n) (VStr old) = Ok x <->
  exists j, json_text j s /\ ((exists raw t, j = JStr raw /\ str_means raw t /\ x = VStr t) \/ (j = JNull /\ x = VStr old)).
Proof.
  intros rnd n s old x. unfold unmarshal. destruct (parse_json s) as [j|] eqn:P.
  2:{ split; [discriminate|]. intros (j & H & _). apply json_exact in H. congruence. }
  assert (T := proj1 (json_exact _ _) P). split.
  - intros E. exists j. split; [exact T|]. destruct j as [|b|l|raw|l|ms]; cbn in E; try discriminate E.
    + right. split; [reflexivity|]. now inversion E.
    + left. destruct (unq raw) as [t|] eqn:U; [|discriminate E]. apply unq_exact in U. exists raw, t. split; [reflexivity|]. split; [exact U|]. now inversion E.
  - intros (j' & H & C). apply json_exact in H. assert (j' = j) by congruence. subst j'.
    destruct C as [(raw & t & -> & U & ->)|[-> ->]]; cbn; [|reflexivity]. apply unq_exact in U. now rewrite U.
Qed.
Print Assumptions string_read_exact.

(** The reading is unique, and a string is only read from text that stands for
    it: characters are neither lost nor confused. *)
Theorem string_meaning_unique : forall raw s t, str_means raw s -> str_means raw t -> s = t.
Proof. intros raw s t A B. apply unq_exact in A, B. congruence. Qed.
Print Assumptions string_meaning_unique.

(** A string is written as text that stands for its characters, without control
    characters and without the characters that are special in HTML and
    JavaScript. *)
Theorem string_written : forall n s, exists raw l, marshal_bytes (GString n) (VStr s) = Ok (quoted raw) /\
  byte_chars s l /\ str_text raw l /\ safe_text raw.
Proof. intros n s. destruct (quote_exact s) as (l & A & B & C). exists (quote s), l. auto. Qed.
Print Assumptions string_written.

(** The characters of a byte string are unique, and UTF-8 text has its own. *)
Theorem string_characters : forall s l, byte_chars s l -> (forall l', byte_chars s l' -> l' = l) /\ (forall l', utf8_string s l' -> l' = l).
Proof.
  intros s l H. split; intros l' H'; [exact (bytes_fun _ _ _ H' H)|]. apply bytes_of_chars in H'. exact (bytes_fun _ _ _ H' H).
Qed.
Print Assumptions string_characters.

(** e-acute and a clef outside the basic plane, escaped in several ways. *)
Definition u8 (l : list N) : string := string_of_list_ascii (map ascii_of_N l).
Example string_read_ex : str_means "a\u00E9\ud834\udd1e\/\ud834" (u8 [97; 195; 169; 240; 157; 132; 158; 47; 239; 191; 189]%N) /\
  str_text "a\u00E9\ud834\udd1e\/\ud834" [97; 233; 119070; 47; 65533]%N /\
  (forall s, ~ str_means "\u12" s) /\ (forall s, ~ str_means "\x" s).
Proof.
  assert (M : str_means "a\u00E9\ud834\udd1e\/\ud834" (u8 [97; 195; 169; 240; 157; 132; 158; 47; 239; 191; 189]%N)) by (apply unq_exact; vm_compute; reflexivity).
  split; [exact M|]. split.
  - destruct M as (l & A & B). assert (C : utf8_string (u8 [97; 195; 169; 240; 157; 132; 158; 47; 239; 191; 189]%N) [97; 233; 119070; 47; 65533]%N).
    { change (u8 [97; 195; 169; 240; 157; 132; 158; 47; 239; 191; 189]%N) with (u8 [97]%N ++ u8 [195; 169]%N ++ u8 [240; 157; 132; 158]%N ++ u8 [47]%N ++ u8 [239; 191; 189]%N ++ "").
      constructor; [apply (u8_1 "a"); reflexivity|]. constructor; [apply (u8_2 "195" "169" 3 41); (reflexivity || lia)|].
      constructor; [apply (u8_4 "240" "157" "132" "158" 0 29 4 30); (reflexivity || lia)|]. constructor; [apply (u8_1 "/"); reflexivity|].
      constructor; [|constructor]. apply (u8_3 "239" "191" "189" 15 63 61); try (reflexivity || lia). unfold surrogate. lia. }
    now rewrite (string_fun _ _ C _ B).
  - split; intros s H; apply unq_exact in H; discriminate H.
Qed.
(** A byte that starts no character is written as the replacement character. *)
Example string_written_ex : marshal_bytes (GString "string") (VStr ("<" ++ u8 [255; 10; 195; 169]%N)) = Ok (quoted ("\u003c\ufffd\n" ++ u8 [195; 169]%N)).
Proof. vm_compute. reflexivity. Qed.

(** ** C66 *)
(** Only JSON texts are read; every other input is an error, not a panic. *)
Theorem not_json_rejected : forall rnd cf s, (forall j, ~ json_text j s) -> exists e, from_json rnd cf s = Err e.
Proof.
  intros rnd cf s H. unfold from_json, unmarshal. destruct (parse_json s) as [j|] eqn:P; [|eauto]. apply json_exact in P. destruct (H j P).
Qed.
Print Assumptions not_json_rejected.

(** A text denotes at most one value. *)
Theorem text_value_unique : forall s j j', json_text j s -> json_text j' s -> j = j'.
Proof. intros s j j' A B. apply json_exact in A, B. congruence. Qed.
Print Assumptions text_value_unique.

(** The encoding of an object is JSON text in UTF-8 fit for HTML, whatever bytes
    its strings hold. *)
Theorem encoded_text : forall rnd t v s, go_value rnd v = true -> marshal_bytes t v = Ok s -> (exists j, json_text j s) /\ safe_text s.
Proof.
  intros rnd t v s G E. unfold marshal_bytes in E. destruct (marshal t v) as [j| |] eqn:M; try discriminate E. cbn [bind] in E. assert (s = print j) by congruence. subst s.
  apply (marshal_lex rnd _ _ _ G) in M. split; [|now apply print_safe]. destruct (print_text _ M) as (j' & J). exists j'. apply json_exact, parse_json_iff.
  exists "", (print j), "". repeat split; try apply ws_nil; [exact J|]. cbn. now rewrite sapp_nil_r.
Qed.
Print Assumptions encoded_text.

(** The same for the bundle of a collection, after any sequence of Add calls. *)
Theorem bundle_text : forall rnd r ns (h : list (string * string * gobj)) c oks b, run (new_coll ns) h = (c, oks) ->
  Forall (fun x => go_value rnd (snd (snd x)) = true) h -> to_bundle marshal_obj r c (Ok b) ->
  (exists j, json_text j (bundle_bytes b)) /\ safe_text (bundle_bytes b).
Proof.
  intros rnd r ns h c oks b R G (l & A & E). unfold new_bundle in E.
  assert (X : forall l0 ds, (forall ob, In (Some ob) l0 -> go_value rnd (snd ob) = true) -> enc_all marshal_obj l0 = Ok ds ->
    Forall (fun s => (exists j, jval j s) /\ safe_text s) ds).
  { induction l0 as [|o l0 IH]; intros ds G0 E0; cbn [enc_all] in E0; [assert (ds = []) by congruence; subst; constructor|].
    apply bind_ok in E0 as (d & D & E0). apply bind_ok in E0 as (ds' & D' & E0). assert (ds = d :: ds') by congruence. subst ds.
    constructor; [|apply IH; [intros ob I; apply G0; now right|exact D']].
    destruct o as [ob|].
    - unfold marshal_obj, marshal_bytes in D. apply bind_ok in D as (j & M & D). assert (d = print j) by congruence. subst d.
      apply (marshal_lex rnd _ _ _ (G0 ob (or_introl eq_refl))) in M. split; [now apply print_text|now apply print_safe].
    - assert (d = "null") by congruence. subst d. split; [exists JNull; constructor|apply safe_lit; reflexivity]. }
  symmetry in E. apply bind_ok in E as (ds & D & E). assert (b = Bundle "bundle" (new_identifier r "bundle") ds) by congruence. subst b.
  apply X in D. 2:{ intros ob I. apply (Permutation_in _ (all_objects_perm _ _ _ _ _ R A)) in I. apply in_map_iff in I as (id & L & _).
    apply latest_Some in L as (l1 & t & l2 & L & _). assert (I : In (Call id t ob true) (log h oks)) by (rewrite L; apply in_elt).
    unfold log in I. apply in_map_iff in I as (y & Y & I). assert (ob = snd (fst y)) by congruence. subst ob.
    destruct y as [x ok]. apply in_combine_l in I. rewrite Forall_forall in G. exact (G x I). }
  destruct (bundle_text_ok "bundle" (new_identifier r "bundle") ds D) as [(j & J) S]. split; [|exact S]. exists j. apply json_exact, parse_json_iff.
  exists "", (bundle_bytes (Bundle "bundle" (new_identifier r "bundle") ds)), "". repeat split; try apply ws_nil; [exact J|]. cbn [append]. now rewrite sapp_nil_r.
Qed.
Print Assumptions bundle_text.

(** A malware whose name holds a byte that is not UTF-8. *)
Definition bad_mal : gval := set_path (None, "Name") (VStr (u8 [60; 255]%N)) ex_malware.
Example encoded_text_ex : go_value rnd_id bad_mal = true /\
  marshal_bytes ty_Malware bad_mal = Ok "{""created"":""2020-09-13T12:26:40.000Z"",""first_seen"":""2017-07-14T02:40:00.123Z"",""id"":""malware--30313233-3435-4637-b839-616263646566"",""is_family"":true,""kill_chain_phases"":[{""kill_chain_name"":""a"",""phase_name"":""b""}],""modified"":""2020-09-13T12:26:40.001Z"",""name"":""\u003c\ufffd"",""revoked"":false,""spec_version"":""2.1"",""type"":""malware""}".
Proof. split; vm_compute; reflexivity. Qed.
Definition bad_coll : coll gobj := fst (run (new_coll false) [("malware--30313233-3435-4637-b839-616263646566", "malware", (ty_Malware, bad_mal))]).
Example bundle_text_ex : snd (run (new_coll false) [("malware--30313233-3435-4637-b839-616263646566", "malware", (ty_Malware, bad_mal))]) = [true] /\
  exists b, to_bundle marshal_obj "0123456789abcdef" bad_coll (Ok b).
Proof.
  split; [vm_compute; reflexivity|].
  destruct (marshal_bytes ty_Malware bad_mal) as [s| |] eqn:M; [|exact (False_ind _ ltac:(vm_compute in M; discriminate M))..].
  exists (Bundle "bundle" (new_identifier "0123456789abcdef" "bundle") [s]). exists [Some (ty_Malware, bad_mal)]. split; [vm_compute; reflexivity|].
  unfold new_bundle. cbn [enc_all]. unfold marshal_obj. cbn [fst snd]. rewrite M. reflexivity.
Qed.
Example not_json_ex : exists e, from_json rnd_id default_cf "[1,]" = Err e.
Proof. apply not_json_rejected. intros j H. apply json_exact in H. discriminate H. Qed.
