(** Property C29: what the identifier of an observable with several contributing
    properties says about them. *)
From Verif Require Import GoStr GoStrFacts JsonStr Json Float FloatFacts Base64 Base64Facts Time Consts Enums GoTypes Schema OptTable GoVal GoValFacts Codec
  CodecSpec CodecFacts StructFacts ObjFacts TypedFacts StoreFacts DataTypes FromJson Options OptionFacts PropOptions Ident IdentFacts
  Canon CanonTotal Constructors ConstrSpec ConstrFacts ConstrArgs PropConstr IdText.

(** ** Specification *)
(** Not set, as the constructors see it: nil, empty or 0. *)
Definition blank (x : gval) : Prop :=
  x = VNil \/ x = VStr "" \/ x = VInt 0 \/ x = VSlice [] \/ x = VMap [] \/ x = VBin "".
Definition consts_of (e : string) : list (string * N) := match alookup e enum_consts with Some l => l | None => [] end.
(** The value has no quotation mark in its strings, no time outside the years
    0 to 9999 and no undefined registry data type. *)
Definition clean_item (y : gval) : Prop :=
  match y with
  | VStr s => no_quote s
  | VPtr w => no_quote (str_field "Data" w) /\ no_quote (str_field "Name" w) /\
              forall n, get_field "DataType" w = VEnum n -> exists k, In (k, n) (consts_of "RegistryDataType")
  | _ => True
  end.
Definition clean (x : gval) : Prop :=
  match x with
  | VStr s => no_quote s
  | VPtr (VTime t) => year_ok t = true
  | VSlice l => Forall clean_item l
  | VMap l => Forall (fun kv => match snd kv with VStr s => no_quote s | _ => True end) l
  | _ => True
  end.
(** The canonical JSON of the extensions, empty if they cannot be encoded. *)
Definition ext_text (pf : string -> flt * bool) (x : gval) : string :=
  match enc GExt x with Ok j => match transform pf (print j) with Ok s => s | _ => ""%string end | _ => ""%string end.
(** The part of property [f] that the identifier is meant to cover is the same:
    the contributing hash, the canonical extensions, a time to the millisecond,
    otherwise the value itself. *)
Definition same_for_id (pf : string -> flt * bool) (f : string) (x x' : gval) : Prop :=
  if String.eqb f "Hashes" then chosen x = chosen x'
  else if String.eqb f "Extensions" then (blank x /\ blank x') \/ (~ blank x /\ ~ blank x' /\ ext_text pf x = ext_text pf x')
  else x = x' \/ (blank x /\ blank x') \/ exists t t', x = VPtr (VTime t) /\ x' = VPtr (VTime t') /\ trunc_ms t = trunc_ms t'.
(** Observables whose contributing properties contribute texts of different form. *)
Definition self_delimiting (c : call) : Prop := match c with CArtifact | CRegistryKey | CX509Certificate => True | _ => False end.

(** ** Values of known type *)
Lemma st_str n x : storable (GString n) x = true -> exists s, x = VStr s.
Proof. destruct x; try discriminate. eauto. Qed.
Lemma st_int n x : storable (GInt n) x = true -> exists s, x = VInt s.
Proof. destruct x; try discriminate. eauto. Qed.
Lemma st_time x : storable (GPtr GTime) x = true -> x = VNil \/ exists t, x = VPtr (VTime t).
Proof. destruct x; try discriminate; [now left|]. intros H. destruct x; try discriminate H. right. eauto. Qed.
Lemma st_bin x : storable GBinary x = true -> x = VNil \/ exists s, x = VBin s.
Proof. destruct x; try discriminate; [right; eauto|now left]. Qed.
Lemma st_map n k t x : storable (GMap n k t) x = true -> x = VNil \/ exists l, x = VMap l.
Proof. destruct x; try discriminate; [now left|right; eauto]. Qed.
Lemma st_ext x : storable GExt x = true -> x = VNil \/ exists l, x = VMap l.
Proof. destruct x; try discriminate; [now left|right; eauto]. Qed.
Lemma st_slice t x : storable (GSlice t) x = true -> x = VNil \/ exists l, x = VSlice l /\ forallb (storable t) l = true.
Proof. destruct x; try discriminate; [now left|right; eauto]. Qed.

Ltac unblank := unfold blank; intuition discriminate.
Lemma blank_str s : blank (VStr s) <-> s = ""%string.
Proof. unfold blank. split; [intros [Q|[Q|[Q|[Q|[Q|Q]]]]]; try discriminate; congruence|intros ->; tauto]. Qed.
Lemma blank_int z : blank (VInt z) <-> z = 0%Z.
Proof. unfold blank. split; [intros [Q|[Q|[Q|[Q|[Q|Q]]]]]; try discriminate; congruence|intros ->; tauto]. Qed.
Lemma blank_bin s : blank (VBin s) <-> s = ""%string.
Proof. unfold blank. split; [intros [Q|[Q|[Q|[Q|[Q|Q]]]]]; try discriminate; congruence|intros ->; tauto]. Qed.
Lemma blank_slice l : blank (VSlice l) <-> l = [].
Proof. unfold blank. split; [intros [Q|[Q|[Q|[Q|[Q|Q]]]]]; try discriminate; congruence|intros ->; tauto]. Qed.
Lemma blank_map l : blank (VMap l) <-> l = [].
Proof. unfold blank. split; [intros [Q|[Q|[Q|[Q|[Q|Q]]]]]; try discriminate; congruence|intros ->; tauto]. Qed.
Lemma blank_ptr x : blank (VPtr x) <-> False.
Proof. unfold blank. intuition discriminate. Qed.
Lemma blank_nil : blank VNil <-> True.
Proof. unfold blank. tauto. Qed.

Section T.
Variables (rb : string) (now : Z) (pf : string -> flt * bool) (c : call) (os : list stix_option) (v : gval).
Hypothesis AT : args_typed c = true.
Hypothesis GO : Forall go_option os.
Hypothesis OK : construct rb now pf c os = Ret (Some v) None.
Lemma prop_typed f p t : field_by_name (call_fields c) f = Some (p, t) -> ~ In f ext_bases -> storable t (prop c f v) = true.
Proof.
  intros F N. destruct (field_by_name_path _ _ _ _ (call_opt c) N F) as (m & H & E). unfold prop. rewrite F. eapply result_prop_storable; eauto.
Qed.
End T.

(** ** Each part *)
Lemma app_inj {A} (a a' b b' : list A) : length a = length a' -> (a ++ b)%list = (a' ++ b')%list -> a = a' /\ b = b'.
Proof.
  revert a'. induction a as [|x a IH]; intros [|x' a'] L E; try discriminate L; [now split|]. cbn in L, E. injection L as L. injection E as -> E.
  destruct (IH _ L E) as [-> ->]. now split.
Qed.
Lemma time_part_balanced x : storable (GPtr GTime) x = true -> clean x -> Forall balanced (time_part x).
Proof. intros S C. destruct (st_time _ S) as [-> |[t ->]]; repeat constructor. apply balanced_q. now apply time_no_quote. Qed.
Lemma time_part_len x x' : storable (GPtr GTime) x = true -> storable (GPtr GTime) x' = true -> (blank x <-> blank x') -> length (time_part x) = length (time_part x').
Proof.
  intros S S' B. destruct (st_time _ S) as [-> |[t ->]], (st_time _ S') as [-> |[t' ->]]; try reflexivity; rewrite ?blank_ptr, ?blank_nil in B; tauto.
Qed.
Lemma time_part_same pf f x x' : storable (GPtr GTime) x = true -> storable (GPtr GTime) x' = true -> clean x -> clean x' -> f <> "Hashes" -> f <> "Extensions" ->
  time_part x = time_part x' -> same_for_id pf f x x'.
Proof.
  intros S S' C C' N N' E. unfold same_for_id. apply String.eqb_neq in N, N'. rewrite N, N'.
  destruct (st_time _ S) as [-> |[t ->]], (st_time _ S') as [-> |[t' ->]]; try discriminate E; [now left|].
  right. right. exists t, t'. repeat split. apply time_inj; try assumption. apply q_inj.
  change ([q (ts_string t)] = [q (ts_string t')]) in E. congruence.
Qed.
Lemma port_len x x' n n' : storable (GInt n) x = true -> storable (GInt n') x' = true -> (blank x <-> blank x') -> length (port_part (int_of x)) = length (port_part (int_of x')).
Proof.
  intros S S' B. destruct (st_int _ _ S) as [z ->], (st_int _ _ S') as [z' ->]. rewrite !blank_int in B. cbn [int_of]. unfold port_part.
  destruct (Z.eqb_spec z 0), (Z.eqb_spec z' 0); try reflexivity; tauto.
Qed.
Lemma port_balanced z : Forall balanced (port_part z).
Proof. unfold port_part. destruct (z =? 0)%Z; repeat constructor. apply balanced_num. Qed.
Lemma port_same x x' n n' : storable (GInt n) x = true -> storable (GInt n') x' = true -> port_part (int_of x) = port_part (int_of x') -> x = x'.
Proof.
  intros S S'. destruct (st_int _ _ S) as [z ->], (st_int _ _ S') as [z' ->]. cbn [int_of]. unfold port_part.
  destruct (Z.eqb_spec z 0), (Z.eqb_spec z' 0); intros E; try discriminate E; [now subst|]. f_equal. apply Z_to_string_inj. congruence.
Qed.
Lemma str_len x x' n n' : storable (GString n) x = true -> storable (GString n') x' = true -> (blank x <-> blank x') -> length (opt_quoted (str_of x)) = length (opt_quoted (str_of x')).
Proof. intros S S' B. destruct (st_str _ _ S) as [z ->], (st_str _ _ S') as [z' ->]. rewrite !blank_str in B. now apply opt_quoted_len. Qed.
Lemma str_balanced x n : storable (GString n) x = true -> clean x -> Forall balanced (opt_quoted (str_of x)).
Proof. intros S C. destruct (st_str _ _ S) as [z ->]. now apply opt_quoted_balanced. Qed.
Lemma str_same x x' n n' : storable (GString n) x = true -> storable (GString n') x' = true -> opt_quoted (str_of x) = opt_quoted (str_of x') -> x = x'.
Proof. intros S S' E. destruct (st_str _ _ S) as [z ->], (st_str _ _ S') as [z' ->]. apply opt_quoted_inj in E. now cbn in E; subst. Qed.
Definition hash_seg (x : gval) : list string := if len0 x then [] else [hash_contribution x].
Lemma clean_hashes x : clean x -> hashes_ok x.
Proof.
  intros C. unfold hashes_ok. destruct (chosen x) as [[a s]|] eqn:E; [|exact I]. unfold chosen, chosen_in, fold_right in E.
  assert (K : forall alg y, map_get alg x = Some y -> no_quote (str_of y)).
  { intros alg y. destruct x; try discriminate. cbn [map_get]. intros H. apply alookup_Some_In in H. cbn [clean] in C. rewrite Forall_forall in C. specialize (C _ H). cbn in C.
    destruct y; try exact C; intros []. }
  destruct (map_get "MD5" x) eqn:M1; [injection E as _ <-; eauto|]. destruct (map_get "SHA-1" x) eqn:M2; [injection E as _ <-; eauto|].
  destruct (map_get "SHA-256" x) eqn:M3; [injection E as _ <-; eauto|]. destruct (map_get "SHA-512" x) eqn:M4; [injection E as _ <-; eauto|]. discriminate.
Qed.
Lemma hash_balanced x : clean x -> Forall balanced (hash_seg x).
Proof. intros C. unfold hash_seg. destruct (len0 x); repeat constructor. apply hash_contribution_balanced. now apply clean_hashes. Qed.
Lemma hash_len n k t x x' n' k' t' : storable (GMap n k t) x = true -> storable (GMap n' k' t') x' = true -> (blank x <-> blank x') -> length (hash_seg x) = length (hash_seg x').
Proof.
  intros S S' B. destruct (st_map _ _ _ _ S) as [-> |[l ->]], (st_map _ _ _ _ S') as [-> |[l' ->]]; try reflexivity;
    rewrite ?blank_map, ?blank_nil in B; try (destruct l); try (destruct l'); try reflexivity; destruct B as [B B'];
    first [discriminate (B I)|discriminate (B' I)|discriminate (B eq_refl)|discriminate (B' eq_refl)].
Qed.
Lemma chosen_len0 x n k t : storable (GMap n k t) x = true -> len0 x = true -> chosen x = None.
Proof. intros S L. destruct (st_map _ _ _ _ S) as [-> |[l ->]]; [reflexivity|]. destruct l; [reflexivity|discriminate]. Qed.
Lemma hash_same x x' n k t n' k' t' : storable (GMap n k t) x = true -> storable (GMap n' k' t') x' = true -> hash_seg x = hash_seg x' -> chosen x = chosen x'.
Proof.
  intros S S'. unfold hash_seg. destruct (len0 x) eqn:L, (len0 x') eqn:L'; intros E; try discriminate.
  - erewrite !chosen_len0; eauto.
  - apply hash_contribution_inj. congruence.
Qed.
Definition ext_seg (pf : string -> flt * bool) (x : gval) : list string := if len0 x then [] else [ext_text pf x].
Lemma ext_part_seg pf v e : ext_part pf v = Ok e -> e = ext_seg pf (get_path p_extensions v).
Proof.
  unfold ext_part, ext_seg, canonicalize_extensions, ext_text. destruct (len0 (get_path p_extensions v)); [congruence|].
  destruct (enc GExt _) as [j| |]; [|cbn; congruence|discriminate]. destruct (transform pf (print j)); cbn; congruence.
Qed.
Lemma ext_len pf x x' : storable GExt x = true -> storable GExt x' = true -> (blank x <-> blank x') -> length (ext_seg pf x) = length (ext_seg pf x').
Proof.
  intros S S' B. destruct (st_ext _ S) as [-> |[l ->]], (st_ext _ S') as [-> |[l' ->]]; try reflexivity;
    rewrite ?blank_map, ?blank_nil in B; try (destruct l); try (destruct l'); try reflexivity; destruct B as [B B'];
    first [discriminate (B I)|discriminate (B' I)|discriminate (B eq_refl)|discriminate (B' eq_refl)].
Qed.
Lemma ext_blank x : storable GExt x = true -> (len0 x = true <-> blank x).
Proof.
  intros S. destruct (st_ext _ S) as [-> |[[|p l] ->]]; rewrite ?blank_map, ?blank_nil; cbn; try tauto. split; discriminate.
Qed.
Lemma ext_same pf x x' : storable GExt x = true -> storable GExt x' = true -> ext_seg pf x = ext_seg pf x' -> same_for_id pf "Extensions" x x'.
Proof.
  intros S S' E. unfold same_for_id. cbn [String.eqb Ascii.eqb Bool.eqb]. unfold ext_seg in E.
  assert (B := ext_blank _ S). assert (B' := ext_blank _ S'). destruct (len0 x), (len0 x'); try discriminate E; [left; tauto|right].
  split; [intros Q; apply B in Q; discriminate|]. split; [intros Q; apply B' in Q; discriminate|]. congruence.
Qed.
Lemma same_eq pf f x x' : f <> "Hashes" -> f <> "Extensions" -> x = x' -> same_for_id pf f x x'.
Proof. intros N N' ->. unfold same_for_id. apply String.eqb_neq in N, N'. rewrite N, N'. now left. Qed.

(** ** Several string properties *)
Record str_pair (v v' : gval) (f : string) : Prop := StrPair {
  sp_t : exists n, storable (GString n) (get_field f v) = true;
  sp_t' : exists n, storable (GString n) (get_field f v') = true;
  sp_c : clean (get_field f v);
  sp_c' : clean (get_field f v') }.
Definition present_alike (v v' : gval) (f : string) : Prop := blank (get_field f v) <-> blank (get_field f v').
Definition strs (fs : list string) (v : gval) : list string := concat (map (fun f => opt_quoted (str_field f v)) fs).
Lemma strs_balanced fs v v' : Forall (str_pair v v') fs -> Forall balanced (strs fs v) /\ Forall balanced (strs fs v').
Proof.
  induction 1 as [|f fs [[n T] [n' T'] C C'] H IH]; [split; constructor|]. destruct IH. unfold strs. cbn [map concat].
  split; apply Forall_app; (split; [eapply str_balanced; eauto|assumption]).
Qed.
Lemma strs_len fs v v' : Forall (str_pair v v') fs -> Forall (present_alike v v') fs -> length (strs fs v) = length (strs fs v').
Proof.
  induction 1 as [|f fs [[n T] [n' T'] C C'] H IH]; intros P; [reflexivity|]. inversion_clear P. unfold strs. cbn [map concat].
  rewrite !app_length. f_equal; [eapply str_len; eauto|apply IH; assumption].
Qed.
Lemma strs_same fs v v' : Forall (str_pair v v') fs -> Forall (present_alike v v') fs -> strs fs v = strs fs v' ->
  forall f, In f fs -> get_field f v = get_field f v'.
Proof.
  induction 1 as [|f fs [[n T] [n' T'] C C'] H IH]; intros P E g; [intros []|]. inversion_clear P. unfold strs in E. cbn [map concat] in E.
  apply app_inj in E as [E E']; [|eapply str_len; eauto]. intros [<- |Hg]; [eapply str_same; eauto|now apply IH].
Qed.
Lemma bracket_tail A A' : length A = length A' -> bracket A = bracket A' -> tail "]" A = tail "]" A'.
Proof. intros L E. apply join_eq; [now apply bracket_join|]. destruct A, A'; try discriminate L; [tauto|split; discriminate]. Qed.
Lemma tail_single a a' : length a = length a' -> (length a <= 1)%nat -> tail "]" a = tail "]" a' -> a = a'.
Proof.
  destruct a as [|x [|? ?]], a' as [|x' [|? ?]]; intros L M E; try discriminate L; [reflexivity| |cbn in M; lia].
  cbn [tail] in E. apply sapp_inj_l in E. apply sapp_inj_r in E. now subst.
Qed.
Lemma seg_le (b : bool) (x : string) : (length (if b then [] else [x]) <= 1)%nat.
Proof. destruct b; cbn; lia. Qed.

(** ** Each observable *)
Lemma strs_bracket fs v v' : Forall (str_pair v v') fs -> Forall (present_alike v v') fs -> bracket (strs fs v) = bracket (strs fs v') ->
  forall f, In f fs -> get_field f v = get_field f v'.
Proof.
  intros S P E. destruct (strs_balanced _ _ _ S). apply strs_same; try assumption. apply (tail_inj "]"); try assumption; [now left|].
  apply bracket_tail; [now apply strs_len|exact E].
Qed.
Lemma software_same v v' : Forall (str_pair v v') ["Name"; "CPE"; "Vendor"; "Version"] -> Forall (present_alike v v') ["Name"; "CPE"; "Vendor"; "Version"] ->
  bracket (software_parts v) = bracket (software_parts v') -> forall f, In f ["Name"; "CPE"; "Vendor"; "Version"] -> get_field f v = get_field f v'.
Proof.
  intros S P E. assert (R : forall w, software_parts w = q (str_field "Name" w) :: strs ["CPE"; "Vendor"; "Version"] w)
    by (intros w; unfold software_parts, strs; cbn [map concat List.app]; now rewrite app_nil_r). rewrite !R in E.
  inversion_clear S as [|? ? SN S']. inversion_clear P as [|? ? _ P']. destruct (strs_balanced _ _ _ S') as [B B'].
  destruct SN as [[n T] [n' T'] C C']. destruct (st_str _ _ T) as [s X], (st_str _ _ T') as [s' X']. unfold str_field in E. rewrite X, X' in *. cbn [str_of] in E. cbn [clean] in C, C'.
  assert (Q : q s :: strs ["CPE"; "Vendor"; "Version"] v = q s' :: strs ["CPE"; "Vendor"; "Version"] v').
  { apply (tail_inj "]"); [now left|constructor; [now apply balanced_q|exact B]|constructor; [now apply balanced_q|exact B']|].
    apply bracket_tail; [cbn [length]; f_equal; now apply strs_len|exact E]. }
  assert (Q1 : q s = q s') by congruence. assert (Q2 : strs ["CPE"; "Vendor"; "Version"] v = strs ["CPE"; "Vendor"; "Version"] v') by congruence.
  apply q_inj in Q1. intros f [<- |Hf]; [congruence|]. eapply strs_same; eauto.
Qed.

Definition hash_ty (x : gval) : Prop := exists n k t, storable (GMap n k t) x = true.
Lemma hash_seg_part v : hash_part v = hash_seg (get_field "Hashes" v).
Proof. reflexivity. Qed.
Definition pay_seg (x : gval) : list string := match x with VBin s => if is_empty s then [] else [q (b64_encode s)] | _ => [] end.
Lemma pay_balanced x : Forall balanced (pay_seg x).
Proof. unfold pay_seg. destruct x as [| | | | | |s| | | | | | |]; try constructor. destruct (is_empty s); repeat constructor. apply balanced_q, b64_no_quote. Qed.
Lemma pay_same x x' : storable GBinary x = true -> storable GBinary x' = true -> pay_seg x = pay_seg x' -> x = x' \/ (blank x /\ blank x').
Proof.
  intros S S'. destruct (st_bin _ S) as [-> |[s ->]], (st_bin _ S') as [-> |[s' ->]]; cbn [pay_seg]; [now left|destruct s'|destruct s|]; cbn [is_empty]; intros E; try discriminate E;
    try (right; unfold blank; tauto). left. f_equal. destruct s as [|a s], s' as [|a' s']; cbn [is_empty] in E; try discriminate E; [reflexivity|]. apply b64_encode_inj, q_inj. exact (f_equal (hd EmptyString) E).
Qed.
(** A hash part and a quoted part: they cannot be confused. *)
Definition quoted_list (l : list string) : Prop := l = [] \/ exists s, l = [q s].
Lemma hash_and_quoted x x' P P' : hash_ty x -> hash_ty x' -> clean x -> clean x' -> quoted_list P -> quoted_list P' -> Forall balanced P -> Forall balanced P' ->
  bracket (hash_seg x ++ P) = bracket (hash_seg x' ++ P') -> chosen x = chosen x' /\ P = P'.
Proof.
  intros (n & k & t & S) (n' & k' & t' & S') C C' Q Q' B B' E. apply bracket_join in E.
  apply join_inj in E; [|now left|apply Forall_app; split; [now apply hash_balanced|exact B]|apply Forall_app; split; [now apply hash_balanced|exact B']].
  assert (H0 : forall y n k t, storable (GMap n k t) y = true -> len0 y = true -> chosen y = None) by (intros; eapply chosen_len0; eauto).
  assert (H1 : forall y, hash_contribution y = ""%string -> chosen y = None).
  { intros y. rewrite hash_contribution_chosen. destruct (chosen y) as [[? ?]|]; [discriminate|reflexivity]. }
  unfold hash_seg in E. destruct (len0 x) eqn:L, (len0 x') eqn:L'; cbn [List.app] in E.
  - rewrite (H0 _ _ _ _ S L), (H0 _ _ _ _ S' L'). split; [reflexivity|].
    destruct E as [E|[[-> E]|[E ->]]]; [exact E| |].
    + destruct Q' as [-> |[s ->]]; discriminate E.
    + destruct Q as [-> |[s ->]]; discriminate E.
  - rewrite (H0 _ _ _ _ S L). destruct E as [E|[[-> E]|[E E']]].
    + destruct Q as [-> |[s ->]]; [discriminate E|]. injection E as E _. now apply eq_sym, hash_not_q in E.
    + injection E as E ->. now rewrite (H1 _ E).
    + discriminate E'.
  - rewrite (H0 _ _ _ _ S' L'). destruct E as [E|[[E E']|[E ->]]].
    + destruct Q' as [-> |[s ->]]; [discriminate E|]. injection E as E _. now apply hash_not_q in E.
    + discriminate E.
    + injection E as E ->. now rewrite (H1 _ E).
  - destruct E as [E|[[E E']|[E E']]]; try discriminate. injection E as E ->. split; [now apply hash_contribution_inj|reflexivity].
Qed.
Lemma opt_quoted_list s : quoted_list (opt_quoted s).
Proof. unfold opt_quoted. destruct (is_empty s); [now left|right; eauto]. Qed.
Lemma pay_list x : quoted_list (pay_seg x).
Proof. unfold pay_seg. destruct x as [| | | | | |s| | | | | | |]; try now left. destruct (is_empty s); [now left|right; eauto]. Qed.

(** Registry keys *)
Definition value_ty (y : gval) : Prop := storable (GPtr ty_RegistryValue) y = true.
Definition reg_vals : list N := map snd (consts_of "RegistryDataType").
Lemma enum_blank n : In n reg_vals -> is_empty (enum_string "RegistryDataType" n) = (n =? 0)%N.
Proof.
  assert (X : forallb (fun n => Bool.eqb (is_empty (enum_string "RegistryDataType" n)) (n =? 0)%N) reg_vals = true) by reflexivity.
  rewrite forallb_forall in X. intros H. now apply Bool.eqb_prop, X.
Qed.
Lemma enum_no_quote n : In n reg_vals -> no_quote (enum_string "RegistryDataType" n).
Proof.
  assert (X : forallb (fun n => forallb (fun c => negb (Ascii.eqb c qt)) (list_ascii_of_string (enum_string "RegistryDataType" n))) reg_vals = true) by reflexivity.
  rewrite forallb_forall in X. intros H Q. specialize (X _ H). rewrite forallb_forall in X. specialize (X _ Q). discriminate X.
Qed.
Lemma enum_inj n n' : In n reg_vals -> In n' reg_vals -> enum_string "RegistryDataType" n = enum_string "RegistryDataType" n' -> n = n'.
Proof.
  assert (X : forallb (fun n => forallb (fun n' => implb (String.eqb (enum_string "RegistryDataType" n) (enum_string "RegistryDataType" n')) (n =? n')%N) reg_vals) reg_vals = true) by (vm_compute; reflexivity).
  rewrite forallb_forall in X. intros H H' E. specialize (X _ H). rewrite forallb_forall in X. specialize (X _ H'). rewrite E, String.eqb_refl in X. now apply N.eqb_eq in X.
Qed.
Lemma value_shape y : value_ty y -> y <> VNil -> exists name data n, y = VPtr (VStruct [("Name", VStr name); ("Data", VStr data); ("DataType", VEnum n)]).
Proof.
  unfold value_ty. intros S N. destruct y; try discriminate S; [contradiction|]. cbn [storable] in S. unfold ty_RegistryValue, fs_RegistryValue in S.
  destruct y as [| | | | | | | | | | |l| |]; try discriminate S. cbn [storable] in S.
  destruct l as [|[a1 x1] [|[a2 x2] [|[a3 x3] [|]]]]; cbn [wf_fields fm_name] in S; rewrite ?andb_false_r in S; try discriminate S.
  rewrite !andb_true_iff in S. destruct S as ((E1 & S1) & (E2 & S2) & (E3 & S3) & _). apply String.eqb_eq in E1, E2, E3. subst.
  destruct x1; try discriminate S1. destruct x2; try discriminate S2. destruct x3; try discriminate S3. eauto.
Qed.
Lemma value_part y s : value_ty y -> clean_item y -> registry_value_part y = Ok s -> exists name data n,
  y = VPtr (VStruct [("Name", VStr name); ("Data", VStr data); ("DataType", VEnum n)]) /\ In n reg_vals /\
  no_quote data /\ no_quote name /\ s = value_text data (enum_string "RegistryDataType" n) name.
Proof.
  intros T C E. destruct (value_shape y T) as (name & data & n & ->); [intros ->; discriminate E|]. exists name, data, n.
  destruct C as (C1 & C2 & C3). change (no_quote data) in C1. change (no_quote name) in C2. specialize (C3 n eq_refl).
  assert (R : In n reg_vals) by (destruct C3 as [k C3]; apply in_map_iff; exists (k, n); auto). clear C3. rename R into C3.
  repeat split; try assumption. unfold value_text, value_members. rewrite enum_blank by exact C3. unfold registry_value_part in E.
injection E as <-. reflexivity.
Qed.
Lemma values_parts l a : forallb (storable (GPtr ty_RegistryValue)) l = true -> Forall clean_item l -> all_ok registry_value_part l = Ok a ->
  Forall balanced a /\ Forall (fun s => exists r, s = String "{" r) a /\ length a = length l.
Proof.
  revert a. induction l as [|y l IH]; intros a T C E; [injection E as <-; repeat split; constructor|]. cbn [forallb] in T. apply andb_true_iff in T as [T T']. inversion_clear C.
  cbn [all_ok bind] in E. destruct (registry_value_part y) as [s| |] eqn:R; try discriminate E. destruct (all_ok registry_value_part l) as [ys| |] eqn:A; try discriminate E.
  injection E as <-. destruct (value_part _ _ T H R) as (name & data & n & -> & Hn & N1 & N2 & ->). destruct (IH _ T' H0 eq_refl) as (B & F & L).
  repeat split; try constructor; try assumption; [apply value_balanced; try assumption; now apply enum_no_quote|eexists; reflexivity|cbn; now rewrite L].
Qed.
Lemma values_same l : forall l' a, forallb (storable (GPtr ty_RegistryValue)) l = true -> forallb (storable (GPtr ty_RegistryValue)) l' = true ->
  Forall clean_item l -> Forall clean_item l' -> all_ok registry_value_part l = Ok a -> all_ok registry_value_part l' = Ok a -> l = l'.
Proof.
  induction l as [|y l IH]; intros l' a T T' C C' E E'.
  - injection E as <-. destruct (values_parts _ _ T' C' E') as (_ & _ & L). now destruct l'.
  - destruct l' as [|y' l']; [injection E' as <-; destruct (values_parts _ _ T C E) as (_ & _ & L); discriminate L|].
    cbn [forallb] in T, T'. apply andb_true_iff in T as [T1 T2], T' as [T1' T2']. inversion_clear C. inversion_clear C'. cbn [all_ok bind] in E, E'.
    destruct (registry_value_part y) as [s| |] eqn:R; try discriminate E. destruct (all_ok registry_value_part l) as [ys| |] eqn:A; try discriminate E.
    destruct (registry_value_part y') as [s'| |] eqn:R'; try discriminate E'. destruct (all_ok registry_value_part l') as [ys'| |] eqn:A'; try discriminate E'.
    injection E as <-. injection E' as -> ->. rewrite (IH l' ys) by first [assumption|reflexivity]. f_equal.
    destruct (value_part _ _ T1 H R) as (name & data & n & -> & Hn & N1 & N2 & ->). destruct (value_part _ _ T1' H1 R') as (name' & data' & n' & -> & Hn' & N1' & N2' & V).
    apply value_inj in V as (-> & V & ->); try assumption; try now apply enum_no_quote. apply enum_inj in V; try assumption. now subst.
Qed.
Lemma registry_same v v' s s' : str_pair v v' "Key" ->
  storable (GSlice (GPtr ty_RegistryValue)) (get_field "Values" v) = true -> storable (GSlice (GPtr ty_RegistryValue)) (get_field "Values" v') = true ->
  clean (get_field "Values" v) -> clean (get_field "Values" v') -> registry_parts v = Ok s -> registry_parts v' = Ok s' -> bracket s = bracket s' ->
  get_field "Key" v = get_field "Key" v' /\ (get_field "Values" v = get_field "Values" v' \/ (blank (get_field "Values" v) /\ blank (get_field "Values" v'))).
Proof.
  intros [[n T] [n' T'] C C'] S S' D D' E E' Q. unfold registry_parts in E, E'.
  set (l := old_list (get_field "Values" v)) in *. set (l' := old_list (get_field "Values" v')) in *.
  destruct (all_ok registry_value_part l) as [a| |] eqn:A; try discriminate E. destruct (all_ok registry_value_part l') as [a'| |] eqn:A'; try discriminate E'.
  cbn [bind] in E, E'. injection E as <-. injection E' as <-.
  assert (TL : forallb (storable (GPtr ty_RegistryValue)) l = true /\ Forall clean_item l).
  { unfold l. destruct (st_slice _ _ S) as [-> |(m & X & Y)]; [split; [reflexivity|constructor]|]. rewrite X in *. split; [exact Y|exact D]. }
  assert (TL' : forallb (storable (GPtr ty_RegistryValue)) l' = true /\ Forall clean_item l').
  { unfold l'. destruct (st_slice _ _ S') as [-> |(m & X & Y)]; [split; [reflexivity|constructor]|]. rewrite X in *. split; [exact Y|exact D']. }
  destruct TL as [TL CL], TL' as [TL' CL']. destruct (values_parts _ _ TL CL A) as (B & F & L). destruct (values_parts _ _ TL' CL' A') as (B' & F' & L').
  assert (J : forall k b, bracket (k ++ match b with [] => [] | _ => [join "," b] end) = bracket (k ++ b)).
  { intros k b. destruct b as [|x b]; [reflexivity|]. unfold bracket. f_equal. destruct k as [|y k]; [reflexivity|].
    cbn [List.app]. rewrite !join_tail. f_equal. clear y. induction k as [|y k IHk]; cbn [List.app tail]; [|now rewrite IHk].
    now rewrite <- join_tail. }
  rewrite !J in Q. apply bracket_join in Q. destruct (st_str _ _ T) as [k X], (st_str _ _ T') as [k' X']. unfold str_field in Q. rewrite X, X' in *. cbn [str_of clean] in *.
  assert (K : opt_quoted k = opt_quoted k' /\ a = a').
  { apply join_inj in Q; [|now left|apply Forall_app; split; [now apply opt_quoted_balanced|exact B]|apply Forall_app; split; [now apply opt_quoted_balanced|exact B']].
    assert (Z : forall k b, Forall (fun s => exists r, s = String "{" r) b -> (opt_quoted k ++ b)%list <> [""%string]).
    { intros k0 b Fb W. unfold opt_quoted in W. destruct (is_empty k0); [|discriminate W]. cbn in W. subst b. inversion_clear Fb. now destruct H. }
    destruct Q as [Q|[[_ Q]|[Q _]]]; [|now apply Z in Q|now apply Z in Q].
    unfold opt_quoted in Q |- *. destruct (is_empty k), (is_empty k'); cbn [List.app] in Q.
    - now split.
    - subst a. inversion_clear F. destruct H as [r H]. discriminate H.
    - subst a'. inversion_clear F'. destruct H as [r H]. discriminate H.
    - injection Q as Q Q'. apply sapp_inj_r in Q. now subst. }
  destruct K as [K <-]. apply opt_quoted_inj in K. split; [now subst|].
  assert (LL : l = l') by (eapply values_same; eauto). unfold l, l' in LL.
  destruct (st_slice _ _ S) as [Y |(m & Y & _)], (st_slice _ _ S') as [Y' |(m' & Y' & _)]; rewrite Y, Y' in *; cbn [old_list] in LL; subst; rewrite ?blank_slice, ?blank_nil; tauto.
Qed.

(** Files and network traffic *)
Lemma file_same pf v v' s s' : str_pair v v' "Name" -> str_pair v v' "ParentDirectory" -> hash_ty (get_field "Hashes" v) -> hash_ty (get_field "Hashes" v') ->
  clean (get_field "Hashes" v) -> clean (get_field "Hashes" v') -> storable GExt (get_path p_extensions v) = true -> storable GExt (get_path p_extensions v') = true ->
  (blank (get_path p_extensions v) <-> blank (get_path p_extensions v')) -> Forall (present_alike v v') ["Hashes"; "Name"; "ParentDirectory"] ->
  file_parts pf v = Ok s -> file_parts pf v' = Ok s' -> bracket s = bracket s' ->
  chosen (get_field "Hashes" v) = chosen (get_field "Hashes" v') /\ get_field "Name" v = get_field "Name" v' /\
  same_for_id pf "Extensions" (get_path p_extensions v) (get_path p_extensions v') /\ get_field "ParentDirectory" v = get_field "ParentDirectory" v'.
Proof.
  intros [[n1 T1] [n1' T1'] C1 C1'] [[n2 T2] [n2' T2'] C2 C2'] (n & k & t & H) (n' & k' & t' & H') D D' X X' BX P E E' Q.
  inversion_clear P as [|? ? PH P1]. inversion_clear P1 as [|? ? PN P2]. inversion_clear P2 as [|? ? PD _]. unfold present_alike in *.
  unfold file_parts in E, E'. destruct (ext_part pf v) as [e| |] eqn:EX; try discriminate E. destruct (ext_part pf v') as [e'| |] eqn:EX'; try discriminate E'.
  apply ext_part_seg in EX, EX'. cbn [bind] in E, E'. injection E as <-. injection E' as <-. rewrite !hash_seg_part in Q. unfold str_field in Q.
  set (A := (hash_seg (get_field "Hashes" v) ++ opt_quoted (str_of (get_field "Name" v)))%list) in *.
  assert (LH := hash_len _ _ _ _ _ _ _ _ H H' PH). assert (LN := str_len _ _ _ _ T1 T1' PN). assert (LD := str_len _ _ _ _ T2 T2' PD). assert (LE := ext_len pf _ _ X X' BX).
  apply bracket_tail in Q; [|rewrite EX, EX', !app_length; now rewrite LH, LN, LD, LE].
  rewrite !(app_assoc (hash_seg _)) in Q. apply tail_app in Q as [QA Q]; [|now left|apply Forall_app; split; [now apply hash_balanced|now apply (str_balanced _ _ T1)]
    |apply Forall_app; split; [now apply hash_balanced|now apply (str_balanced _ _ T1')]|unfold A; rewrite !app_length; now rewrite LH, LN].
  apply app_inj in QA as [QH QN]; [|exact LH]. split; [eapply hash_same; eauto|]. split; [eapply str_same; eauto|].
  assert (R : e = e' /\ opt_quoted (str_of (get_field "ParentDirectory" v)) = opt_quoted (str_of (get_field "ParentDirectory" v'))).
  { subst e e'. destruct (st_str _ _ T2) as [d Y], (st_str _ _ T2') as [d' Y']. rewrite Y, Y' in *. cbn [str_of clean] in *. unfold ext_seg in *.
    destruct (len0 (get_path p_extensions v)), (len0 (get_path p_extensions v')); try discriminate LE; cbn [List.app] in Q.
    - split; [reflexivity|]. apply (tail_inj "]"); [now left|now apply opt_quoted_balanced|now apply opt_quoted_balanced|exact Q].
    - cbn [tail] in Q. apply sapp_inj_l in Q. unfold opt_quoted in *. destruct (is_empty d), (is_empty d'); try discriminate LD.
      + apply sapp_inj_r in Q. rewrite Q. now split.
      + apply last_quoted in Q as [-> ->]; try assumption. now split. }
  destruct R as [R R']. split; [apply ext_same; congruence|eapply str_same; eauto].
Qed.
Lemma prot_same x x' : (exists n, storable (GSlice (GString n)) x = true) -> (exists n, storable (GSlice (GString n)) x' = true) -> clean x -> clean x' -> (blank x <-> blank x') ->
  Forall no_quote (map str_of (old_list x)) /\ Forall no_quote (map str_of (old_list x')) /\
  (protocols_text (map str_of (old_list x)) = protocols_text (map str_of (old_list x')) -> x = x' \/ (blank x /\ blank x')).
Proof.
  assert (K : forall x, (exists n, storable (GSlice (GString n)) x = true) -> clean x ->
    blank x \/ exists l, x = VSlice (map VStr l) /\ l <> [] /\ Forall no_quote l).
  { intros y [n S] C. destruct (st_slice _ _ S) as [-> |(l & -> & T)]; [left; now left|]. destruct l as [|a l]; [left; rewrite blank_slice; reflexivity|right].
    cbn [clean] in C. exists (map str_of (a :: l)). split; [|split; [discriminate|]].
    - f_equal. clear C S. induction (a :: l) as [|b m IH]; [reflexivity|]. cbn [forallb] in T. apply andb_true_iff in T as [T T']. cbn [map]. destruct (st_str _ _ T) as [s ->].
      cbn [str_of]. f_equal. now apply IH.
    - clear S. induction C as [|b m Cb C IH]; [constructor|]. cbn [forallb] in T. apply andb_true_iff in T as [T T']. destruct (st_str _ _ T) as [s ->]. constructor; [exact Cb|now apply IH]. }
  assert (M : forall l, map str_of (old_list (VSlice (map VStr l))) = l) by (intros l; cbn [old_list]; rewrite map_map; now rewrite <- map_id).
  assert (Z : forall y, (exists n, storable (GSlice (GString n)) y = true) -> blank y -> map str_of (old_list y) = []).
  { intros y [n S] B. destruct (st_slice _ _ S) as [-> |(l & -> & _)]; [reflexivity|]. apply blank_slice in B. now subst. }
  intros S S' C C' B. destruct (K _ S C) as [Y|(l & -> & N & F)], (K _ S' C') as [Y'|(l' & -> & N' & F')].
  - rewrite (Z _ S Y), (Z _ S' Y'). split; [constructor|]. split; [constructor|]. intros _. right. now split.
  - apply B in Y. apply blank_slice in Y. destruct l'; [contradiction|discriminate Y].
  - apply B in Y'. apply blank_slice in Y'. destruct l; [contradiction|discriminate Y'].
  - rewrite !M. split; [exact F|]. split; [exact F'|]. intros E. left. now rewrite (protocols_inj l l').
Qed.
Record net_typed (v : gval) : Prop := NetTyped {
  nt_start : storable (GPtr GTime) (get_field "Start" v) = true;
  nt_end : storable (GPtr GTime) (get_field "End" v) = true;
  nt_sp : exists n, storable (GInt n) (get_field "SrcPort" v) = true;
  nt_dp : exists n, storable (GInt n) (get_field "DstPort" v) = true;
  nt_pr : exists n, storable (GSlice (GString n)) (get_field "Protocols" v) = true;
  nt_ext : storable GExt (get_path p_extensions v) = true;
  nt_clean : Forall (fun f => clean (get_field f v)) ["Start"; "End"; "Protocols"] }.
Lemma network_same pf v v' s s' : Forall (str_pair v v') ["Src"; "Dst"] -> net_typed v -> net_typed v' ->
  (blank (get_path p_extensions v) <-> blank (get_path p_extensions v')) ->
  Forall (present_alike v v') ["Start"; "End"; "SrcPort"; "DstPort"; "Protocols"; "Src"; "Dst"] ->
  network_parts pf v = Ok s -> network_parts pf v' = Ok s' -> bracket s = bracket s' ->
  (same_for_id pf "Start" (get_field "Start" v) (get_field "Start" v') /\ same_for_id pf "End" (get_field "End" v) (get_field "End" v')) /\
  (forall f, In f ["SrcPort"; "DstPort"; "Src"; "Dst"] -> get_field f v = get_field f v') /\
  (get_field "Protocols" v = get_field "Protocols" v' \/ (blank (get_field "Protocols" v) /\ blank (get_field "Protocols" v'))) /\
  same_for_id pf "Extensions" (get_path p_extensions v) (get_path p_extensions v').
Proof.
  intros SD [TS TE [n1 TP] [n2 TD] TR TX CL] [TS' TE' [n1' TP'] [n2' TD'] TR' TX' CL'] BX P E E' Q.
  inversion_clear P as [|? ? PS P1]. inversion_clear P1 as [|? ? PE P2]. inversion_clear P2 as [|? ? PP P3]. inversion_clear P3 as [|? ? PD P4]. inversion_clear P4 as [|? ? PR PSD].
  inversion_clear CL as [|? ? CS CL1]. inversion_clear CL1 as [|? ? CE CL2]. inversion_clear CL2 as [|? ? CR _].
  inversion_clear CL' as [|? ? CS' CL1']. inversion_clear CL1' as [|? ? CE' CL2']. inversion_clear CL2' as [|? ? CR' _].
  unfold network_parts in E, E'. destruct (ext_part pf v) as [e| |] eqn:EX; try discriminate E. destruct (ext_part pf v') as [e'| |] eqn:EX'; try discriminate E'.
  apply ext_part_seg in EX, EX'. cbn [bind] in E, E'. injection E as <-. injection E' as <-.
  assert (R : forall w z, (time_part (get_field "Start" w) ++ time_part (get_field "End" w) ++ opt_quoted (str_field "Src" w) ++ opt_quoted (str_field "Dst" w) ++
      port_part (int_of (get_field "SrcPort" w)) ++ port_part (int_of (get_field "DstPort" w)) ++ protocols_part w :: z)%list =
      ((time_part (get_field "Start" w) ++ time_part (get_field "End" w) ++ strs ["Src"; "Dst"] w ++
      port_part (int_of (get_field "SrcPort" w)) ++ port_part (int_of (get_field "DstPort" w)) ++ [protocols_text (map str_of (old_list (get_field "Protocols" w)))]) ++ z)%list).
  { intros w z. unfold strs. cbn [map concat]. rewrite app_nil_r, <- !app_assoc. reflexivity. }
  rewrite !R in Q. clear R. destruct (strs_balanced _ _ _ SD) as [BS BS']. destruct (prot_same _ _ TR TR' CR CR' PR) as (FP & FP' & PQ).
  assert (L1 := time_part_len _ _ TS TS' PS). assert (L2 := time_part_len _ _ TE TE' PE). assert (L3 := strs_len _ _ _ SD PSD). assert (L4 := port_len _ _ _ _ TP TP' PP). assert (L5 := port_len _ _ _ _ TD TD' PD).
  assert (L6 := ext_len pf _ _ TX TX' BX).
  apply bracket_tail in Q; [|rewrite EX, EX', !app_length, L1, L2, L3, L4, L5, L6; reflexivity].
  apply tail_app in Q as [QA QE]; [|now left| | |rewrite !app_length, L1, L2, L3, L4, L5; reflexivity].
  - apply app_inj in QA as [Q1 QA]; [|exact L1]. apply app_inj in QA as [Q2 QA]; [|exact L2]. apply app_inj in QA as [Q3 QA]; [|exact L3].
    apply app_inj in QA as [Q4 QA]; [|exact L4]. apply app_inj in QA as [Q5 QA]; [|exact L5]. assert (Q6 := f_equal (hd EmptyString) QA).
    split; [split; apply time_part_same; try assumption; discriminate|]. split; [|split; [apply PQ; exact Q6|]].
    + intros f [<- |[<- |Hf]]; [eapply port_same; eauto|eapply port_same; eauto|eapply strs_same; eauto].
    + apply ext_same; try assumption. subst e e'. apply tail_single; [exact L6|apply seg_le|exact QE].
  - apply Forall_app; split; [now apply time_part_balanced|]. apply Forall_app; split; [now apply time_part_balanced|]. apply Forall_app; split; [exact BS|].
    apply Forall_app; split; [apply port_balanced|]. apply Forall_app; split; [apply port_balanced|]. constructor; [now apply protocols_balanced|constructor].
  - apply Forall_app; split; [now apply time_part_balanced|]. apply Forall_app; split; [now apply time_part_balanced|]. apply Forall_app; split; [exact BS'|].
    apply Forall_app; split; [apply port_balanced|]. apply Forall_app; split; [apply port_balanced|]. constructor; [now apply protocols_balanced|constructor].
Qed.

(** ** C29 *)
(** The text whose hash makes the identifier. *)
Definition hashed_text (pf : string -> flt * bool) (c : call) (v : gval) (s : string) : Prop :=
  exists g, contribution pf c = Some g /\ g v = Ok s.

Lemma ok_inj {A} (a b : A) : Ok a = Ok b -> a = b.
Proof. congruence. Qed.
Ltac typed_field K f := eapply (K f); [vm_compute; reflexivity|vm_compute; intuition discriminate].
Ltac str_fields K K' CL f := constructor; [eexists; typed_field K f|eexists; typed_field K' f|apply (CL f); cbn; tauto|apply (CL f); cbn; tauto].
Theorem multi_value_identifiers_partial : forall rb now rb' now' pf c c' os os' v v',
  call_name c = call_name c' -> contributing c <> [] -> args_typed c = true -> args_typed c' = true ->
  Forall go_option os -> Forall go_option os' ->
  construct rb now pf c os = Ret (Some v) None -> construct rb' now' pf c' os' = Ret (Some v') None ->
  (forall f, In f (contributing c) -> clean (prop c f v) /\ clean (prop c' f v')) ->
  (self_delimiting c \/ forall f, In f (contributing c) -> (blank (prop c f v) <-> blank (prop c' f v'))) ->
  prop c "ID" v = prop c' "ID" v' ->
  (forall f, In f (contributing c) -> same_for_id pf f (prop c f v) (prop c' f v')) \/
  exists s s', hashed_text pf c v s /\ hashed_text pf c' v' s' /\ uuid5_collision s s'.
Proof.
  intros rb now rb' now' pf c c' os os' v v' N NE AT AT' GO GO' OK OK' CL PR ID.
  assert (UO : Forall user_option os) by (eapply Forall_impl; [|exact GO]; intros o [H _]; exact H).
  assert (UO' : Forall user_option os') by (eapply Forall_impl; [|exact GO']; intros o [H _]; exact H).
  assert (X := result_id_value _ _ _ _ _ _ AT UO OK). assert (X' := result_id_value _ _ _ _ _ _ AT' UO' OK').
  assert (K := prop_typed _ _ _ _ _ _ AT GO OK). assert (K' := prop_typed _ _ _ _ _ _ AT' GO' OK').
  destruct (contribution pf c) as [g|] eqn:G; [|destruct c; try discriminate G; exact (False_ind _ (NE eq_refl))].
  destruct (contribution pf c') as [g'|] eqn:G'; [|destruct c; try exact (False_ind _ (NE eq_refl)); destruct c'; discriminate].
  destruct X as (s & E & X). destruct X' as (s' & E' & X'). rewrite X, X', N in ID. injection ID as ID.
  apply observable_id_inj in ID as [ID|ID]; [left|right; exists s, s'; repeat split; try (eexists; split; eassumption); exact ID || apply ID].
  clear X X' AT AT' GO GO' OK OK' UO UO'. subst s'.
  destruct c; try exact (False_ind _ (NE eq_refl)); destruct c'; try discriminate N; injection G as <-; injection G' as <-; cbn [contributing] in *; clear NE N.
  - (* artifact *)
    assert (T1 : hash_ty (get_field "Hashes" v)) by (eexists; eexists; eexists; typed_field K "Hashes").
    assert (T1' : hash_ty (get_field "Hashes" v')) by (eexists; eexists; eexists; typed_field K' "Hashes").
    assert (T2 : storable GBinary (get_field "Payload" v) = true) by typed_field K "Payload".
    assert (T2' : storable GBinary (get_field "Payload" v') = true) by typed_field K' "Payload".
    destruct (CL "Hashes" ltac:(cbn; tauto)) as [C C'].
    rewrite <- E' in E. apply ok_inj in E.
    destruct (hash_and_quoted _ _ _ _ T1 T1' C C' (pay_list (get_field "Payload" v)) (pay_list (get_field "Payload" v')) (pay_balanced _) (pay_balanced _)) as [Q1 Q2]; [exact E|].
    intros f [<- |[<- |[]]]; [exact Q1|]. destruct (pay_same _ _ T2 T2' Q2) as [Q|Q]; [left; exact Q|right; left; exact Q].
  - (* email message *)
    assert (S : Forall (str_pair v v') ["From"; "Subject"; "Body"]).
    { apply Forall_forall; intros f [<- |[<- |[<- |[]]]]; [str_fields K K' CL "From"|str_fields K K' CL "Subject"|str_fields K K' CL "Body"]. }
    assert (P : Forall (present_alike v v') ["From"; "Subject"; "Body"]) by (destruct PR as [[]|PR]; apply Forall_forall; intros f [<- |[<- |[<- |[]]]]; [apply (PR "From")|apply (PR "Subject")|apply (PR "Body")]; cbn; tauto).
    assert (Q := strs_bracket _ _ _ S P). unfold strs in Q. cbn [map concat] in Q. rewrite !app_nil_r in Q.
    rewrite <- E' in E. apply ok_inj in E.
    intros f [<- |[<- |[<- |[]]]]; (apply same_eq; [discriminate|discriminate|]); [apply (Q E "From")|apply (Q E "Subject")|apply (Q E "Body")]; cbn; tauto.
  - (* file *)
    assert (T1 : hash_ty (get_field "Hashes" v)) by (eexists; eexists; eexists; typed_field K "Hashes").
    assert (T1' : hash_ty (get_field "Hashes" v')) by (eexists; eexists; eexists; typed_field K' "Hashes").
    assert (T2 : storable GExt (get_path p_extensions v) = true) by typed_field K "Extensions".
    assert (T2' : storable GExt (get_path p_extensions v') = true) by typed_field K' "Extensions".
    destruct (CL "Hashes" ltac:(cbn; tauto)) as [C C']. assert (SN : str_pair v v' "Name") by str_fields K K' CL "Name".
    assert (SD : str_pair v v' "ParentDirectory") by str_fields K K' CL "ParentDirectory".
    assert (P : Forall (present_alike v v') ["Hashes"; "Name"; "ParentDirectory"]) by (destruct PR as [[]|PR]; apply Forall_forall; intros f [<- |[<- |[<- |[]]]]; [apply (PR "Hashes")|apply (PR "Name")|apply (PR "ParentDirectory")]; cbn; tauto).
    assert (BX : blank (get_path p_extensions v) <-> blank (get_path p_extensions v')) by (destruct PR as [[]|PR]; apply (PR "Extensions"); cbn; tauto).
    destruct (file_parts pf v) as [l| |] eqn:L; try discriminate E. destruct (file_parts pf v') as [l'| |] eqn:L'; try discriminate E'. cbn [bind] in E, E'. rewrite <- E' in E. apply ok_inj in E.
    destruct (file_same pf v v' l l' SN SD T1 T1' C C' T2 T2' BX P L L' E) as (Q1 & Q2 & Q3 & Q4).
    intros f [<- |[<- |[<- |[<- |[]]]]]; [exact Q1|apply same_eq; [discriminate|discriminate|exact Q2]|exact Q3|apply same_eq; [discriminate|discriminate|exact Q4]].
  - (* network traffic *)
    assert (T : net_typed v).
    { constructor; [typed_field K "Start"|typed_field K "End"|eexists; typed_field K "SrcPort"|eexists; typed_field K "DstPort"|eexists; typed_field K "Protocols"|typed_field K "Extensions"|].
      apply Forall_forall; intros f [<- |[<- |[<- |[]]]]; [apply (CL "Start")|apply (CL "End")|apply (CL "Protocols")]; cbn; tauto. }
    assert (T' : net_typed v').
    { constructor; [typed_field K' "Start"|typed_field K' "End"|eexists; typed_field K' "SrcPort"|eexists; typed_field K' "DstPort"|eexists; typed_field K' "Protocols"|typed_field K' "Extensions"|].
      apply Forall_forall; intros f [<- |[<- |[<- |[]]]]; [apply (CL "Start")|apply (CL "End")|apply (CL "Protocols")]; cbn; tauto. }
    assert (S : Forall (str_pair v v') ["Src"; "Dst"]).
    { apply Forall_forall; intros f [<- |[<- |[]]]; [str_fields K K' CL "Src"|str_fields K K' CL "Dst"]. }
    assert (P : Forall (present_alike v v') ["Start"; "End"; "SrcPort"; "DstPort"; "Protocols"; "Src"; "Dst"]) by (destruct PR as [[]|PR]; apply Forall_forall; intros f [<- |[<- |[<- |[<- |[<- |[<- |[<- |[]]]]]]]]; [apply (PR "Start")|apply (PR "End")|apply (PR "SrcPort")|apply (PR "DstPort")|apply (PR "Protocols")|apply (PR "Src")|apply (PR "Dst")]; cbn; tauto).
    assert (BX : blank (get_path p_extensions v) <-> blank (get_path p_extensions v')) by (destruct PR as [[]|PR]; apply (PR "Extensions"); cbn; tauto).
    destruct (network_parts pf v) as [l| |] eqn:L; try discriminate E. destruct (network_parts pf v') as [l'| |] eqn:L'; try discriminate E'. cbn [bind] in E, E'. rewrite <- E' in E. apply ok_inj in E.
    destruct (network_same pf v v' l l' S T T' BX P L L' E) as ([Q1 Q2] & Q3 & Q4 & Q5).
    intros f [<- |[<- |[<- |[<- |[<- |[<- |[<- |[<- |[]]]]]]]]]; [exact Q1|exact Q2|apply same_eq; [discriminate|discriminate|apply (Q3 "Src"); cbn; tauto]|apply same_eq; [discriminate|discriminate|apply (Q3 "Dst"); cbn; tauto]
      |apply same_eq; [discriminate|discriminate|apply (Q3 "SrcPort"); cbn; tauto]|apply same_eq; [discriminate|discriminate|apply (Q3 "DstPort"); cbn; tauto]|destruct Q4 as [Q4|Q4]; [left; exact Q4|right; left; exact Q4]|exact Q5].
  - (* registry key *)
    assert (S : str_pair v v' "Key") by str_fields K K' CL "Key". destruct (CL "Values" ltac:(cbn; tauto)) as [C C'].
    assert (T : storable (GSlice (GPtr ty_RegistryValue)) (get_field "Values" v) = true) by typed_field K "Values".
    assert (T' : storable (GSlice (GPtr ty_RegistryValue)) (get_field "Values" v') = true) by typed_field K' "Values".
    destruct (registry_parts v) as [l| |] eqn:L; try discriminate E. destruct (registry_parts v') as [l'| |] eqn:L'; try discriminate E'. cbn [bind] in E, E'. rewrite <- E' in E. apply ok_inj in E.
    destruct (registry_same v v' l l' S T T' C C' L L' E) as [Q1 Q2].
    intros f [<- |[<- |[]]]; [apply same_eq; [discriminate|discriminate|exact Q1]|destruct Q2 as [Q|Q]; [left; exact Q|right; left; exact Q]].
  - (* software *)
    assert (S : Forall (str_pair v v') ["Name"; "CPE"; "Vendor"; "Version"]).
    { apply Forall_forall; intros f [<- |[<- |[<- |[<- |[]]]]]; [str_fields K K' CL "Name"|str_fields K K' CL "CPE"|str_fields K K' CL "Vendor"|str_fields K K' CL "Version"]. }
    assert (P : Forall (present_alike v v') ["Name"; "CPE"; "Vendor"; "Version"]) by (destruct PR as [[]|PR]; apply Forall_forall; intros f [<- |[<- |[<- |[<- |[]]]]]; [apply (PR "Name")|apply (PR "CPE")|apply (PR "Vendor")|apply (PR "Version")]; cbn; tauto).
    assert (Q := software_same v v' S P). rewrite <- E' in E. apply ok_inj in E.
    intros f [<- |[<- |[<- |[<- |[]]]]]; (apply same_eq; [discriminate|discriminate|]); [apply (Q E "Name")|apply (Q E "CPE")|apply (Q E "Vendor")|apply (Q E "Version")]; cbn; tauto.
  - (* user account *)
    assert (S : Forall (str_pair v v') ["AccountType"; "UserID"; "AccountLogin"]).
    { apply Forall_forall; intros f [<- |[<- |[<- |[]]]]; [str_fields K K' CL "AccountType"|str_fields K K' CL "UserID"|str_fields K K' CL "AccountLogin"]. }
    assert (P : Forall (present_alike v v') ["AccountType"; "UserID"; "AccountLogin"]) by (destruct PR as [[]|PR]; apply Forall_forall; intros f [<- |[<- |[<- |[]]]]; [apply (PR "AccountType")|apply (PR "UserID")|apply (PR "AccountLogin")]; cbn; tauto).
    assert (Q := strs_bracket _ _ _ S P). unfold strs in Q. cbn [map concat] in Q. rewrite !app_nil_r in Q.
    rewrite <- E' in E. apply ok_inj in E.
    intros f [<- |[<- |[<- |[]]]]; (apply same_eq; [discriminate|discriminate|]); [apply (Q E "AccountType")|apply (Q E "UserID")|apply (Q E "AccountLogin")]; cbn; tauto.
  - (* x509 certificate *)
    assert (T1 : hash_ty (get_field "Hashes" v)) by (eexists; eexists; eexists; typed_field K "Hashes").
    assert (T1' : hash_ty (get_field "Hashes" v')) by (eexists; eexists; eexists; typed_field K' "Hashes").
    destruct (CL "Hashes" ltac:(cbn; tauto)) as [C C']. assert (S : str_pair v v' "SerialNumber") by str_fields K K' CL "SerialNumber".
    rewrite <- E' in E. apply ok_inj in E. destruct (strs_balanced ["SerialNumber"] v v' (Forall_cons _ S (Forall_nil _))) as [B B'].
    unfold strs in B, B'. cbn [map concat] in B, B'. rewrite app_nil_r in B, B'.
    destruct (hash_and_quoted _ _ _ _ T1 T1' C C' (opt_quoted_list (str_field "SerialNumber" v)) (opt_quoted_list (str_field "SerialNumber" v')) B B' E) as [Q1 Q2].
    destruct S as [[n1 S] [n2 S'] _ _].
    intros f [<- |[<- |[]]]; [exact Q1|apply same_eq; [discriminate|discriminate|eapply str_same; eauto]].
Qed.
Print Assumptions multi_value_identifiers_partial.

(** Not in general: the values are not quoted and their position is not part of
    the text, and a hash of another algorithm does not contribute. *)
Definition opt (n : string) (x : gval) : stix_option := OField (row n) x.
Theorem multi_value_identifiers_refuted : forall rb now pf, exists v1 v2 v3 v4 v5 v6,
  construct rb now pf (CSoftware "a") [opt "OptionCPE" (VStr "x")] = Ret (Some v1) None /\
  construct rb now pf (CSoftware "a") [opt "OptionVendor" (VStr "x")] = Ret (Some v2) None /\
  prop (CSoftware "a") "ID" v1 = prop (CSoftware "a") "ID" v2 /\ prop (CSoftware "a") "CPE" v1 <> prop (CSoftware "a") "CPE" v2 /\
  construct rb now pf (CEmailMessage false) [opt "OptionSubject" (VStr "x"); opt "OptionBody" (VStr "y"",""z")] = Ret (Some v3) None /\
  construct rb now pf (CEmailMessage false) [opt "OptionSubject" (VStr "x"",""y"); opt "OptionBody" (VStr "z")] = Ret (Some v4) None /\
  prop (CEmailMessage false) "ID" v3 = prop (CEmailMessage false) "ID" v4 /\ prop (CEmailMessage false) "Body" v3 <> prop (CEmailMessage false) "Body" v4 /\
  (forall f, In f (contributing (CEmailMessage false)) -> blank (prop (CEmailMessage false) f v3) <-> blank (prop (CEmailMessage false) f v4)) /\
  construct rb now pf (CFile "" (VMap [("SSDEEP", VStr "x")])) [] = Ret (Some v5) None /\
  construct rb now pf (CFile "" (VMap [("SSDEEP", VStr "y")])) [] = Ret (Some v6) None /\
  prop (CFile "" VNil) "ID" v5 = prop (CFile "" VNil) "ID" v6 /\ prop (CFile "" VNil) "Hashes" v5 <> prop (CFile "" VNil) "Hashes" v6.
Proof.
  intros. do 6 eexists. split; [vm_compute; reflexivity|]. split; [vm_compute; reflexivity|]. split; [vm_compute; reflexivity|]. split; [vm_compute; discriminate|].
  split; [vm_compute; reflexivity|]. split; [vm_compute; reflexivity|]. split; [vm_compute; reflexivity|]. split; [vm_compute; discriminate|].
  split; [|split; [vm_compute; reflexivity|]; split; [vm_compute; reflexivity|]; split; [vm_compute; reflexivity|vm_compute; discriminate]].
  intros f [<- |[<- |[<- |[]]]]; vm_compute; intuition discriminate.
Qed.
Print Assumptions multi_value_identifiers_refuted.

(** Observables of different types never share an identifier. *)
Theorem identifiers_differ_by_type : forall rb now rb' now' pf pf' c c' os os' v v',
  random_id c = false -> random_id c' = false -> args_typed c = true -> args_typed c' = true -> Forall user_option os -> Forall user_option os' ->
  construct rb now pf c os = Ret (Some v) None -> construct rb' now' pf' c' os' = Ret (Some v') None ->
  prop c "ID" v = prop c' "ID" v' -> call_name c = call_name c'.
Proof.
  intros rb now rb' now' pf pf' c c' os os' v v' R R' AT AT' UO UO' OK OK' E.
  assert (X := result_id_value _ _ _ _ _ _ AT UO OK). assert (X' := result_id_value _ _ _ _ _ _ AT' UO' OK').
  destruct (contribution pf c) as [g|] eqn:G; [|apply contribution_random in G; congruence].
  destruct (contribution pf' c') as [g'|] eqn:G'; [|apply contribution_random in G'; congruence].
  destruct X as (s & _ & X). destruct X' as (s' & _ & X'). rewrite X, X' in E. injection E as E.
  apply observable_id_inj2 in E as [E _]; [exact E| |]; [destruct c|destruct c']; reflexivity.
Qed.
Print Assumptions identifiers_differ_by_type.

(** Two files that meet the hypotheses and differ in the parent directory: their
    identifiers differ unless the two named texts collide. *)
Example multi_example : forall rb now pf, let c := CFile "a.exe" (VMap [("MD5", VStr "00")]) in exists v v',
  construct rb now pf c [opt "OptionParentDirectory" (VStr "directory--1")] = Ret (Some v) None /\
  construct rb now pf c [opt "OptionParentDirectory" (VStr "directory--2")] = Ret (Some v') None /\
  (forall f, In f (contributing c) -> clean (prop c f v) /\ clean (prop c f v')) /\
  (forall f, In f (contributing c) -> (blank (prop c f v) <-> blank (prop c f v'))) /\
  ~ same_for_id pf "ParentDirectory" (prop c "ParentDirectory" v) (prop c "ParentDirectory" v') /\ prop c "ID" v <> prop c "ID" v'.
Proof.
  intros. do 2 eexists. split; [vm_compute; reflexivity|]. split; [vm_compute; reflexivity|].
  split; [|split; [|split]].
  - intros f [<- |[<- |[<- |[<- |[]]]]]; split; vm_compute; try exact I; try (intros H; intuition discriminate); repeat (constructor; try (intros H; intuition discriminate)).
  - intros f [<- |[<- |[<- |[<- |[]]]]]; vm_compute; intuition discriminate.
  - intros [Q|[[Q _]|(t & t' & Q & _)]]; [discriminate Q|vm_compute in Q; intuition discriminate|discriminate Q].
  - vm_compute. discriminate.
Qed.
Print Assumptions multi_value_identifiers_partial.
