(** Assembly of the collection theorems. *)
From Verif Require Import GoStr GoStrFacts Uuid Ident IdentFacts Collection CollectionSpec CollectionFacts
  Consts Accessors.
From Coq Require Import Permutation.

(** Every object accepted under a built-in type has the Go type that the parser
    uses for this type. *)
Definition coherent {O} (go_type : O -> string) (l : list (call O)) : Prop :=
  forall x goT, In x l -> c_ok x = true -> In (c_typ x, goT) builtin_names ->
    go_type (c_obj x) = goT.

Lemma coherent_dec {O} (go_type : O -> string) l :
  forallb (fun x => negb (c_ok x) ||
    forallb (fun b => negb (String.eqb (fst b) (c_typ x)) || String.eqb (go_type (c_obj x)) (snd b)) builtin_names) l = true ->
  coherent go_type l.
Proof.
  intros H x goT Hx Hok Hb. rewrite forallb_forall in H. specialize (H x Hx).
  rewrite Hok in H. cbn [negb orb] in H. rewrite forallb_forall in H. specialize (H _ Hb). cbn [fst snd] in H.
  rewrite eqb_refl in H. cbn [negb orb] in H. now apply seqb_true.
Qed.

Definition row_eqb (a b : string * string) : bool :=
  String.eqb (fst a) (fst b) && String.eqb (snd a) (snd b).
Lemma row_eqb_true a b : row_eqb a b = true <-> a = b.
Proof.
  destruct a, b. unfold row_eqb. cbn. rewrite andb_true_iff, !seqb_true. split.
  - now intros [-> ->].
  - intros H. injection H as -> ->. auto.
Qed.

Lemma accessors_dec :
  forallb (fun r => existsb (row_eqb (snd (fst r), snd r)) builtin_names)
    (singular_accessors ++ plural_accessors) = true /\
  forallb (fun b => existsb (fun r => row_eqb (snd (fst r), snd r) b) singular_accessors &&
                    existsb (fun r => row_eqb (snd (fst r), snd r) b) plural_accessors) builtin_names = true.
Proof. split; vm_compute; reflexivity. Qed.

Lemma accessor_builtin n t g :
  In (n, t, g) singular_accessors \/ In (n, t, g) plural_accessors -> In (t, g) builtin_names.
Proof.
  intros H. destruct accessors_dec as [D _]. rewrite forallb_forall in D.
  assert (Hin : In (n, t, g) (singular_accessors ++ plural_accessors)) by now apply in_or_app.
  specialize (D _ Hin). cbn [fst snd] in D. apply existsb_exists in D as (b & Hb & He).
  apply row_eqb_true in He. now subst.
Qed.

Lemma accessors_cover typ goT :
  In (typ, goT) builtin_names <->
  (exists n, In (n, typ, goT) singular_accessors) /\ (exists n, In (n, typ, goT) plural_accessors).
Proof.
  split.
  - intros H. destruct accessors_dec as [_ D]. rewrite forallb_forall in D. specialize (D _ H).
    apply andb_true_iff in D as [D1 D2].
    apply existsb_exists in D1 as ([[n1 t1] g1] & H1 & E1).
    apply existsb_exists in D2 as ([[n2 t2] g2] & H2 & E2).
    apply row_eqb_true in E1, E2. cbn in E1, E2. injection E1 as -> ->. injection E2 as -> ->.
    split; eexists; eassumption.
  - intros [[n H] _]. eapply accessor_builtin. left. exact H.
Qed.

Lemma builtin_names_ok : forallb (fun b => type_name_ok (fst b)) builtin_names = true.
Proof. vm_compute. reflexivity. Qed.

Lemma typed_accessors (O : Type) (go_type : O -> string) ns (h : list (string * string * O)) c oks :
  run (new_coll ns) h = (c, oks) -> coherent go_type (log h oks) ->
  (forall name typ goT id, In (name, typ, goT) singular_accessors ->
     typed_get (fun o => String.eqb (go_type o) goT) c typ id =
     Ok (if match split_dd id with [t; _] => String.eqb t typ | _ => false end then get c id else None)) /\
  (forall name typ goT r, In (name, typ, goT) plural_accessors ->
     typed_all (fun o => String.eqb (go_type o) goT) c typ r ->
     exists os, r = Ok os /\ (get_all c typ (Some os) \/ (get_all c typ None /\ os = []))).
Proof.
  intros H Hc.
  assert (Hcoh : forall typ goT, In (typ, goT) builtin_names ->
    forall x, In x (log h oks) -> c_ok x = true -> c_typ x = typ -> String.eqb (go_type (c_obj x)) goT = true).
  { intros typ goT Hb x Hx Hok <-. apply seqb_true. now apply Hc. }
  split.
  - intros name typ goT id Hin. apply (or_introl (B := In (name, typ, goT) plural_accessors)) in Hin.
    apply accessor_builtin in Hin. eapply typed_get_spec; [exact H | | now apply Hcoh].
    assert (B := builtin_names_ok). rewrite forallb_forall in B. exact (B _ Hin).
  - intros name typ goT r Hin Hr. apply (or_intror (A := In (name, typ, goT) singular_accessors)) in Hin.
    apply accessor_builtin in Hin.
    destruct (typed_all_spec _ _ _ _ _ _ _ H (Hcoh _ _ Hin) Hr) as (os & -> & Hos).
    exists os. split; [reflexivity|]. destruct Hos as [(os' & Hg & ->)|Hos]; auto.
Qed.

Lemma typed_get_panics :
  exists (h : list (string * string * string)) id,
    snd (run (new_coll false) h) = [true] /\
    (forall o, get (fst (run (new_coll false) h)) id = Some o -> o = "CustomObject"%string) /\
    typed_get (fun o => String.eqb o "Malware") (fst (run (new_coll false) h)) TypeMalware id = Panic.
Proof.
  exists [("malware--8e2e2d2b-17d4-4cbf-938f-98ee46b3cd3f", "malware", "CustomObject")%string].
  exists "malware--8e2e2d2b-17d4-4cbf-938f-98ee46b3cd3f"%string.
  split; [vm_compute; reflexivity|]. split; [|vm_compute; reflexivity].
  intros o H. vm_compute in H. now injection H as <-.
Qed.

Lemma all_objects_sorted_total (O : Type) (h : list (string * string * O)) c oks :
  run (new_coll false) h = (c, oks) ->
  (exists l, all_objects c l) /\
  forall l, all_objects c l ->
    exists os, l = map Some os /\
      Forall2 (last_accepted (log h oks)) (first_ids (log h oks)) os.
Proof.
  intros H. split; [apply all_objects_total|]. intros l. now apply all_objects_sorted.
Qed.

Lemma first_ids_props (O : Type) (l : list (call O)) :
  NoDup (first_ids l) /\
  (forall id, In id (first_ids l) <-> exists x, In x l /\ c_ok x = true /\ c_id x = id) /\
  (forall a b, l = a ++ b -> exists r, first_ids l = first_ids a ++ r).
Proof.
  split; [apply NoDup_first_ids|]. split; [apply In_first_ids|].
  intros a b ->. induction b as [|x b IH] using rev_ind.
  - exists []. now rewrite !app_nil_r.
  - destruct IH as [r IH]. rewrite app_assoc, first_ids_snoc, IH.
    destruct (c_ok x && _); [exists (r ++ [c_id x]); now rewrite app_assoc | now exists r].
Qed.

Lemma add_exact (O : Type) (c : coll O) id typ o :
  (snd (add c id typ o) = true <->
   type_name_ok typ = true /\
   exists u, id = (typ ++ "--" ++ u)%string /\ no_dd u = true /\ uuid_text u) /\
  (snd (add c id typ o) = false -> fst (add c id typ o) = c).
Proof.
  rewrite <- has_valid_identifier_spec. apply add_spec.
Qed.

Lemma add_get (O : Type) ns (h : list (string * string * O)) id typ o id' :
  let c := fst (run (new_coll ns) h) in
  snd (add c id typ o) = true ->
  get (fst (add c id typ o)) id = Some o /\
  (id' <> id -> get (fst (add c id typ o)) id' = get c id').
Proof.
  cbn zeta. destruct (run (new_coll ns) h) as [c oks] eqn:E. cbn [fst].
  apply Inv_reach in E as [I _]. destruct (add c id typ o) as [c' ok] eqn:Ea. cbn [fst snd].
  intros ->. destruct (Inv_add _ _ _ _ _ _ _ I Ea) as (I' & _).
  rewrite !(get_Inv _ _ _ I'), (get_Inv _ _ _ I), !latest_snoc. cbn. rewrite eqb_refl.
  split; [reflexivity|]. intros Hne. destruct (String.eqb id id') eqn:Ei; [|reflexivity].
  apply seqb_true in Ei. congruence.
Qed.

Lemma get_all_full (O : Type) ns (h : list (string * string * O)) c oks t :
  run (new_coll ns) h = (c, oks) ->
  (exists r, get_all c t r) /\
  forall r, get_all c t r ->
  (r = None <-> ~ exists x, In x (log h oks) /\ c_ok x = true /\ c_typ x = t) /\
  (forall os, r = Some os -> exists ids,
     NoDup ids /\
     (forall id, In id ids <-> exists x, In x (log h oks) /\ c_ok x = true /\ c_id x = id /\ c_typ x = t) /\
     Forall2 (last_accepted (log h oks)) ids os).
Proof.
  intros H. split; [apply get_all_total|]. intros r Hr. exact (get_all_spec _ _ _ _ _ _ H Hr).
Qed.

Lemma to_bundle_full (O : Type) (enc : O -> res string) rnd (h : list (string * string * O)) c oks b :
  String.length rnd = 16 ->
  run (new_coll false) h = (c, oks) -> to_bundle enc rnd c b ->
  has_valid_identifier (new_identifier rnd "bundle") "bundle" = true /\
  exists os, Forall2 (last_accepted (log h oks)) (first_ids (log h oks)) os /\
    (is_ok b = true <-> forall o, In o os -> is_ok (enc o) = true) /\
    (forall bu, b = Ok bu <->
       exists ds, Forall2 (fun o d => enc o = Ok d) os ds /\
                  bu = Bundle "bundle" (new_identifier rnd "bundle") ds).
Proof.
  intros Hr H Hb. split; [now apply new_identifier_valid|].
  destruct (to_bundle_spec _ _ _ _ _ _ H Hb) as (os & Hf & Hs).
  exists os. split; [exact Hf|]. split; [|exact Hs]. split.
  - intros Hok. destruct b as [bu|e|]; try discriminate.
    destruct (proj1 (Hs bu) eq_refl) as (ds & Hds & _). clear -Hds.
    induction Hds as [|o d os ds Ho _ IH]; intros o' [].
    + subst o'. now rewrite Ho.
    + now apply IH.
  - intros Hall. assert (E : exists ds, Forall2 (fun o d => enc o = Ok d) os ds).
    { clear -Hall. induction os as [|o os IH]; [exists []; constructor|].
      destruct IH as [ds Hds]; [intros o' Ho'; apply Hall; now right|].
      assert (Ho := Hall o (or_introl eq_refl)). destruct (enc o) as [d|e|] eqn:Ed; try discriminate.
      exists (d :: ds). now constructor. }
    destruct E as [ds Hds].
    rewrite (proj2 (Hs (Bundle "bundle" (new_identifier rnd "bundle") ds))); [reflexivity|]. now exists ds.
Qed.

Lemma enc_all_perm (O : Type) (enc : O -> res string) l1 l2 :
  Permutation l1 l2 -> forall d1 d2, enc_all enc l1 = Ok d1 -> enc_all enc l2 = Ok d2 -> Permutation d1 d2.
Proof.
  assert (A : forall l d, enc_all enc l = Ok d ->
    d = map (fun o => match o with Some o => match enc o with Ok d => d | _ => "" end | None => "null" end)%string l).
  { induction l as [|o l IH]; intros d H; cbn in H.
    - now injection H as <-.
    - destruct o as [o|].
      + destruct (enc o) as [x|e|] eqn:Eo; cbn in H; try discriminate.
        destruct (enc_all enc l) as [y|e|]; cbn in H; try discriminate.
        injection H as <-. cbn. rewrite Eo. f_equal. now apply IH.
      + cbn in H. destruct (enc_all enc l) as [y|e|]; cbn in H; try discriminate.
        injection H as <-. cbn. f_equal. now apply IH. }
  intros P d1 d2 H1 H2. apply A in H1, H2. subst. now apply Permutation_map.
Qed.

Lemma to_bundle_nosort (O : Type) (enc : O -> res string) rnd (h : list (string * string * O)) b1 b2 :
  to_bundle enc rnd (fst (run (new_coll true) h)) (Ok b1) ->
  to_bundle enc rnd (fst (run (new_coll false) h)) (Ok b2) ->
  Permutation (b_objects b1) (b_objects b2).
Proof.
  intros (l1 & A1 & E1) (l2 & A2 & E2). assert (P := all_objects_nosort _ _ _ A1 A2).
  unfold new_bundle in *.
  destruct (enc_all enc l1) as [d1|e|] eqn:F1; cbn in E1; try discriminate. injection E1 as ->.
  destruct (enc_all enc l2) as [d2|e|] eqn:F2; cbn in E2; try discriminate. injection E2 as ->.
  cbn. eapply enc_all_perm; eassumption.
Qed.

Lemma mutation_safe h ops l :
  let c := snd (run_ops h (new_coll false) ops) in
  let lg := log (adds h ops) (snd (run (new_coll false) (adds h ops))) in
  all_objects c l ->
  (exists os, l = map Some os /\ Forall2 (last_accepted lg) (first_ids lg) os) /\
  (forall id o, get c id = Some o <-> last_accepted lg id o).
Proof.
  cbn zeta. rewrite run_ops_adds.
  destruct (run (new_coll false) (adds h ops)) as [c oks] eqn:E. cbn [fst snd]. intros Ha.
  split; [now apply (all_objects_sorted (adds h ops) c)|].
  intros id o. apply (get_spec _ _ _ _ _ E).
Qed.
