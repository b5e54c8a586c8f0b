(** Properties of collections: C01-C08. *)
From Verif Require Import GoStr GoStrFacts Uuid Ident IdentFacts Collection CollectionSpec CollectionFacts
  Consts Accessors AccessSpec PropCollectionAux.
From Coq Require Import Permutation.

(** C01 *)
Theorem get_returns_last_accepted : forall (O : Type) ns (h : list (string * string * O)) c oks id,
  run (new_coll ns) h = (c, oks) ->
  (forall o, get c id = Some o <-> last_accepted (log h oks) id o) /\
  (get c id = None <-> forall x, In x (log h oks) -> c_ok x = true -> c_id x <> id).
Proof. exact @get_spec. Qed.
Print Assumptions get_returns_last_accepted.

(** C02 *)
Theorem all_objects_in_insertion_order : forall (O : Type) (h : list (string * string * O)) c oks,
  run (new_coll false) h = (c, oks) ->
  (exists l, all_objects c l) /\
  forall l, all_objects c l ->
    exists os, l = map Some os /\
      Forall2 (last_accepted (log h oks)) (first_ids (log h oks)) os.
Proof. exact @all_objects_sorted_total. Qed.
Print Assumptions all_objects_in_insertion_order.

(** C02: what [first_ids] means. *)
Theorem first_ids_meaning : forall (O : Type) (l : list (call O)),
  NoDup (first_ids l) /\
  (forall id, In id (first_ids l) <-> exists x, In x l /\ c_ok x = true /\ c_id x = id) /\
  (forall a b, l = a ++ b -> exists r, first_ids l = first_ids a ++ r).
Proof. exact @first_ids_props. Qed.
Print Assumptions first_ids_meaning.

(** C03 *)
Theorem unsorted_all_objects_same_multiset : forall (O : Type) (h : list (string * string * O)) l1 l2,
  all_objects (fst (run (new_coll true) h)) l1 ->
  all_objects (fst (run (new_coll false) h)) l2 -> Permutation l1 l2.
Proof. exact @all_objects_nosort. Qed.
Print Assumptions unsorted_all_objects_same_multiset.

(** C04: acceptance; [uuid_text] is what uuid.Parse accepts. *)
Theorem add_accepts_iff_valid : forall (O : Type) (c : coll O) id typ o,
  (snd (add c id typ o) = true <->
   type_name_ok typ = true /\
   exists u, id = (typ ++ "--" ++ u)%string /\ no_dd u = true /\ uuid_text u) /\
  (snd (add c id typ o) = false -> fst (add c id typ o) = c).
Proof. exact @add_exact. Qed.
Print Assumptions add_accepts_iff_valid.

(** C04: an accepted Add changes only the entry of its identifier. *)
Theorem add_changes_one_entry : forall (O : Type) ns (h : list (string * string * O)) id typ o id',
  let c := fst (run (new_coll ns) h) in
  snd (add c id typ o) = true ->
  get (fst (add c id typ o)) id = Some o /\
  (id' <> id -> get (fst (add c id typ o)) id' = get c id').
Proof. exact @add_get. Qed.
Print Assumptions add_changes_one_entry.

(** C05 *)
Theorem get_all_by_type : forall (O : Type) ns (h : list (string * string * O)) c oks t,
  run (new_coll ns) h = (c, oks) ->
  (exists r, get_all c t r) /\
  forall r, get_all c t r ->
  (r = None <-> ~ exists x, In x (log h oks) /\ c_ok x = true /\ c_typ x = t) /\
  (forall os, r = Some os -> exists ids,
     NoDup ids /\
     (forall id, In id ids <-> exists x, In x (log h oks) /\ c_ok x = true /\ c_id x = id /\ c_typ x = t) /\
     Forall2 (last_accepted (log h oks)) ids os).
Proof. exact @get_all_full. Qed.
Print Assumptions get_all_by_type.

Theorem get_all_partitions : forall (O : Type) ns (h : list (string * string * O)) c oks ts rs ls,
  run (new_coll ns) h = (c, oks) ->
  NoDup ts ->
  (forall t, In t ts <-> exists x, In x (log h oks) /\ c_ok x = true /\ c_typ x = t) ->
  Forall2 (fun t r => get_all c t (Some r)) ts rs ->
  all_objects c ls -> Permutation ls (map Some (concat rs)).
Proof. exact @get_all_partition. Qed.
Print Assumptions get_all_partitions.

(** C06, the true part.  Hypothesis: objects accepted under a built-in type have
    the Go type that belongs to it.  Missing: collections to which a CustomObject
    (or another user type) reporting a built-in type was added. *)
Theorem typed_accessors_agree_partial :
  forall (O : Type) (go_type : O -> string) ns (h : list (string * string * O)) c oks,
  run (new_coll ns) h = (c, oks) -> coherent go_type (log h oks) ->
  (forall name typ goT id, In (name, typ, goT) singular_accessors ->
     typed_get (fun o => String.eqb (go_type o) goT) c typ id =
     Ok (if match split_dd id with [t; _] => String.eqb t typ | _ => false end then get c id else None)) /\
  (forall name typ goT r, In (name, typ, goT) plural_accessors ->
     typed_all (fun o => String.eqb (go_type o) goT) c typ r ->
     exists os, r = Ok os /\ (get_all c typ (Some os) \/ (get_all c typ None /\ os = []))).
Proof. exact @typed_accessors. Qed.
Print Assumptions typed_accessors_agree_partial.

(** C06: every built-in type has both accessors. *)
Theorem typed_accessors_cover_builtin : forall typ goT,
  In (typ, goT) builtin_names <->
  (exists n, In (n, typ, goT) singular_accessors) /\ (exists n, In (n, typ, goT) plural_accessors).
Proof. exact accessors_cover. Qed.
Print Assumptions typed_accessors_cover_builtin.

(** C06: each accessor is for the type of the standard that it is named after. *)
Theorem accessors_are_standard : forall name typ,
  ((exists goT, In (name, typ, goT) singular_accessors) <-> exists p, In (name, p, typ) std_accessors) /\
  ((exists goT, In (name, typ, goT) plural_accessors) <-> exists s, In (s, name, typ) std_accessors).
Proof.
  assert (A : map fst singular_accessors = map (fun r => (fst (fst r), snd r)) std_accessors) by reflexivity.
  assert (B : map fst plural_accessors = map (fun r => (snd (fst r), snd r)) std_accessors) by reflexivity.
  intros name typ. split; split; intros [x H].
  - apply (in_map fst) in H. rewrite A in H. apply in_map_iff in H as ([[s p] t] & E & H). injection E as <- <-. eauto.
  - apply (in_map (fun r => (fst (fst r), snd r))) in H. rewrite <- A in H. apply in_map_iff in H as ([[s p] t] & E & H). injection E as <- <-. eauto.
  - apply (in_map fst) in H. rewrite B in H. apply in_map_iff in H as ([[s p] t] & E & H). injection E as <- <-. eauto.
  - apply (in_map (fun r => (snd (fst r), snd r))) in H. rewrite <- B in H. apply in_map_iff in H as ([[s p] t] & E & H). injection E as <- <-. eauto.
Qed.
Print Assumptions accessors_are_standard.

(** C06, all collections: what an accessor finds is what Get and GetAll find, and
    it panics if that has another Go type. *)
Theorem typed_accessors_outcome_partial :
  forall (O : Type) (go_type : O -> string) ns (h : list (string * string * O)) c oks,
  run (new_coll ns) h = (c, oks) ->
  (forall name typ goT id, In (name, typ, goT) singular_accessors ->
     forall found, found = (if match split_dd id with [t; _] => String.eqb t typ | _ => false end then get c id else None) ->
     typed_get (fun o => String.eqb (go_type o) goT) c typ id =
     match found with Some o => if String.eqb (go_type o) goT then Ok (Some o) else Panic | None => Ok None end) /\
  (forall name typ goT r, In (name, typ, goT) plural_accessors ->
     typed_all (fun o => String.eqb (go_type o) goT) c typ r ->
     exists os, (get_all c typ (Some os) \/ (get_all c typ None /\ os = [])) /\
       ((r = Ok os /\ forall o, In o os -> go_type o = goT) \/ (r = Panic /\ exists o, In o os /\ go_type o <> goT))).
Proof.
  intros O go_type ns h c oks H. split.
  - intros name typ goT id Hin found ->. assert (B := builtin_names_ok). rewrite forallb_forall in B.
    assert (Hb := accessor_builtin _ _ _ (or_introl Hin)). assert (X := typed_get_spec ns h c oks (fun _ => true) typ id H (B _ Hb) (fun _ _ _ _ => eq_refl)).
    unfold typed_get in *. destruct (get_object c typ id) as [o|]; injection X as <-; reflexivity.
  - intros name typ goT r Hin (es & P & ->). assert (X : typed_all (fun _ => true) c typ (Ok (map snd es))).
    { exists es. split; [exact P|]. replace (forallb _ _) with true; [reflexivity|]. symmetry. now apply forallb_forall. }
    apply (typed_all_spec ns h c oks _ _ _ H (fun _ _ _ _ => eq_refl)) in X as (os & E & G). injection E as <-. exists (map snd es). split.
    + destruct G as [(os' & G & ->)|G]; auto.
    + destruct (forallb _ (map snd es)) eqn:F.
      * left. split; [reflexivity|]. intros o Ho. rewrite forallb_forall in F. apply String.eqb_eq. now apply F.
      * right. split; [reflexivity|]. apply not_true_iff_false in F.
        destruct (existsb (fun o => negb (String.eqb (go_type o) goT)) (map snd es)) eqn:Ex.
        -- apply existsb_exists in Ex as (o & Ho & Hn). exists o. split; [exact Ho|]. apply negb_true_iff in Hn. now apply String.eqb_neq.
        -- destruct F. apply forallb_forall. intros o Ho. destruct (String.eqb (go_type o) goT) eqn:En; [reflexivity|].
           apply not_true_iff_false in Ex. destruct Ex. apply existsb_exists. exists o. split; [exact Ho|]. cbv beta. now rewrite En.
Qed.
Print Assumptions typed_accessors_outcome_partial.

(** C06 is false without the hypothesis: a CustomObject of type "malware". *)
Theorem typed_accessors_no_panic_refuted :
  exists (h : list (string * string * string)) id,
    snd (run (new_coll false) h) = [true] /\
    (forall o, get (fst (run (new_coll false) h)) id = Some o -> o = "CustomObject"%string) /\
    typed_get (fun o => String.eqb o "Malware") (fst (run (new_coll false) h)) TypeMalware id = Panic.
Proof. exact typed_get_panics. Qed.
Print Assumptions typed_accessors_no_panic_refuted.

(** C07 *)
Theorem to_bundle_is_all_objects :
  forall (O : Type) (enc : O -> res string) rnd (h : list (string * string * O)) c oks b,
  String.length rnd = 16 ->
  run (new_coll false) h = (c, oks) -> to_bundle enc rnd c b ->
  has_valid_identifier (new_identifier rnd "bundle") "bundle" = true /\
  exists os, Forall2 (last_accepted (log h oks)) (first_ids (log h oks)) os /\
    (is_ok b = true <-> forall o, In o os -> is_ok (enc o) = true) /\
    (forall bu, b = Ok bu <->
       exists ds, Forall2 (fun o d => enc o = Ok d) os ds /\
                  bu = Bundle "bundle" (new_identifier rnd "bundle") ds).
Proof. exact @to_bundle_full. Qed.
Print Assumptions to_bundle_is_all_objects.

(** C07, NoSort: the bundle holds the same encodings in some order. *)
Theorem to_bundle_unsorted :
  forall (O : Type) (enc : O -> res string) rnd (h : list (string * string * O)) b1 b2,
  to_bundle enc rnd (fst (run (new_coll true) h)) (Ok b1) ->
  to_bundle enc rnd (fst (run (new_coll false) h)) (Ok b2) ->
  Permutation (b_objects b1) (b_objects b2).
Proof. exact @to_bundle_nosort. Qed.
Print Assumptions to_bundle_unsorted.

(** C08: [ops] interleaves Add with arbitrary mutations of identifier and type
    of any object; [adds] lists what the Add calls saw. *)
Theorem mutation_cannot_corrupt : forall h ops l,
  let c := snd (run_ops h (new_coll false) ops) in
  let lg := log (adds h ops) (snd (run (new_coll false) (adds h ops))) in
  all_objects c l ->
  (exists os, l = map Some os /\ Forall2 (last_accepted lg) (first_ids lg) os) /\
  (forall id o, get c id = Some o <-> last_accepted lg id o).
Proof. exact mutation_safe. Qed.
Print Assumptions mutation_cannot_corrupt.

(* ------------------------------------------------------------- examples *)
Definition ex_id1 : string := "malware--8e2e2d2b-17d4-4cbf-938f-98ee46b3cd3f".
Definition ex_id2 : string := "tool--8e2e2d2b-17d4-4cbf-938f-98ee46b3cd3f".
Definition ex_history : list (string * string * nat) :=
  [(ex_id1, "malware", 1); (ex_id2, "tool", 2); ("bad", "tool", 3); (ex_id1, "malware", 4);
   (ex_id1, "tool", 5)]%string.

Example ex_run_outcomes : snd (run (new_coll false) ex_history) = [true; true; false; true; false].
Proof. vm_compute. reflexivity. Qed.
Example ex_all : all_objects (fst (run (new_coll false) ex_history)) [Some 4; Some 2].
Proof. vm_compute. reflexivity. Qed.
Example ex_get_all : get_all (fst (run (new_coll true) ex_history)) "malware" (Some [4]).
Proof. exists [(ex_id1, 4)]. split; [apply Permutation_refl | reflexivity]. Qed.
(** Mutation between two Add calls of the same object: two entries. *)
Example ex_mutation :
  all_objects (snd (run_ops (fun _ => (ex_id1, "malware"%string)) (new_coll false)
                 [OpAdd 7; OpMutate 7 ex_id2 "tool"; OpAdd 7; OpMutate 7 "x" "y"])) [Some 7; Some 7].
Proof. vm_compute. reflexivity. Qed.
Example ex_coherent : coherent (fun n => if Nat.eqb n 2 then "Tool" else "Malware")%string
  (log ex_history [true; true; false; true; false]).
Proof. apply coherent_dec. vm_compute. reflexivity. Qed.
