(** FromJSON with NoSortOption: C102. *)
From Coq Require Import Permutation.
From Verif Require Import GoStr GoStrFacts JsonStr StrSpec StrSpecFacts JsonSpec JsonSpecFacts Json Float Consts GoTypes Schema GoVal Codec CodecSpec DataTypes Ident
  Collection CollectionSpec CollectionFacts FromJson FromJsonSpec FromJsonFacts IndepFacts FromJsonProps PropCodec PropCollection PropFromJson.

(** Outcomes that agree, up to [R] on collections. *)
Definition agree (R : coll gobj -> coll gobj -> Prop) (r r' : res (coll gobj)) : Prop :=
  match r, r' with
  | Ok c, Ok c' => R c c'
  | Err e, Err e' => e = e'
  | Panic, Panic => True
  | _, _ => False
  end.

Section N.
Variable rnd : bool -> N -> Z -> option flt.
Variables ns ns' d : bool.
Variable hs : list (string * option handler).
Let cf := Config ns d hs.
Let cf' := Config ns' d hs.

Lemma finish_agree c c' peak j o : objects c = objects c' ->
  match finish rnd cf c peak j o, finish rnd cf' c' peak j o with
  | Ok (x, p), Ok (x', p') => objects x = objects x' /\ p = p'
  | Err e, Err e' => e = e'
  | Panic, Panic => True
  | _, _ => False
  end.
Proof.
  intros E. unfold finish. destruct o as [t v]. destruct (unmarshal_res (dec rnd j t v)) as [v1| |]; [|reflexivity|exact I]. cbn [bind cf cf' cf_drop].
  set (v2 := if d then v1 else _). destruct (obj_id (t, v2)) as [id| |]; [|reflexivity|exact I]. cbn [bind]. destruct (obj_type (t, v2)) as [ty| |]; [|reflexivity|exact I]. cbn [bind].
  unfold add. rewrite E. destruct (negb (has_valid_identifier id ty)); [reflexivity|]. split; reflexivity.
Qed.
Lemma process_agree js : forall c c' peak, objects c = objects c' -> agree (fun x x' => objects x = objects x') (process_objects rnd cf js c peak) (process_objects rnd cf' js c' peak).
Proof.
  induction js as [|j js IH]; intros c c' peak E; [exact E|]. cbn [process_objects]. unfold process_object.
  destruct (unmarshal_res (dec rnd j peak_ty peak)) as [pk| |]; [|reflexivity|exact I]. cbn [bind].
  destruct (map_get "type" pk) as [tv|]; [|cbn [bind fst snd]; now apply IH]. destruct (as_string tv) as [typ| |]; [|reflexivity|exact I]. cbn [bind].
  change (start cf' typ j) with (start cf typ j). destruct (start cf typ j) as [[o|]| |]; [|cbn [bind fst snd]; now apply IH|reflexivity|exact I]. cbn [bind].
  assert (F := finish_agree c c' (old_map pk) j o E). destruct (finish rnd cf c (old_map pk) j o) as [[x p]|e|], (finish rnd cf' c' (old_map pk) j o) as [[x' p']|e'|]; try contradiction; cbn [bind fst snd].
  - destruct F as [F ->]. now apply IH.
  - exact F.
  - exact I.
Qed.
Lemma from_json_agree s : agree (fun x x' => objects x = objects x') (from_json rnd cf s) (from_json rnd cf' s).
Proof.
  unfold from_json. destruct (unmarshal rnd s ty_Bundle (zero ty_Bundle)) as [b| |]; [now apply process_agree| |exact I].
  destruct (unmarshal rnd s (GSlice GRaw) VNil) as [a| |]; [now apply process_agree|reflexivity|exact I].
Qed.
End N.

(** ** C102 *)
(** NoSortOption, wherever it stands, changes neither whether a document is read
    nor the error, nor what Get and GetAll return; AllObjects returns the same in
    some order. *)
Theorem nosort_changes_order_only : forall rnd a b s, ~ In NoSort (a ++ b) ->
  agree (fun c c' => (forall id, get c' id = get c id) /\ (forall typ r, get_all c' typ r <-> get_all c typ r) /\
                     (forall l l', all_objects c l -> all_objects c' l' -> Permutation l l'))
    (from_json rnd (config_of (a ++ b)) s) (from_json rnd (config_of (a ++ NoSort :: b)) s).
Proof.
  intros rnd a b s N.
  assert (E : config_of (a ++ NoSort :: b) = Config true (cf_drop (config_of (a ++ b))) (cf_handlers (config_of (a ++ b)))).
  { unfold config_of. rewrite !fold_left_app. cbn [fold_left apply_option]. generalize (fold_left apply_option a (Config false false [])). clear. induction b as [|o b IH]; intros c; [reflexivity|].
    cbn [fold_left]. destruct o; exact (IH (apply_option c _)) || (cbn [apply_option cf_nosort cf_drop cf_handlers]; rewrite <- IH; reflexivity). }
  assert (Ns : cf_nosort (config_of (a ++ b)) = false) by (destruct (cf_nosort (config_of (a ++ b))) eqn:Q; [|reflexivity]; apply nosort_option_set in Q; contradiction).
  assert (A := from_json_agree rnd false true (cf_drop (config_of (a ++ b))) (cf_handlers (config_of (a ++ b))) s). rewrite <- E in A.
  replace (Config false (cf_drop (config_of (a ++ b))) (cf_handlers (config_of (a ++ b)))) with (config_of (a ++ b)) in A by (rewrite <- Ns; now destruct (config_of (a ++ b))).
  destruct (from_json rnd (config_of (a ++ b)) s) as [c|e|] eqn:E1, (from_json rnd (config_of (a ++ NoSort :: b)) s) as [c'|e'|] eqn:E2; cbn [agree] in *; try contradiction; try assumption.
  split; [|split].
  - intros id. unfold get, get_object. now rewrite A.
  - intros typ r. unfold get_all. now rewrite A.
  - intros l l' L L'. destruct (proj1 (from_json_all_or_nothing rnd _ s) _ E1) as (js & _ & D & _). rewrite (from_json_read _ _ _ _ D) in E1. rewrite (from_json_read _ _ _ _ D) in E2. rewrite Ns in E1. rewrite E in E2. cbn [cf_nosort] in E2.
    assert (R : forall js p, read_all rnd (Config true (cf_drop (config_of (a ++ b))) (cf_handlers (config_of (a ++ b)))) js p = read_all rnd (config_of (a ++ b)) js p).
    { clear. induction js as [|j js IH]; intros p; [reflexivity|]. cbn [read_all].
      change (read rnd (Config true (cf_drop (config_of (a ++ b))) (cf_handlers (config_of (a ++ b)))) j p) with (read rnd (config_of (a ++ b)) j p). destruct (read rnd (config_of (a ++ b)) j p); [|reflexivity|reflexivity]. cbn [bind]. now rewrite IH. }
    rewrite R in E2. destruct (read_all rnd (config_of (a ++ b)) js VNil) as [outs| |]; try discriminate. injection E1 as <-. injection E2 as <-.
    apply Permutation_sym. exact (unsorted_all_objects_same_multiset _ (calls_of outs) l' l L' L).
Qed.
Print Assumptions nosort_changes_order_only.

Example nosort_ex : exists c c', ~ In NoSort ([DropCustom] ++ []) /\ from_json rnd_id (config_of ([DropCustom] ++ [])) (arr [mal []; tool []]) = Ok c /\
  from_json rnd_id (config_of ([DropCustom] ++ NoSort :: [])) (arr [mal []; tool []]) = Ok c' /\ c <> c' /\ get c tid = get c' tid /\ get c tid <> None.
Proof.
  eexists. eexists. split; [intros [Q|[]]; discriminate|]. split; [vm_compute; reflexivity|]. split; [vm_compute; reflexivity|]. split; [vm_compute; discriminate|]. split; vm_compute; [reflexivity|discriminate].
Qed.
