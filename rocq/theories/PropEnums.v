(** Property theorems: the enumerations of the standard. *)
From Verif Require Import GoStr GoStrFacts JsonStr Json JsonFacts Float Enums GoTypes Schema GoVal Codec CodecSpec CodecFacts StdEnums PropCodec.
Local Open Scope string_scope.

(** ** C23 *)
(** Every term of a standard enumeration is written for and read as the constant
    of that name; every other constant is the unset value 0; no value is written
    as anything but a term or the empty string. *)
Definition consts_of (e : string) : list (string * N) := match alookup e enum_consts with Some l => l | None => [] end.
Definition std_check : bool :=
  forallb (fun ec : string * list (string * string) =>
    forallb (fun kt : string * string =>
      match alookup (fst kt) (consts_of (fst ec)) with
      | Some n => negb (N.eqb n 0) && existsb (fun ns => N.eqb (fst ns) n && String.eqb (snd ns) (snd kt)) (enum_map (fst ec))
      | None => false
      end) (snd ec) &&
    forallb (fun kn : string * N => N.eqb (snd kn) 0 || mem_str (fst kn) (map fst (snd ec))) (consts_of (fst ec)) &&
    forallb (fun ns : N * string => is_empty (snd ns) || mem_str (snd ns) (map snd (snd ec))) (enum_map (fst ec))) std_enums &&
  forallb (fun ec => mem_str (fst ec) (map fst std_enums)) enum_table.
Lemma std_check_ok : std_check = true.
Proof. vm_compute. reflexivity. Qed.

Theorem enum_terms_standard : forall e cs, In (e, cs) std_enums ->
  (forall k term, In (k, term) cs -> exists n, In (k, n) (consts_of e) /\ n <> 0%N /\
     enc (GEnum e) (VEnum n) = Ok (JStr term) /\ forall rnd old, unmarshal rnd (print (JStr term)) (GEnum e) old = Ok (VEnum n)) /\
  (forall k n, In (k, n) (consts_of e) -> n <> 0%N -> exists term, In (k, term) cs) /\
  (forall n j, enc (GEnum e) (VEnum n) = Ok j -> exists s, j = JStr s /\ (s = "" \/ exists k, In (k, s) cs)).
Proof.
  intros e cs H. assert (X := std_check_ok). unfold std_check in X. apply andb_true_iff in X as [X _]. rewrite forallb_forall in X. specialize (X _ H). cbn [fst snd] in X.
  apply andb_true_iff in X as [X X3]. apply andb_true_iff in X as [X1 X2]. rewrite forallb_forall in X1, X2, X3. repeat split.
  - intros k term I. specialize (X1 _ I). cbn [fst snd] in X1. destruct (alookup k (consts_of e)) as [n|] eqn:L; [|discriminate].
    apply andb_true_iff in X1 as [N0 X1]. apply existsb_exists in X1 as ([n' s'] & M & X1). cbn [fst snd] in X1. apply andb_true_iff in X1 as [Q1 Q2].
    apply N.eqb_eq in Q1. apply String.eqb_eq in Q2. subst. exists n. split; [now apply alookup_Some_In|]. split; [intros ->; discriminate N0|].
    destruct (enum_map_cases e) as [E|E]; [rewrite E in M; destruct M|]. exact (enum_round_trip _ _ _ _ E M).
  - intros k n I N0. specialize (X2 _ I). cbn [fst snd] in X2. apply orb_true_iff in X2 as [X2|X2]; [apply N.eqb_eq in X2; destruct (N0 X2)|].
    apply mem_str_In, in_map_iff in X2 as ([k' t] & Q & X2). cbn in Q. subst k'. now exists t.
  - intros n j E. cbn [enc] in E. exists (enum_string e n). split; [congruence|]. unfold enum_string.
    destruct (find _ (enum_map e)) as [[n' s]|] eqn:F; [|now left]. apply find_some in F as [F _]. specialize (X3 _ F). cbn [snd] in X3.
    apply orb_true_iff in X3 as [X3|X3]; [left; now destruct s|right]. apply mem_str_In, in_map_iff in X3 as ([k t] & Q & X3). cbn in Q. subst t. now exists k.
Qed.
Print Assumptions enum_terms_standard.

Theorem enums_are_standard : forall e tbl, In (e, tbl) enum_table -> exists cs, In (e, cs) std_enums.
Proof.
  intros e tbl H. assert (X := std_check_ok). unfold std_check in X. apply andb_true_iff in X as [_ X]. rewrite forallb_forall in X. specialize (X _ H). cbn [fst] in X.
  apply mem_str_In, in_map_iff in X as ([e' cs] & Q & X). cbn in Q. subst e'. now exists cs.
Qed.
Print Assumptions enums_are_standard.

(** The properties with enumerated values are those of the standard, with the
    standard's enumeration. *)
Definition enum_owners : list (string * gty) := builtin_types ++ ext_types ++ [("windows-registry-value-type", ty_RegistryValue)].
Definition props_of_ty (t : gty) : list (string * fpath * gty) := match t with GStruct _ fs => flat_fields fs | _ => [] end.
Definition enum_of (t : gty) : option (string * bool) :=
  match t with GEnum e => Some (e, false) | GPtr (GEnum e) => Some (e, false) | GSlice (GEnum e) => Some (e, true) | GSlice (GPtr (GEnum e)) => Some (e, true) | _ => None end.
Definition row_eqb (a b : string * string * string * bool) : bool :=
  let '(o, k, e, l) := a in let '(o', k', e', l') := b in String.eqb o o' && String.eqb k k' && String.eqb e e' && Bool.eqb l l'.
Definition enum_rows : list (string * string * string * bool) :=
  flat_map (fun ot : string * gty => flat_map (fun f => match enum_of (snd f) with Some (e, l) => [(fst ot, fst (fst f), e, l)] | None => [] end) (props_of_ty (snd ot))) enum_owners.
Lemma row_eqb_eq a b : row_eqb a b = true <-> a = b.
Proof.
  destruct a as [[[o k] e] l], b as [[[o' k'] e'] l']. cbn. rewrite !andb_true_iff, !String.eqb_eq, Bool.eqb_true_iff. split; [now intros (((-> & ->) & ->) & ->)|].
  intros E. inversion E. auto.
Qed.
Lemma enum_rows_ok : forallb (fun a => existsb (row_eqb a) std_enum_props) enum_rows && forallb (fun a => existsb (row_eqb a) enum_rows) std_enum_props = true.
Proof. vm_compute. reflexivity. Qed.

Theorem enum_properties_standard : forall o k e l, In (o, k, e, l) std_enum_props <->
  exists t p ty, In (o, t) enum_owners /\ In (k, p, ty) (props_of_ty t) /\ enum_of ty = Some (e, l).
Proof.
  intros o k e l. assert (X := enum_rows_ok). apply andb_true_iff in X as [X Y]. rewrite forallb_forall in X, Y. split.
  - intros I. specialize (Y _ I). apply existsb_exists in Y as (r & R & Q). apply row_eqb_eq in Q. subst r. unfold enum_rows in R.
    apply in_flat_map in R as ([o' t] & O & R). apply in_flat_map in R as ([[k' p] ty] & F & R). cbn [fst snd] in *. destruct (enum_of ty) as [[e' l']|] eqn:E; [|destruct R].
    destruct R as [R|[]]. inversion R. subst. exists t, p, ty. auto.
  - intros (t & p & ty & O & F & E). assert (R : In (o, k, e, l) enum_rows).
    { unfold enum_rows. apply in_flat_map. exists (o, t). split; [exact O|]. apply in_flat_map. exists (k, p, ty). split; [exact F|]. cbn [fst snd]. rewrite E. now left. }
    specialize (X _ R). apply existsb_exists in X as (r & I & Q). apply row_eqb_eq in Q. now subst r.
Qed.
Print Assumptions enum_properties_standard.

Example enum_standard_ex : exists n, In ("RegQword", n) (consts_of "RegistryDataType") /\ enc (GEnum "RegistryDataType") (VEnum n) = Ok (JStr "REG_QWORD").
Proof. exists 13%N. split; [apply alookup_Some_In|]; vm_compute; reflexivity. Qed.
