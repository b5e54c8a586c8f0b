(** Facts about the helper data types. *)
From Verif Require Import GoStr GoStrFacts JsonStr Json JsonFacts Float Consts Enums
  GoTypes Schema GoVal GoValFacts Time Codec CodecSpec CodecFacts StructFacts CodecRound ObjFacts TypedFacts DataTypes.

Lemma co_get_set c k v c' : typed ty_CustomObject c = true -> co_set c k v = Ok c' ->
  co_get c' k = v /\ forall k', k' <> k -> co_get c' k' = co_get c k'.
Proof.
  destruct c; try discriminate. cbn [typed ty_CustomObject]. intros T E. apply andb_true_iff in T as [S _].
  cbn [co_set] in E. injection E as <-. unfold co_get, map_get. split; [|intros k' Hk]; rewrite alookup_minsert by exact S.
  - now rewrite String.eqb_refl.
  - destruct (String.eqb_spec k' k); [contradiction|reflexivity].
Qed.

Section Dec.
Variable rnd : bool -> N -> Z -> option flt.

(** Decoded interface values hold no []string. *)
Lemma dec_any_shape j v e : dec_any rnd j = DOk v e ->
  v = VNil \/ (exists s, v = dyn_str s) \/ (exists b, v = VDyn GBool (VBool b)) \/ (exists f, v = VDyn GFloat (VFloat f)) \/
  (exists l, v = VDyn (GSlice GIface) (VSlice l)) \/ (exists l, v = VDyn (GMap "" "string" GIface) (VMap l)).
Proof.
  destruct j; cbn [dec_any]; intros D.
  - injection D as <- _. now left.
  - injection D as <- _. eauto.
  - destruct (parse_float rnd lexeme); injection D as <- _; eauto 6.
  - destruct (unq raw); injection D as <- _; eauto 6.
  - apply dbind_inv in D as (vs & e1 & e2 & D1 & D2 & _). injection D2 as <- _. eauto 9.
  - apply dbind_inv in D as (vs & e1 & e2 & D1 & D2 & _). injection D2 as <- _. eauto 10.
Qed.

Definition parsed_val (v : gval) : Prop := exists j e, dec_any rnd j = DOk v e.

Lemma dec_custom_values j c e : dec rnd j ty_CustomObject VNil = DOk c e ->
  forall k v, map_get k c = Some v -> parsed_val v.
Proof.
  destruct j; try (intros D; injection D as <- _; discriminate). unfold ty_CustomObject. rewrite dec_map_obj.
  intros D. apply dbind_inv in D as (vs & e1 & e2 & D1 & D2 & _). injection D2 as <- _. cbn [map_get old_map] in *.
  assert (G : forall l acc vs e1, msorted acc = true -> (forall k v, alookup k acc = Some v -> parsed_val v) ->
    dec_mems (fun x => dec rnd x GIface (zero GIface)) l acc = DOk vs e1 -> forall k v, alookup k vs = Some v -> parsed_val v);
    [|eapply G; [| |exact D1]; [reflexivity|discriminate]].
  clear. induction l as [|[k x] l IH]; intros acc vs e1 S H D; cbn [dec_mems] in D; [now injection D as <- _|].
  apply dbind_inv in D as (w & e3 & e4 & D1 & D3 & _). fold (dec_mems (fun x => dec rnd x GIface (zero GIface))) in D3.
  eapply IH; [|clear IH; intros k' v' L|exact D3]; [now apply msorted_minsert|].
  rewrite alookup_minsert in L by exact S. destruct (String.eqb k' k); [|eauto]. injection L as <-.
  rewrite dec_iface in D1. now exists x, e3.
Qed.

Lemma co_strings_parsed j c e k : dec rnd j ty_CustomObject VNil = DOk c e ->
  co_strings c k = if match co_get c k with VNil => true | _ => false end then Ok [] else Panic.
Proof.
  intros D. assert (V := dec_custom_values _ _ _ D k). unfold co_strings, co_get in *.
  destruct (map_get k c) as [v|]; [|reflexivity]. destruct (V v eq_refl) as (j' & e' & D').
  apply dec_any_shape in D' as [->|[(s & ->)|[(b & ->)|[(f & ->)|[(l & ->)|(l & ->)]]]]]; reflexivity.
Qed.

(** ** Extension accessors *)
Lemma ext_accessors_ok : forallb (fun a => gty_eqb (ext_ty (snd (fst a))) (snd a)) ext_accessors = true.
Proof. vm_compute. reflexivity. Qed.

Lemma ext_ptr_typed key t obj go m acc : In (go, m, key, t) ext_accessors ->
  typed GExt (get_path p_extensions obj) = true -> acc = ext_accessor key t obj ->
  match map_get key (get_path p_extensions obj) with
  | None => acc = Ok VNil
  | Some x => exists w, x = VDyn (GPtr t) (VPtr w) /\ acc = Ok (VPtr w) /\ typed t w = true
  end.
Proof.
  intros Hin T ->. unfold ext_accessor. assert (X := ext_accessors_ok). rewrite forallb_forall in X. specialize (X _ Hin).
  cbn [fst snd] in X. apply gty_eqb_eq in X.
  destruct (get_path p_extensions obj); try reflexivity. cbn [map_get]. cbn [typed] in T. apply andb_true_iff in T as [S T].
  destruct (alookup key l) as [x|] eqn:L; [|reflexivity]. apply alookup_Some_In in L. rewrite forallb_forall in T.
  specialize (T _ L). cbn [fst snd] in T. destruct x; try discriminate. destruct x; try discriminate.
  apply andb_true_iff in T as [T1 T2]. apply gty_eqb_eq in T1. subst t0. rewrite X in *. rewrite String.eqb_refl. eauto.
Qed.
End Dec.
