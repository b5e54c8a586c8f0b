(** What constructed objects share in memory: C85. *)
From Verif Require Import GoStr GoStrFacts Json Float Consts GoTypes Schema OptTable GoVal GoValFacts Codec CodecSpec CodecFacts
  StructFacts CodecRound ObjFacts TypedFacts StoreFacts FromJson IndepFacts Options OptionFacts PropOptions Ident IdentFacts
  Constructors ConstrSpec ConstrFacts PropConstr Alias AliasSpec AliasFacts.
From Coq Require Import Lia.
Local Open Scope string_scope.

(** ** Agreement with the model without addresses *)
(** Read through memory, the object a constructor returns is the one of
    Constructors.v; a property has an address if it is a reference. *)
Theorem constructed_in_memory : forall w q v e, sound_call w q -> m_result q = Ret (Some v) e ->
  exists o, w_objs (step w (Make q)) = (w_objs w ++ [(rq_call q, o)])%list /\
    forall p m t, has_path (call_fields (rq_call q)) p m t -> fm_name m <> "ID" ->
      look (w_heap (step w (Make q))) (o (fm_name m)) = get_path p v /\
      ((exists a, o (fm_name m) = At a) <-> is_ref (get_path p v) = true).
Proof.
  intros w q v e S M. assert (H := make_reads w q S v e M). cbn [step]. destruct (m_make q (w_heap w) (w_next w)) as [[h n'] o].
  exists o. cbn [w_objs w_heap]. rewrite M. split; [reflexivity|exact H].
Qed.
Print Assumptions constructed_in_memory.

(** ** Constructors leave everything that exists alone *)
(** A constructor call changes nothing the caller has, neither the arguments nor
    any object made before. *)
Theorem making_changes_nothing : forall es q, sound es -> sound_call (run es) q ->
  (forall a, a < w_next (run es) -> w_heap (step (run es) (Make q)) a = w_heap (run es) a) /\
  (forall i f x, reading (run es) i f = Some x -> reading (step (run es) (Make q)) i f = Some x).
Proof.
  intros es q S C. assert (I := make_inv _ _ C). destruct (run_inv es S) as [A _].
  assert (H1 : forall a, a < w_next (run es) -> w_heap (step (run es) (Make q)) a = w_heap (run es) a).
  { cbn [step]. destruct (m_make q (w_heap (run es)) (w_next (run es))) as [[h n'] o]. exact (proj1 (proj2 I)). }
  split; [exact H1|]. intros i f x R. unfold reading in *. destruct (slot_of (run es) i f) as [s|] eqn:E; [|discriminate]. cbn [option_map] in R.
  assert (E' : slot_of (step (run es) (Make q)) i f = Some s).
  { cbn [step]. destruct (m_make q (w_heap (run es)) (w_next (run es))) as [[h n'] o]. destruct (m_result q) as [[v|] er|]; try exact E.
    rewrite slot_app. assert (L := nth_slot _ _ _ _ E). apply Nat.ltb_lt in L. now rewrite L. }
  rewrite E'. cbn [option_map]. rewrite <- R. f_equal. destruct s as [y|a]; [reflexivity|]. cbn [look]. apply H1. exact (A _ _ _ E).
Qed.
Print Assumptions making_changes_nothing.

(** ** References are kept, not copied *)
Lemma opts_all t : forall oas st, Forall (fun oa => forall v, snd (apply_opt t (fst oa) v) = Ok tt) oas -> m_opts t oas st = fold_left (fun st oa => m_opt oa st) oas st.
Proof.
  induction oas as [|oa oas IH]; intros st H; [reflexivity|]. inversion H as [|? ? H1 H2]; subst. cbn [m_opts fold_left]. rewrite H1. now apply IH.
Qed.
Lemma opt_keeps f oa st : is_target f (fst oa) = false -> snd (m_opt oa st) f = snd st f.
Proof.
  destruct st as [[h n] o]. destruct oa as [[|r x|k x] a]; cbn [fst]; intros T; unfold m_opt; cbn [fst snd]; [reflexivity| |].
  - apply mset_other. intros ->. unfold is_target in T. cbn in T. now rewrite String.eqb_refl in T.
  - destruct (o "Extensions"); cbn [snd]; [|reflexivity]. apply mset_other. intros ->. discriminate T.
Qed.
Lemma opts_keep f oas st : Forall (fun oa => is_target f (fst oa) = false) oas -> snd (fold_left (fun st oa => m_opt oa st) oas st) f = snd st f.
Proof. revert st. induction oas as [|oa oas IH]; intros st H; [reflexivity|]. inversion H; subst. cbn [fold_left]. rewrite IH by assumption. now apply opt_keeps. Qed.
Lemma made_slot w q v : m_result q = Ret (Some v) None ->
  forall f, slot_of (step w (Make q)) (length (w_objs w)) f =
    Some (snd (fold_left (fun st oa => m_opt oa st) (rq_opts q)
      (m_stamped (rq_call q) (rq_now q) (w_heap w) (w_next w), S (S (w_next w)), m_init (rq_call q) (rq_now q) (rq_args q) (w_next w))) f).
Proof.
  intros M f. assert (F := M). unfold m_result in F. apply failing_option_reported in F. rewrite Forall_map in F.
  cbn [step]. unfold m_make. rewrite opts_all by exact F. destruct (fold_left _ _ _) as [[h n'] o]. rewrite M, slot_app.
  now rewrite Nat.ltb_irrefl, Nat.eqb_refl.
Qed.
Lemma given_start c now f x n : In (f, x) (given c) -> alookup f (stamp_addrs c n) = None /\ alookup f (starts c now) = Some x.
Proof.
  intros H. destruct c; cbn in H; repeat (destruct H as [H|H]; [injection H as <- <-; split; reflexivity|]); destruct H.
Qed.
(** The object holds the very reference given as an argument, unless an option
    replaces the property, and the one given to the last option for a property.
    So what is changed there later is changed in the object. *)
Theorem kept_by_reference : forall w q v, m_result q = Ret (Some v) None ->
  (forall f x a, In (f, x) (given (rq_call q)) -> is_ref x = true -> alookup f (rq_args q) = Some a ->
     Forall (fun oa => is_target f (fst oa) = false) (rq_opts q) ->
     forall y, reading (step (step w (Make q)) (Change a y)) (length (w_objs w)) f = Some y) /\
  (forall l1 r x a l2, rq_opts q = (l1 ++ (OField r x, a) :: l2)%list -> is_ref x = true ->
     Forall (fun oa => is_target (or_field r) (fst oa) = false) l2 ->
     forall y, reading (step (step w (Make q)) (Change a y)) (length (w_objs w)) (or_field r) = Some y).
Proof.
  intros w q v M.
  assert (X : forall f a, slot_of (step w (Make q)) (length (w_objs w)) f = Some (At a) ->
    forall y, reading (step (step w (Make q)) (Change a y)) (length (w_objs w)) f = Some y).
  { intros f a E y. unfold reading. change (slot_of (step (step w (Make q)) (Change a y)) (length (w_objs w)) f) with (slot_of (step w (Make q)) (length (w_objs w)) f).
    rewrite E. cbn [option_map look]. f_equal. cbn [step w_heap]. apply hset_same. }
  split.
  - intros f x a G R A T. apply X. rewrite (made_slot _ _ _ M). rewrite opts_keep by exact T. cbn [snd]. unfold m_init.
    destruct (given_start _ (rq_now q) _ _ (w_next w) G) as [-> ->]. unfold put_arg, put. now rewrite A, R.
  - intros l1 r x a l2 E R T. apply X. rewrite (made_slot _ _ _ M), E, fold_left_app. cbn [fold_left]. rewrite opts_keep by exact T.
    destruct (fold_left _ l1 _) as [[h n] o]. unfold m_opt. cbn [fst snd]. rewrite mset_same. unfold put. now rewrite R.
Qed.
Print Assumptions kept_by_reference.

(** ** Changing one property in place *)
(** The full statement, "a change through a reference the program has not passed
    on shows in one property of one object only", is false: both time stamps of
    a new sighting change together. *)
Definition a_sighting : request := Rq "0123456789abcdef" 0%Z (fun _ => (FNaN, false)) (CSighting "indicator--x") [] [].
Theorem in_place_change_refuted : exists es i f g a x, sound es /\ kept_private es a /\ f <> g /\
  slot_of (run es) i f = Some (At a) /\ reading (step (run es) (Change a x)) i g <> reading (run es) i g.
Proof.
  exists [Make a_sighting], 0, "Modified", "Created", 0, (VPtr (VTime 1%Z)).
  split; [split; [|exact Logic.I]; constructor; [reflexivity|constructor|intros f x [E|[]]; injection E as <- <-; discriminate|intros r x a []]|].
  split; [|split; [discriminate|split; [vm_compute; reflexivity|vm_compute; discriminate]]].
  intros e [<-|[]] [(f & x & [E|[]] & R & _)|(r & x & [] & _)]. injection E as <- <-. discriminate.
Qed.
Print Assumptions in_place_change_refuted.

(** Two properties, of the same or of different objects, share memory only if the
    caller passed the reference in, or if they are the two time stamps of a
    sighting, a language content or an extension definition. *)
Theorem shared_only_through_caller_partial : forall es i f j g a, sound es -> kept_private es a ->
  slot_of (run es) i f = Some (At a) -> slot_of (run es) j g = Some (At a) ->
  i = j /\ (f = g \/ (both_stamps f g /\ exists c o, nth_error (w_objs (run es)) i = Some (c, o) /\ one_time c)).
Proof.
  intros es i f j g a S K Ei Ej. destruct (run_inv es S) as [_ B]. destruct (B _ _ _ _ _ K Ei Ej) as [-> [->|(Bo & c & Hc & Oc)]]; (split; [reflexivity|]); [now left|right].
  split; [exact Bo|]. unfold call_of in Hc. destruct (nth_error (w_objs (run es)) j) as [[c' o]|]; [|discriminate]. injection Hc as <-. eauto.
Qed.
Print Assumptions shared_only_through_caller_partial.
(** A change through such a reference shows in its property and in no other
    property of any object.  Missing for the full statement: the two time
    stamps of the three types. *)
Theorem in_place_change_partial : forall es i f a x, sound es -> kept_private es a -> slot_of (run es) i f = Some (At a) ->
  reading (step (run es) (Change a x)) i f = Some x /\
  forall j g, (j, g) <> (i, f) ->
    (forall c o, nth_error (w_objs (run es)) i = Some (c, o) -> one_time c -> ~ both_stamps f g) ->
    reading (step (run es) (Change a x)) j g = reading (run es) j g.
Proof.
  intros es i f a x S K E. assert (SL : forall j g, slot_of (step (run es) (Change a x)) j g = slot_of (run es) j g) by reflexivity. unfold reading.
  rewrite SL, E. split; [cbn [option_map look step w_heap]; now rewrite hset_same|]. intros j g N X. rewrite SL.
  destruct (slot_of (run es) j g) as [[y|b]|] eqn:Ej; [reflexivity| |reflexivity]. cbn [option_map look step w_heap]. f_equal. apply hset_other. intros ->.
  destruct (shared_only_through_caller_partial _ _ _ _ _ _ S K E Ej) as [-> [->|(Bo & c & o & Hc & Oc)]]; [now apply N|exact (X _ _ Hc Oc Bo)].
Qed.
Print Assumptions in_place_change_partial.

(** ** Examples *)
(** Two identities that were given the same list of roles and an extension each:
    the list is shared, everything else is not. *)
Definition roles : gval := VSlice [VStr "dev"].
Definition an_identity (a : addr) (k : string) : request :=
  Rq "0123456789abcdef" 0%Z (fun _ => (FNaN, false)) (CIdentity "i") []
    [(OField (row "OptionRoles") roles, a); (OExt k (VDyn (GString "string") (VStr "v")), 0); (OExt "z" (VDyn (GString "string") (VStr "w")), 0)].
Definition two_identities : list event := [New roles; Make (an_identity 0 "a"); Make (an_identity 0 "b")].
Lemma roles_row : In (row "OptionRoles") option_table /\ typed (or_ty (row "OptionRoles")) roles = true.
Proof. split; [apply find_some with (f := fun r => String.eqb (or_name r) "OptionRoles"); vm_compute; reflexivity|vm_compute; reflexivity]. Qed.
Lemma identity_sound w k : 0 < w_next w -> w_heap w 0 = roles -> sound_call w (an_identity 0 k).
Proof.
  intros L H. constructor.
  - reflexivity.
  - constructor; [exact roles_row|]. repeat constructor.
  - intros f x [E|[]]; injection E as <- <-; discriminate.
  - intros r x a [E|[E|[E|[]]]]; try discriminate. injection E as <- <- <-. auto.
Qed.
Example two_identities_ex : sound two_identities /\ kept_private two_identities 3 /\
  slot_of (run two_identities) 0 "Roles" = Some (At 0) /\ slot_of (run two_identities) 1 "Roles" = Some (At 0) /\
  slot_of (run two_identities) 0 "Extensions" = Some (At 3) /\ slot_of (run two_identities) 1 "Extensions" = Some (At 6) /\
  slot_of (run two_identities) 0 "Created" = Some (At 1) /\ slot_of (run two_identities) 0 "Modified" = Some (At 2).
Proof.
  split; [|split; [|repeat split; vm_compute; reflexivity]].
  - split; [exact Logic.I|]. split; [apply identity_sound; [cbn; lia|reflexivity]|]. split; [|exact Logic.I]. apply identity_sound; [vm_compute; lia|vm_compute; reflexivity].
  - intros e [<-|[<-|[<-|[]]]]; [intros []| |]; (intros [(f & x & [E|[]] & R & _)|(r & x & [E|[E|[E|[]]]] & R)]; try discriminate; injection E as <- <-; discriminate).
Qed.
