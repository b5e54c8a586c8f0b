(** Proofs about the loops over maps. *)
From Coq Require Import Permutation.
From Verif Require Import GoStr GoStrFacts JsonStr Json JsonFacts Float Consts Enums GoTypes Schema GoVal GoValFacts Time Base64 Codec CodecSpec CodecFacts
  DataTypes Ident Collection FromJson FromJsonFacts ReadFacts PropCodec AnyOrder.

(** ** Insertions with distinct keys commute *)
Lemma minsert_swap {A} k k' (v v' : A) m : k <> k' -> msorted m = true -> minsert k v (minsert k' v' m) = minsert k' v' (minsert k v m).
Proof.
  intros N S. apply msorted_ext; try (now repeat apply msorted_minsert). intros x. rewrite !alookup_minsert by (try apply msorted_minsert; exact S).
  destruct (String.eqb_spec x k), (String.eqb_spec x k'); try reflexivity. congruence.
Qed.
Lemma inserts_perm {A B} (g : string * A -> B) l l' : Permutation l l' -> NoDup (map fst l) -> forall m : list (string * B), msorted m = true ->
  fold_left (fun m kv => minsert (fst kv) (g kv) m) l m = fold_left (fun m kv => minsert (fst kv) (g kv) m) l' m.
Proof.
  induction 1 as [|x l l' P IH|x y l|l l' l'' P IH P' IH']; intros N m S.
  - reflexivity.
  - cbn [fold_left]. inversion N; subst. apply IH; [assumption|]. now apply msorted_minsert.
  - cbn [fold_left]. rewrite minsert_swap; [reflexivity| |exact S]. inversion N as [|? ? N1 _]; subst. intros Q. apply N1. left. now symmetry.
  - rewrite IH by assumption. apply IH'; [|exact S]. eapply Permutation_NoDup; [|exact N]. now apply Permutation_map.
Qed.
Lemma inserts_self {A} (l : list (string * A)) : msorted l = true -> fold_left (fun m kv => minsert (fst kv) (snd kv) m) l [] = l.
Proof.
  intros S. set (f := fun m (kv : string * A) => minsert (fst kv) (snd kv) m).
  assert (X : forall l m, NoDup (akeys l) -> msorted m = true -> msorted (fold_left f l m) = true /\
              forall k, alookup k (fold_left f l m) = match alookup k l with Some v => Some v | None => alookup k m end).
  { clear l S. induction l as [|[k v] l IH]; intros m N S; [now split|]. inversion N as [|? ? N1 N2]; subst. cbn [fold_left]. unfold f at 2 4. cbn [fst snd].
    destruct (IH (minsert k v m) N2 (msorted_minsert _ _ _ S)) as [A1 A2]. split; [exact A1|]. intros x. rewrite A2, alookup_minsert by exact S. cbn [alookup].
    destruct (String.eqb_spec x k) as [->|]; [|reflexivity]. replace (alookup k l) with (@None A); [reflexivity|]. symmetry. now apply alookup_None. }
  destruct (X l [] (msorted_nodup _ S) eq_refl) as [A1 A2]. apply msorted_ext; [exact A1|exact S|]. intros k. rewrite A2. now destruct (alookup k l).
Qed.

(** ** The tables of the enumerations *)
Lemma first_named_perm name tbl s : Permutation tbl (enum_map name) -> first_named tbl s = enum_or_zero name s.
Proof.
  intros P. unfold first_named, enum_or_zero, enum_find.
  assert (D : forall n n', In (n, s) (enum_map name) -> In (n', s) (enum_map name) -> n = n').
  { unfold enum_map. destruct (alookup name enum_table) as [t|] eqn:E; [|intros ? ? []]. apply alookup_Some_In in E. apply enum_names_distinct in E as [_ E]. eauto. }
  assert (F : forall l : list (N * string), match find (fun kv => String.eqb (snd kv) s) l with Some (n, _) => In (n, s) l | None => forall n, ~ In (n, s) l end).
  { intros l. destruct (find _ l) as [[n s']|] eqn:E.
    - apply find_some in E as [I E]. cbn in E. apply String.eqb_eq in E. now subst.
    - intros n I. apply (find_none _ _ E) in I. cbn in I. now rewrite String.eqb_refl in I. }
  assert (F1 := F tbl). assert (F2 := F (enum_map name)).
  destruct (find _ tbl) as [[n a]|], (find _ (enum_map name)) as [[n' a']|].
  - f_equal. apply D; [|exact F2]. eapply Permutation_in; eauto.
  - exfalso. eapply F2. eapply Permutation_in; eauto.
  - exfalso. eapply F1. eapply Permutation_in; [symmetry; exact P|exact F2].
  - reflexivity.
Qed.
Lemma enum_in_perm name tbl j : Permutation tbl (enum_map name) -> enum_unmarshal_in tbl name j = enum_unmarshal name j.
Proof.
  intros P. unfold enum_unmarshal_in, enum_unmarshal. destruct (String.eqb name "ExtensionType").
  - destruct j; try reflexivity; [|destruct (unq raw)]; now rewrite ?(first_named_perm _ _ _ P).
  - destruct (mem_str name _); [|destruct (Nat.ltb _ 3); [reflexivity|]]; destruct (inner_slice (print j)); now rewrite ?(first_named_perm _ _ _ P).
Qed.

(** ** Decoding *)
Definition stops {A} (d : dres A) : Prop := d = DAbort \/ d = DPanic.
(** [d] is an outcome, and the only one unless it stops, in which case all
    outcomes do. *)
Definition agree {A} (P : outs A) (d : dres A) : Prop := P d /\ forall r, P r -> r = d \/ (stops r /\ stops d).

Lemma agree_only {A} (d : dres A) : agree (only d) d.
Proof. split; [reflexivity|]. intros r H. now left. Qed.
Lemma agree_then {A B} (x : outs A) d (f : A -> outs B) g : agree x d -> (forall v, agree (f v) (g v)) -> agree (then_ x f) (dbind d g).
Proof.
  intros [D1 D2] F. split.
  - exists d. split; [exact D1|]. destruct d as [v e| |]; [|reflexivity..]. exists (g v). split; [apply F|]. reflexivity.
  - intros r (a & Xa & R). destruct (D2 a Xa) as [->|[Sa Sd]].
    + destruct d as [v e| |]; [|left; exact R..]. destruct R as (b & Fb & ->). destruct (F v) as [_ G]. destruct (G b Fb) as [->|[Sb Sg]]; [now left|].
      right. cbn [dbind]. split; [destruct Sb as [->| ->]|destruct Sg as [-> | ->]]; unfold stops; auto.
    + right. split; [destruct Sa as [->| ->]|destruct Sd as [->| ->]]; unfold stops; auto.
Qed.

Lemma agree_list f g z l : (forall x o, In x l -> agree (f x o) (g x o)) -> forall old, agree (list_outs f z l old) (dec_list g z l old).
Proof.
  induction l as [|x l IH]; intros H old; [apply agree_only|]. cbn [list_outs dec_list]. fold (list_outs f z). fold (dec_list g z).
  apply agree_then; [apply H; now left|]. intros v. apply agree_then; [|intros; apply agree_only]. apply IH. intros. apply H. now right.
Qed.
Lemma agree_mems f g ms : (forall k x, In (k, x) ms -> agree (f x) (g x)) -> forall m, agree (mems_outs f ms m) (dec_mems g ms m).
Proof.
  induction ms as [|[k x] ms IH]; intros H m; [apply agree_only|]. cbn [mems_outs dec_mems]. fold (mems_outs f). fold (dec_mems g).
  apply agree_then; [eapply H; now left|]. intros v. apply IH. intros. eapply H. right. eassumption.
Qed.
Lemma agree_struct f g fl ms : (forall k x t o, In (k, x) ms -> agree (f x t o) (g x t o)) -> forall cur, agree (struct_outs f fl ms cur) (dec_struct g fl ms cur).
Proof.
  induction ms as [|[k x] ms IH]; intros H cur; [apply agree_only|]. cbn [struct_outs dec_struct]. fold (struct_outs f fl). fold (dec_struct g fl).
  assert (IH' := fun c => IH (fun k' x' t' o' I => H k' x' t' o' (or_intror I)) c).
  destruct (find_field k fl) as [[p t]|]; [|apply IH']. apply agree_then; [eapply H; now left|]. intros v. apply IH'.
Qed.

(** The loop over the extensions. *)
Definition fine {A} (d : dres A) : Prop := exists v, d = DOk v false.
Definition ext_run : list (string * dres gval) -> list (string * gval) -> dres (list (string * gval)) :=
  fix go l m :=
    match l with
    | [] => DOk m false
    | (k, d) :: l' =>
        match d with
        | DOk v false => go l' (minsert k (VDyn (GPtr (ext_ty k)) (VPtr v)) m)
        | DOk _ true => DAbort
        | DAbort => DAbort
        | DPanic => DPanic
        end
    end.
Definition ext_val (kd : string * dres gval) : gval :=
  VDyn (GPtr (ext_ty (fst kd))) (VPtr (match snd kd with DOk v _ => v | _ => VNil end)).
Lemma ext_run_fine l : Forall (fun kd => fine (snd kd)) l -> forall m, ext_run l m = DOk (fold_left (fun m kd => minsert (fst kd) (ext_val kd) m) l m) false.
Proof. induction 1 as [|[k d] l [v Q] F IH]; intros m; [reflexivity|]. cbn in Q. subst d. cbn [ext_run fold_left]. fold ext_run. rewrite IH. reflexivity. Qed.
Lemma ext_run_stops l : ~ Forall (fun kd => fine (snd kd)) l -> forall m, stops (ext_run l m).
Proof.
  induction l as [|[k d] l IH]; intros N m; [exfalso; apply N; constructor|]. cbn [ext_run]. fold ext_run.
  destruct d as [v [|]| |]; try (unfold stops; now auto). apply IH. intros F. apply N. constructor; [now exists v|exact F].
Qed.
Lemma ext_visit_run l : Forall (fun kpd : string * (outs gval * dres gval) => agree (fst (snd kpd)) (snd (snd kpd))) l -> forall m,
  agree (ext_visit (map (fun kpd => (fst kpd, fst (snd kpd))) l) m) (ext_run (map (fun kpd => (fst kpd, snd (snd kpd))) l) m).
Proof.
  induction 1 as [|[k [P d]] l [A1 A2] F IH]; intros m; [apply agree_only|]. cbn in A1, A2. cbn [map fst snd ext_visit ext_run]. fold ext_visit. fold ext_run. split.
  - exists d. split; [exact A1|]. destruct d as [v [|]| |]; try reflexivity. apply IH.
  - intros r (a & Pa & R). destruct (A2 a Pa) as [->|[Sa Sd]].
    + destruct d as [v [|]| |]; try (now left). now apply IH.
    + right. destruct Sa as [->| ->], Sd as [->| ->]; subst; unfold stops; auto.
Qed.

Lemma kept_map {A B} (f : string * A -> B) l : kept (map (fun kx => (fst kx, f kx)) l) = map (fun kx => (fst kx, f kx)) (kept l).
Proof.
  induction l as [|[k x] l IH]; [reflexivity|]. cbn [map kept fst]. rewrite map_map. cbn [fst]. destruct (mem_str k _); [exact IH|]. cbn [map fst]. now rewrite IH.
Qed.
Lemma kept_nodup {A} (l : list (string * A)) : NoDup (map fst (kept l)) /\ incl (kept l) l.
Proof.
  induction l as [|[k x] l [IH1 IH2]]; [split; [constructor|intros ? []]|]. cbn [kept]. destruct (mem_str k (map fst l)) eqn:E.
  - split; [exact IH1|]. intros y I. right. now apply IH2.
  - split.
    + cbn. constructor; [|exact IH1]. intros I. apply in_map_iff in I as (y & <- & I). apply IH2 in I.
      apply (in_map fst) in I. apply mem_str_In in I. congruence.
    + intros y [<-|I]; [now left|]. right. now apply IH2.
Qed.
Lemma dec_ext_run (g : json -> gty -> gval -> dres gval) ms : forall m,
  dec_ext g ms m = ext_run (map (fun kx => (fst kx, g (snd kx) (ext_ty (fst kx)) (fresh (ext_ty (fst kx))))) (kept ms)) m.
Proof.
  induction ms as [|[k x] ms IH]; intros m; [reflexivity|]. cbn [dec_ext kept]. fold (dec_ext g). destruct (mem_str k (map fst ms)); [apply IH|].
  cbn [map fst snd ext_run]. fold ext_run. destruct (g x (ext_ty k) (fresh (ext_ty k))) as [v [|]| |]; try reflexivity. apply IH.
Qed.

Lemma fine_dec l : Forall (fun kd : string * dres gval => fine (snd kd)) l \/ ~ Forall (fun kd => fine (snd kd)) l.
Proof.
  induction l as [|[k d] l [IH|IH]]; [left; constructor| |].
  - destruct d as [v [|]| |]; try (right; intros F; inversion F as [|? ? [w Q] _]; discriminate Q). left. constructor; [now exists v|exact IH].
  - right. intros F. inversion F. contradiction.
Qed.
Lemma ext_run_perm l l' : Permutation l l' -> NoDup (map fst l) -> ext_run l [] = ext_run l' [] \/ (stops (ext_run l []) /\ stops (ext_run l' [])).
Proof.
  intros P N. destruct (fine_dec l) as [F|F].
  - left. rewrite ext_run_fine by exact F. rewrite ext_run_fine by (apply (Permutation_Forall P F)). do 1 f_equal. now apply inserts_perm.
  - right. split; apply ext_run_stops; [exact F|]. intros F'. apply F. apply (Permutation_Forall (Permutation_sym P) F').
Qed.
Lemma stops_trans {A} (a b c : dres A) : a = b \/ (stops a /\ stops b) -> b = c \/ (stops b /\ stops c) -> a = c \/ (stops a /\ stops c).
Proof. intros [->|[A1 A2]] [->|[B1 B2]]; auto. Qed.
Lemma agree_ext f g ms : (forall k x t o, In (k, x) ms -> agree (f x t o) (g x t o)) ->
  agree (ext_outs (map (fun kx : string * json => (fst kx, f (snd kx) (ext_ty (fst kx)) (fresh (ext_ty (fst kx))))) ms)) (dec_ext g ms []).
Proof.
  intros H. set (h := fun kx : string * json => (f (snd kx) (ext_ty (fst kx)) (fresh (ext_ty (fst kx))), g (snd kx) (ext_ty (fst kx)) (fresh (ext_ty (fst kx))))).
  rewrite dec_ext_run. unfold ext_outs. rewrite (kept_map (fun kx => f (snd kx) (ext_ty (fst kx)) (fresh (ext_ty (fst kx))))).
  destruct (kept_nodup ms) as [N I].
  assert (X : forall l, incl l ms -> agree (ext_visit (map (fun kx : string * json => (fst kx, f (snd kx) (ext_ty (fst kx)) (fresh (ext_ty (fst kx))))) l) [])
                                     (ext_run (map (fun kx => (fst kx, g (snd kx) (ext_ty (fst kx)) (fresh (ext_ty (fst kx))))) l) [])).
  { intros l L. assert (Y := ext_visit_run (map (fun kx => (fst kx, h kx)) l)). rewrite !map_map in Y. apply Y. apply Forall_forall. intros y J.
    apply in_map_iff in J as ([k x] & <- & J). cbn. eapply H. apply L. exact J. }
  split.
  - exists (map (fun kx => (fst kx, f (snd kx) (ext_ty (fst kx)) (fresh (ext_ty (fst kx))))) (kept ms)). split; [reflexivity|]. now apply X.
  - intros r (l & P & R). apply Permutation_map_inv in P as (l0 & -> & P). 
    assert (I0 : incl l0 ms) by (intros y J; apply I; eapply Permutation_in; [symmetry; exact P|exact J]).
    destruct (X l0 I0) as [_ A]. eapply stops_trans; [exact (A r R)|]. apply ext_run_perm.
    + apply Permutation_map. now symmetry.
    + rewrite map_map. cbn. eapply Permutation_NoDup; [|exact N]. now apply Permutation_map.
Qed.

Section P.
Variable rnd : bool -> N -> Z -> option flt.
Lemma dec_outs_agree j : forall t old, agree (dec_outs rnd j t old) (dec rnd j t old).
Proof.
  induction j as [|b|l|raw|l IH|l IH] using json_ind'.
  1-4: induction t; intros old; try apply agree_only.
  all: try (apply agree_then; [apply IHt|intros; apply agree_only]).
  all: try (split; [exists (enum_map name); split; [reflexivity|symmetry; now apply enum_in_perm]|intros r (tbl & P & ->); left; now apply enum_in_perm]).
  - induction t; intros old; try apply agree_only.
    + split; [exists (enum_map name); split; [reflexivity|symmetry; now apply enum_in_perm]|intros r (tbl & P & ->); left; now apply enum_in_perm].
    + apply agree_then; [apply IHt|intros; apply agree_only].
    + apply agree_then; [|intros; apply agree_only]. apply agree_list. intros x o I. rewrite Forall_forall in IH. now apply IH.
  - rewrite Forall_forall in IH. induction t; intros old; try apply agree_only.
    + split; [exists (enum_map name); split; [reflexivity|symmetry; now apply enum_in_perm]|intros r (tbl & P & ->); left; now apply enum_in_perm].
    + apply agree_then; [apply IHt|intros; apply agree_only].
    + apply agree_then; [|intros; apply agree_only]. apply agree_mems. intros k x I. exact (IH _ I _ _).
    + apply agree_struct. intros k x t o I. exact (IH _ I _ _).
    + apply agree_then; [|intros; apply agree_only]. apply agree_ext. intros k x t o I. exact (IH _ I _ _).
Qed.

(** ** FromJSON *)
Variable cf : config.
Definition bad {A} (r : res A) : Prop := match r with Ok _ => False | _ => True end.
Definition ragree {A} (P : res A -> Prop) (d : res A) : Prop := P d /\ forall r, P r -> r = d \/ (bad r /\ bad d).

Lemma stops_bad {A} (d : dres A) : stops d -> bad (unmarshal_res d).
Proof. intros [->| ->]; exact I. Qed.
Lemma finish_agree c peak j o : msorted peak = true -> ragree (finish_outs rnd cf c peak j o) (finish rnd cf c peak j o).
Proof.
  intros S. destruct o as [t v]. unfold finish_outs, finish. destruct (dec_outs_agree j t v) as [D1 D2].
  set (peak1 := if cf_drop cf then peak else filter_out t peak).
  assert (S1 : msorted peak1 = true) by (unfold peak1; destruct (cf_drop cf); [exact S|now apply filter_out_msorted]).
  assert (C : forall l v1, Permutation l peak1 -> add_props_in t l v1 = add_props t peak1 v1).
  { intros l v1 P. unfold add_props_in. rewrite (inserts_perm snd l peak1 P); [|eapply Permutation_NoDup; [apply Permutation_map; symmetry; exact P|now apply msorted_nodup]|reflexivity].
    now rewrite inserts_self. }
  split.
  - exists (dec rnd j t v). split; [exact D1|]. destruct (unmarshal_res (dec rnd j t v)) as [v1|e|]; [|reflexivity..]. cbn zeta. exists peak1. split; [reflexivity|]. rewrite (C _ v1 (Permutation_refl _)). reflexivity.
  - intros r (d & Dd & R). destruct (D2 d Dd) as [->|[Sd S']].
    + left. destruct (unmarshal_res (dec rnd j t v)) as [v1|e|]; [|exact R..]. cbn zeta in R. destruct R as (l & P & ->). rewrite (C _ v1 P). reflexivity.
    + right. destruct Sd as [->| ->], S' as [->| ->]; cbn in R |- *; subst r; now split.
Qed.
Lemma process_object_agree j c p : msorted (old_map p) = true ->
  ragree (process_object_outs rnd cf j c p) (process_object rnd cf j c p) /\
  (forall c' p', process_object rnd cf j c p = Ok (c', p') -> msorted (old_map p') = true).
Proof.
  intros S. unfold process_object_outs, process_object. destruct (unmarshal_res (dec rnd j peak_ty p)) as [pk|e|] eqn:E; cbn [bind].
  2,3: split; [split; [reflexivity|intros r ->; now left]|discriminate].
  assert (Sp : msorted (old_map pk) = true) by (destruct (peak_inv rnd _ _ _ S E) as [[_ ->]|(ms & m & _ & -> & M)]; [reflexivity|apply M]).
  destruct (map_get "type" pk) as [tv|].
  2: { split; [split; [reflexivity|intros r ->; now left]|]. intros c' p' Q. injection Q as _ <-. exact Sp. }
  destruct (as_string tv) as [typ|e|]; cbn [bind].
  2,3: split; [split; [reflexivity|intros r ->; now left]|discriminate].
  destruct (start cf typ j) as [[o|]|e|]; cbn [bind].
  3,4: split; [split; [reflexivity|intros r ->; now left]|discriminate].
  2: { split; [split; [reflexivity|intros r ->; now left]|]. intros c' p' Q. injection Q as _ <-. exact Sp. }
  split; [now apply finish_agree|]. intros c' p' Q. unfold finish in Q. destruct o as [t v].
  destruct (unmarshal_res (dec rnd j t v)) as [v1| |]; try discriminate. cbn [bind] in Q.
  destruct (obj_id _) as [id| |]; try discriminate. cbn [bind] in Q. destruct (obj_type _) as [ty| |]; try discriminate. cbn [bind] in Q.
  destruct (add _ _ _ _) as [c1 [|]]; try discriminate. injection Q as _ <-. cbn [old_map]. destruct (cf_drop cf); [exact Sp|now apply filter_out_msorted].
Qed.
Lemma process_objects_agree js : forall c p, msorted (old_map p) = true ->
  ragree (process_objects_outs rnd cf js c p) (process_objects rnd cf js c p).
Proof.
  induction js as [|j js IH]; intros c p S; [split; [reflexivity|intros r ->; now left]|]. cbn [process_objects_outs process_objects].
  destruct (process_object_agree j c p S) as [[A1 A2] A3]. split.
  - exists (process_object rnd cf j c p). split; [exact A1|]. destruct (process_object rnd cf j c p) as [[c' p']|e|]; [|reflexivity..]. cbn [bind fst snd]. apply IH. now eapply A3.
  - intros r (a & Pa & R). destruct (A2 a Pa) as [->|[Ba Bd]].
    + destruct (process_object rnd cf j c p) as [[c' p']|e|]; [|left; exact R..]. cbn [bind fst snd]. apply IH; [now eapply A3|exact R].
    + right. destruct a as [[]| |]; [destruct Ba|..]; destruct (process_object rnd cf j c p) as [[]| |]; try destruct Bd; subst r; now split.
Qed.
Lemma from_json_agree s : ragree (from_json_outs rnd cf s) (from_json rnd cf s).
Proof.
  unfold from_json_outs, from_json. destruct (unmarshal rnd s ty_Bundle _); [now apply process_objects_agree| |split; [reflexivity|intros r ->; now left]].
  destruct (unmarshal rnd s (GSlice GRaw) VNil); [now apply process_objects_agree|split; [reflexivity|intros r ->; now left]..].
Qed.
End P.

(** ** Encoding *)
(** The keys of a Go map are distinct (the model lists them in order). *)
Fixpoint go_maps (v : gval) : bool :=
  match v with
  | VPtr w => go_maps w
  | VSlice l => forallb go_maps l
  | VMap l => msorted l && forallb (fun kv => go_maps (snd kv)) l
  | VStruct l => forallb (fun kv => go_maps (snd kv)) l
  | VDyn _ w => go_maps w
  | _ => true
  end.
Lemma storable_maps t v : storable t v = true -> go_maps v = true.
Proof.
  revert t. induction v using gval_ind'; intros t0 S; cbn [storable go_maps] in *; try reflexivity.
  - destruct t0; try discriminate. eauto.
  - destruct t0; try discriminate. rewrite forallb_forall in *. intros x I. rewrite Forall_forall in H. eapply H; eauto.
  - rewrite Forall_forall in H. destruct t0; try discriminate; apply andb_true_iff in S as [-> S]; cbn [andb]; rewrite forallb_forall in *; intros x I; eapply H; eauto.
  - destruct t0; try discriminate. revert fields S. induction l as [|[k w] l IH]; intros fs S; [reflexivity|]. inversion H as [|? ? H1 H2]; subst.
    destruct fs as [|[m t] fs]; [discriminate|]. cbn [wf_fields] in S. apply andb_true_iff in S as [S1 S2]. apply andb_true_iff in S1 as [_ S1].
    cbn [snd] in H1. cbn [forallb snd]. rewrite (H1 _ S1). cbn [andb]. eapply IH; eauto.
  - destruct t0; try discriminate. eauto.
Qed.
Section V.
Variable visit : list (string * gval) -> list (string * gval).
Hypothesis VP : forall l, Permutation (visit l) l.

Lemma put_all_visit l m : NoDup (map fst l) -> msorted m = true -> put_all (visit l) m = put_all l m.
Proof. intros N S. unfold put_all. apply inserts_perm; [apply VP| |exact S]. eapply Permutation_NoDup; [apply Permutation_map; symmetry; apply VP|exact N]. Qed.
Lemma put_field_sorted fm t v m m' : msorted m = true -> put_field fm t v m = Ok m' -> msorted m' = true.
Proof.
  intros S. unfold put_field. destruct (is_empty _); [intros Q; now injection Q as <-|]. destruct (match v with VBool _ => false | _ => is_zero v end).
  - destruct (fm_omit fm); [intros Q; now injection Q as <-|discriminate].
  - intros Q. injection Q as <-. now apply msorted_minsert.
Qed.
Lemma put_fields_sorted fs : forall vs m m', msorted m = true -> put_fields fs vs m = Ok m' -> msorted m' = true.
Proof.
  induction fs as [|[fm t] fs IH]; intros vs m m' S Q; [now injection Q as <-|]. destruct vs as [|[k v] vs]; [now injection Q as <-|]. cbn [put_fields] in Q.
  destruct (put_field fm t v m) as [m1| |] eqn:E; try discriminate. cbn [bind] in Q. eapply IH; [|exact Q]. eapply put_field_sorted; eauto.
Qed.

Lemma overlay_visit n v m : go_maps v = true -> msorted m = true -> overlay_in visit n v m = overlay n v m.
Proof.
  intros G S. unfold overlay_in, overlay. destruct (mem_str n _); [|reflexivity].
  assert (G' : go_maps (get_field "toplevelProperties" v) = true).
  { unfold get_field. destruct v; try reflexivity. cbn [go_maps] in G. destruct (alookup "toplevelProperties" l) as [w|] eqn:E; [|reflexivity].
    apply alookup_Some_In in E. rewrite forallb_forall in G. exact (G _ E). }
  destruct (get_field "toplevelProperties" v) as [| | | | | | | |w| | | | |]; try reflexivity. destruct w; try reflexivity.
  cbn [go_maps] in G'. apply andb_true_iff in G' as [Sl _]. apply put_all_visit; [|exact S]. now apply msorted_nodup.
Qed.
Lemma overlay_sorted n v m : msorted m = true -> msorted (overlay n v m) = true.
Proof.
  intros S. unfold overlay. destruct (mem_str n _); [|exact S]. destruct (get_field _ v) as [| | | | | | | |w| | | | |]; try exact S. destruct w; try exact S.
  unfold put_all. revert m S. induction l as [|kv l IH]; intros m S; [exact S|]. cbn [fold_left]. apply IH. now apply msorted_minsert.
Qed.
Lemma base_visit t v m : go_maps v = true -> msorted m = true -> base_to_map_in visit t v m = base_to_map t v m.
Proof.
  intros G S. unfold base_to_map_in, base_to_map. destruct t; try reflexivity. destruct v; try reflexivity.
  destruct (put_fields fields l m) as [m1| |] eqn:E; try reflexivity. cbn [bind]. rewrite overlay_visit; [reflexivity|exact G|]. eapply put_fields_sorted; eauto.
Qed.
Lemma base_sorted t v m m' : msorted m = true -> base_to_map t v m = Ok m' -> msorted m' = true.
Proof.
  intros S. unfold base_to_map. destruct t; try discriminate. destruct v; try discriminate. destruct (put_fields fields l m) as [m1| |] eqn:E; try discriminate.
  cbn [bind]. intros Q. injection Q as <-. apply overlay_sorted. eapply put_fields_sorted; eauto.
Qed.
Lemma fields_visit fs : forall vs m, forallb (fun kv => go_maps (snd kv)) vs = true -> msorted m = true ->
  fields_to_map_in visit fs vs m = fields_to_map fs vs m /\ (forall m', fields_to_map fs vs m = Ok m' -> msorted m' = true).
Proof.
  induction fs as [|[fm t] fs IH]; intros vs m G S; [split; [reflexivity|intros m' Q; now injection Q as <-]|].
  destruct vs as [|[k v] vs]; [split; [reflexivity|intros m' Q; now injection Q as <-]|]. cbn [forallb snd] in G. apply andb_true_iff in G as [G1 G2].
  cbn [fields_to_map_in fields_to_map].
  set (x := if mem_str (fm_name fm) base_structs then base_to_map t v m else put_field fm t v m).
  replace (if mem_str (fm_name fm) base_structs then base_to_map_in visit t v m else put_field fm t v m) with x
    by (unfold x; destruct (mem_str _ _); [symmetry; now apply base_visit|reflexivity]).
  destruct x as [m1| |] eqn:E; cbn [bind]; [|split; [reflexivity|discriminate]..]. apply IH; [exact G2|]. unfold x in E.
  destruct (mem_str _ _); [eapply base_sorted|eapply put_field_sorted]; eauto.
Qed.
Lemma marshal_visit t v : go_maps v = true -> marshal_in visit t v = marshal t v.
Proof.
  intros G. unfold marshal_in, marshal, enc_obj. destruct (mem_str _ _); [|reflexivity]. assert (X : value_to_map_in visit t v = value_to_map t v); [|now rewrite X].
  unfold value_to_map_in, value_to_map. destruct t; try reflexivity. destruct v; try reflexivity. destruct (fields_visit fields l [] G eq_refl) as [E1 E2].
  rewrite E1. destruct (fields_to_map fields l []) as [m| |]; try reflexivity. cbn [bind]. now rewrite overlay_visit by auto.
Qed.
End V.
