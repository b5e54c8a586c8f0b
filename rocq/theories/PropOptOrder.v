(** Options of FromJSON: their order, repetition, and parsers nobody needs (C89).
    [rnd] is the rounding of decimals to doubles. *)
From Coq Require Import Permutation.
From Verif Require Import GoStr GoStrFacts JsonStr StrSpec JsonSpec Json Float Consts GoTypes Schema GoVal Codec CodecSpec DataTypes Ident
  Collection FromJson FromJsonSpec FromJsonFacts FromJsonProps PropCodec PropFromJson OptOrderSpec OptOrder.

(** ** C89 *)
(** FromJSON depends on its options only by whether NoSortOption and
    DropCustomOption are among them and by the last parser given for each of
    the types the document states. *)
Theorem options_that_matter : forall rnd opts opts' js s, document js s ->
  (In NoSort opts <-> In NoSort opts') -> (In DropCustom opts <-> In DropCustom opts') ->
  (forall typ, In typ (types_of js) -> parser_in_use typ opts = parser_in_use typ opts') ->
  from_json rnd (config_of opts) s = from_json rnd (config_of opts') s.
Proof.
  intros rnd opts opts' js s D Ns Dr P.
  assert (B : forall a b : bool, (a = true <-> b = true) -> a = b) by (intros [] [] [H1 H2]; auto; try (symmetry; now apply H1); now apply H2).
  apply (from_json_same rnd _ _) with (js := js); [| |exact D|].
  - apply B. now rewrite !drop_nosort.
  - apply B. now rewrite !nosort_set.
  - intros typ H. rewrite !parser_config. now apply P.
Qed.
Print Assumptions options_that_matter.

(** A text that is no document gives the same error with all options. *)
Theorem options_no_document : forall rnd opts opts' s, (forall js, ~ document js s) ->
  from_json rnd (config_of opts) s = from_json rnd (config_of opts') s.
Proof. intros rnd opts opts' s N. now rewrite !from_json_no_document. Qed.
Print Assumptions options_no_document.

(** In particular the order of options is irrelevant unless two name parsers for
    the same type. *)
Definition parser_types (opts : list coll_option) : list string :=
  flat_map (fun o => match o with UseParser typ _ => [typ] | _ => [] end) opts.
Lemma last_parser_In typ opts : NoDup (parser_types opts) -> forall h, last_parser typ opts = Some h <-> In (UseParser typ h) opts.
Proof.
  induction opts as [|o opts IH]; intros N h; [split; [discriminate|intros []]|]. cbn [last_parser In].
  assert (N' : NoDup (parser_types opts)) by (destruct o; cbn in N; [exact N|exact N|now inversion N]). specialize (IH N').
  destruct (last_parser typ opts) as [h'|] eqn:E.
  - rewrite <- IH. split; [now right|]. intros [->|H]; [|exact H]. cbn in N. inversion N as [|x l Nx Nl]; subst. exfalso. apply Nx.
    assert (H : In (UseParser typ h') opts) by now apply IH. apply in_flat_map. eexists. split; [exact H|now left].
  - destruct o as [| |typ' h'].
    + rewrite <- IH. split; [discriminate|intros [Q|Q]; discriminate].
    + rewrite <- IH. split; [discriminate|intros [Q|Q]; discriminate].
    + destruct (String.eqb_spec typ typ') as [<-|Nt].
      * rewrite <- IH. split; [intros Q; injection Q as ->; now left|intros [Q|Q]; [now injection Q as ->|discriminate]].
      * rewrite <- IH. split; [discriminate|intros [Q|Q]; [congruence|discriminate]].
Qed.
Theorem options_in_any_order : forall rnd opts opts' s, Permutation opts opts' -> NoDup (parser_types opts) ->
  from_json rnd (config_of opts) s = from_json rnd (config_of opts') s.
Proof.
  intros rnd opts opts' s P N. destruct (document_dec rnd s) as [(js & D)|ND]; [|now apply options_no_document].
  assert (N' : NoDup (parser_types opts')) by (eapply Permutation_NoDup; [apply Permutation_flat_map; exact P|exact N]).
  apply (options_that_matter rnd opts opts' js s D).
  - split; apply Permutation_in; [exact P|now symmetry].
  - split; apply Permutation_in; [exact P|now symmetry].
  - intros typ _. unfold parser_in_use. assert (E : last_parser typ opts = last_parser typ opts'); [|now rewrite E].
    destruct (last_parser typ opts) as [h|] eqn:E1; destruct (last_parser typ opts') as [h'|] eqn:E2; auto.
    + apply (last_parser_In typ opts N h) in E1. apply (Permutation_in _ P) in E1. apply (last_parser_In typ opts' N' h) in E1. congruence.
    + apply (last_parser_In typ opts N h) in E1. apply (Permutation_in _ P) in E1. apply (last_parser_In typ opts' N' h) in E1. congruence.
    + apply (last_parser_In typ opts' N' h') in E2. apply (Permutation_in _ (Permutation_sym P)) in E2. apply (last_parser_In typ opts N h') in E2. congruence.
Qed.
Print Assumptions options_in_any_order.

(** Giving an option again changes nothing. *)
Theorem options_repeated : forall rnd opts o s, In o opts -> (forall typ h, o = UseParser typ h -> last_parser typ opts = Some h) ->
  from_json rnd (config_of (opts ++ [o])) s = from_json rnd (config_of opts) s.
Proof.
  intros rnd opts o s I L. destruct (document_dec rnd s) as [(js & D)|ND]; [|now apply options_no_document].
  apply (options_that_matter rnd _ _ js s D).
  - rewrite in_app_iff. cbn [In]. intuition congruence.
  - rewrite in_app_iff. cbn [In]. intuition congruence.
  - intros typ _. unfold parser_in_use. rewrite last_parser_app. cbn [last_parser]. destruct o as [| |typ' h]; try reflexivity. destruct (String.eqb_spec typ typ') as [->|]; [|reflexivity].
    now rewrite (L typ' h eq_refl).
Qed.
Print Assumptions options_repeated.

(** A nil parser takes back the parser given before: the type is read as if there
    had never been one. *)
Theorem nil_parser : forall rnd opts typ s, from_json rnd (config_of (opts ++ [UseParser typ None])) s =
  from_json rnd (config_of (filter (fun o => match o with UseParser typ' _ => negb (String.eqb typ typ') | _ => true end) opts)) s.
Proof.
  intros rnd opts typ s. destruct (document_dec rnd s) as [(js & D)|ND]; [|now apply options_no_document].
  apply (options_that_matter rnd _ _ js s D).
  - rewrite in_app_iff, filter_In. cbn [In]. intuition congruence.
  - rewrite in_app_iff, filter_In. cbn [In]. intuition congruence.
  - intros typ' _. unfold parser_in_use. rewrite last_parser_app. cbn [last_parser].
    assert (F : last_parser typ' (filter (fun o => match o with UseParser t _ => negb (String.eqb typ t) | _ => true end) opts) = if String.eqb typ' typ then None else last_parser typ' opts).
    { induction opts as [|o opts IH]; [now destruct (String.eqb typ' typ)|]. cbn [filter]. destruct o as [| |t h]; cbn [last_parser].
      - rewrite IH. now destruct (String.eqb typ' typ).
      - rewrite IH. now destruct (String.eqb typ' typ).
      - destruct (String.eqb_spec typ t) as [<-|Nt]; cbn [negb last_parser]; rewrite IH.
        + destruct (String.eqb typ' typ); [reflexivity|]. now destruct (last_parser typ' opts).
        + destruct (String.eqb_spec typ' typ) as [E|]; [|reflexivity]. destruct (String.eqb_spec typ' t); [congruence|reflexivity]. }
    rewrite F. destruct (String.eqb typ' typ); [reflexivity|reflexivity].
Qed.
Print Assumptions nil_parser.

(** Two parsers for a type: the order matters, the last one counts. *)
Definition other_parser : handler := fun _ => Err "other".
Example options_order_matters :
  from_json rnd_id (config_of [UseParser "tool" (Some ex_parser); UseParser "tool" (Some other_parser)]) (arr [tool []]) = Err "other" /\
  exists c, from_json rnd_id (config_of [UseParser "tool" (Some other_parser); UseParser "tool" (Some ex_parser)]) (arr [tool []]) = Ok c.
Proof. split; [vm_compute; reflexivity|]. destruct (from_json _ _ _) as [c| |] eqn:E; [now exists c|vm_compute in E; discriminate..]. Qed.
(** Options in another order that meet the hypotheses, with a parser in use. *)
Example options_in_any_order_ex : exists c, Permutation [NoSort; DropCustom; UseParser "tool" (Some ex_parser)] [UseParser "tool" (Some ex_parser); NoSort; DropCustom] /\
  NoDup (parser_types [NoSort; DropCustom; UseParser "tool" (Some ex_parser)]) /\
  from_json rnd_id (config_of [NoSort; DropCustom; UseParser "tool" (Some ex_parser)]) (arr [mal []; tool []]) = Ok c.
Proof.
  destruct (from_json rnd_id (config_of [NoSort; DropCustom; UseParser "tool" (Some ex_parser)]) (arr [mal []; tool []])) as [c| |] eqn:E; [exists c|vm_compute in E; discriminate..].
  split; [|split; [repeat constructor; intros []|reflexivity]]. symmetry. apply (Permutation_cons_append [NoSort; DropCustom]).
Qed.
(** A parser for a type the document does not state is not called. *)
Example options_unused_ex : document [mal []] (arr [mal []]) /\ (forall typ, In typ (types_of [mal []]) -> parser_in_use typ [UseParser "tool" (Some other_parser)] = parser_in_use typ []).
Proof. split; [apply arr_document; reflexivity|]. intros typ [<-|[]]. reflexivity. Qed.
