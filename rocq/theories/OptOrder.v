(** What FromJSON depends on in its options. *)
From Verif Require Import GoStr GoStrFacts JsonStr Json StrSpec Float Consts GoTypes Schema GoVal GoValFacts Codec CodecSpec CodecFacts DataTypes Ident Collection
  FromJson FromJsonSpec FromJsonFacts IndepFacts ReadFacts FromJsonProps DocSpec DocFacts TypedFacts OptOrderSpec.

Lemma last_parser_app typ o1 o2 : last_parser typ (o1 ++ o2) = match last_parser typ o2 with Some h => Some h | None => last_parser typ o1 end.
Proof.
  induction o1 as [|o o1 IH]; cbn [app last_parser]; [now destruct (last_parser typ o2)|]. rewrite IH. now destruct (last_parser typ o2).
Qed.
Lemma parser_config opts typ : parser_of (config_of opts) typ = parser_in_use typ opts.
Proof.
  unfold parser_in_use. induction opts as [|o opts IH] using rev_ind; [reflexivity|]. rewrite last_parser_app. cbn [last_parser]. rewrite config_of_app. cbn [fold_left].
  destruct o as [| |typ' h]; cbn [apply_option]; unfold parser_of in *; cbn [cf_handlers]; try exact IH.
  destruct (String.eqb_spec typ typ') as [<-|N].
  - rewrite alookup_ainsert_same. now destruct h.
  - now rewrite alookup_ainsert_other.
Qed.

Section E.
Variable rnd : bool -> N -> Z -> option flt.
Variable cf cf' : config.
Hypothesis Drop : cf_drop cf = cf_drop cf'.

Lemma start_same typ j : parser_of cf typ = parser_of cf' typ -> start cf typ j = start cf' typ j.
Proof.
  unfold parser_of, start. rewrite <- Drop. destruct (alookup typ (cf_handlers cf)) as [[h|]|]; destruct (alookup typ (cf_handlers cf')) as [[h'|]|]; intros Q; try discriminate; try reflexivity.
  injection Q as ->. reflexivity.
Qed.
Lemma read_finish_same p j o : read_finish rnd cf p j o = read_finish rnd cf' p j o.
Proof. unfold read_finish. now rewrite Drop. Qed.

(** The type left by the values before. *)
Definition left_type (p : gval) (ts : list string) : Prop := msorted (old_map p) = true /\ forall typ, alookup "type" (old_map p) = Some (dyn_str typ) -> In typ ts.
Lemma dval_str x typ : dval rnd x = dyn_str typ -> exists raw, x = JStr raw /\ unq raw = Some typ.
Proof.
  unfold dval. destruct x as [|b|l|raw|l|ms]; cbn [dec_any].
  - discriminate.
  - discriminate.
  - destruct (parse_float rnd l); discriminate.
  - destruct (unq raw) as [s|] eqn:U; [|discriminate]. intros Q. injection Q as ->. eauto.
  - destruct (dbind _ _) eqn:E; try discriminate. apply dbind_inv in E as (w & e1 & e2 & _ & D & _). injection D as <- _. discriminate.
  - destruct (dbind _ _) eqn:E; try discriminate. apply dbind_inv in E as (w & e1 & e2 & _ & D & _). injection D as <- _. discriminate.
Qed.
Lemma read_same j p ts : left_type p ts -> (forall typ, In typ (types_of [j] ++ ts) -> parser_of cf typ = parser_of cf' typ) ->
  read rnd cf j p = read rnd cf' j p /\ forall o p', read rnd cf j p = Ok (o, p') -> left_type p' (types_of [j] ++ ts).
Proof.
  intros [S L] A. unfold read. destruct (unmarshal_res (dec rnd j peak_ty p)) as [pk| |] eqn:E; cbn [bind]; [|split; [reflexivity|discriminate]..].
  assert (L1 : left_type pk (types_of [j] ++ ts)).
  { destruct (peak_inv _ _ _ _ S E) as [[-> ->]|(ms & m & -> & -> & Sm & Lm & _)]; [split; [reflexivity|discriminate]|]. split; [exact Sm|]. intros typ. cbn [old_map]. rewrite Lm.
    destruct (last_member "type" ms) as [x|] eqn:M; [|intros Q; apply in_or_app; right; now apply L]. intros Q. injection Q as Q. apply dval_str in Q as (raw & -> & U).
    apply in_or_app. left. unfold types_of. cbn [flat_map]. unfold json_type, member. rewrite M, U. now left. }
  assert (Mg : map_get "type" pk = alookup "type" (old_map pk)) by now destruct pk. rewrite Mg.
  destruct (alookup "type" (old_map pk)) as [tv|] eqn:T; [|split; [reflexivity|intros o p' Q; injection Q as <- <-; exact L1]].
  destruct (as_string tv) as [typ| |] eqn:As; cbn [bind]; [|split; [reflexivity|discriminate]..]. apply as_string_ok in As. subst tv.
  assert (Q : parser_of cf typ = parser_of cf' typ) by (apply A; now apply L1). rewrite (start_same _ j Q).
  destruct (start cf' typ j) as [[[t v]|]| |]; cbn [bind]; [|split; [reflexivity|intros o p' Q'; injection Q' as <- <-; exact L1]|split; [reflexivity|discriminate]..].
  split; [apply read_finish_same|]. intros o p'. unfold read_finish. destruct (unmarshal_res (dec rnd j t v)) as [v1| |]; try discriminate. cbn [bind].
  set (p1 := if cf_drop cf then old_map pk else filter_out t (old_map pk)). destruct (obj_id _) as [id| |]; try discriminate. cbn [bind]. destruct (obj_type _) as [ty| |]; try discriminate. cbn [bind].
  destruct (has_valid_identifier id ty); try discriminate. intros Q'. injection Q' as <- <-. destruct L1 as [S1 L1]. unfold p1. destruct (cf_drop cf); [split; [exact S1|exact L1]|].
  split; cbn [old_map]; [destruct t; try exact S1; now apply filter_msorted|]. intros typ'. rewrite alookup_filter_out. destruct t; try apply L1. destruct (mem_str _ _); [discriminate|apply L1].
Qed.
Lemma read_all_same js : forall p ts, left_type p ts -> (forall typ, In typ (types_of js ++ ts) -> parser_of cf typ = parser_of cf' typ) ->
  read_all rnd cf js p = read_all rnd cf' js p.
Proof.
  induction js as [|j js IH]; intros p ts L A; [reflexivity|]. cbn [read_all].
  assert (TC : types_of (j :: js) = (types_of [j] ++ types_of js)%list) by (unfold types_of; cbn [flat_map]; now rewrite app_nil_r).
  destruct (read_same j p ts L) as [R N].
  { intros typ H. apply A. rewrite TC. rewrite !in_app_iff in *. tauto. }
  rewrite <- R. destruct (read rnd cf j p) as [[o p']| |]; cbn [bind fst snd]; try reflexivity. rewrite (IH p' (types_of [j] ++ ts)%list); [reflexivity|now apply (N o)|].
  intros typ H. apply A. rewrite TC. rewrite !in_app_iff in *. tauto.
Qed.
Lemma from_json_same js s : cf_nosort cf = cf_nosort cf' -> document js s -> (forall typ, In typ (types_of js) -> parser_of cf typ = parser_of cf' typ) ->
  from_json rnd cf s = from_json rnd cf' s.
Proof.
  intros Ns D A. rewrite !(from_json_read rnd _ js s D), Ns. rewrite (read_all_same js VNil []); [reflexivity|split; [reflexivity|discriminate]|].
  intros typ H. rewrite app_nil_r in H. now apply A.
Qed.
End E.
