(** FromJSON is the walk of DocSpec. *)
From Verif Require Import GoStr GoStrFacts JsonStr Json JsonFacts Float Consts GoTypes Schema GoVal GoValFacts Codec CodecSpec CodecFacts
  StructFacts CodecRound ObjFacts TypedFacts DataTypes DataTypesFacts Ident IdentFacts Collection CollectionSpec CollectionFacts FromJson FromJsonSpec FromJsonFacts
  ReadFacts IndepFacts FromJsonProps DocSpec.

Section D.
Variable rnd : bool -> N -> Z -> option flt.
Variable cf : config.

Definition holds (p : gval) (M : memory) : Prop := msorted (old_map p) = true /\ forall k, alookup k (old_map p) = M k.

Lemma tag_keys_spec n fs k : In k (tag_keys fs) <-> key_of (GStruct n fs) k.
Proof.
  unfold tag_keys. rewrite in_flat_map. split.
  - intros ([m t] & Hin & Hk). destruct (mem_str (fm_name m) base_structs) eqn:B.
    + apply mem_str_In in B. destruct t; try destruct Hk. apply in_map_iff in Hk as ([m' t'] & <- & H'). eapply key_base; eauto.
    + destruct Hk as [<-|[]]. eapply key_own; eauto. intros X. apply mem_str_In in X. congruence.
  - intros H. inversion H as [? ? m t Hin Nb|? ? m n' fs' m' t' Hin Hb Hin']; subst.
    + exists (m, t). split; [exact Hin|]. destruct (mem_str (fm_name m) base_structs) eqn:B; [apply mem_str_In in B; contradiction|now left].
    + exists (m, GStruct n' fs'). split; [exact Hin|]. apply mem_str_In in Hb. rewrite Hb. apply in_map_iff. exists (m', t'). now split.
Qed.
Lemma key_of_struct t k : key_of t k -> exists n fs, t = GStruct n fs.
Proof. intros H. inversion H; eauto. Qed.
Lemma filter_out_spec t m k : (key_of t k -> alookup k (filter_out t m) = None) /\ (~ key_of t k -> alookup k (filter_out t m) = alookup k m).
Proof.
  rewrite alookup_filter_out. split.
  - intros H. destruct (key_of_struct _ _ H) as (n & fs & ->). apply tag_keys_spec in H. apply mem_str_In in H. now rewrite H.
  - intros H. destruct t; try reflexivity. destruct (mem_str k (tag_keys fields)) eqn:B; [|reflexivity]. apply mem_str_In in B. exfalso. apply H. now apply tag_keys_spec.
Qed.
Lemma key_of_dec t k : key_of t k \/ ~ key_of t k.
Proof.
  destruct t; try (right; intros H; inversion H; fail). destruct (in_dec string_dec k (tag_keys fields)) as [H|H]; [left|right; intros X; apply H].
  - now apply tag_keys_spec.
  - now apply tag_keys_spec in X.
Qed.

Lemma start_receiver typ j o : start cf typ j = Ok (Some o) <-> receiver cf typ j o.
Proof.
  unfold start. split.
  - intros E. destruct (alookup typ (cf_handlers cf)) as [[h|]|] eqn:P.
    + destruct (h j) as [[o'|]| |] eqn:H; try discriminate. cbn [bind] in E. injection E as ->. apply (rc_parser _ _ _ h); [unfold parser_of; now rewrite P|exact H].
    + assert (NP : parser_of cf typ = None) by (unfold parser_of; now rewrite P). destruct (alookup typ builtin_types) as [t|] eqn:B.
      * injection E as <-. apply rc_builtin; [exact NP|now apply alookup_Some_In].
      * destruct (cf_drop cf) eqn:Dr; [discriminate|]. injection E as <-. apply rc_custom; auto. now apply alookup_akeys.
    + assert (NP : parser_of cf typ = None) by (unfold parser_of; now rewrite P). destruct (alookup typ builtin_types) as [t|] eqn:B.
      * injection E as <-. apply rc_builtin; [exact NP|now apply alookup_Some_In].
      * destruct (cf_drop cf) eqn:Dr; [discriminate|]. injection E as <-. apply rc_custom; auto. now apply alookup_akeys.
  - intros H. inversion H as [h o' P Hh|t P Hb|P Hb Dr]; subst.
    + unfold parser_of in P. destruct (alookup typ (cf_handlers cf)) as [[h'|]|]; try discriminate. injection P as ->. now rewrite Hh.
    + exact (start_builtin _ _ _ j P Hb).
    + apply alookup_akeys in Hb. rewrite Hb, Dr. unfold parser_of in P. destruct (alookup typ (cf_handlers cf)) as [[h'|]|]; [discriminate|reflexivity|reflexivity].
Qed.
Lemma start_dropped typ j : start cf typ j = Ok None <-> parser_of cf typ = None /\ ~ In typ (akeys builtin_types) /\ cf_drop cf = true.
Proof.
  unfold start, parser_of. split.
  - intros E. destruct (alookup typ (cf_handlers cf)) as [[h|]|] eqn:P.
    + destruct (h j) as [[o'|]| |] eqn:H; discriminate.
    + destruct (alookup typ builtin_types) as [t|] eqn:B; [discriminate|]. destruct (cf_drop cf); [|discriminate]. apply alookup_akeys in B. auto.
    + destruct (alookup typ builtin_types) as [t|] eqn:B; [discriminate|]. destruct (cf_drop cf); [|discriminate]. apply alookup_akeys in B. auto.
  - intros (P & B & ->). apply alookup_akeys in B. rewrite B. destruct (alookup typ (cf_handlers cf)) as [[h|]|]; [discriminate|reflexivity|reflexivity].
Qed.

Lemma okb_In k x ms : json_okb (JObj ms) = true -> In (k, x) ms -> json_okb x = true.
Proof. cbn [json_okb]. intros O H. rewrite forallb_forall in O. specialize (O _ H). cbn [fst snd] in O. now apply andb_true_iff in O as [_ O]. Qed.

Lemma merged_overridden p M ms m : json_okb (JObj ms) = true -> holds p M -> merged rnd p ms m -> overridden rnd M ms (fun k => alookup k m).
Proof.
  intros O [S H] (Sm & L & Om). split.
  - intros k x Hin. exists (dval rnd x). apply generic_dec; [eapply okb_In; eauto|eauto].
  - intros k. rewrite L. destruct (last_member k ms) as [x|] eqn:E; [|apply H]. apply last_member_In in E. exists (dval rnd x). split; [|reflexivity].
    apply generic_dec; [eapply okb_In; eauto|eauto].
Qed.
Lemma overridden_merged p M ms M' : json_okb (JObj ms) = true -> holds p M -> overridden rnd M ms M' ->
  exists m, unmarshal_res (dec rnd (JObj ms) peak_ty p) = Ok (VMap m) /\ holds (VMap m) M'.
Proof.
  intros O [S H] (A & B).
  assert (G : forall k x, In (k, x) ms -> exists w, dec_any rnd x = DOk w false).
  { intros k x Hin. destruct (A _ _ Hin) as (y & E). apply generic_dec in E; [eauto|eapply okb_In; eauto]. }
  destruct (dec_mems_ok rnd ms G (old_map p)) as (m & E). exists m. rewrite dec_peak_obj, E. split; [reflexivity|].
  destruct (dec_mems_spec rnd ms _ _ _ S E) as (Sm & L & _). split; [exact Sm|]. intros k. cbn [old_map]. rewrite L. specialize (B k).
  destruct (last_member k ms) as [x|] eqn:Lm; [|now rewrite B, H]. destruct B as (y & Ey & ->). apply last_member_In in Lm.
  apply generic_dec in Ey; [|eapply okb_In; eauto]. unfold dval. now rewrite Ey.
Qed.

Lemma as_string_ok y typ : as_string y = Ok typ <-> y = dyn_str typ.
Proof.
  split; [|now intros ->]. intros A. destruct y; try discriminate. destruct t; try discriminate. cbn in A. destruct (String.eqb_spec name "string").
  - subst. destruct y; try discriminate. now injection A as ->.
  - exfalso. repeat match type of A with match ?x with _ => _ end = _ => destruct x; try discriminate A end. congruence.
Qed.
Lemma as_string_err y e : as_string y <> Err e.
Proof.
  intros A. destruct y; try discriminate. destruct t; try discriminate. cbn in A.
  repeat match type of A with match ?x with _ => _ end = _ => destruct x; try discriminate A end.
Qed.

(** Reading one value before Add checks the identifier *)
Definition pre_finish (peak : list (string * gval)) (j : json) (o : gobj) : res (option gobj * gval) :=
  let (t, v) := o in
  do v1 <- unmarshal_res (dec rnd j t v);
  let peak1 := if cf_drop cf then peak else filter_out t peak in
  Ok (Some (t, if cf_drop cf then v1 else add_props t peak1 v1), VMap peak1).
Definition pre_read (j : json) (peak0 : gval) : res (option gobj * gval) :=
  do peak <- unmarshal_res (dec rnd j peak_ty peak0);
  match map_get "type" peak with
  | None => Ok (None, peak)
  | Some tv =>
      do typ <- as_string tv;
      do st <- start cf typ j;
      match st with
      | None => Ok (None, peak)
      | Some o => pre_finish (old_map peak) j o
      end
  end.
Definition check (o : option gobj) : res unit :=
  match o with
  | None => Ok tt
  | Some ob => do id <- obj_id ob; do ty <- obj_type ob; if has_valid_identifier id ty then Ok tt else Err "failed to add object to collection"
  end.
Lemma read_pre j p : read rnd cf j p = do r <- pre_read j p; do _ <- check (fst r); Ok r.
Proof.
  unfold read, pre_read. destruct (unmarshal_res (dec rnd j peak_ty p)) as [pk| |]; [|reflexivity|reflexivity]. cbn [bind].
  destruct (map_get "type" pk) as [tv|]; [|reflexivity]. destruct (as_string tv) as [typ| |]; [|reflexivity|reflexivity]. cbn [bind].
  destruct (start cf typ j) as [[[t v]|]| |]; [|reflexivity|reflexivity|reflexivity]. cbn [bind]. unfold read_finish, pre_finish.
  destruct (unmarshal_res (dec rnd j t v)) as [v1| |]; [|reflexivity|reflexivity]. cbn [bind fst check].
  destruct (obj_id _) as [id| |]; [|reflexivity|reflexivity]. cbn [bind]. destruct (obj_type _) as [ty| |]; [|reflexivity|reflexivity]. cbn [bind].
  now destruct (has_valid_identifier id ty).
Qed.
Lemma check_ok o : check o = Ok tt <-> acceptable o.
Proof.
  destruct o as [ob|]; [|now split]. cbn [check acceptable]. split.
  - destruct (obj_id ob) as [id| |]; try discriminate. cbn [bind]. destruct (obj_type ob) as [ty| |]; try discriminate. cbn [bind].
    destruct (has_valid_identifier id ty) eqn:V; [|discriminate]. intros _. exists id, ty. auto.
  - intros (id & ty & -> & -> & V). cbn [bind]. now rewrite V.
Qed.
Lemma obj_field_no_err f k ob e : obj_field f k ob <> Err e.
Proof.
  unfold obj_field, co_field. destruct (fst ob); try (destruct (map_get k (snd ob)); [apply as_string_err|discriminate]). destruct (get_path _ _); discriminate.
Qed.
Lemma check_panic ob : check (Some ob) = Panic <-> obj_id ob = Panic \/ obj_type ob = Panic.
Proof.
  cbn [check]. destruct (obj_id ob) as [id|e|] eqn:E1; cbn [bind]; [|exfalso; exact (obj_field_no_err _ _ _ _ E1)|split; auto].
  destruct (obj_type ob) as [ty|e|] eqn:E2; cbn [bind]; [|exfalso; exact (obj_field_no_err _ _ _ _ E2)|split; auto].
  destruct (has_valid_identifier id ty); split; try discriminate; intros [Q|Q]; discriminate.
Qed.

Lemma pre_step j p M : json_okb j = true -> holds p M -> forall o,
  (forall p', pre_read j p = Ok (o, p') -> exists M', step rnd cf M j o M' /\ holds p' M') /\
  (forall M', step rnd cf M j o M' -> exists p', pre_read j p = Ok (o, p') /\ holds p' M').
Proof.
  intros O Hp o. split.
  - intros p' R. unfold pre_read in R. destruct (unmarshal_res (dec rnd j peak_ty p)) as [pk| |] eqn:E; try discriminate. cbn [bind] in R.
    destruct (peak_inv _ _ _ _ (proj1 Hp) E) as [[-> ->]|(ms & m & -> & -> & Mg)].
    { injection R as <- <-. exists nothing. split; [constructor|now split]. }
    assert (Ov := merged_overridden _ _ _ _ O Hp Mg). assert (Hm : holds (VMap m) (fun k => alookup k m)) by (split; [apply Mg|reflexivity]).
    cbn [map_get old_map] in R. destruct (alookup "type" m) as [tv|] eqn:T.
    2: { injection R as <- <-. exists (fun k => alookup k m). split; [now apply step_untyped|exact Hm]. }
    destruct (as_string tv) as [typ| |] eqn:A; try discriminate. cbn [bind] in R. apply as_string_ok in A as ->.
    destruct (start cf typ (JObj ms)) as [[[t v0]|]| |] eqn:Ss; try discriminate; cbn [bind] in R.
    + unfold pre_finish in R. destruct (dec rnd (JObj ms) t v0) as [v1 [|]| |] eqn:D; try discriminate. cbn [unmarshal_res bind] in R. injection R as <- <-.
      apply start_receiver in Ss. apply (unmarshal_dec rnd _ _ _ _ O) in D. destruct (cf_drop cf) eqn:Dr.
      * exists (fun k => alookup k m). split; [eapply step_plain; eauto|exact Hm].
      * exists (fun k => alookup k (filter_out t m)).
        assert (X : lists (filter_out t m) (fun k => alookup k (filter_out t m))) by (split; [apply filter_out_msorted, Mg|reflexivity]).
        split; [|exact X]. eapply step_object; eauto. intros k. apply filter_out_spec.
    + injection R as <- <-. apply start_dropped in Ss as (P & B & Dr). exists (fun k => alookup k m). split; [eapply step_dropped; eauto|exact Hm].
  - intros M' St. unfold pre_read.
    inversion St as [|ms M1 Ov T|ms M1 typ Ov T P B Dr|ms M1 typ t v0 v Ov T Rc U Dr|ms M1 typ t v0 v l M2 Ov T Rc U Dr F L]; subst.
    { exists VNil. split; [reflexivity|]. now split. }
    all: destruct (overridden_merged _ _ _ _ O Hp Ov) as (m & -> & Hm); cbn [bind map_get]; destruct Hm as [Sm Lm]; cbn [old_map] in Lm; rewrite Lm, T.
    + exists (VMap m). now split.
    + cbn [as_string dyn_str bind]. rewrite (proj2 (start_dropped typ (JObj ms))) by auto. exists (VMap m). now split.
    + cbn [as_string dyn_str bind]. apply start_receiver in Rc. rewrite Rc. cbn [bind]. unfold pre_finish.
      apply (unmarshal_dec rnd _ _ _ _ O) in U. rewrite U, Dr. cbn [unmarshal_res bind]. exists (VMap m). now split.
    + cbn [as_string dyn_str bind]. apply start_receiver in Rc. rewrite Rc. cbn [bind]. unfold pre_finish.
      apply (unmarshal_dec rnd _ _ _ _ O) in U. rewrite U, Dr. cbn [unmarshal_res bind old_map].
      assert (Q : filter_out t m = l).
      { destruct L as [Sl Ll]. apply msorted_ext; [now apply filter_out_msorted|exact Sl|]. intros k. rewrite Ll. destruct (filter_out_spec t m k) as [F1 F2].
        destruct (F k) as [F3 F4]. destruct (key_of_dec t k) as [K|K]; [now rewrite F1, F3|]. now rewrite F2, F4, Lm. }
      rewrite Q. exists (VMap l). split; [reflexivity|exact L].
Qed.

Lemma read_step j p M o p' : json_okb j = true -> holds p M -> read rnd cf j p = Ok (o, p') -> exists M', step rnd cf M j o M' /\ holds p' M'.
Proof.
  intros O Hp R. rewrite read_pre in R. destruct (pre_read j p) as [r| |] eqn:E; try discriminate. cbn [bind] in R.
  destruct (check (fst r)) as [[]| |]; try discriminate. injection R as ->. exact (proj1 (pre_step _ _ _ O Hp o) _ E).
Qed.
Lemma step_read j p M o M' : json_okb j = true -> holds p M -> step rnd cf M j o M' -> acceptable o ->
  exists p', read rnd cf j p = Ok (o, p') /\ holds p' M'.
Proof.
  intros O Hp St Ac. destruct (proj2 (pre_step _ _ _ O Hp o) _ St) as (p' & E & H). exists p'. split; [|exact H].
  rewrite read_pre, E. cbn [bind fst]. apply check_ok in Ac. now rewrite Ac.
Qed.

Lemma unmarshal_panic j t v0 : json_okb j = true -> unmarshal rnd (print j) t v0 = Panic <-> dec rnd j t v0 = DPanic.
Proof.
  intros O. unfold unmarshal. rewrite parse_print by exact O. destruct (dec rnd j t v0) as [w [|]| |]; cbn [unmarshal_res]; split; intros Q; try discriminate Q; reflexivity.
Qed.
Lemma start_panic typ j : start cf typ j = Panic <-> exists h, parser_of cf typ = Some h /\ (h j = Panic \/ h j = Ok None).
Proof.
  unfold start, parser_of. split.
  - destruct (alookup typ (cf_handlers cf)) as [[h|]|].
    + intros E. exists h. split; [reflexivity|]. destruct (h j) as [[o|]| |]; try discriminate; auto.
    + destruct (alookup typ builtin_types); [discriminate|]. destruct (cf_drop cf); discriminate.
    + destruct (alookup typ builtin_types); [discriminate|]. destruct (cf_drop cf); discriminate.
  - intros (h & P & H). destruct (alookup typ (cf_handlers cf)) as [[h'|]|]; try discriminate. injection P as ->. destruct H as [-> | ->]; reflexivity.
Qed.
Lemma peak_no_panic j p : unmarshal_res (dec rnd j peak_ty p) <> Panic.
Proof. destruct (peak_status rnd j p) as [(e & H)|(pk & E & _)]; [rewrite H; discriminate|rewrite E; discriminate]. Qed.

Lemma read_crash j p M : json_okb j = true -> holds p M -> read rnd cf j p = Panic <-> crash rnd cf M j.
Proof.
  intros O Hp. rewrite read_pre. split.
  - destruct (pre_read j p) as [[o p']| |] eqn:E; cbn [bind fst]; [|discriminate|intros _].
    + destruct (check o) as [[]| |] eqn:C; try discriminate. intros _. destruct (proj1 (pre_step _ _ _ O Hp o) _ E) as (M1 & St & _).
      destruct o as [ob|]; [|discriminate]. apply check_panic in C. eapply crash_add; eauto.
    + unfold pre_read in E. destruct (unmarshal_res (dec rnd j peak_ty p)) as [pk| |] eqn:P; try discriminate; [|exfalso; exact (peak_no_panic _ _ P)]. cbn [bind] in E.
      destruct (peak_inv _ _ _ _ (proj1 Hp) P) as [[-> ->]|(ms & m & -> & -> & Mg)]; [discriminate|].
      assert (Ov := merged_overridden _ _ _ _ O Hp Mg). cbn [map_get old_map] in E. destruct (alookup "type" m) as [tv|] eqn:T; [|discriminate].
      destruct (as_string tv) as [typ| |] eqn:A; try discriminate; cbn [bind] in E.
      * apply as_string_ok in A as ->. destruct (start cf typ (JObj ms)) as [[[t v0]|]| |] eqn:Ss; try discriminate; cbn [bind] in E.
        -- unfold pre_finish in E. destruct (dec rnd (JObj ms) t v0) as [v1 [|]| |] eqn:D; try discriminate.
           apply start_receiver in Ss. apply (unmarshal_panic _ _ _ O) in D. eapply crash_decode; eauto.
        -- apply start_panic in Ss as (h & P1 & P2). eapply crash_parser; eauto.
      * eapply crash_type; eauto. intros typ ->. discriminate.
  - intros C. inversion C as [ms M1 y Ov T N|ms M1 typ h Ov T P1 P2|ms M1 typ t v0 Ov T Rc U|j' ob M1 St X]; subst.
    4: { destruct (proj2 (pre_step _ _ _ O Hp _) _ St) as (p' & -> & _). cbn [bind fst]. apply check_panic in X. now rewrite X. }
    all: unfold pre_read; destruct (overridden_merged _ _ _ _ O Hp Ov) as (m & -> & Hm); cbn [bind map_get]; destruct Hm as [Sm Lm]; cbn [old_map] in Lm; rewrite Lm, T.
    + destruct (as_string y) as [typ|e|] eqn:A; [apply as_string_ok in A; now apply N in A|exfalso; exact (as_string_err _ _ A)|reflexivity].
    + cbn [as_string dyn_str bind]. rewrite (proj2 (start_panic typ (JObj ms))) by eauto. reflexivity.
    + cbn [as_string dyn_str bind]. apply start_receiver in Rc. rewrite Rc. cbn [bind pre_finish]. apply (unmarshal_panic _ _ _ O) in U. rewrite U. reflexivity.
Qed.

Lemma read_all_walk js : forallb json_okb js = true -> forall p M outs, holds p M ->
  read_all rnd cf js p = Ok outs <-> exists M', walk rnd cf M js outs M' /\ Forall acceptable outs.
Proof.
  induction js as [|j js IH]; intros O p M outs Hp; cbn [read_all].
  - split; [intros Q; injection Q as <-; exists M; split; constructor|]. intros (M' & W & _). inversion W. reflexivity.
  - cbn [forallb] in O. apply andb_true_iff in O as [O1 O2]. split.
    + destruct (read rnd cf j p) as [[o p']| |] eqn:R; try discriminate. cbn [bind fst snd]. destruct (read_all rnd cf js p') as [os| |] eqn:R2; try discriminate.
      intros Q. injection Q as <-. destruct (read_step _ _ _ _ _ O1 Hp R) as (M1 & St & Hp'). destruct (proj1 (IH O2 _ _ _ Hp') R2) as (M2 & W & A).
      exists M2. split; [econstructor; eauto|]. constructor; [eapply read_acceptable; eauto|exact A].
    + intros (M' & W & A). inversion W as [|? ? o M1 ? os M2 St W']; subst. inversion A as [|? ? A1 A2]; subst.
      destruct (step_read _ _ _ _ _ O1 Hp St A1) as (p' & -> & Hp'). cbn [bind fst snd]. rewrite (proj2 (IH O2 _ _ os Hp')) by eauto. reflexivity.
Qed.
Lemma read_all_crash js : forallb json_okb js = true -> forall p M, holds p M ->
  read_all rnd cf js p = Panic <-> exists a j b outs M', js = a ++ j :: b /\ walk rnd cf M a outs M' /\ Forall acceptable outs /\ crash rnd cf M' j.
Proof.
  induction js as [|j js IH]; intros O p M Hp; cbn [read_all].
  - split; [discriminate|]. intros (a & j & b & outs & M' & Q & _). destruct a; discriminate.
  - cbn [forallb] in O. apply andb_true_iff in O as [O1 O2]. split.
    + destruct (read rnd cf j p) as [[o p']| |] eqn:R; try discriminate; cbn [bind fst snd].
      * destruct (read_all rnd cf js p') as [os| |] eqn:R2; try discriminate. intros _. destruct (read_step _ _ _ _ _ O1 Hp R) as (M1 & St & Hp').
        destruct (proj1 (IH O2 _ _ Hp') R2) as (a & j' & b & outs & M' & -> & W & A & C). exists (j :: a), j', b, (o :: outs), M'. split; [reflexivity|].
        split; [econstructor; eauto|]. split; [|exact C]. constructor; [eapply read_acceptable; eauto|exact A].
      * intros _. exists [], j, js, [], M. split; [reflexivity|]. split; [constructor|]. split; [constructor|]. now apply (read_crash j p).
    + intros (a & j' & b & outs & M' & Q & W & A & C). destruct a as [|j0 a]; cbn [app] in Q; injection Q as <- ->.
      * inversion W; subst. apply (read_crash _ _ _ O1 Hp) in C. now rewrite C.
      * inversion W as [|? ? o M1 ? os M2 St W']; subst. inversion A as [|? ? A1 A2]; subst.
        destruct (step_read _ _ _ _ _ O1 Hp St A1) as (p' & -> & Hp'). cbn [bind fst snd]. rewrite (proj2 (IH O2 _ _ Hp')); [reflexivity|]. exists a, j', b, os, M'. auto.
Qed.

Lemma holds0 : holds VNil nothing.
Proof. now split. Qed.
Lemma from_json_walk s c : from_json rnd cf s = Ok c <->
  exists js outs M, document js s /\ walk rnd cf nothing js outs M /\ Forall acceptable outs /\ c = collect (cf_nosort cf) outs.
Proof.
  split.
  - intros E. destruct (document_dec rnd s) as [(js & D)|N]; [|rewrite from_json_no_document in E by exact N; discriminate].
    rewrite (from_json_read _ _ _ _ D) in E. destruct (read_all rnd cf js VNil) as [outs| |] eqn:R; try discriminate. injection E as <-.
    destruct (proj1 (read_all_walk js (document_ok _ _ D) VNil nothing outs holds0) R) as (M & W & A). exists js, outs, M. auto.
  - intros (js & outs & M & D & W & A & ->). rewrite (from_json_read _ _ _ _ D).
    rewrite (proj2 (read_all_walk js (document_ok _ _ D) VNil nothing outs holds0)) by eauto. reflexivity.
Qed.
Lemma from_json_crash s : from_json rnd cf s = Panic <->
  exists a j b outs M, document (a ++ j :: b) s /\ walk rnd cf nothing a outs M /\ Forall acceptable outs /\ crash rnd cf M j.
Proof.
  split.
  - intros E. destruct (document_dec rnd s) as [(js & D)|N]; [|rewrite from_json_no_document in E by exact N; discriminate].
    rewrite (from_json_read _ _ _ _ D) in E. destruct (read_all rnd cf js VNil) as [outs| |] eqn:R; try discriminate.
    destruct (proj1 (read_all_crash js (document_ok _ _ D) VNil nothing holds0) R) as (a & j & b & outs & M & -> & W & A & C). exists a, j, b, outs, M. auto.
  - intros (a & j & b & outs & M & D & W & A & C). rewrite (from_json_read _ _ _ _ D).
    rewrite (proj2 (read_all_crash _ (document_ok _ _ D) VNil nothing holds0)); [reflexivity|]. exists a, j, b, outs, M. auto.
Qed.
Lemma walk_once s js outs outs' M M' : document js s -> walk rnd cf nothing js outs M -> walk rnd cf nothing js outs' M' ->
  Forall acceptable outs -> Forall acceptable outs' -> outs = outs'.
Proof.
  intros D W W' A A'. assert (E : read_all rnd cf js VNil = Ok outs) by (apply (read_all_walk js (document_ok _ _ D) VNil nothing outs holds0); eauto).
  assert (E' : read_all rnd cf js VNil = Ok outs') by (apply (read_all_walk js (document_ok _ _ D) VNil nothing outs' holds0); eauto). congruence.
Qed.
End D.
