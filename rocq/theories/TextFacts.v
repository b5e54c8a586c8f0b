(** Lemmas: the encoder's output as text. *)
From Verif Require Import GoStr GoStrFacts Base64 Base64Facts JsonStr JsonStrFacts StrSpec StrSpecFacts Json JsonFacts JsonSpec JsonSpecFacts Float FloatFacts
  Consts Enums GoTypes Schema GoVal GoValFacts Time TimeFacts Codec CodecSpec CodecFacts Ident Collection FromJson TextSpec.

Section T.
Variable rnd : bool -> N -> Z -> option flt.
Notation go_value := (go_value rnd).

Inductive lex : json -> Prop :=
| lx_null : lex JNull
| lx_bool b : lex (JBool b)
| lx_num l : num_ok l = true -> lex (JNum l)
| lx_str raw x : unq raw = Some x -> safe_text raw -> lex (JStr raw)
| lx_arr l : Forall lex l -> lex (JArr l)
| lx_obj l : Forall (fun kv => lex (snd kv)) l -> lex (JObj l).

Lemma plain_safe s : plain s = true -> safe_text s.
Proof.
  intros H. apply all_safe_text. induction s as [|c s IH]; [reflexivity|]. cbn [plain all_safe] in *. apply andb_true_iff in H as [A B]. rewrite (IH B), andb_true_r.
  assert (X : forallb (fun c => negb (plain_char c) || safe_ascii c) all_ascii = true) by (vm_compute; reflexivity).
  apply (fun X => ascii_sweep _ X c) in X. cbv beta in X. now rewrite A in X.
Qed.
Lemma plain_lex s : plain s = true -> lex (JStr s).
Proof. intros H. apply (lx_str s s); [now apply unq_plain|now apply plain_safe]. Qed.
Lemma num_plain s : all_num s = true -> plain s = true.
Proof.
  induction s as [|c s IH]; [reflexivity|]. cbn [all_num plain]. intros H. apply andb_true_iff in H as [A B]. rewrite (IH B), andb_true_r.
  assert (X : forallb (fun c => negb (is_numch c) || plain_char c) all_ascii = true) by (vm_compute; reflexivity).
  apply (fun X => ascii_sweep _ X c) in X. cbv beta in X. now rewrite A in X.
Qed.
Lemma plain_int z : plain (Z_to_string z) = true.
Proof. apply num_plain, num_ok_all, num_ok_int. Qed.

Lemma plain_ts_all x : plain (ts_string x) = true.
Proof.
  unfold ts_string. destruct (civil_of_days (x / ns_per_s / s_per_day)) as [[y m] d] eqn:C.
  destruct (civil_valid _ _ _ _ C) as (M & D & _).
  assert (D31 : (days_in m y <= 31)%Z).
  { unfold days_in. destruct (m =? 2)%Z; [destruct (is_leap y); lia|]. destruct (_ || _); lia. }
  assert (Y : plain (year_string y) = true).
  { unfold year_string. destruct (y <? 0)%Z eqn:E1; [apply Z.ltb_lt in E1; destruct (y <? -9999)%Z eqn:E2; cbn [plain]; [rewrite plain_int; reflexivity|apply Z.ltb_ge in E2; rewrite plain_pad4 by lia; reflexivity]|].
    apply Z.ltb_ge in E1. destruct (9999 <? y)%Z eqn:E2; [apply plain_int|apply Z.ltb_ge in E2; apply plain_pad4; lia]. }
  rewrite !plain_app. rewrite Y. rewrite !plain_pad2; [rewrite plain_pad3; [reflexivity|]|..]; unfold ns_per_s, ns_per_ms, s_per_day.
  all: try lia.
  all: Z.div_mod_to_equations; lia.
Qed.

Lemma quote_lex s : lex (JStr (quote s)).
Proof. destruct (quote_reads _ s (le_n _)) as (t & l & A & _ & _ & D). now apply (lx_str _ t). Qed.

Lemma bind_ok {A B} (x : res A) (f : A -> res B) b : bind x f = Ok b -> exists a, x = Ok a /\ f a = Ok b.
Proof. destruct x; cbn [bind]; try discriminate. eauto. Qed.
Ltac inv_bind := repeat match goal with H : bind _ _ = Ok _ |- _ => apply bind_ok in H; let a := fresh "a" in let Q := fresh "Q" in destruct H as (a & Q & H) end.

Lemma enc_list_lex f : forall l js, (forall x j, In x l -> f x = Ok j -> lex j) -> enc_list f l = Ok js -> Forall lex js.
Proof.
  induction l as [|x l IH]; intros js H E; cbn [enc_list] in E; [injection E as <-; constructor|]. fold (enc_list f) in E. inv_bind. injection E as <-.
  constructor; [eapply H; eauto; now left|]. apply IH; [intros; eapply H; eauto; now right|assumption].
Qed.
Lemma enc_mems_lex f : forall l js, (forall k x j, In (k, x) l -> f x = Ok j -> lex j) -> enc_mems f l = Ok js -> Forall (fun kv => lex (snd kv)) js.
Proof.
  induction l as [|[k x] l IH]; intros js H E; cbn [enc_mems] in E; [injection E as <-; constructor|]. fold (enc_mems f) in E. inv_bind. injection E as <-.
  constructor; [exact (H k x _ (or_introl eq_refl) Q)|]. apply IH; [intros k0 x0 j0 I; exact (H k0 x0 j0 (or_intror I))|assumption].
Qed.
Lemma enc_fields_lex f : forall vs fs js, (forall k x t j, In (k, x) vs -> f t x = Ok j -> lex j) -> enc_fields f fs vs = Ok js -> Forall (fun kv => lex (snd kv)) js.
Proof.
  induction vs as [|[k x] vs IH]; intros fs js H E; cbn [enc_fields] in E.
  { destruct fs as [|[m t] fs]; injection E as <-; constructor. }
  destruct fs as [|[m t] fs]; [injection E as <-; constructor|].
  assert (H' : forall k x t j, In (k, x) vs -> f t x = Ok j -> lex j) by (intros k0 x0 t0 j0 I; exact (H k0 x0 t0 j0 (or_intror I))).
  fold (enc_fields f) in E. destruct (is_empty (fm_key m)); [eapply IH; eauto|]. destruct (fm_omit m && is_empty_val x); [eapply IH; eauto|].
  inv_bind. injection E as <-. constructor; [exact (H k x _ _ (or_introl eq_refl) Q)|]. eapply IH; eauto.
Qed.

Lemma enc_lex : forall v t j, go_value v = true -> enc t v = Ok j -> lex j.
Proof.
  induction v using gval_ind'; intros t0 jo G E; cbn [enc] in E; cbn [go_value] in G.
  - injection E as <-. apply quote_lex.
  - assert (jo = JNum (Z_to_string z)) as -> by congruence. apply lx_num, num_ok_int.
  - injection E as <-. constructor.
  - destruct (fmt_float f) eqn:F; [|discriminate]. injection E as <-. apply lx_num. eapply fmt_float_ok; eauto.
  - destruct t0; try discriminate. assert (jo = JStr (enum_string name n)) as -> by congruence. apply plain_lex, enum_plain.
  - assert (jo = JStr (ts_string t)) as -> by congruence. apply plain_lex, plain_ts_all.
  - assert (jo = JStr (b64_encode s)) as -> by congruence. apply plain_lex, plain_b64.
  - injection E as <-. constructor.
  - destruct t0; try discriminate. eapply IHv; eauto.
  - destruct t0; try discriminate. inv_bind. injection E as <-. constructor. rewrite forallb_forall in G. rewrite Forall_forall in H.
    eapply enc_list_lex; [|eassumption]. intros x j I. apply H; auto.
  - rewrite forallb_forall in G. rewrite Forall_forall in H. destruct t0; try discriminate; inv_bind; injection E as <-; constructor;
      (eapply enc_mems_lex; [|eassumption]); intros k' x j' I; apply (H _ I), (G _ I).
  - destruct t0; try discriminate. inv_bind. injection E as <-. constructor. rewrite forallb_forall in G. rewrite Forall_forall in H.
    eapply enc_fields_lex; [|eassumption]. intros k x t j I. apply (H _ I), (G _ I).
  - eapply IHv; eauto.
  - discriminate.
Qed.

(** Objects *)
Lemma minsert_all {A} (P : string * A -> Prop) k x l : Forall P l -> P (k, x) -> Forall P (minsert k x l).
Proof.
  induction l as [|[k' y] l IH]; intros H Px; cbn [minsert]; [now constructor|]. inversion H; subst.
  repeat match goal with |- context [if ?b then _ else _] => destruct b end; repeat constructor; auto.
Qed.
Definition entry_ok (kv : string * (gty * gval)) : Prop := go_value (snd (snd kv)) = true.
Lemma put_all_go l : forall m, forallb (fun kv => go_value (snd kv)) l = true -> Forall entry_ok m -> Forall entry_ok (put_all l m).
Proof.
  unfold put_all. induction l as [|[k x] l IH]; intros m G H; [exact H|]. cbn [forallb snd] in G. apply andb_true_iff in G as [G1 G2]. cbn [fold_left fst snd].
  apply IH; [exact G2|]. now apply minsert_all.
Qed.
Lemma get_field_go n v : go_value v = true -> go_value (get_field n v) = true.
Proof.
  intros G. unfold get_field. destruct v; try reflexivity. cbn [go_value] in G. destruct (alookup n l) as [x|] eqn:E; [|reflexivity].
  apply alookup_Some_In in E. rewrite forallb_forall in G. exact (G _ E).
Qed.
Lemma overlay_go n v m : go_value v = true -> Forall entry_ok m -> Forall entry_ok (overlay n v m).
Proof.
  intros G H. unfold overlay. destruct (mem_str n _); [|exact H]. assert (G' := get_field_go "toplevelProperties" v G).
  destruct (get_field "toplevelProperties" v) as [| | | | | | | |w| | | | |]; try exact H. destruct w; try exact H. now apply put_all_go.
Qed.
Lemma put_field_go fm t v m m' : go_value v = true -> Forall entry_ok m -> put_field fm t v m = Ok m' -> Forall entry_ok m'.
Proof.
  intros G H E. unfold put_field in E. destruct (is_empty (fm_key fm)); [now injection E as <-|].
  destruct (match v with VBool _ => false | _ => is_zero v end); [destruct (fm_omit fm); [now injection E as <-|discriminate]|].
  injection E as <-. now apply minsert_all.
Qed.
Lemma put_fields_go : forall vs fs m m', forallb (fun kv => go_value (snd kv)) vs = true -> Forall entry_ok m -> put_fields fs vs m = Ok m' -> Forall entry_ok m'.
Proof.
  induction vs as [|[k x] vs IH]; intros fs m m' G H E; destruct fs as [|[fm t] fs]; cbn [put_fields] in E; try (now injection E as <-).
  cbn [forallb snd] in G. apply andb_true_iff in G as [G1 G2]. inv_bind. apply (IH fs a m' G2); [|exact E]. eapply put_field_go; eauto.
Qed.
Lemma base_to_map_go t v m m' : go_value v = true -> Forall entry_ok m -> base_to_map t v m = Ok m' -> Forall entry_ok m'.
Proof.
  intros G H E. unfold base_to_map in E. destruct t; try discriminate. destruct v; try discriminate. inv_bind. injection E as <-.
  apply overlay_go; [exact G|]. eapply put_fields_go; eauto.
Qed.
Lemma fields_to_map_go : forall vs fs m m', forallb (fun kv => go_value (snd kv)) vs = true -> Forall entry_ok m -> fields_to_map fs vs m = Ok m' -> Forall entry_ok m'.
Proof.
  induction vs as [|[k x] vs IH]; intros fs m m' G H E; destruct fs as [|[fm t] fs]; cbn [fields_to_map] in E; try (now injection E as <-).
  cbn [forallb snd] in G. apply andb_true_iff in G as [G1 G2]. inv_bind. apply (IH fs a m' G2); [|exact E].
  destruct (mem_str (fm_name fm) base_structs); [eapply base_to_map_go|eapply put_field_go]; eauto.
Qed.
Lemma enc_map_lex : forall m js, Forall entry_ok m -> enc_map m = Ok js -> Forall (fun kv => lex (snd kv)) js.
Proof.
  induction m as [|[k [t v]] m IH]; intros js H E; cbn [enc_map] in E; [injection E as <-; constructor|]. inversion H; subst. inv_bind. injection E as <-.
  constructor; [cbn; eapply enc_lex; eauto|auto].
Qed.
Lemma marshal_lex t v j : go_value v = true -> marshal t v = Ok j -> lex j.
Proof.
  intros G E. unfold marshal in E. destruct (mem_str (ty_name t) helper_types); [|eapply enc_lex; eauto].
  unfold enc_obj in E. inv_bind. injection E as <-. constructor. eapply enc_map_lex; [|eassumption].
  unfold value_to_map in Q. destruct t; try discriminate. destruct v; try discriminate. inv_bind. injection Q as <-. apply overlay_go; [exact G|].
  eapply fields_to_map_go; eauto.
Qed.

(** ** Text of such values *)
Lemma join_safe sep l : safe_text sep -> Forall safe_text l -> safe_text (join sep l).
Proof.
  intros S. induction l as [|x l IH]; intros H; [exact safe_nil|]. inversion H; subst. cbn [join]. destruct l; [assumption|]. apply safe_app; [assumption|]. apply safe_app; [assumption|]. auto.
Qed.
Lemma safe_lit s : all_safe s = true -> safe_text s.
Proof. apply all_safe_text. Qed.
Lemma q_safe s : safe_text s -> safe_text (q s).
Proof. intros H. unfold q. change (String qt (s ++ String qt "")) with (String qt "" ++ (s ++ String qt ""))%string. repeat apply safe_app; try exact H; now apply safe_lit. Qed.
Lemma quote_safe s : safe_text (quote s).
Proof. destruct (quote_exact s) as (l & _ & _ & H). exact H. Qed.
Lemma print_safe j : lex j -> safe_text (print j).
Proof.
  induction j as [|b|l|r|l IH|l IH] using json_ind'; intros H; inversion H; subst; cbn [print].
  - now apply safe_lit.
  - destruct b; now apply safe_lit.
  - now apply plain_safe, num_plain, num_ok_all.
  - now apply q_safe.
  - repeat apply safe_app; try (now apply safe_lit). apply join_safe; [now apply safe_lit|]. rewrite Forall_forall in *. intros s I. apply in_map_iff in I as (x & <- & I). apply IH; auto.
  - repeat apply safe_app; try (now apply safe_lit). apply join_safe; [now apply safe_lit|]. rewrite Forall_forall in *. intros s I. apply in_map_iff in I as ([k x] & <- & I).
    cbn [fst snd]. repeat apply safe_app; try (now apply safe_lit); [apply q_safe, quote_safe|]. apply (IH _ I), (H1 _ I).
Qed.

Lemma elems_of l : l <> [] -> Forall (fun s => exists j, jval j s) l -> exists js, jelems js (join "," l).
Proof.
  induction l as [|s l IH]; intros N H; [congruence|]. inversion H as [|? ? (j & J) H']; subst. destruct l as [|s' l].
  - exists [j]. assert (E := je_one j "" s "" ws_nil J ws_nil). cbn [String.append] in E. rewrite sapp_nil_r in E. exact E.
  - destruct (IH ltac:(discriminate) H') as (js & E). exists (j :: js). exact (je_cons j js "" s "" _ ws_nil J ws_nil E).
Qed.
Lemma mems_of (l : list (string * string)) : l <> [] -> Forall (fun ks => exists j, jval j (snd ks)) l ->
  exists ms, jmems ms (join "," (map (fun ks => (q (quote (fst ks)) ++ ":" ++ snd ks)%string) l)).
Proof.
  induction l as [|[k s] l IH]; intros N H; [congruence|]. inversion H as [|? ? (j & J) H']; subst. cbn [snd] in J.
  destruct (quote_reads _ k (le_n _)) as (k' & _ & U & _). destruct l as [|s' l].
  - exists [(k', j)]. assert (E := jm_one k' (quote k) j "" "" "" s "" ws_nil U ws_nil ws_nil J ws_nil). cbn [String.append] in E. rewrite sapp_nil_r in E. exact E.
  - destruct (IH ltac:(discriminate) H') as (ms & E). exists ((k', j) :: ms).
    set (g := fun ks : string * string => (q (quote (fst ks)) ++ ":" ++ snd ks)%string) in *.
    assert (X := jm_cons k' (quote k) j ms "" "" "" s "" _ ws_nil U ws_nil ws_nil J ws_nil E).
    change (join "," (map g ((k, s) :: s' :: l))) with ((q (quote k) ++ ":" ++ s) ++ "," ++ join "," (map g (s' :: l)))%string.
    rewrite !sapp_assoc. exact X.
Qed.
Lemma print_text j : lex j -> exists j', jval j' (print j).
Proof.
  induction j as [|b|l|r|l IH|l IH] using json_ind'; intros H; inversion H; subst; cbn [print].
  - exists JNull. constructor.
  - exists (JBool b). destruct b; constructor.
  - exists (JNum l). now constructor.
  - exists (JStr r). econstructor. eassumption.
  - destruct l as [|x l]; [exists (JArr []); apply (jv_arr0 ""), ws_nil|]. destruct (elems_of (map print (x :: l))) as (js & E); [discriminate|..].
    + rewrite Forall_forall in *. intros s I. apply in_map_iff in I as (y & <- & I). apply IH; auto.
    + exists (JArr js). exact (jv_arr _ _ E).
  - destruct l as [|x l]; [exists (JObj []); apply (jv_obj0 ""), ws_nil|]. destruct (mems_of (map (fun kv => (fst kv, print (snd kv))) (x :: l))) as (ms & E); [discriminate|..].
    + rewrite Forall_forall in *. intros s I. apply in_map_iff in I as (y & <- & I). cbn [snd]. apply (IH _ I), (H1 _ I).
    + exists (JObj ms). rewrite map_map in E. exact (jv_obj _ _ E).
Qed.

Lemma bundle_text_ok ty id l : Forall (fun s => (exists j, jval j s) /\ safe_text s) l ->
  (exists j, jval j (bundle_bytes (Bundle ty id l))) /\ safe_text (bundle_bytes (Bundle ty id l)).
Proof.
  intros H. assert (H1 : Forall (fun s => exists j, jval j s) l) by (eapply Forall_impl; [|exact H]; intros ? []; assumption).
  assert (H2 : Forall safe_text l) by (eapply Forall_impl; [|exact H]; intros ? []; assumption). unfold bundle_bytes. cbn [b_type b_id b_objects].
  assert (S : forall s, exists j, jval j (q (quote s))) by (intros s; destruct (quote_reads _ s (le_n _)) as (t & _ & U & _); exists (JStr (quote s)); econstructor; exact U).
  split.
  - destruct (mems_of ([("type", q (quote ty)); ("id", q (quote id))] ++ match l with [] => [] | _ => [("objects", ("[" ++ join "," l ++ "]")%string)] end)) as (ms & E).
    + discriminate.
    + constructor; [apply S|]. constructor; [apply S|]. destruct l as [|s l]; [constructor|]. constructor; [|constructor]. cbn [snd].
      destruct (elems_of (s :: l) ltac:(discriminate) H1) as (js & E). exists (JArr js). exact (jv_arr _ _ E).
    + exists (JObj ms). assert (X := jv_obj _ _ E). revert X. match goal with |- jval _ ?a -> jval _ ?b => replace a with b; [auto|] end.
      destruct l as [|s l]; cbn [map app join fst snd]; change (quote "type") with "type"; change (quote "id") with "id"; change (quote "objects") with "objects";
        rewrite !sapp_assoc; cbn [append]; rewrite ?sapp_assoc; cbn [append]; rewrite ?sapp_assoc; reflexivity.
  - repeat apply safe_app; try (now apply safe_lit); try (apply q_safe, quote_safe).
    destruct l as [|s l]; [exact safe_nil|]. repeat apply safe_app; try (now apply safe_lit). apply join_safe; [now apply safe_lit|exact H2].
Qed.
End T.
