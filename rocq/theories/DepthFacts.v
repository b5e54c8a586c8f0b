(** Lemmas: nesting of texts and values. *)
From Verif Require Import GoStr GoStrFacts JsonStr JsonStrFacts StrSpec StrSpecFacts Json JsonFacts JsonSpec JsonSpecFacts Float Consts GoTypes Schema GoVal GoValFacts Codec CodecSpec CodecFacts
  Ident Collection FromJson TextSpec TextFacts Depth DepthSpec.
Local Open Scope N_scope.

(** ** Texts *)
(** Reading [t] leaves as many open as before, and [L] more in between. *)
Definition takes (t : string) (L : N) : Prop := forall r d m, d <= m -> nest (t ++ r) false d m = nest r false d (N.max m (d + L)).

Definition calm_char (c : ascii) : bool := negb (Ascii.eqb c qt || Ascii.eqb c "[" || Ascii.eqb c "{" || Ascii.eqb c "]" || Ascii.eqb c "}").
Definition calm (s : string) : bool := forallb calm_char (list_ascii_of_string s).

Lemma takes_eq t L L' : takes t L -> L = L' -> takes t L'.
Proof. now intros H <-. Qed.
Lemma takes_calm t : calm t = true -> takes t 0.
Proof.
  unfold takes. induction t as [|c t IH]; intros H r d m D.
  - cbn [append]. f_equal. lia.
  - unfold calm in H. cbn [list_ascii_of_string forallb] in H. apply andb_true_iff in H as [A B]. cbn [append nest]. unfold calm_char in A.
    apply negb_true_iff in A. repeat (apply orb_false_iff in A as [A ?]). rewrite A, H, H0, H1, H2. cbn [orb]. now apply IH.
Qed.
Lemma takes_app s t L L' : takes s L -> takes t L' -> takes (s ++ t) (N.max L L').
Proof. intros A B r d m D. rewrite sapp_assoc, A, B by lia. f_equal. lia. Qed.
Lemma takes_wrap a b s L : (a = "[" /\ b = "]" \/ a = "{" /\ b = "}")%string -> takes s L -> takes (a ++ s ++ b) (1 + L).
Proof.
  intros H T r d m D. assert (X : nest ((a ++ s ++ b) ++ r) false d m = nest (s ++ b ++ r) false (d + 1) (N.max m (d + 1))).
  { rewrite !sapp_assoc. now destruct H as [[-> ->]|[-> ->]]. }
  rewrite X, T by lia. assert (Y : forall d m, nest (b ++ r) false d m = nest r false (d - 1) m) by (intros; now destruct H as [[-> ->]|[-> ->]]).
  rewrite Y. f_equal; lia.
Qed.
Lemma nest_scan : forall n s raw r, (String.length s <= n)%nat -> scan_str s = Some (raw, r) -> forall d m, nest s true d m = nest r false d m.
Proof.
  induction n as [|n IH]; intros s raw r Ls E d m; (destruct s as [|c s]; [discriminate|]); cbn [String.length] in Ls; [lia|]. cbn [scan_str] in E. cbn [nest].
  destruct (Ascii.eqb c qt); [injection E as _ <-; reflexivity|]. destruct (Ascii.eqb c bs).
  - destruct s as [|c' s]; [discriminate|]. cbn [String.length] in Ls. destruct (scan_str s) as [[x r']|] eqn:S; [|discriminate]. injection E as _ <-. eapply IH; [lia|exact S].
  - destruct (scan_str s) as [[x r']|] eqn:S; [|discriminate]. injection E as _ <-. eapply IH; [lia|exact S].
Qed.
Lemma takes_q raw x : unq raw = Some x -> takes (q raw) 0.
Proof.
  intros U r d m D. unfold q. assert (X : nest (String qt (raw ++ String qt "") ++ r) false d m = nest (raw ++ String qt r) true d m).
  { cbn [append nest]. rewrite Ascii.eqb_refl, sapp_assoc. reflexivity. }
  rewrite X, (nest_scan _ _ _ _ (le_n _) (scan_unq raw x U r)). f_equal. lia.
Qed.
Lemma ascii_all (f : ascii -> bool) : forallb f all_ascii = true -> forall c, f c = true.
Proof. intros H c. exact (ascii_sweep f H c). Qed.
Lemma ws_calm w : ws w -> calm w = true.
Proof.
  intros W. unfold calm. apply forallb_forall. intros c I. apply W in I.
  assert (X : forallb (fun c => negb (is_ws c) || calm_char c) all_ascii = true) by (vm_compute; reflexivity).
  assert (Y := ascii_all _ X c). cbv beta in Y. now rewrite I in Y.
Qed.
Lemma num_calm s : all_num s = true -> calm s = true.
Proof.
  induction s as [|c s IH]; [reflexivity|]. cbn [all_num]. intros H. apply andb_true_iff in H as [A B]. unfold calm. cbn [list_ascii_of_string forallb]. fold (calm s). rewrite (IH B), andb_true_r.
  assert (X : forallb (fun c => negb (is_numch c) || calm_char c) all_ascii = true) by (vm_compute; reflexivity).
  assert (Y := ascii_all _ X c). cbv beta in Y. now rewrite A in Y.
Qed.
Lemma takes_ws w : ws w -> takes w 0.
Proof. intros W. now apply takes_calm, ws_calm. Qed.

Lemma jval_takes : (forall j s, jval j s -> takes s (levels j)) /\ (forall l s, jelems l s -> takes s (deepest levels l)) /\
  (forall l s, jmems l s -> takes s (deepest (fun kx => levels (snd kx)) l)).
Proof.
  apply jgram_ind.
  - now apply takes_calm.
  - now apply takes_calm.
  - now apply takes_calm.
  - intros l H. now apply takes_calm, num_calm, num_ok_all.
  - intros raw x U. exact (takes_q raw x U).
  - intros w W. apply (takes_wrap "[" "]" w 0); [now left|now apply takes_ws].
  - intros l s _ IH. apply (takes_wrap "[" "]" s); [now left|exact IH].
  - intros w W. apply (takes_wrap "{" "}" w 0); [now right|now apply takes_ws].
  - intros l s _ IH. apply (takes_wrap "{" "}" s); [now right|exact IH].
  - intros j w1 s w2 W1 _ IH W2. eapply takes_eq; [repeat apply takes_app; [now apply takes_ws|exact IH|now apply takes_ws]|]. cbn [deepest fold_right]. lia.
  - intros j l w1 s w2 t W1 _ IH W2 _ IH'. change (String "," t) with ("," ++ t)%string.
    eapply takes_eq; [repeat apply takes_app; [now apply takes_ws|exact IH|now apply takes_ws|now apply takes_calm|exact IH']|]. cbn [deepest fold_right]. fold (deepest levels l). lia.
  - intros k raw j w1 w2 w3 s w4 W1 U W2 W3 _ IH W4. change (String ":" (w3 ++ s ++ w4)) with (":" ++ w3 ++ s ++ w4)%string.
    eapply takes_eq; [repeat apply takes_app; [now apply takes_ws|eapply takes_q; eassumption|now apply takes_ws|now apply takes_calm|now apply takes_ws|exact IH|now apply takes_ws]|].
    cbn [deepest fold_right snd]. lia.
  - intros k raw j l w1 w2 w3 s w4 t W1 U W2 W3 _ IH W4 _ IH'. change (String ":" (w3 ++ s ++ w4 ++ String "," t)) with (":" ++ w3 ++ s ++ w4 ++ "," ++ t)%string.
    eapply takes_eq; [repeat apply takes_app; [now apply takes_ws|eapply takes_q; eassumption|now apply takes_ws|now apply takes_calm|now apply takes_ws|exact IH|now apply takes_ws|now apply takes_calm|exact IH']|].
    cbn [deepest fold_right snd]. fold (deepest (fun kx : string * json => levels (snd kx)) l). lia.
Qed.
Lemma nesting_takes s L : takes s L -> nesting s = L.
Proof. intros T. unfold nesting. rewrite <- (sapp_nil_r s), T by lia. cbn [nest]. lia. Qed.
Lemma nesting_levels j s : json_text j s -> nesting s = levels j.
Proof.
  intros H. apply json_exact, parse_json_iff in H as (w1 & t & w2 & W1 & W2 & J & ->). apply nesting_takes.
  eapply takes_eq; [repeat apply takes_app; [now apply takes_ws|exact (proj1 jval_takes _ _ J)|now apply takes_ws]|]. lia.
Qed.

(** ** Written texts *)
Lemma takes_join {A} (f : A -> string) (g : A -> N) l : Forall (fun x => takes (f x) (g x)) l -> takes (join "," (map f l)) (deepest g l).
Proof.
  induction 1 as [|x l T F IH]; [now apply takes_calm|]. destruct l as [|y l].
  - cbn [map join deepest fold_right]. eapply takes_eq; [exact T|lia].
  - change (join "," (map f (x :: y :: l))) with (f x ++ "," ++ join "," (map f (y :: l)))%string. eapply takes_eq; [repeat apply takes_app; [exact T|now apply takes_calm|exact IH]|].
    cbn [deepest fold_right]. lia.
Qed.
Lemma takes_quote s : takes (q (quote s)) 0.
Proof. destruct (quote_reads _ s (le_n _)) as (t & _ & U & _). eapply takes_q. exact U. Qed.
Lemma print_takes j : lex j -> takes (print j) (levels j).
Proof.
  induction j as [|b|l|r|l IH|l IH] using json_ind'; intros H; inversion H; subst; cbn [print levels].
  - now apply takes_calm.
  - destruct b; now apply takes_calm.
  - now apply takes_calm, num_calm, num_ok_all.
  - eapply takes_q. eassumption.
  - apply takes_wrap; [now left|]. apply takes_join. rewrite Forall_forall in *. auto.
  - apply takes_wrap; [now right|]. apply (takes_join (fun kv : string * json => (q (quote (fst kv)) ++ ":" ++ print (snd kv))%string) (fun kv => levels (snd kv))). rewrite Forall_forall in *.
    intros kv I. eapply takes_eq; [repeat apply takes_app; [apply takes_quote|now apply takes_calm|exact (IH _ I (H1 _ I))]|]. lia.
Qed.
Lemma bundle_takes ty id js : Forall lex js -> takes (bundle_bytes (Bundle ty id (map print js))) (match js with [] => 1 | _ => 2 + deepest levels js end).
Proof.
  intros F. unfold bundle_bytes. cbn [b_type b_id b_objects].
  assert (X : takes (match map print js with [] => "" | l => "," ++ q "objects" ++ ":[" ++ join "," l ++ "]" end)%string (match js with [] => 0 | _ => 1 + deepest levels js end)).
  { destruct js as [|j js]; [now apply takes_calm|]. change (map print (j :: js)) with (print j :: map print js). cbv iota.
    change (":[" ++ join "," (print j :: map print js) ++ "]")%string with (":" ++ "[" ++ join "," (map print (j :: js)) ++ "]")%string.
    eapply takes_eq; [apply takes_app; [now apply takes_calm|apply takes_app; [apply (takes_quote "objects")|apply takes_app; [now apply takes_calm|apply takes_wrap; [now left|apply takes_join]]]]|].
    - eapply Forall_impl; [|exact F]. intros x. apply print_takes.
    - cbv iota. change (fun x : json => levels x) with levels. lia. }
  revert X. match goal with |- takes ?y _ -> _ => set (x := y) end. intros X.
  replace ("{" ++ q "type" ++ ":" ++ q (quote ty) ++ "," ++ q "id" ++ ":" ++ q (quote id) ++ x ++ "}")%string
    with ("{" ++ (q "type" ++ ":" ++ q (quote ty) ++ "," ++ q "id" ++ ":" ++ q (quote id) ++ x) ++ "}")%string by (rewrite !sapp_assoc; reflexivity).
  assert (Y : takes (q "type" ++ ":" ++ q (quote ty) ++ "," ++ q "id" ++ ":" ++ q (quote id) ++ x) (match js with [] => 0 | _ => 1 + deepest levels js end)).
  { eapply takes_eq; [repeat apply takes_app; [apply (takes_quote "type")|now apply takes_calm|apply takes_quote|now apply takes_calm|apply (takes_quote "id")|now apply takes_calm|apply takes_quote|exact X]|]. lia. }
  eapply takes_eq; [apply takes_wrap; [now right|exact Y]|]. destruct js; lia.
Qed.

(** ** Values and what they are encoded to *)
Ltac inv_bind := repeat match goal with H : bind _ _ = Ok _ |- _ => apply bind_ok in H; let a := fresh "a" in let Q := fresh "Q" in destruct H as (a & Q & H) end.
Lemma deepest_le {A} (f : A -> N) l b : (forall x, In x l -> f x <= b) -> deepest f l <= b.
Proof. induction l as [|x l IH]; intros H; cbn [deepest fold_right]; [lia|]. fold (deepest f l). assert (f x <= b) by (apply H; now left). assert (deepest f l <= b) by (apply IH; intros; apply H; now right). lia. Qed.
Lemma in_deepest {A} (f : A -> N) l x : In x l -> f x <= deepest f l.
Proof. induction l as [|y l IH]; intros []; cbn [deepest fold_right]; fold (deepest f l); [subst; lia|specialize (IH H); lia]. Qed.
Lemma enc_levels v : forall t j, enc t v = Ok j -> levels j <= go_levels v.
Proof.
  induction v using gval_ind'; intros t0 j0 E; cbn [enc] in E; cbn [go_levels]; try (injection E as <-; cbn [levels]; lia).
  - destruct (fmt_float f); [|discriminate]. injection E as <-. cbn [levels]. lia.
  - destruct t0; try discriminate. injection E as <-. cbn [levels]. lia.
  - destruct t0; try discriminate. eauto.
  - destruct t0; try discriminate. inv_bind. injection E as <-. cbn [levels]. enough (deepest levels a <= deepest go_levels l) by lia.
    revert a Q. rewrite Forall_forall in H. induction l as [|x l IH]; intros js Q; cbn [enc_list] in Q; [injection Q as <-; cbn; lia|].
    fold (enc_list (enc t0)) in Q. inv_bind. injection Q as <-. cbn [deepest fold_right]. fold (deepest levels a0). fold (deepest go_levels l).
    assert (levels a <= go_levels x) by (eapply H; [now left|eassumption]). assert (deepest levels a0 <= deepest go_levels l) by (apply IH; [intros; eapply H; [right|]; eauto|assumption]). lia.
  - assert (G : forall t' l js, (forall x, In x l -> forall t j, enc t (snd x) = Ok j -> levels j <= go_levels (snd x)) -> enc_mems (enc t') l = Ok js ->
                 deepest (fun kx => levels (snd kx)) js <= deepest (fun kx => go_levels (snd kx)) l).
    { clear. intros t'. induction l as [|[k x] l IH]; intros js H Q; cbn [enc_mems] in Q; [injection Q as <-; cbn; lia|].
      fold (enc_mems (enc t')) in Q. inv_bind. injection Q as <-. cbn [deepest fold_right snd]. fold (deepest (fun kx : string * json => levels (snd kx)) a0). fold (deepest (fun kx : string * gval => go_levels (snd kx)) l).
      assert (levels a <= go_levels x) by (eapply (H (k, x)); [now left|eassumption]). assert (Y := IH a0 (fun y I => H y (or_intror I)) Q1). lia. }
    rewrite Forall_forall in H. destruct t0; try discriminate; inv_bind; injection E as <-; cbn [levels]; (assert (Y := G _ _ _ H Q); lia).
  - rewrite Forall_forall in H. destruct t0; try discriminate. inv_bind. injection E as <-. cbn [levels].
    enough (deepest (fun kx => levels (snd kx)) a <= deepest (fun kx => go_levels (snd kx)) l) by lia. 
    revert fields a Q. induction l as [|[k x] l IH]; intros fs js Q; [assert (js = []) by (destruct fs as [|[]]; cbn [enc_fields] in Q; congruence); subst; cbn; lia|].
    destruct fs as [|[fm t] fs]; [assert (js = []) by (cbn [enc_fields] in Q; congruence); subst; cbn; lia|]. cbn [enc_fields] in Q. fold (enc_fields enc) in Q.
    cbn [deepest fold_right snd]. fold (deepest (fun kx : string * gval => go_levels (snd kx)) l).
    assert (IH' := IH (fun y I => H y (or_intror I))).
    destruct (is_empty (fm_key fm)); [specialize (IH' _ _ Q); lia|]. destruct (fm_omit fm && is_empty_val x)%bool; [specialize (IH' _ _ Q); lia|].
    inv_bind. injection Q as <-. cbn [deepest fold_right snd]. fold (deepest (fun kx : string * json => levels (snd kx)) a0).
    specialize (IH' _ _ Q1). assert (levels a <= go_levels x) by (eapply (H (k, x)); [now left|eassumption]). lia.
  - eauto.
Qed.

(** Entries of the map that valueToMap builds. *)
Definition entry_le (b : N) (kv : string * (gty * gval)) : Prop := go_levels (snd (snd kv)) <= b.
Lemma put_all_le b l : forall m, (forall kx, In kx l -> go_levels (snd kx) <= b) -> Forall (entry_le b) m -> Forall (entry_le b) (put_all l m).
Proof.
  unfold put_all. induction l as [|[k x] l IH]; intros m H F; [exact F|]. cbn [fold_left fst snd]. apply IH; [intros; apply H; now right|].
  apply minsert_all; [exact F|]. unfold entry_le. cbn. apply (H (k, x)). now left.
Qed.
Lemma field_levels n v b : go_levels v <= 1 + b -> go_levels (get_field n v) <= b.
Proof.
  intros H. unfold get_field. destruct v; cbn [go_levels]; try lia. destruct (alookup n l) as [w|] eqn:E; [|cbn; lia]. apply alookup_Some_In in E.
  cbn [go_levels] in H. assert (X := in_deepest (fun kx : string * gval => go_levels (snd kx)) l _ E). cbn [snd] in X. lia.
Qed.
Lemma overlay_le b n v m : go_levels v <= 1 + b -> Forall (entry_le b) m -> Forall (entry_le b) (overlay n v m).
Proof.
  intros H F. unfold overlay. destruct (mem_str n _); [|exact F]. assert (G := field_levels "toplevelProperties" v b H).
  destruct (get_field "toplevelProperties" v) as [| | | | | | | |w| | | | |]; try exact F. destruct w; try exact F. apply put_all_le; [|exact F].
  intros kx I. cbn [go_levels] in G. assert (X := in_deepest (fun kx : string * gval => go_levels (snd kx)) l _ I). cbv beta in X. lia.
Qed.
Lemma put_field_le b fm t v m m' : go_levels v <= b -> Forall (entry_le b) m -> put_field fm t v m = Ok m' -> Forall (entry_le b) m'.
Proof.
  intros H F. unfold put_field. destruct (is_empty _); [intros Q; now injection Q as <-|]. destruct (match v with VBool _ => false | _ => is_zero v end).
  - destruct (fm_omit fm); [intros Q; now injection Q as <-|discriminate].
  - intros Q. injection Q as <-. now apply minsert_all.
Qed.
Lemma put_fields_le b : forall vs fs m m', (forall kx, In kx vs -> go_levels (snd kx) <= b) -> Forall (entry_le b) m -> put_fields fs vs m = Ok m' -> Forall (entry_le b) m'.
Proof.
  induction vs as [|[k v] vs IH]; intros [|[fm t] fs] m m' H F E; cbn [put_fields] in E; try (now injection E as <-). inv_bind.
  eapply IH; [intros; apply H; now right| |exact E]. eapply put_field_le; [apply (H (k, v)); now left|exact F|exact Q].
Qed.
Lemma base_le b t v m m' : go_levels v <= b -> Forall (entry_le b) m -> base_to_map t v m = Ok m' -> Forall (entry_le b) m'.
Proof.
  intros H F E. unfold base_to_map in E. destruct t; try discriminate. destruct v; try discriminate. inv_bind. injection E as <-. apply overlay_le; [lia|].
  eapply put_fields_le; [|exact F|exact Q]. intros kx I. cbn [go_levels] in H. assert (X := in_deepest (fun kx : string * gval => go_levels (snd kx)) l _ I). cbv beta in X. lia.
Qed.
Lemma fields_le b : forall vs fs m m', (forall kx, In kx vs -> go_levels (snd kx) <= b) -> Forall (entry_le b) m -> fields_to_map fs vs m = Ok m' -> Forall (entry_le b) m'.
Proof.
  induction vs as [|[k v] vs IH]; intros [|[fm t] fs] m m' H F E; cbn [fields_to_map] in E; try (now injection E as <-). inv_bind.
  eapply IH; [intros; apply H; now right| |exact E]. assert (Hv := H (k, v) (or_introl eq_refl)). cbn [snd] in Hv.
  destruct (mem_str _ _); [eapply base_le|eapply put_field_le]; eauto.
Qed.
Lemma marshal_levels t v j : marshal t v = Ok j -> levels j <= go_levels v.
Proof.
  unfold marshal, enc_obj. destruct (mem_str _ _); [|apply enc_levels]. intros E. inv_bind. injection E as <-. unfold value_to_map in Q.
  destruct t; try discriminate. destruct v; try discriminate. inv_bind. injection Q as <-. cbn [levels go_levels].
  assert (F : Forall (entry_le (deepest (fun kx => go_levels (snd kx)) l)) (overlay name (VStruct l) a1)).
  { apply overlay_le; [cbn [go_levels]; lia|]. eapply fields_le; [|constructor|exact Q1]. intros kx I. exact (in_deepest (fun kx : string * gval => go_levels (snd kx)) l _ I). }
  enough (forall m js, Forall (entry_le (deepest (fun kx => go_levels (snd kx)) l)) m -> enc_map m = Ok js -> deepest (fun kx => levels (snd kx)) js <= deepest (fun kx => go_levels (snd kx)) l)
    by (specialize (H _ _ F Q0); lia).
  clear. induction m as [|[k [t v]] m IH]; intros js F E; cbn [enc_map] in E; [injection E as <-; cbn; lia|]. inv_bind. injection E as <-. inversion F as [|? ? F1 F2]; subst.
  unfold entry_le in F1. cbn [snd] in F1. apply enc_levels in Q. cbn [deepest fold_right snd]. specialize (IH _ F2 Q0). unfold deepest in IH at 1. lia.
Qed.
