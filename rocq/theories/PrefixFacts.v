(** Where a JSON text ends (for C72). *)
From Verif Require Import GoStr GoStrFacts JsonStr JsonStrFacts StrSpec StrSpecFacts JsonSpec JsonSpecFacts Json JsonFacts.

Local Opaque Ascii.eqb.
(** A value other than a number is recognised whatever follows it. *)
Lemma p_closed j t : jval j t -> (forall l, j <> JNum l) -> forall n r w, ws w -> (2 * String.length t <= n)%nat -> p_val n (w ++ t ++ r)%string = Some (j, r).
Proof.
  intros H N n r w Hw L. destruct H as [| | |l Hl|raw x Hx|w0 Hw0|l s Hs|w0 Hw0|l s Hs]; try (now destruct (N l eq_refl)); (destruct n; [cbn in L; lia|]).
  1-3: cbn [p_val]; rewrite skip_ws_app by exact Hw; reflexivity.
  - cbn [p_val]. rewrite skip_ws_app by exact Hw. unfold q. rewrite sapp_cons, sapp_assoc.
    rewrite skip_ws_id by reflexivity. cbn [String.append].
    change (Ascii.eqb qt "{") with false. change (Ascii.eqb qt "[") with false. change (Ascii.eqb qt qt) with true.
    cbv iota. rewrite (scan_unq _ _ Hx), Hx. reflexivity.
  - cbn [p_val]. rewrite skip_ws_app by exact Hw. rewrite sapp_cons, sapp_assoc. rewrite skip_ws_id by reflexivity.
    change (Ascii.eqb "[" "{") with false. change (Ascii.eqb "[" "[") with true. cbv iota.
    rewrite skip_ws_app by exact Hw0. reflexivity.
  - cbn [p_val]. rewrite skip_ws_app by exact Hw. rewrite sapp_cons, sapp_assoc. rewrite skip_ws_id by reflexivity.
    change (Ascii.eqb "[" "{") with false. change (Ascii.eqb "[" "[") with true. cbv iota.
    cbn [String.append]. cbn [String.length] in L. rewrite slength_app in L. cbn [String.length] in L.
    assert (E : expect "]" (skip_ws (s ++ String "]" r)) = None).
    { inversion Hs as [j w1 s0 w2 A B C | j l0 w1 s0 w2 t0 A B C D]; subst;
      rewrite !sapp_assoc, skip_ws_app by assumption;
      destruct (jval_head _ _ B) as (c & t' & -> & Hc & Hc1 & Hc2);
      cbn [String.append]; rewrite skip_ws_id by exact Hc; apply expect_ne; now rewrite Ascii.eqb_sym. }
    rewrite E, (proj1 (proj2 p_complete) _ _ Hs) by lia. reflexivity.
  - cbn [p_val]. rewrite skip_ws_app by exact Hw. rewrite sapp_cons, sapp_assoc. rewrite skip_ws_id by reflexivity.
    change (Ascii.eqb "{" "{") with true. cbv iota. rewrite skip_ws_app by exact Hw0. reflexivity.
  - cbn [p_val]. rewrite skip_ws_app by exact Hw. rewrite sapp_cons, sapp_assoc. rewrite skip_ws_id by reflexivity.
    change (Ascii.eqb "{" "{") with true. cbv iota.
    cbn [String.append]. cbn [String.length] in L. rewrite slength_app in L. cbn [String.length] in L.
    assert (E : expect "}" (skip_ws (s ++ String "}" r)) = None).
    { inversion Hs; subst; rewrite !sapp_assoc, skip_ws_app by assumption; reflexivity. }
    rewrite E, (proj2 (proj2 p_complete) _ _ Hs) by lia. reflexivity.
Qed.
Local Transparent Ascii.eqb.

Lemma skip_ws_nil s : skip_ws s = ""%string -> ws s.
Proof. intros H. destruct (skip_ws_split s) as (w & Hw & E). rewrite H, sapp_nil_r in E. now subst. Qed.

Lemma text_end j s j' u : json_text j s -> (forall l, j <> JNum l) -> json_text j' (s ++ u) -> blank u /\ j' = j.
Proof.
  intros T N T'. apply json_exact in T, T'. apply parse_json_iff in T as (w1 & t & w2 & H1 & H2 & Ht & ->).
  unfold parse_json in T'. destruct (p_val (fuel_for ((w1 ++ t ++ w2) ++ u)) ((w1 ++ t ++ w2) ++ u)) as [[j1 r]|] eqn:E; [|discriminate].
  rewrite !sapp_assoc in E. rewrite (p_closed j t Ht N) in E; [|exact H1|unfold fuel_for; rewrite !slength_app; lia]. injection E as <- <-.
  rewrite skip_ws_app in T' by exact H2. destruct (is_empty (skip_ws u)) eqn:Q; [|discriminate]. apply is_empty_true in Q. split; [|congruence].
  apply ws_blank. now apply skip_ws_nil.
Qed.
