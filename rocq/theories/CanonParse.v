(** The canonicalizer on texts of values. *)
From Verif Require Import GoStr GoStrFacts JsonStr JsonStrFacts Json JsonFacts Float FloatFacts NumFmt NumSpec StrSpec StrSpecFacts JsonSpec JsonSpecFacts Canon CanonSpec NumFmtFacts CanonFacts.
From Coq Require Import Permutation Sorted Lia.
Local Open Scope N_scope.

Scheme jc_mut := Minimality for jc Sort Prop
  with jcelems_mut := Minimality for jcelems Sort Prop
  with jcmems_mut := Minimality for jcmems Sort Prop.
Combined Scheme jc_combined from jc_mut, jcelems_mut, jcmems_mut.

Lemma sapp_assoc a b c : ((a ++ b) ++ c = a ++ b ++ c)%string.
Proof. induction a as [|x a IH]; cbn; [reflexivity|now rewrite IH]. Qed.
Lemma sapp_nil a : (a ++ "")%string = a.
Proof. induction a as [|x a IH]; cbn; [reflexivity|now rewrite IH]. Qed.

(** * Objects whose names differ in their sort keys *)
Inductive keyfree : cval -> Prop :=
| kf_null : keyfree CNull
| kf_bool b : keyfree (CBool b)
| kf_num f : keyfree (CNum f)
| kf_str s : keyfree (CStr s)
| kf_arr l : keyfree_list l -> keyfree (CArr l)
| kf_obj l : NoDup (map ukey (map fst l)) -> keyfree_list (map snd l) -> keyfree (CObj l)
with keyfree_list : list cval -> Prop :=
| kfl_nil : keyfree_list []
| kfl_cons v l : keyfree v -> keyfree_list l -> keyfree_list (v :: l).

(** * The members read so far *)
Definition nv_rel (kv : string * cval) (x : name_value) : Prop :=
  exists t, x = (fst kv, ukey (fst kv), t) /\ jcs (snd kv) t.
(** The members inserted so far are those read so far, in sorted order. *)
Definition acc_rel (l : list (string * cval)) (acc : list name_value) : Prop :=
  exists l', Permutation l l' /\ Forall2 nv_rel l' acc /\ StronglySorted lex (map nv_key acc).
Lemma nv_rel_keys l acc : Forall2 nv_rel l acc -> map nv_key acc = map ukey (map fst l).
Proof. induction 1 as [|kv x l acc (t & -> & _) _ IH]; [reflexivity|]. cbn [map]. now rewrite IH. Qed.
Lemma Forall2_perm {A B} (R : A -> B -> Prop) l1 l2 : Permutation l1 l2 -> forall l, Forall2 R l l1 -> exists l', Permutation l l' /\ Forall2 R l' l2.
Proof.
  induction 1 as [|y l1 l2 P IH|y z l1|l1 l2 l3 P1 IH1 P2 IH2]; intros l F.
  - inversion F; subst. exists []. auto.
  - inversion F as [|x ? l0 ? Hx F0]; subst. destruct (IH _ F0) as (l' & P' & F'). exists (x :: l'). split; [now constructor|now constructor].
  - inversion F as [|x ? l0 ? Hx F0]; subst. inversion F0 as [|x' ? l0' ? Hx' F0']; subst. exists (x' :: x :: l0'). split; [apply perm_swap|auto].
  - destruct (IH1 _ F) as (l' & P' & F'). destruct (IH2 _ F') as (l'' & P'' & F''). exists l''. split; [eapply Permutation_trans; eauto|exact F''].
Qed.
Lemma acc_new l acc k v t : acc_rel l acc -> jcs v t -> ~ In (ukey k) (map ukey (map fst l)) ->
  exists acc', insert_nv (k, utf16_encode (runes k), t) acc = (acc', false) /\ acc_rel (l ++ [(k, v)]) acc'.
Proof.
  intros (l' & P & F & S) J N. destruct (insert_new (k, ukey k, t) acc S) as (acc' & E & P' & S').
  { rewrite (nv_rel_keys _ _ F). unfold nv_key. cbn [fst snd]. intros H. apply N. eapply Permutation_in; [|exact H]. apply Permutation_map, Permutation_map, Permutation_sym, P. }
  exists acc'. split; [exact E|]. assert (F1 : Forall2 nv_rel ((k, v) :: l') ((k, ukey k, t) :: acc)).
  { constructor; [|exact F]. exists t. auto. }
  destruct (Forall2_perm _ _ _ P' _ F1) as (l2 & P2 & F2). exists l2. split; [|auto].
  eapply Permutation_trans; [|exact P2]. eapply Permutation_trans; [apply Permutation_sym; apply Permutation_cons_append|now constructor].
Qed.
Lemma acc_dup l acc k t : acc_rel l acc -> In (ukey k) (map ukey (map fst l)) ->
  exists acc', insert_nv (k, utf16_encode (runes k), t) acc = (acc', true).
Proof.
  intros (l' & P & F & S) N. apply (insert_dup (k, ukey k, t) acc S). rewrite (nv_rel_keys _ _ F). unfold nv_key. cbn [fst snd].
  eapply Permutation_in; [|exact N]. now apply Permutation_map, Permutation_map.
Qed.
Lemma keys_sorted ks : StronglySorted lex (map ukey ks) <-> StronglySorted name_lt ks.
Proof.
  induction ks as [|k ks IH]; cbn [map]; [split; constructor|]. split; intros S; inversion S as [|? ? S1 S2]; subst; (constructor; [now apply IH|]); rewrite Forall_forall in *.
  - intros k' Hk'. apply name_lt_key. apply S2. now apply in_map.
  - intros x Hx. apply in_map_iff in Hx as (k' & <- & Hk'). apply name_lt_key. now apply S2.
Qed.
Lemma acc_write l acc : acc_rel l acc -> jcs (CObj l) (write_object acc).
Proof.
  intros (l' & P & F & S). unfold write_object. apply jcs_obj with (l' := l'); [exact P| |].
  - rewrite (nv_rel_keys _ _ F) in S. now apply keys_sorted.
  - clear - F. induction F as [|kv x l acc (t & -> & J) _ IH]; [constructor|]. destruct kv as [k v]. cbn [map fst snd write_nv]. unfold write_nv. cbn [fst snd]. rewrite decorate_jcs.
    now constructor.
Qed.

Section Parse.
Variable pf : string -> flt * bool.
Notation jc := (jc (lax_num pf) lax_str).
Notation jcelems := (jcelems (lax_num pf) lax_str).
Notation jcmems := (jcmems (lax_num pf) lax_str).

(** The run ends with an error set. *)
Definition failed {A} (o : out A) : Prop := exists a s, o = Done a s /\ c_err s <> None.
(** The run writes the canonical text of [v] and stops at [rest] if no object in
    [v] has a name twice; otherwise it fails. *)
Definition outcome (v : cval) (rest : string) (o : out string) : Prop :=
  (exists t pre, o = Done t (CSt pre rest None) /\ jcs v t /\ keyfree v) \/ (failed o /\ ~ keyfree v).
(** The claim proved by induction, for values ... *)
Definition P_val (v : cval) (txt : string) : Prop := forall n w pre rest,
  ws w -> delim rest -> (2 * String.length (w ++ txt ++ rest) + 2 <= n)%nat ->
  outcome v rest (element pf n (CSt pre (w ++ txt ++ rest) None)).
(** ... for the elements of an array ... *)
Definition P_elems (l : list cval) (txt : string) : Prop := forall n (next : bool) w pre rest,
  ws w -> let src := ((if next then w ++ String "," txt else txt) ++ String "]" rest)%string in
  (2 * String.length src + 3 <= n)%nat ->
  (exists ts pre', elements pf n next (CSt pre src None) = Done ((if next then "," else "") ++ join "," ts ++ "]")%string (CSt pre' rest None) /\
                   ts <> [] /\ jcs_list l ts /\ keyfree_list l) \/
  (failed (elements pf n next (CSt pre src None)) /\ ~ keyfree_list l).
(** No two members have the same name, at any depth. *)
Definition mems_ok (l0 l : list (string * cval)) : Prop := NoDup (map ukey (map fst (l0 ++ l))) /\ keyfree_list (map snd l).
(** ... and for the members of an object. *)
Definition P_mems (l : list (string * cval)) (txt : string) : Prop := forall n (next : bool) w pre rest l0 acc,
  ws w -> acc_rel l0 acc -> NoDup (map ukey (map fst l0)) -> let src := ((if next then w ++ String "," txt else txt) ++ String "}" rest)%string in
  (2 * String.length src + 3 <= n)%nat ->
  (exists acc' pre', members pf n next acc (CSt pre src None) = Done acc' (CSt pre' rest None) /\ acc_rel (l0 ++ l) acc' /\ mems_ok l0 l) \/
  (failed (members pf n next acc (CSt pre src None)) /\ ~ mems_ok l0 l).

Lemma scan_from_err rest : forall pre x, exists pre' r', snd (scan_from pre rest (Some x)) = CSt pre' r' (Some x).
Proof.
  induction rest as [|c r IH]; intros pre x; cbn [scan_from].
  - unfold set_err. cbn. eauto.
  - destruct (is_ws c); cbn [ascii_check]; [apply IH|cbn [snd]; eauto].
Qed.
Lemma elements_failed n next s : c_err s <> None -> failed (elements pf (S n) next s).
Proof.
  intros H. destruct s as [p r [x|]]; [|now destruct H]. cbn [elements c_err]. unfold scan. cbn [c_pre c_rest c_err].
  destruct (scan_from_err r p x) as (p' & r' & ->). exists "]"%string, (CSt p' r' (Some x)). split; [reflexivity|discriminate].
Qed.
Lemma members_failed n next acc s : c_err s <> None -> failed (members pf (S n) next acc s).
Proof.
  intros H. destruct s as [p r [x|]]; [|now destruct H]. cbn [members c_err]. unfold scan. cbn [c_pre c_rest c_err].
  destruct (scan_from_err r p x) as (p' & r' & ->). exists acc, (CSt p' r' (Some x)). split; [reflexivity|discriminate].
Qed.
Lemma set_err_err m s : c_err (set_err m s) <> None.
Proof. destruct s as [p r [x|]]; discriminate. Qed.
Lemma failed_oapp p o : failed o -> failed (oapp p o).
Proof. intros (a & s & -> & H). exists (p ++ a)%string, s. auto. Qed.
Lemma delim_c w c r : ws w -> In c [","; "]"; "}"]%char -> delim (w ++ String c r).
Proof. intros W H. exists w, c, r. auto. Qed.

(** The end of an array. *)
Lemma elements_end n next w pre rest : ws w -> (0 < n)%nat -> exists pre',
  elements pf n next (CSt pre (w ++ String "]" rest) None) = Done "]"%string (CSt pre' rest None).
Proof.
  intros W L. destruct n as [|n]; [lia|]. cbn [elements c_err]. rewrite test_ws; [|exact W|reflexivity|reflexivity]. rewrite Ascii.eqb_refl.
  destruct (scan_ws w W pre "]" rest eq_refl eq_refl) as (p & ->). cbn [snd]. eauto.
Qed.
Lemma members_end n next acc w pre rest : ws w -> (0 < n)%nat -> exists pre',
  members pf n next acc (CSt pre (w ++ String "}" rest) None) = Done acc (CSt pre' rest None).
Proof.
  intros W L. destruct n as [|n]; [lia|]. cbn [members c_err]. rewrite test_ws; [|exact W|reflexivity|reflexivity]. rewrite Ascii.eqb_refl.
  destruct (scan_ws w W pre "}" rest eq_refl eq_refl) as (p & ->). cbn [snd]. eauto.
Qed.

(** What a value can start with. *)
Definition first_ok (txt : string) : Prop := exists c r, txt = String c r /\ is_ws c = false /\ bt c < 128 /\ Ascii.eqb c "]" = false.
Lemma jc_first v s : jc v s -> first_ok s.
Proof.
  intros H. destruct H as [| | |l neg m e O|raw x H|w W|l s H|w W|l s H]; try (eexists _, _; split; [reflexivity|repeat split; reflexivity]).
  - destruct O as [O _]. destruct (token_text_plain _ O) as (P & c & r & -> & _). exists c, r. split; [reflexivity|].
    destruct (P c) as (X1 & X2 & X3); [now left|]. repeat split; auto. rewrite !orb_false_iff in X3. tauto.
Qed.

Lemma element_lit n w pre rest c l : ws w -> delim rest -> mem_str (String c l) literals = true -> (0 < n)%nat -> exists pre',
  element pf n (CSt pre (w ++ String c l ++ rest) None) = Done (String c l) (CSt pre' rest None).
Proof.
  intros W D M L. destruct n as [|n]; [lia|]. apply mem_str_In in M. destruct M as [M|[M|[M|[]]]]; injection M as <- <-; cbn [append element];
  (match goal with |- context[(w ++ String ?c ?r)%string] => destruct (scan_ws w W pre c r eq_refl eq_refl) as (p & ->) end);
  (match goal with |- context[simple _ (CSt (String ?c _) ?r _)] =>
     match r with String ?a (String ?b (String ?d rest)) => destruct (simple_token pf c (String a (String b (String d ""))) p rest) as (p' & E)
                | String ?a (String ?b (String ?d (String ?e rest))) => destruct (simple_token pf c (String a (String b (String d (String e "")))) p rest) as (p' & E) end end);
  try exact D; try (intros x Hx; cbn in Hx; decompose [or] Hx; subst; try contradiction; repeat split; reflexivity);
  cbn [append] in E; cbn [Ascii.eqb Bool.eqb]; exists p'; exact E.
Qed.

Lemma keyfree_list_cons v l : keyfree_list (v :: l) <-> keyfree v /\ keyfree_list l.
Proof. split; [intros H; inversion H; auto|intros [H1 H2]; now constructor]. Qed.
Lemma join_cons t ts : ts <> [] -> join "," (t :: ts) = (t ++ "," ++ join "," ts)%string.
Proof. destruct ts; [congruence|reflexivity]. Qed.

(** One element of an array up to the text after it. *)
Lemma elements_step n (next : bool) w w1 txt pre rest v : P_val v txt -> first_ok txt -> ws w -> ws w1 -> delim rest ->
  let src := ((if next then w ++ String "," (w1 ++ txt) else w1 ++ txt) ++ rest)%string in
  (2 * String.length src + 3 <= S n)%nat ->
  exists o, elements pf (S n) next (CSt pre src None) = obind o (fun x s3 => oapp (if next then "," ++ x else x)%string (elements pf n true s3)) /\ outcome v rest o.
Proof.
  intros PV (c & r & Etxt & F1 & F2 & F3) W W1 D src L. exists (element pf n (if next then scan_for "," (CSt pre src None) else CSt pre src None)).
  destruct next; subst src; cbv beta iota in *; rewrite ?sapp_assoc in *; cbn [append] in *; rewrite ?sapp_assoc in *; cbn [elements c_err].
  - rewrite test_ws; [|exact W|reflexivity|reflexivity]. change (Ascii.eqb "," "]") with false. cbv beta iota. split; [reflexivity|].
    destruct (scan_for_ws w pre "," (w1 ++ txt ++ rest) W eq_refl eq_refl) as (p & ->). apply PV; [exact W1|exact D|].
    rewrite !slen_app in L. cbn [String.length] in L. rewrite !slen_app in L. rewrite !slen_app. lia.
  - subst txt. cbn [append] in *. rewrite test_ws; [|exact W1|exact F1|exact F2]. rewrite F3. split; [reflexivity|].
    change (String c (r ++ rest))%string with ((String c r) ++ rest)%string. apply PV; [exact W1|exact D|]. cbn [append]. lia.
Qed.
Lemma members_step n (next : bool) acc w w1 raw k w2 w3 txt pre rest v : P_val v txt -> strval raw k -> ws w -> ws w1 -> ws w2 -> ws w3 -> delim rest ->
  let src := ((if next then w ++ String "," (w1 ++ q raw ++ w2 ++ String ":" (w3 ++ txt)) else w1 ++ q raw ++ w2 ++ String ":" (w3 ++ txt)) ++ rest)%string in
  (2 * String.length src + 3 <= S n)%nat ->
  exists o, members pf (S n) next acc (CSt pre src None) =
     obind o (fun x s6 => let (l', dup) := insert_nv (k, utf16_encode (runes k), x) acc in members pf n true l' (if dup then set_err "Duplicate key" s6 else s6)) /\ outcome v rest o.
Proof.
  intros PV SV W W1 W2 W3 D src L.
  assert (H : exists p, (if next then scan_for "," (CSt pre src None) else CSt pre src None) = CSt p (w1 ++ String qt (raw ++ String qt (w2 ++ String ":" (w3 ++ txt ++ rest)))) None /\
      snd (test_next (CSt pre src None)) = CSt pre src None /\ Ascii.eqb (fst (test_next (CSt pre src None))) "}" = false).
  { unfold src, q. destruct next; repeat (cbn [append]; rewrite ?sapp_assoc).
    - rewrite test_ws; [|exact W|reflexivity|reflexivity]. cbn [fst snd].
      match goal with |- context[(w ++ String "," ?r)%string] => destruct (scan_for_ws w pre "," r W eq_refl eq_refl) as (p & ->) end. exists (String "," p). auto.
    - rewrite test_ws; [|exact W1|reflexivity|reflexivity]. exists pre. auto. }
  destruct H as (p & H1 & H2 & H3). cbn [members c_err]. destruct (test_next (CSt pre src None)) as [c s1]. cbn [fst snd] in H2, H3. subst s1. rewrite H3, H1.
  destruct (scan_for_ws w1 p qt (raw ++ String qt (w2 ++ String ":" (w3 ++ txt ++ rest))) W1 eq_refl eq_refl) as (p2 & ->).
  destruct (parse_quoted_strval raw k (String qt p2) (w2 ++ String ":" (w3 ++ txt ++ rest)) SV) as (p3 & ->). cbn [obind c_err].
  destruct (scan_for_ws w2 p3 ":" (w3 ++ txt ++ rest) W2 eq_refl eq_refl) as (p4 & ->).
  eexists. split; [reflexivity|]. apply PV; [exact W3|exact D|].
  assert (X : (String.length (w3 ++ txt ++ rest) < String.length src)%nat).
  { unfold src, q. clear. destruct next; repeat (rewrite ?slen_app; cbn [String.length]); lia. }
  lia.
Qed.

Lemma element_S n s : element pf (S n) s =
  let (c, s1) := scan s in
  if Ascii.eqb c "{" then obind (members pf n false [] s1) (fun l s2 => Done (write_object l) s2)
  else if Ascii.eqb c qt then obind (parse_quoted s1) (fun x s2 => Done (decorate x) s2)
  else if Ascii.eqb c "[" then oapp "[" (elements pf n false s1)
  else simple pf s1.
Proof. reflexivity. Qed.
Lemma parse_main : (forall v s, jc v s -> P_val v s) /\ (forall l s, jcelems l s -> P_elems l s) /\ (forall l s, jcmems l s -> P_mems l s).
Proof.
  apply jc_combined.
  - intros n w pre rest W D L. left. destruct (element_lit n w pre rest "n" "ull" W D eq_refl ltac:(lia)) as (p & E). exists "null"%string, p. split; [exact E|split; constructor].
  - intros n w pre rest W D L. left. destruct (element_lit n w pre rest "t" "rue" W D eq_refl ltac:(lia)) as (p & E). exists "true"%string, p. split; [exact E|split; [apply (jcs_bool true)|constructor]].
  - intros n w pre rest W D L. left. destruct (element_lit n w pre rest "f" "alse" W D eq_refl ltac:(lia)) as (p & E). exists "false"%string, p. split; [exact E|split; [apply (jcs_bool false)|constructor]].
  - intros l neg m e O n w pre rest W D L. left. destruct n as [|n]; [lia|].
    destruct (token_text_plain _ (proj1 O)) as (P & c & r & -> & X4 & _). destruct (P c) as (X1 & X2 & _); [now left|].
    rewrite !orb_false_iff in X4. destruct X4 as [[X4 X5] X6].
    cbn [append]. rewrite element_S. destruct (scan_ws w W pre c (r ++ rest) X1 X2) as (p & ->). rewrite X4, X5, X6.
    destruct (simple_num pf c r neg m e p rest O D) as (p' & E). rewrite E.
    exists (es6 neg m e), p'. repeat split; constructor.
  - intros raw x SV n w pre rest W D L. apply lax_strval in SV. left. destruct n as [|n]; [lia|]. change (in_quotes raw) with (q raw). unfold q. cbn [append]. rewrite element_S. rewrite sapp_assoc. cbn [append].
    destruct (scan_ws w W pre qt (raw ++ String qt rest) eq_refl eq_refl) as (p & ->). cbn [Ascii.eqb Bool.eqb].
    change (Ascii.eqb qt "{") with false. rewrite Ascii.eqb_refl. destruct (parse_quoted_strval raw x (String qt p) rest SV) as (p' & ->). cbn [obind].
    rewrite decorate_jcs. exists (jcs_string x), p'. repeat split; constructor.
  - intros w0 W0 n w pre rest W D L. apply ws_blank in W0. left. destruct n as [|n]; [lia|]. cbn [append]. rewrite element_S. rewrite sapp_assoc. cbn [append].
    destruct (scan_ws w W pre "[" (w0 ++ String "]" rest) eq_refl eq_refl) as (p & ->). change (Ascii.eqb "[" "{") with false. change (Ascii.eqb "[" qt) with false. rewrite Ascii.eqb_refl.
    destruct (elements_end n false w0 (String "[" p) rest W0) as (p' & ->).
    { rewrite !slen_app in L. cbn [String.length] in L. lia. }
    exists "[]"%string, p'. split; [reflexivity|]. split; [apply (jcs_arr [] []); constructor|constructor; constructor].
  - intros l s _ IH n w pre rest W D L. destruct n as [|n]; [lia|]. cbn [append]. rewrite element_S. rewrite sapp_assoc. cbn [append].
    destruct (scan_ws w W pre "[" (s ++ String "]" rest) eq_refl eq_refl) as (p & ->). change (Ascii.eqb "[" "{") with false. change (Ascii.eqb "[" qt) with false. rewrite Ascii.eqb_refl.
    destruct (IH n false ""%string (String "[" p) rest ws_nil) as [(ts & p' & E & _ & J & U)|[E U]].
    { rewrite !slen_app in *. cbn [String.length append] in *. rewrite ?slen_app in L. cbn [String.length] in L. lia. }
    + left. rewrite E. cbn [oapp obind append]. exists (String "[" (join "," ts ++ "]")), p'. split; [reflexivity|]. split; [now apply jcs_arr|now constructor].
    + right. split; [now apply failed_oapp|]. intros H. inversion H. now apply U.
  - intros w0 W0 n w pre rest W D L. apply ws_blank in W0. left. destruct n as [|n]; [lia|]. cbn [append]. rewrite element_S. rewrite sapp_assoc. cbn [append].
    destruct (scan_ws w W pre "{" (w0 ++ String "}" rest) eq_refl eq_refl) as (p & ->). rewrite Ascii.eqb_refl.
    destruct (members_end n false [] w0 (String "{" p) rest W0) as (p' & ->).
    { rewrite !slen_app in L. cbn [String.length] in L. lia. }
    cbn [obind]. exists "{}"%string, p'. split; [reflexivity|]. split; [apply (jcs_obj [] [] []); constructor|constructor; constructor].
  - intros l s _ IH n w pre rest W D L. destruct n as [|n]; [lia|]. cbn [append]. rewrite element_S. rewrite sapp_assoc. cbn [append].
    destruct (scan_ws w W pre "{" (s ++ String "}" rest) eq_refl eq_refl) as (p & ->). rewrite Ascii.eqb_refl.
    destruct (IH n false ""%string (String "{" p) rest [] [] ws_nil) as [(acc & p' & E & R & U1 & U2)|[E U]].
    { exists []. repeat split; constructor. }
    { constructor. }
    { rewrite !slen_app in *. cbn [String.length append] in *. rewrite ?slen_app in L. cbn [String.length] in L. lia. }
    + left. rewrite E. cbn [obind]. exists (write_object acc), p'. split; [reflexivity|]. split; [now apply acc_write|now constructor].
    + right. split; [destruct E as (a & s' & -> & X); exists (write_object a), s'; auto|]. intros H. inversion H. apply U. split; assumption.
  - (* one element *)
    intros v w1 s w2 W1 J IH W2 n next w pre rest W src L. apply ws_blank in W1, W2. destruct n as [|n]; [lia|].
    assert (Hs : src = ((if next then w ++ String "," (w1 ++ s) else w1 ++ s) ++ w2 ++ String "]" rest)%string).
    { unfold src. destruct next; repeat (rewrite ?sapp_assoc; cbn [append]); reflexivity. }
    rewrite Hs in *. destruct (elements_step n next w w1 s pre (w2 ++ String "]" rest) v IH (jc_first _ _ J) W W1 (delim_c w2 "]" rest W2 ltac:(cbn; auto)) L) as (o & -> & [(t & p & -> & Jt & U)|[(a & s' & -> & X) U]]).
    + left. cbn [obind]. destruct (elements_end n true w2 p rest W2) as (p' & ->).
      { rewrite !slen_app in L. cbn [String.length] in L. lia. }
      exists [t], p'. split; [destruct next; cbn [oapp obind append join]; rewrite ?sapp_assoc; reflexivity|]. split; [discriminate|]. split; repeat constructor; assumption.
    + right. cbn [obind]. split; [|rewrite keyfree_list_cons; tauto]. apply failed_oapp. destruct n as [|n]; [rewrite !slen_app in L; cbn [String.length] in L; lia|]. now apply elements_failed.
  - (* several elements *)
    intros v l w1 s w2 t W1 J IH W2 _ IHl n next w pre rest W src L. apply ws_blank in W1, W2. destruct n as [|n]; [lia|].
    assert (Hs : src = ((if next then w ++ String "," (w1 ++ s) else w1 ++ s) ++ w2 ++ String "," (t ++ String "]" rest))%string).
    { unfold src. destruct next; repeat (rewrite ?sapp_assoc; cbn [append]); reflexivity. }
    rewrite Hs in *. destruct (elements_step n next w w1 s pre (w2 ++ String "," (t ++ String "]" rest)) v IH (jc_first _ _ J) W W1 (delim_c w2 "," _ W2 ltac:(cbn; auto)) L) as (o & -> & [(x & p & -> & Jt & U)|[(a & s' & -> & X) U]]).
    + cbn [obind]. specialize (IHl n true w2 p rest W2). cbv zeta beta iota in IHl. rewrite !sapp_assoc in IHl. cbn [append] in IHl.
      destruct IHl as [(ts & p' & E & Nt & Jl & Ul)|[E Ul]].
      { assert (Lw : exists c r, (w1 ++ s)%string = String c r).
        { destruct (jc_first _ _ J) as (c & r & -> & _). destruct w1; cbn [append]; eauto. }
        destruct Lw as (c & r & Lw). rewrite !slen_app in L. rewrite !slen_app. destruct next; rewrite ?Lw in L; [rewrite !slen_app in L|]; cbn [String.length] in *; lia. }
      * left. rewrite E. exists (x :: ts), p'. split; [|split; [discriminate|split; now constructor]]. rewrite join_cons by exact Nt.
        destruct next; cbn [oapp obind append]; rewrite ?sapp_assoc; reflexivity.
      * right. split; [now apply failed_oapp|rewrite keyfree_list_cons; tauto].
    + right. cbn [obind]. split; [|rewrite keyfree_list_cons; tauto]. apply failed_oapp. destruct n as [|n]; [rewrite !slen_app in L; cbn [String.length] in L; lia|]. now apply elements_failed.
  - (* one member *)
    intros k raw v w1 w2 w3 s w4 W1 SV W2 W3 J IH W4 n next w pre rest l0 acc W R N0 src L. apply ws_blank in W1, W2, W3, W4. apply lax_strval in SV. change (in_quotes raw) with (q raw) in src. destruct n as [|n]; [lia|].
    assert (Hs : src = ((if next then w ++ String "," (w1 ++ q raw ++ w2 ++ String ":" (w3 ++ s)) else w1 ++ q raw ++ w2 ++ String ":" (w3 ++ s)) ++ w4 ++ String "}" rest)%string).
    { unfold src, q. destruct next; repeat (rewrite ?sapp_assoc; cbn [append]); reflexivity. }
    rewrite Hs in *. destruct (members_step n next acc w w1 raw k w2 w3 s pre (w4 ++ String "}" rest) v IH SV W W1 W2 W3 (delim_c w4 "}" rest W4 ltac:(cbn; auto)) L) as (o & -> & [(t & p & -> & Jt & U)|[(a & s' & -> & X) U]]).
    + cbn [obind]. destruct (in_dec (list_eq_dec N.eq_dec) (ukey k) (map ukey (map fst l0))) as [Hk|Hk].
      * right. destruct (acc_dup l0 acc k t R Hk) as (acc' & ->). split.
        { destruct n as [|n]; [rewrite !slen_app in L; cbn [String.length] in L; lia|]. apply members_failed. apply set_err_err. }
        intros [M _]. rewrite !map_app in M. cbn [map fst] in M. apply NoDup_remove_2 in M. rewrite app_nil_r in M. tauto.
      * left. destruct (acc_new l0 acc k v t R Jt Hk) as (acc' & -> & R'). destruct (members_end n true acc' w4 p rest W4) as (p' & ->).
        { rewrite !slen_app in L. cbn [String.length] in L. lia. }
        exists acc', p'. split; [reflexivity|]. split; [exact R'|]. split; [|repeat constructor; assumption].
        rewrite !map_app. cbn [map fst]. apply NoDup_Add with (a := ukey k) (l := map ukey (map fst l0)); [|split; assumption].
        rewrite <- (app_nil_r (map ukey (map fst l0))) at 1. apply Add_app.
    + right. cbn [obind]. destruct (insert_nv _ _) as [l' d]. split.
      * destruct n as [|n]; [rewrite !slen_app in L; cbn [String.length] in L; lia|]. apply members_failed. destruct d; [apply set_err_err|exact X].
      * intros [_ M]. cbn [map snd] in M. apply keyfree_list_cons in M. tauto.
  - (* several members *)
    intros k raw v l w1 w2 w3 s w4 t0 W1 SV W2 W3 J IH W4 _ IHl n next w pre rest l0 acc W R N0 src L. apply ws_blank in W1, W2, W3, W4. apply lax_strval in SV. change (in_quotes raw) with (q raw) in src. destruct n as [|n]; [lia|].
    assert (Hs : src = ((if next then w ++ String "," (w1 ++ q raw ++ w2 ++ String ":" (w3 ++ s)) else w1 ++ q raw ++ w2 ++ String ":" (w3 ++ s)) ++ w4 ++ String "," (t0 ++ String "}" rest))%string).
    { unfold src, q. destruct next; repeat (rewrite ?sapp_assoc; cbn [append]); reflexivity. }
    rewrite Hs in *. destruct (members_step n next acc w w1 raw k w2 w3 s pre (w4 ++ String "," (t0 ++ String "}" rest)) v IH SV W W1 W2 W3 (delim_c w4 "," _ W4 ltac:(cbn; auto)) L) as (o & -> & [(t & p & -> & Jt & U)|[(a & s' & -> & X) U]]).
    + cbn [obind]. destruct (in_dec (list_eq_dec N.eq_dec) (ukey k) (map ukey (map fst l0))) as [Hk|Hk].
      * right. destruct (acc_dup l0 acc k t R Hk) as (acc' & ->). split.
        { destruct n as [|n]; [rewrite !slen_app in L; cbn [String.length] in L; lia|]. apply members_failed. apply set_err_err. }
        intros [M _]. rewrite !map_app in M. cbn [map fst] in M. apply NoDup_remove_2 in M. apply M. apply in_or_app. now left.
      * destruct (acc_new l0 acc k v t R Jt Hk) as (acc' & -> & R').
        assert (N1 : NoDup (map ukey (map fst (l0 ++ [(k, v)])))).
        { rewrite !map_app. cbn [map fst]. apply NoDup_Add with (a := ukey k) (l := map ukey (map fst l0)); [|split; assumption].
          rewrite <- (app_nil_r (map ukey (map fst l0))) at 1. apply Add_app. }
        specialize (IHl n true w4 p rest _ _ W4 R' N1). cbv zeta beta iota in IHl. rewrite !sapp_assoc in IHl. cbn [append] in IHl.
        assert (Eq : mems_ok (l0 ++ [(k, v)]) l <-> mems_ok l0 ((k, v) :: l)).
        { unfold mems_ok. rewrite <- app_assoc. cbn [app map snd]. rewrite keyfree_list_cons. tauto. }
        destruct IHl as [(acc2 & p' & E & R2 & M)|[E M]].
        { unfold q in L. rewrite !slen_app in L. rewrite !slen_app. destruct next; repeat (rewrite ?slen_app in L; cbn [String.length] in L); cbn [String.length]; rewrite slen_app; cbn [String.length]; lia. }
        -- left. rewrite E. exists acc2, p'. split; [reflexivity|]. rewrite <- app_assoc in R2. cbn [app] in R2. split; [exact R2|tauto].
        -- right. split; [exact E|tauto].
    + right. cbn [obind]. destruct (insert_nv _ _) as [l' d]. split.
      * destruct n as [|n]; [rewrite !slen_app in L; cbn [String.length] in L; lia|]. apply members_failed. destruct d; [apply set_err_err|exact X].
      * intros [_ M]. cbn [map snd] in M. apply keyfree_list_cons in M. tauto.
Qed.
End Parse.
