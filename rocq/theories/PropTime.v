(** What timestamps are written as and which texts are read as which instant:
    C61.  An instant is a number of nanoseconds since 1970-01-01T00:00:00Z. *)
From Verif Require Import GoStr GoStrFacts Time TimeFacts TimeSpec TimeSpecFacts.
Local Open Scope Z_scope.

Definition quoted (s : string) : string := (String "034" "" ++ s ++ String "034" "")%string.

(** Every instant of the years 0 to 9999 is a date, a time of day, a
    millisecond and a rest ... *)
Theorem timestamp_date_exists : forall t, - 62167219200 * 1000000000 <= t < 253402300800 * 1000000000 ->
  exists c ms r, valid_civil c /\ 0 <= ms < 1000 /\ 0 <= r < 1000000 /\ t = instant c 0 (ms * 1000000 + r).
Proof.
  intros t H. apply year_range in H. destruct (ts_text t H) as (c & ms & V & Hms & _ & E). exists c, ms, (t mod 1000000).
  split; [exact V|]. split; [exact Hms|]. split; [apply Z.mod_pos_bound; lia|]. unfold trunc_ms, ns_per_ms, instant in *. lia.
Qed.
Print Assumptions timestamp_date_exists.

(** ... and that is what is written for it, the rest left out. *)
Theorem timestamp_text : forall c ms r, valid_civil c -> 0 <= ms < 1000 -> 0 <= r < 1000000 ->
  ts_marshal (instant c 0 (ms * 1000000 + r)) = quoted (utc_ms_text c ms).
Proof.
  intros c ms r V Hms Hr. assert (Y := instant_range c (ms * 1000000 + r) V ltac:(lia)).
  destruct (ts_text _ Y) as (c' & ms' & V' & Hms' & T & E).
  assert (E' : instant c 0 (ms * 1000000) = instant c' 0 (ms' * 1000000)).
  { rewrite <- E. unfold trunc_ms, instant, ns_per_ms. rewrite Z.sub_0_r.
    replace ((day_number (c_y c) (c_mo c) (c_d c) * 86400 + c_h c * 3600 + c_mi c * 60 + c_s c) * 1000000000 + (ms * 1000000 + r))
      with (r + ((day_number (c_y c) (c_mo c) (c_d c) * 86400 + c_h c * 3600 + c_mi c * 60 + c_s c) * 1000 + ms) * 1000000) by ring.
    rewrite Z.mod_add by lia. rewrite Z.mod_small by lia. lia. }
  destruct (instant_inj _ _ _ _ V V' Hms Hms' E') as [-> ->]. unfold ts_marshal. now rewrite T.
Qed.
Print Assumptions timestamp_text.

(** The texts that are read, and what they are read as. *)
Theorem timestamp_parse_exact : forall s t, ts_unmarshal (quoted s) = Ok t <->
  exists c ht f ft off zt, valid_civil c /\ hour_text (c_h c) ht /\ frac_text f ft /\ zone_text off zt /\
    s = (date_text c ++ "T" ++ ht ++ ":" ++ min_sec_text c ++ ft ++ zt)%string /\ t = instant c off f.
Proof.
  intros s t. rewrite <- parse_exact. unfold ts_unmarshal, quoted. cbn [String.append]. rewrite inner_slice_quoted. cbn [bind].
  destruct (ts_parse s) as [u|]; split; intros Q; try discriminate Q; [now rewrite (f_equal (fun o => match o with Ok x => x | _ => 0 end) Q : u = t)|].
  now rewrite (f_equal (fun o => match o with Some x => x | None => 0 end) Q : u = t).
Qed.
Print Assumptions timestamp_parse_exact.

(** Other texts are refused with an error. *)
Theorem timestamp_parse_total : forall s, (exists t, ts_unmarshal (quoted s) = Ok t) \/ (exists e, ts_unmarshal (quoted s) = Err e).
Proof.
  intros s. unfold ts_unmarshal, quoted. cbn [String.append]. rewrite inner_slice_quoted. cbn [bind]. destruct (ts_parse s); eauto.
Qed.
Print Assumptions timestamp_parse_total.

Example timestamp_parse_ex : exists c ft zt, valid_civil c /\ hour_text 9 "09" /\ frac_text 500000000 ft /\ zone_text (-12600) zt /\
  ts_unmarshal (quoted "2024-02-29T09:05:06.50-03:30") = Ok (instant c (-12600) 500000000) /\
  instant c (-12600) 500000000 = 1709210106500000000 /\
  ts_marshal 1709210106500000000 = quoted "2024-02-29T12:35:06.500Z" /\
  ts_unmarshal (quoted "2023-02-29T09:05:06Z") = Err "parsing time".
Proof.
  exists (Civil 2024 2 29 9 5 6), (".50")%string, ("-03:30")%string. split; [unfold valid_civil; vm_compute; repeat split; discriminate|].
  split; [exact (h_two 9)|]. split; [exact (f_some "." 2 50 (or_introl eq_refl) ltac:(lia) ltac:(cbn; lia))|].
  split; [exact (z_west 3 30 ltac:(lia) ltac:(lia))|]. repeat split; vm_compute; reflexivity.
Qed.
