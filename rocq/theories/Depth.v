(** The nesting limit of encoding/json (Go 1.15 and later; scanner.go,
    pushParseState, maxNestingDepth).  The other files of the model leave it
    out.  The package checks the syntax of a text byte by byte and keeps a stack
    of the arrays and objects that are open; more than 10000 of them are an
    error.  A text that is no JSON is an error in any case. *)
From Verif Require Import GoStr JsonStr Json Float GoTypes Schema GoVal Codec Ident Collection FromJson.

(** maxNestingDepth (encoding/json, scanner.go; json.Unmarshal in stix.go:958,
    968, 988, 1104) *)
Definition max_nesting : N := 10000.

(** The largest number of open arrays and objects while reading [s]; [d] are
    open at the start, [instr]: within a string. *)
Fixpoint nest (s : string) (instr : bool) (d m : N) : N :=
  match s with
  | EmptyString => m
  | String c s1 =>
      if instr then
        if Ascii.eqb c qt then nest s1 false d m
        else if Ascii.eqb c bs then match s1 with EmptyString => m | String _ s2 => nest s2 true d m end
        else nest s1 true d m
      else if Ascii.eqb c qt then nest s1 true d m
      else if Ascii.eqb c "[" || Ascii.eqb c "{" then nest s1 false (d + 1) (N.max m (d + 1))
      else if Ascii.eqb c "]" || Ascii.eqb c "}" then nest s1 false (d - 1) m
      else nest s1 false d m
  end.
(** The largest number of arrays and objects open at once while reading [s]. *)
Definition nesting (s : string) : N := nest s false 0 0.

(** checkValid (scanner.go), called by json.Unmarshal on the whole text. *)
Definition parse_limited (s : string) : option json :=
  if (nesting s <=? max_nesting)%N then parse_json s else None.

Section Limited.
Variable rnd : bool -> N -> Z -> option flt.
(** json.Unmarshal, cf. [unmarshal]. *)
Definition unmarshal_limited (s : string) (t : gty) (old : gval) : res gval :=
  match parse_limited s with
  | None => Err "invalid JSON"
  | Some j => unmarshal_res (dec rnd j t old)
  end.
(** FromJSON, stix.go:953-982, cf. [from_json].  The texts of the objects are
    parts of a text that passed the check. *)
Definition from_json_limited (cf : config) (s : string) : res (coll gobj) :=
  let c := new_coll (cf_nosort cf) in
  match unmarshal_limited s ty_Bundle (zero ty_Bundle) with
  | Ok b => process_objects rnd cf (raws (get_field "Objects" b)) c VNil
  | Panic => Panic
  | Err _ =>
      match unmarshal_limited s (GSlice GRaw) VNil with
      | Ok a => process_objects rnd cf (raws a) c VNil
      | Panic => Panic
      | Err _ => Err "unknown JSON format"
      end
  end.
End Limited.

(** json.Marshal of an object: what a MarshalJSON method returns is checked by
    the same scanner (encode.go, marshalerEncoder: compact); the default encoder
    is not. *)
Definition marshal_limited (o : gobj) : res string :=
  do j <- marshal (fst o) (snd o);
  if mem_str (ty_name (fst o)) helper_types && (max_nesting <? nesting (print j))%N then Err "exceeded max depth"
  else Ok (print j).
(** json.Marshal of a Bundle (bundle.go:15-25): json.RawMessage has a MarshalJSON
    method, so each object is checked, the whole is not. *)
Definition bundle_limited (b : bundle) : res string :=
  if forallb (fun s => nesting s <=? max_nesting)%N (b_objects b) then Ok (bundle_bytes b) else Err "exceeded max depth".
