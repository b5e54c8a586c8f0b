(** Specification only (models no code): which Go value a JSON value stands for,
    by Go type. *)
From Verif Require Import GoStr JsonStr Json Float Enums GoTypes GoVal TimeSpec B64Spec NumSpec StrSpec Codec StructFacts.

(** RFC 3339 text and its instant. *)
Definition time_text (s : string) (t : Z) : Prop :=
  exists c ht f ft off zt, valid_civil c /\ hour_text (c_h c) ht /\ frac_text f ft /\ zone_text off zt /\
    s = (date_text c ++ "T" ++ ht ++ ":" ++ min_sec_text c ++ ft ++ zt)%string /\ t = instant c off f.

(** A JSON number written as an integer from 0 to 255, or null for 0. *)
Inductive byte_json : json -> ascii -> Prop :=
| byte_null : byte_json JNull "000"%char
| byte_num l n : int_text l n -> (0 <= n < 256)%Z -> (forall r, l <> String "-" r) -> byte_json (JNum l) (ascii_of_N (Z.to_N n)).

(** The member of the enumeration that a JSON value names.  Escapes are only
    resolved for extension types. *)
Definition names_member (name : string) (j : json) (n : N) : Prop :=
  exists raw s, j = JStr raw /\ In (n, s) (enum_map name) /\
    (if String.eqb name "ExtensionType" then str_means raw s else raw = s).
(** Values that name none are taken for the zero value, with two exceptions:
    extension types have to be strings or null, and for two enumerations a
    value one byte long makes the program panic. *)
Definition enum_takes (name : string) (j : json) : Prop :=
  (name = "ExtensionType"%string -> exists raw s, j = JStr raw /\ str_means raw s) /\
  (In name ["EncryptionAlgorithm"; "OpinionValue"]%string -> String.length (print j) <> 1%nat).

(** The last member named [k]. *)
Definition final_member (k : string) (ms : list (string * json)) (x : json) : Prop :=
  exists a b, ms = a ++ (k, x) :: b /\ ~ In k (map fst b).
(** The members that go into the field with key [k]: upper and lower case are
    not told apart. *)
Definition named (k : string) (ms : list (string * json)) : list (string * json) :=
  filter (fun kx => String.eqb (fold_key (fst kx)) (fold_key k)) ms.

Section Means.
(** Rounding of a decimal number to float64. *)
Variable rnd : bool -> N -> Z -> option flt.

(** [means t j v]: [j], read into a zero variable of type [t], stands for [v].
    Fields named by two members of an object may hold anything. *)
Inductive means : gty -> json -> gval -> Prop :=
| me_null t : match t with GTime | GExt | GRaw => False | _ => True end -> means t JNull (zero t)
| me_str n raw s : str_means raw s -> means (GString n) (JStr raw) (VStr s)
| me_int n l z : int_text l z -> (-9223372036854775808 <= z <= 9223372036854775807)%Z -> means (GInt n) (JNum l) (VInt z)
| me_bool b : means GBool (JBool b) (VBool b)
| me_float l neg m e f : number_text l neg m e -> rnd neg m e = Some f -> means GFloat (JNum l) (VFloat f)
| me_enum name j n : names_member name j n -> means (GEnum name) j (VEnum n)
| me_enum_other name j : (forall n, ~ names_member name j n) -> enum_takes name j -> means (GEnum name) j (VEnum 0)
| me_time raw t : time_text raw t -> means GTime (JStr raw) (VTime t)
| me_bin raw s b spare : str_means raw s -> base64 b spare (without_breaks s) -> means GBinary (JStr raw) (VBin b)
| me_bin_arr l b : Forall2 byte_json l (list_ascii_of_string b) -> means GBinary (JArr l) (VBin b)
| me_ptr t j v : j <> JNull -> means t j v -> means (GPtr t) j (VPtr v)
| me_slice t l vs : length l = length vs ->
    (forall i x v, nth_error l i = Some x -> nth_error vs i = Some v -> means t x v) -> means (GSlice t) (JArr l) (VSlice vs)
(* the elements of an enumeration are bytes to encoding/json *)
| me_slice_bytes name raw s b spare : str_means raw s -> base64 b spare (without_breaks s) ->
    means (GSlice (GEnum name)) (JStr raw) (VSlice (map (fun c => VEnum (N_of_ascii c)) (list_ascii_of_string b)))
| me_map n kt t ms m : msorted m = true -> (forall k, In k (akeys m) <-> In k (akeys ms)) ->
    (forall k x v, final_member k ms x -> alookup k m = Some v -> means t x v) -> means (GMap n kt t) (JObj ms) (VMap m)
| me_any_bool b : means GIface (JBool b) (VDyn GBool (VBool b))
| me_any_num l neg m e f : number_text l neg m e -> rnd neg m e = Some f -> means GIface (JNum l) (VDyn GFloat (VFloat f))
| me_any_str raw s : str_means raw s -> means GIface (JStr raw) (VDyn (GString "string") (VStr s))
| me_any_arr l v : means (GSlice GIface) (JArr l) v -> means GIface (JArr l) (VDyn (GSlice GIface) v)
| me_any_obj ms v : means (GMap "" "string" GIface) (JObj ms) v -> means GIface (JObj ms) (VDyn (GMap "" "string" GIface) v)
| me_ext_null : means GExt JNull (VMap [])
| me_ext ms m : msorted m = true -> (forall k, In k (akeys m) <-> In k (akeys ms)) ->
    (forall k w, alookup k m = Some w -> exists v, w = VDyn (GPtr (ext_ty k)) (VPtr v)) ->
    (forall k x v, final_member k ms x -> alookup k m = Some (VDyn (GPtr (ext_ty k)) (VPtr v)) -> means (ext_ty k) x v) ->
    means GExt (JObj ms) (VMap m)
| me_struct n fs ms v : shape fs v ->
    (forall p m t, has_path fs p m t -> fm_key m = ""%string -> get_path p v = zero t) ->
    (forall k p t, In (k, p, t) (flat_fields fs) -> named k ms = [] -> get_path p v = zero t) ->
    (forall k p t kx, In (k, p, t) (flat_fields fs) -> named k ms = [kx] -> means t (snd kx) (get_path p v)) ->
    means (GStruct n fs) (JObj ms) v
| me_raw j : means GRaw j (VRaw j).

(** No two members of an object have the same name up to case. *)
Inductive plain_names : json -> Prop :=
| pn_null : plain_names JNull
| pn_bool b : plain_names (JBool b)
| pn_num l : plain_names (JNum l)
| pn_str r : plain_names (JStr r)
| pn_arr l : (forall x, In x l -> plain_names x) -> plain_names (JArr l)
| pn_obj ms : NoDup (map (fun kx => fold_key (fst kx)) ms) -> (forall k x, In (k, x) ms -> plain_names x) -> plain_names (JObj ms).
End Means.
