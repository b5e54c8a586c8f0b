(** Specification of FromJSON, independent of the loop over the document. *)
From Verif Require Import GoStr JsonStr Json StrSpec JsonSpec Float Consts GoTypes Schema GoVal Codec CodecSpec Ident Collection FromJson.

(** The last member named [k] of a JSON object (duplicates: the last wins). *)
Fixpoint last_member {A} (k : string) (ms : list (string * A)) : option A :=
  match ms with
  | [] => None
  | (k', x) :: ms' =>
      match last_member k ms' with
      | Some y => Some y
      | None => if String.eqb k k' then Some x else None
      end
  end.
Definition member (k : string) (j : json) : option json :=
  match j with JObj ms => last_member k ms | _ => None end.

(** The STIX type a JSON object states. *)
Definition json_type (j : json) : option string :=
  match member "type" j with Some (JStr raw) => unq raw | _ => None end.

(** The list of JSON values a document consists of: the elements of an array,
    or the objects of a bundle.  In a bundle member names are compared without
    case, the last of several "objects" members counts, members may be null or
    missing and other members are ignored. *)
Fixpoint last_fold {A} (k : string) (ms : list (string * A)) : option A :=
  match ms with
  | [] => None
  | (k', x) :: ms' =>
      match last_fold k ms' with
      | Some y => Some y
      | None => if String.eqb k (fold_key k') then Some x else None
      end
  end.
Definition null_or_string (x : json) : Prop := x = JNull \/ exists raw, x = JStr raw.
Definition null_or_array (x : json) : Prop := x = JNull \/ exists l, x = JArr l.
Inductive document : list json -> string -> Prop :=
| doc_array js s : json_text (JArr js) s -> document js s
| doc_null s : json_text JNull s -> document [] s
| doc_bundle ms s : json_text (JObj ms) s ->
    (forall k x, In (k, x) ms ->
       (fold_key k = "objects" -> null_or_array x) /\
       (fold_key k = "type" -> null_or_string x) /\ (fold_key k = "id" -> null_or_string x)) ->
    document (match last_fold "objects" ms with Some (JArr l) => l | _ => [] end) s.

(** The collection obtained by adding the objects in order; [None] stands for a
    JSON value that contributes no object. *)
Definition calls_of (outs : list (option gobj)) : list (string * string * gobj) :=
  flat_map (fun o => match o with
                     | Some ob => match obj_id ob, obj_type ob with
                                  | Ok id, Ok ty => [(id, ty, ob)]
                                  | _, _ => []
                                  end
                     | None => []
                     end) outs.
Definition collect (nosort : bool) (outs : list (option gobj)) : coll gobj :=
  fst (run (new_coll nosort) (calls_of outs)).
(** Every object has an identifier Add accepts. *)
Definition acceptable (o : option gobj) : Prop :=
  match o with
  | Some ob => exists id ty, obj_id ob = Ok id /\ obj_type ob = Ok ty /\ has_valid_identifier id ty = true
  | None => True
  end.

(** [panics t j]: somewhere in [j] a number of one byte stands where the Go type
    [t] has a Timestamp, an EncryptionAlgorithm or an OpinionValue. *)
Inductive panics : gty -> json -> Prop :=
| pan_time l : (String.length l <= 1)%nat -> panics GTime (JNum l)
| pan_enum name l : In name ["EncryptionAlgorithm"; "OpinionValue"] -> (String.length l <= 1)%nat -> panics (GEnum name) (JNum l)
| pan_ptr t j : panics t j -> panics (GPtr t) j
| pan_slice t l j : In j l -> panics t j -> panics (GSlice t) (JArr l)
| pan_map n k t ms k' j : In (k', j) ms -> panics t j -> panics (GMap n k t) (JObj ms)
| pan_ext ms k j : In (k, j) ms -> panics (ext_ty k) j -> panics GExt (JObj ms)
| pan_struct n fs ms k p t j : In (k, j) ms -> find_field k (flat_fields fs) = Some (p, t) -> panics t j -> panics (GStruct n fs) (JObj ms).

(** Objects of type [typ] are handed to a custom parser. *)
Definition parser_of (cf : config) (typ : string) : option handler :=
  match alookup typ (cf_handlers cf) with Some (Some h) => Some h | _ => None end.

(** [builds typ j out]: what a JSON object [j] taken to be of type [typ]
    contributes.  [l] are extended properties. *)
Inductive builds (rnd : bool -> N -> Z -> option flt) (cf : config) (typ : string) (j : json) : option gobj -> Prop :=
| b_parser h t v0 v l : parser_of cf typ = Some h -> h j = Ok (Some (t, v0)) ->
    unmarshal rnd (print j) t v0 = Ok v -> (cf_drop cf = true -> l = []) ->
    builds rnd cf typ j (Some (t, add_props t l v))
| b_builtin t v l : parser_of cf typ = None -> In (typ, t) builtin_types ->
    unmarshal rnd (print j) t (zero t) = Ok v -> (cf_drop cf = true -> l = []) ->
    builds rnd cf typ j (Some (t, add_props t l v))
| b_custom v : parser_of cf typ = None -> ~ In typ (akeys builtin_types) -> cf_drop cf = false ->
    unmarshal rnd (print j) ty_CustomObject (VMap []) = Ok v ->
    builds rnd cf typ j (Some (ty_CustomObject, v))
| b_dropped : parser_of cf typ = None -> ~ In typ (akeys builtin_types) -> cf_drop cf = true ->
    builds rnd cf typ j None.

(** [contributes ts j out]: the same for a JSON value standing after objects of
    types [ts]. *)
Inductive contributes (rnd : bool -> N -> Z -> option flt) (cf : config) (ts : list string) : json -> option gobj -> Prop :=
| c_null : contributes rnd cf ts JNull None
| c_untyped ms : member "type" (JObj ms) = None -> contributes rnd cf ts (JObj ms) None
| c_typed j typ out : json_type j = Some typ -> builds rnd cf typ j out -> contributes rnd cf ts j out
| c_stale ms typ out : member "type" (JObj ms) = None -> In typ ts -> builds rnd cf typ (JObj ms) out ->
    contributes rnd cf ts (JObj ms) out.

(** The types stated by the objects of a document. *)
Definition types_of (js : list json) : list string :=
  flat_map (fun j => match json_type j with Some t => [t] | None => [] end) js.
Inductive contribute_all (rnd : bool -> N -> Z -> option flt) (cf : config) : list string -> list json -> list (option gobj) -> Prop :=
| ca_nil ts : contribute_all rnd cf ts [] []
| ca_cons ts j js o os : contributes rnd cf ts j o -> contribute_all rnd cf (types_of [j] ++ ts) js os ->
    contribute_all rnd cf ts (j :: js) (o :: os).

(** A JSON value with nothing but properties of its own type: null, or an object
    of a built in type without custom parser all of whose members are named
    after a property of the type. *)
Definition clean (cf : config) (j : json) : Prop :=
  j = JNull \/
  exists ms typ t, j = JObj ms /\ json_type j = Some typ /\ parser_of cf typ = None /\
    In (typ, t) builtin_types /\ forall k x, In (k, x) ms -> In k (own_keys t).
(** The document with the single object [j]. *)
Definition alone (j : json) : string := print (JArr [j]).

(** What json.Unmarshal stores in an interface value: the generic Go view. *)
Definition generic (rnd : bool -> N -> Z -> option flt) (j : json) : res gval := unmarshal rnd (print j) GIface VNil.

(** A JSON value that is fine on its own: null, or an object stating its type
    which builds an object with a valid identifier (or is dropped) and whose
    numbers are in range. *)
Definition good (rnd : bool -> N -> Z -> option flt) (cf : config) (j : json) : Prop :=
  j = JNull \/ exists ms typ o, j = JObj ms /\ json_type j = Some typ /\ builds rnd cf typ j o /\ acceptable o /\ exists g, generic rnd j = Ok g.

(** A document result that is put together from the results of the documents
    with one object each. *)
Definition independent (rnd : bool -> N -> Z -> option flt) (cf : config) (js : list json) (r : res (coll gobj)) : Prop :=
  match r with
  | Ok c => exists outs, c = collect (cf_nosort cf) outs /\
      Forall2 (fun j o => acceptable o /\ from_json rnd cf (alone j) = Ok (collect (cf_nosort cf) [o])) js outs
  | Err e => exists j, In j js /\ from_json rnd cf (alone j) = Err e
  | Panic => exists j, In j js /\ from_json rnd cf (alone j) = Panic
  end.

(** A well formed object of a built in type, without parser for its type, whose
    own identifier is valid for its type. *)
Definition own_object (rnd : bool -> N -> Z -> option flt) (cf : config) (ob : gobj) : Prop :=
  exists name id, In (name, fst ob) builtin_types /\ parser_of cf name = None /\
    obj_type ob = Ok name /\ obj_id ob = Ok id /\ has_valid_identifier id name = true /\ wf rnd (fst ob) (snd ob) = true.
(** What is read back from the encoding of an object: its normal form with the
    generic view of its extended properties. *)
Definition read_back (rnd : bool -> N -> Z -> option flt) (cf : config) (ob : gobj) : gobj :=
  (fst ob, add_props (fst ob) (if cf_drop cf then [] else map (fun kv => (fst kv, norm rnd GIface (snd kv))) (props_of (fst ob) (snd ob))) (norm_top rnd (fst ob) (snd ob))).

(** The extended properties of the object [o] built from [j], after the JSON
    values [pre]: all members of [j] that are not properties of its type, and
    nothing that is not a member of [j] or of a value before it. *)
Definition props_bound (rnd : bool -> N -> Z -> option flt) (pre : list json) (j : json) (o : option gobj) : Prop :=
  forall name t v, o = Some (t, v) -> In (name, t) builtin_types -> In (ty_name t) helper_types ->
    (forall k x, member k j = Some x -> ~ In k (own_keys t) -> k <> "" -> exists y, generic rnd x = Ok y /\ alookup k (props_of t v) = Some y) /\
    (forall k y, alookup k (props_of t v) = Some y -> ~ In k (own_keys t) /\
       exists j' x, In j' (pre ++ [j]) /\ member k j' = Some x /\ generic rnd x = Ok y).
