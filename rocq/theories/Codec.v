(** json.Marshal and json.Unmarshal on the library's types. *)
From Verif Require Import GoStr JsonStr Json Float Consts Enums GoTypes Schema GoVal Time Base64.

(** ** Enumerations *)
Definition enum_map (name : string) : list (N * string) :=
  match alookup name enum_table with Some m => m | None => [] end.
(** String methods: xMap[v], "" for a missing entry (artifact.go:84,
    extension.go:229, network.go:257, network.go:321, opinion.go:101,
    process.go:119, process.go:194, process.go:253, process.go:304,
    regkey.go:97). *)
Definition enum_string (name : string) (n : N) : string :=
  match find (fun kv => N.eqb (fst kv) n) (enum_map name) with Some (_, s) => s | None => "" end.
(** Search by name; the loop over the Go map stops at the first match, the
    names are distinct (enum_names_distinct), so the order does not matter. *)
Definition enum_find (name : string) (s : string) : option N :=
  match find (fun kv => String.eqb (snd kv) s) (enum_map name) with Some (n, _) => Some n | None => None end.

(** ** Encoding *)
(** The enumerations' MarshalJSON put the name between quotation marks
    (artifact.go:89, ...; ExtensionType goes through json.Marshal,
    extension.go:234; same text for its names). *)
Definition enc_list (f : gval -> res json) : list gval -> res (list json) :=
  fix go l := match l with
              | [] => Ok []
              | x :: l' => do j <- f x; do js <- go l'; Ok (j :: js)
              end.
(** The same for the entries of a map, in sorted order (encoding/json, encode.go
    mapEncoder; types Extensions extension.go:11, Hashes data-types.go:140,
    CustomObject extension.go:287). *)
Definition enc_mems (f : gval -> res json) : list (string * gval) -> res (list (string * json)) :=
  fix go l := match l with
              | [] => Ok []
              | (k, x) :: l' => do j <- f x; do js <- go l'; Ok ((k, j) :: js)
              end.

(** Struct fields in declaration order; [omitempty] drops empty values. *)
Definition enc_fields (f : gty -> gval -> res json) :
    list (fmeta * gty) -> list (string * gval) -> res (list (string * json)) :=
  fix go fs vs {struct vs} :=
    match fs, vs with
    | (m, t) :: fs', (_, v) :: vs' =>
        if is_empty (fm_key m) then go fs' vs'
        else if fm_omit m && is_empty_val v then go fs' vs'
        else do j <- f t v; do js <- go fs' vs'; Ok ((fm_key m, j) :: js)
    | _, _ => Ok []
    end.

(** encoding/json on a value of type [t] (default encoders and the MarshalJSON
    methods of Timestamp, Binary and the enumerations: artifact.go:89-91, data-types.go:35-37, data-
    types.go:445-447, extension.go:234-236, network.go:262-264, network.go:326-328,
    opinion.go:107-109, process.go:124-126, process.go:199-201, process.go:258-260,
    process.go:309-311, regkey.go:102-104).  Structs with embedded
    structs are only encoded through marshalToJSONHelper, see [enc_obj]. *)
Fixpoint enc (t : gty) (v : gval) {struct v} : res json :=
  match v with
  | VNil => Ok JNull
  | VStr s => Ok (JStr (quote s))
  | VInt z => Ok (JNum (Z_to_string z))
  | VBool b => Ok (JBool b)
  | VFloat f => match fmt_float f with Some s => Ok (JNum s) | None => Err "unsupported value" end
  | VEnum n => match t with GEnum name => Ok (JStr (enum_string name n)) | _ => Err "type" end
  | VTime x => Ok (JStr (ts_string x))
  | VBin s => Ok (JStr (b64_encode s))
  | VPtr w => match t with GPtr t' => enc t' w | _ => Err "type" end
  | VSlice l => match t with
                | GSlice t' => do js <- enc_list (enc t') l; Ok (JArr js)
                | _ => Err "type"
                end
  | VMap l => match t with
              | GMap _ _ t' => do js <- enc_mems (enc t') l; Ok (JObj js)
              | GExt => do js <- enc_mems (enc GIface) l; Ok (JObj js)
              | _ => Err "type"
              end
  | VDyn t' w => enc t' w
  | VStruct vs => match t with
                  | GStruct _ fs =>
                      do js <- enc_fields enc fs vs;
                      Ok (JObj js)
                  | _ => Err "type"
                  end
  | VRaw j => Ok j
  end.

(** ** valueToMap, stix.go:1170-1257 *)
Definition base_structs : list string := ["STIXRelationshipObject"; "STIXDomainObject"; "STIXCyberObservableObject"].

(** for k, v := range props { mp[k] = v }, stix.go:1223-1225, 1230-1232, 1237-1239,
    1244-1246 and 1251-1253 *)
Definition put_all (l : list (string * gval)) (m : list (string * (gty * gval))) : list (string * (gty * gval)) :=
  fold_left (fun m kv => minsert (fst kv) (GIface, snd kv) m) l m.

(** The overlay of extended properties (stix.go:1220-1255): base structs by
    value, MarkingDefinition and LanguageContent by pointer. *)
Definition overlay (tyname : string) (v : gval) (m : list (string * (gty * gval))) : list (string * (gty * gval)) :=
  if mem_str tyname (base_structs ++ ["MarkingDefinition"; "LanguageContent"]) then
    match get_field "toplevelProperties" v with
    | VPtr (VMap l) => put_all l m
    | _ => m
    end
  else m.

(** One tagged field, stix.go:1195-1215. *)
Definition put_field (fm : fmeta) (t : gty) (v : gval) (m : list (string * (gty * gval))) : res (list (string * (gty * gval))) :=
  if is_empty (fm_key fm) then Ok m
  else if (match v with VBool _ => false | _ => is_zero v end) then
    if fm_omit fm then Ok m else Err (fm_name fm ++ " is empty but is required")%string
  else Ok (minsert (fm_key fm) (t, v) m).

(** All fields of a base struct, stix.go:1185-1217. *)
Fixpoint put_fields (fs : list (fmeta * gty)) (vs : list (string * gval)) (m : list (string * (gty * gval))) :
    res (list (string * (gty * gval))) :=
  match fs, vs with
  | (fm, t) :: fs', (_, v) :: vs' => do m1 <- put_field fm t v m; put_fields fs' vs' m1
  | _, _ => Ok m
  end.

(** The recursion into a base struct goes one level deep: base structs have no
    embedded fields themselves. *)
Definition base_to_map (t : gty) (v : gval) (m : list (string * (gty * gval))) : res (list (string * (gty * gval))) :=
  match t, v with
  | GStruct n fs, VStruct vs => do m1 <- put_fields fs vs m; Ok (overlay n v m1)
  | _, _ => Err "invalid type"
  end.

(** The fields of an object; base structs are entered, stix.go:1185-1217. *)
Fixpoint fields_to_map (fs : list (fmeta * gty)) (vs : list (string * gval)) (m : list (string * (gty * gval))) :
    res (list (string * (gty * gval))) :=
  match fs, vs with
  | (fm, t) :: fs', (_, v) :: vs' =>
      do m1 <- (if mem_str (fm_name fm) base_structs then base_to_map t v m else put_field fm t v m);
      fields_to_map fs' vs' m1
  | _, _ => Ok m
  end.

(** objectToMap, stix.go:1164-1168, with valueToMap on the object itself,
    stix.go:1170-1257 *)
Definition value_to_map (t : gty) (v : gval) : res (list (string * (gty * gval))) :=
  match t, v with
  | GStruct n fs, VStruct vs => do m <- fields_to_map fs vs []; Ok (overlay n v m)
  | _, _ => Err "invalid type"
  end.

(** json.Marshal of the map of interface values: sorted keys. *)
Fixpoint enc_map (m : list (string * (gty * gval))) : res (list (string * json)) :=
  match m with
  | [] => Ok []
  | (k, (t, v)) :: m' => do j <- enc t v; do js <- enc_map m'; Ok ((k, j) :: js)
  end.

(** marshalToJSONHelper, object.go:424-432 *)
Definition enc_obj (t : gty) (v : gval) : res json :=
  do m <- value_to_map t v; do js <- enc_map m; Ok (JObj js).

(** The name of a type: which type a MarshalJSON method belongs to. *)
Definition ty_name (t : gty) : string := match t with GStruct n _ => n | GMap n _ _ => n | _ => "" end.

(** json.Marshal of a STIX object held by pointer: marshalToJSONHelper for the
    types with that method, the default encoder for ExtensionDefinition and CustomObject. The
    MarshalJSON methods: artifact.go:42-44, as.go:21-23, attack.go:32-34, campaign.go:41-43,
    course-of-action.go:25-27, directory.go:34-36, dns.go:22-24, email.go:25-27, email.go:106-108,
    file.go:55-57, grouping.go:37-39, identity.go:37-39, incident.go:21-23, indicator.go:50-52,
    infrastructure.go:38-40, intrusion-set.go:76-78, ip.go:24-26, ip.go:78-80, location.go:81-83,
    mac.go:15-17, malware-analysis.go:82-84, malware.go:78-80, meta.go:135-137, meta.go:271-273,
    mutex.go:15-17, network.go:91-93, note.go:30-32, observed-data.go:82-84, opinion.go:46-48,
    process.go:47-49, regkey.go:34-36, relationship.go:63-65, report.go:38-40, sighting.go:101-103,
    software.go:34-36, threat-actor.go:76-78, tool.go:42-44, url.go:17-19, user.go:67-69,
    vulnerability.go:29-31, x509.go:57-59. *)
Definition marshal (t : gty) (v : gval) : res json :=
  if mem_str (ty_name t) helper_types then enc_obj t v else enc t v.

(** ** Decoding *)
(** Outcome of a decoding step: a value with the flag "an error was saved"
    (json.Unmarshal goes on and reports it at the end), an error that stops
    decoding (from an UnmarshalJSON method), or a panic. *)
Inductive dres (A : Type) :=
| DOk (a : A) (saved : bool)
| DAbort
| DPanic.
Arguments DOk {A} a saved.
Arguments DAbort {A}.
Arguments DPanic {A}.

(** Decoding goes on after a saved error and stops after any other
    (encoding/json, decodeState.saveError; stix.go:988, 1104). *)
Definition dbind {A B} (x : dres A) (f : A -> dres B) : dres B :=
  match x with
  | DOk a e => match f a with DOk b e' => DOk b (e || e') | DAbort => DAbort | DPanic => DPanic end
  | DAbort => DAbort
  | DPanic => DPanic
  end.

(** json.Unmarshal's result. *)
Definition unmarshal_res {A} (x : dres A) : res A :=
  match x with DOk a false => Ok a | DOk _ true => Err "json" | DAbort => Err "json" | DPanic => Panic end.

(** foldEqual of encoding/json: ASCII case, the Kelvin sign for k, the long s
    for s (fold.go). *)
Definition lower (c : ascii) : ascii :=
  if ((65 <=? bt c) && (bt c <=? 90))%N then ch (bt c + 32)%N else c.
(** The text up to folding: equal results are names equal under foldEqual
    (encoding/json, fold.go; stix.go:1104). *)
Fixpoint fold_key (s : string) : string :=
  match s with
  | EmptyString => EmptyString
  | String a s1 =>
      match s1 with
      | EmptyString => String (lower a) (fold_key s1)
      | String b s2 =>
          if (bt a =? 197)%N && (bt b =? 191)%N then String "s" (fold_key s2)
          else match s2 with
               | EmptyString => String (lower a) (fold_key s1)
               | String c s3 =>
                   if (bt a =? 226)%N && (bt b =? 132)%N && (bt c =? 170)%N then String "k" (fold_key s3)
                   else String (lower a) (fold_key s1)
               end
      end
  end.

(** The struct field for a member name: exact match first, else the first
    field equal under folding (decode.go, object). *)
Definition find_field (k : string) (fl : list (string * fpath * gty)) : option (fpath * gty) :=
  match find (fun f => String.eqb (fst (fst f)) k) fl with
  | Some (_, p, t) => Some (p, t)
  | None =>
      match find (fun f => String.eqb (fold_key (fst (fst f))) (fold_key k)) fl with
      | Some (_, p, t) => Some (p, t)
      | None => None
      end
  end.

(** The elements of an array into a slice, reusing what is there
    (encoding/json, decode.go array; stix.go:1104). *)
Definition dec_list (f : json -> gval -> dres gval) (z : gval) : list json -> list gval -> dres (list gval) :=
  fix go l old :=
    match l with
    | [] => DOk [] false
    | x :: l' => dbind (f x (match old with o :: _ => o | [] => z end)) (fun v =>
                 dbind (go l' (tl old)) (fun vs => DOk (v :: vs) false))
    end.

(** The members of an object into a map (encoding/json, decode.go object;
    stix.go:988, 1104). *)
Definition dec_mems (f : json -> dres gval) : list (string * json) -> list (string * gval) -> dres (list (string * gval)) :=
  fix go ms m :=
    match ms with
    | [] => DOk m false
    | (k, x) :: ms' => dbind (f x) (fun v => go ms' (minsert k v m))
    end.

(** The members of an object into a struct; unknown names are skipped
    (encoding/json, decode.go object; stix.go:1104). *)
Definition dec_struct (f : json -> gty -> gval -> dres gval) (fl : list (string * fpath * gty)) :
    list (string * json) -> gval -> dres gval :=
  fix go ms cur :=
    match ms with
    | [] => DOk cur false
    | (k, x) :: ms' =>
        match find_field k fl with
        | None => go ms' cur
        | Some (p, t) => dbind (f x t (get_path p cur)) (fun v => go ms' (set_path p v cur))
        end
    end.

(** Extensions.UnmarshalJSON, extension.go:13-65: the Go type for an extension
    key. *)
Definition ty_CustomObject : gty := GMap "CustomObject" "string" GIface.
(** The cases of the switch, extension.go:27-50. *)
Definition ext_types : list (string * gty) :=
  [(ExtArchive, ty_ArchiveFileExtension); (ExtHTTPRequest, ty_HTTPRequestExtension);
   (ExtICMP, ty_ICMPExtension); (ExtNTFS, ty_NTFSFileExtension); (ExtPDF, ty_PDFExtension);
   (ExtRasterImage, ty_RasterImageExtension); (ExtSocket, ty_SocketExtension); (ExtTCP, ty_TCPExtension);
   (ExtUnixAccount, ty_UNIXAccountExtension); (ExtWindowsPEBinary, ty_WindowsPEBinaryExtension);
   (ExtWindowsProcess, ty_WindowsProcessExtension); (ExtWindowsService, ty_WindowsServiceExtension)].
(** The switch with its default case, extension.go:26-53. *)
Definition ext_ty (k : string) : gty :=
  match alookup k ext_types with Some t => t | None => ty_CustomObject end.
(** &T{} or &CustomObject{} *)
Definition fresh (t : gty) : gval := match t with GMap _ _ _ => VMap [] | _ => zero t end.

(** Only the last member of a name survives in the map of raw messages.  Go
    visits that map in an unspecified order; the model visits it in document
    order, which only matters for which of several failures is seen first. *)
Definition dec_ext (f : json -> gty -> gval -> dres gval) : list (string * json) -> list (string * gval) -> dres (list (string * gval)) :=
  fix go ms m :=
    match ms with
    | [] => DOk m false
    | (k, x) :: ms' =>
        if mem_str k (map fst ms') then go ms' m
        else match f x (ext_ty k) (fresh (ext_ty k)) with
             | DOk v false => go ms' (minsert k (VDyn (GPtr (ext_ty k)) (VPtr v)) m)
             | DOk _ true => DAbort
             | DAbort => DAbort
             | DPanic => DPanic
             end
    end.

(** A string in an interface{} (stix.go:1002 asserts it). *)
Definition dyn_str (s : string) : gval := VDyn (GString "string") (VStr s).

(** A JSON value into an interface{} (decode.go valueInterface). *)
Section Decode.
Variable rnd : bool -> N -> Z -> option flt.

(** Any value into an interface{} (encoding/json, decode.go valueInterface;
    stix.go:988, CustomObject extension.go:287).  A number that is out of range
    is a saved error. *)
Fixpoint dec_any (j : json) : dres gval :=
  match j with
  | JNull => DOk VNil false
  | JBool b => DOk (VDyn GBool (VBool b)) false
  | JNum l => match parse_float rnd l with Some f => DOk (VDyn GFloat (VFloat f)) false | None => DOk VNil true end
  | JStr raw => match unq raw with Some s => DOk (dyn_str s) false | None => DOk VNil true end
  | JArr l => dbind (dec_list (fun x _ => dec_any x) VNil l []) (fun vs => DOk (VDyn (GSlice GIface) (VSlice vs)) false)
  | JObj ms => dbind (dec_mems dec_any ms []) (fun m => DOk (VDyn (GMap "" "string" GIface) (VMap m)) false)
  end.

(** A JSON array into []byte: numbers 0..255, null leaves 0. *)
Fixpoint dec_bytes (l : list json) : dres string :=
  match l with
  | [] => DOk "" false
  | x :: l' =>
      dbind (match x with
             | JNull => DOk "000"%char false
             | JNum lx =>
                 match lex_num lx with
                 | Some (false, ip, "", (_, "")) =>
                     let n := N_of_digits ip in
                     if (n <? 256)%N then DOk (ascii_of_N n) false else DOk "000"%char true
                 | _ => DOk "000"%char true
                 end
             | _ => DOk "000"%char true
             end)
        (fun c => dbind (dec_bytes l') (fun s => DOk (String c s) false))
  end.

(** Binary.UnmarshalJSON, data-types.go:27-32 *)
Definition bin_unmarshal (j : json) : dres gval :=
  match j with
  | JNull => DOk VNil false
  | JStr raw => match unq raw with
                | Some s => match b64_decode s with Some b => DOk (VBin b) false | None => DAbort end
                | None => DAbort
                end
  | JArr l => match dec_bytes l with DOk s false => DOk (VBin s) false | _ => DAbort end
  | _ => DAbort
  end.

(** The enumerations' UnmarshalJSON.  EncryptionAlgorithm and OpinionValue
    slice b[1:len(b)-1] unconditionally (artifact.go:94-104,
    opinion.go:112-122); ExtensionType decodes a string
    (extension.go:239-255); the others first test len(b) < 3
    (network.go:267-281, network.go:331-345, process.go:129-143,
    process.go:204-218, process.go:263-277, process.go:314-328,
    regkey.go:107-121). *)
Definition enum_or_zero (name s : string) : gval :=
  match enum_find name s with Some n => VEnum n | None => VEnum 0 end.
(** UnmarshalJSON of the enumeration [name], lines as above. *)
Definition enum_unmarshal (name : string) (j : json) : dres gval :=
  if String.eqb name "ExtensionType" then
    match j with
    | JNull => DOk (enum_or_zero name "") false
    | JStr raw => match unq raw with Some s => DOk (enum_or_zero name s) false | None => DAbort end
    | _ => DAbort
    end
  else if mem_str name ["EncryptionAlgorithm"; "OpinionValue"] then
    match inner_slice (print j) with
    | Ok s => DOk (enum_or_zero name s) false
    | Err _ => DAbort
    | Panic => DPanic
    end
  else if (String.length (print j) <? 3)%nat then DOk (VEnum 0) false
  else match inner_slice (print j) with
       | Ok s => DOk (enum_or_zero name s) false
       | Err _ => DAbort
       | Panic => DPanic
       end.

(** Timestamp.UnmarshalJSON gets the raw text.  For arrays and objects the
    model passes their compact text instead of the original one; neither
    parses as a time and both are at least two bytes long. *)
Definition time_unmarshal (j : json) : dres gval :=
  match ts_unmarshal (print j) with Ok t => DOk (VTime t) false | Err _ => DAbort | Panic => DPanic end.

(** The elements of a slice; none for nil (range over a slice, e.g.
    regkey.go:55). *)
Definition old_list (v : gval) : list gval := match v with VSlice l => l | _ => [] end.
(** The entries of a map; none for nil (range over a map, e.g. stix.go:1118). *)
Definition old_map (v : gval) : list (string * gval) := match v with VMap m => m | _ => [] end.

(** json.Unmarshal of [j] into a variable of type [t] holding [old].
    Simplification: when a slice that was already filled (by an earlier member
    of the same name) is filled again, elements up to its length are reused as
    Go does, stale elements between length and capacity are not (Stale.v). *)
Fixpoint dec (j : json) : gty -> gval -> dres gval :=
  fix dty (t : gty) (old : gval) {struct t} : dres gval :=
    match t with
    | GString _ =>
        match j with
        | JNull => DOk old false
        | JStr raw => match unq raw with Some s => DOk (VStr s) false | None => DOk old true end
        | _ => DOk old true
        end
    | GInt _ =>
        match j with
        | JNull => DOk old false
        | JNum l => match parse_int l with Some z => DOk (VInt z) false | None => DOk old true end
        | _ => DOk old true
        end
    | GBool =>
        match j with JNull => DOk old false | JBool b => DOk (VBool b) false | _ => DOk old true end
    | GFloat =>
        match j with
        | JNull => DOk old false
        | JNum l => match parse_float rnd l with Some f => DOk (VFloat f) false | None => DOk old true end
        | _ => DOk old true
        end
    | GEnum name => enum_unmarshal name j
    | GTime => time_unmarshal j
    | GBinary => bin_unmarshal j
    | GPtr t' =>
        match j with
        | JNull => DOk VNil false
        | _ => dbind (dty t' (match old with VPtr v => v | _ => zero t' end)) (fun v => DOk (VPtr v) false)
        end
    | GSlice t' =>
        match j with
        | JNull => DOk VNil false
        | JArr l => dbind (dec_list (fun x o => dec x t' o) (zero t') l (old_list old)) (fun vs => DOk (VSlice vs) false)
        | JStr raw =>
            match t' with
            | GEnum _ => (* element kind uint8: base64 *)
                match unq raw with
                | Some s => match b64_decode s with
                            | Some b => DOk (VSlice (map (fun c => VEnum (bt c)) (list_ascii_of_string b))) false
                            | None => DOk old true
                            end
                | None => DOk old true
                end
            | _ => DOk old true
            end
        | _ => DOk old true
        end
    | GMap _ _ t' =>
        match j with
        | JNull => DOk VNil false
        | JObj ms => dbind (dec_mems (fun x => dec x t' (zero t')) ms (old_map old)) (fun m => DOk (VMap m) false)
        | _ => DOk old true
        end
    | GIface => dec_any j
    | GExt =>
        match j with
        | JNull => DOk (VMap []) false
        | JObj ms => dbind (dec_ext dec ms []) (fun m => DOk (VMap m) false)
        | _ => DAbort
        end
    | GStruct _ fs =>
        match j with
        | JNull => DOk old false
        | JObj ms => dec_struct dec (flat_fields fs) ms old
        | _ => DOk old true
        end
    | GRaw => DOk (VRaw j) false
    end.

(** json.Unmarshal on bytes: the whole text must be valid JSON. *)
Definition unmarshal (s : string) (t : gty) (old : gval) : res gval :=
  match parse_json s with
  | None => Err "invalid JSON"
  | Some j => unmarshal_res (dec j t old)
  end.

End Decode.

(** json.Marshal of an object, as bytes. *)
Definition marshal_bytes (t : gty) (v : gval) : res string := do j <- marshal t v; Ok (print j).
