(** Helper data types: hashes, external references, kill chain phases,
    extension accessors and CustomObject. *)
From Verif Require Import GoStr JsonStr Json Float Consts GoTypes Schema GoVal Time Codec.

(** The quotation mark in the format strings (data-types.go:142-156,
    network.go:186). *)
Definition dquote : string := String "034" "".

(** &T{F1: v1, ...} *)
Definition build (t : gty) (l : list (string * gval)) : gval :=
  fold_left (fun v kv => set_field (fst kv) (snd kv) v) l (zero t).

(** h[k] on a map value *)
Definition map_get (k : string) (v : gval) : option gval :=
  match v with VMap l => alookup k l | _ => None end.
(** A string (or string-like) value of Go. *)
Definition str_of (v : gval) : string := match v with VStr s => s | _ => "" end.

(** Hashes.getIDContribution, data-types.go:142-156 *)
Definition hash_text (alg v : string) : string :=
  ("{" ++ dquote ++ alg ++ dquote ++ ":" ++ dquote ++ v ++ dquote ++ "}")%string.
(** The first algorithm of the order MD5, SHA-1, SHA-256, SHA-512 that is
    present, data-types.go:142-156. *)
Definition hash_contribution (h : gval) : string :=
  match map_get MD5 h with
  | Some v => hash_text "MD5" (str_of v)
  | None =>
      match map_get SHA1 h with
      | Some v => hash_text "SHA-1" (str_of v)
      | None =>
          match map_get SHA256 h with
          | Some v => hash_text "SHA-256" (str_of v)
          | None =>
              match map_get SHA512 h with
              | Some v => hash_text "SHA-512" (str_of v)
              | None => ""
              end
          end
      end
  end.

(** NewExternalReference, data-types.go:103-117 *)
Definition new_external_reference (name description url external_id : string) (hashes : gval) : res gval :=
  if is_empty name then Err "property missing"
  else if is_empty description && is_empty url && is_empty external_id then Err "property missing"
  else Ok (build ty_ExternalReference
             [("Name", VStr name); ("Description", VStr description); ("URL", VStr url);
              ("Hashes", hashes); ("ExternalID", VStr external_id)]).
(** NewKillChainPhase, data-types.go:418-423 *)
Definition new_kill_chain_phase (name phase : string) : res gval :=
  if is_empty name || is_empty phase then Err "property missing"
  else Ok (build ty_KillChainPhase [("Name", VStr name); ("Phase", VStr phase)]).

Section Parse.
Variable rnd : bool -> N -> Z -> option flt.
(** ParseExternalReference (data-types.go:121-125) and ParseKillChainPhase
    (data-types.go:426-430) decode into a nil pointer. *)
Definition parse_external_reference (b : string) : res gval := unmarshal rnd b (GPtr ty_ExternalReference) VNil.
(** ParseKillChainPhase, data-types.go:426-430 *)
Definition parse_kill_chain_phase (b : string) : res gval := unmarshal rnd b (GPtr ty_KillChainPhase) VNil.
End Parse.

(** Extension accessors: Go type, method, extension key, asserted type
    (file.go:60-103, network.go:97-130, process.go:53-69, user.go:73-79). *)
Definition ext_accessors : list (string * string * string * gty) :=
  [("File", "ArchiveExtension", ExtArchive, ty_ArchiveFileExtension);
   ("File", "NTFSExtension", ExtNTFS, ty_NTFSFileExtension);
   ("File", "PDFExtension", ExtPDF, ty_PDFExtension);
   ("File", "RasterImageExtension", ExtRasterImage, ty_RasterImageExtension);
   ("File", "WindowsPEBinaryExtension", ExtWindowsPEBinary, ty_WindowsPEBinaryExtension);
   ("NetworkTraffic", "HTTPRequestExtension", ExtHTTPRequest, ty_HTTPRequestExtension);
   ("NetworkTraffic", "ICMPExtension", ExtICMP, ty_ICMPExtension);
   ("NetworkTraffic", "SocketExtension", ExtSocket, ty_SocketExtension);
   ("NetworkTraffic", "TCPExtension", ExtTCP, ty_TCPExtension);
   ("Process", "WindowsProcessExtension", ExtWindowsProcess, ty_WindowsProcessExtension);
   ("Process", "WindowsServiceExtension", ExtWindowsService, ty_WindowsServiceExtension);
   ("UserAccount", "UNIXAccountExtension", ExtUnixAccount, ty_UNIXAccountExtension)].

(** The field the accessors look at, object.go:347 (STIXCyberObservableObject). *)
Definition p_extensions : fpath := (Some "STIXCyberObservableObject", "Extensions").
(** The common body: a map lookup and a type assertion.  Types are compared by
    name; a nil interface fails the assertion. *)
Definition ext_accessor (key : string) (t : gty) (obj : gval) : res gval :=
  match map_get key (get_path p_extensions obj) with
  | None => Ok VNil
  | Some (VDyn (GPtr t') w) => if String.eqb (ty_name t') (ty_name t) then Ok w else Panic
  | Some _ => Panic
  end.

(** ** CustomObject, extension.go:285-384.  The receiver is the map itself,
    [VNil] for a nil map. *)
(** Get, extension.go:290-296 *)
Definition co_get (c : gval) (k : string) : gval :=
  match map_get k c with Some v => v | None => VNil end.
(** Set, extension.go:299-301; assignment to a nil map panics. *)
Definition co_set (c : gval) (k : string) (v : gval) : res gval :=
  match c with VMap l => Ok (VMap (minsert k v l)) | _ => Panic end.
(** x.(string) *)
Definition as_string (v : gval) : res string :=
  match v with VDyn (GString "string") (VStr s) => Ok s | _ => Panic end.
(** GetAsString, extension.go:304-310 *)
Definition co_string (c : gval) (k : string) : res string :=
  match co_get c k with VNil => Ok "" | v => as_string v end.
(** GetAsStringSlice, extension.go:313-319 *)
Definition co_strings (c : gval) (k : string) : res (list gval) :=
  match co_get c k with
  | VNil => Ok []
  | VDyn (GSlice (GString "string")) (VSlice l) => Ok l
  | VDyn (GSlice (GString "string")) VNil => Ok []
  | _ => Panic
  end.
(** GetAsNumber, extension.go:323-335; [f2i] is Go's float64 to int64
    conversion, implementation specific outside the int64 range. *)
Definition co_number (f2i : flt -> Z) (c : gval) (k : string) : res Z :=
  match co_get c k with
  | VNil => Ok 0%Z
  | VDyn (GInt "int64") (VInt z) => Ok z
  | VDyn GFloat (VFloat f) => Ok (f2i f)
  | _ => Panic
  end.
(** GetID and GetType, extension.go:338-353: a present nil value also fails the
    assertion. *)
Definition co_field (k : string) (c : gval) : res string :=
  match map_get k c with None => Ok "" | Some v => as_string v end.
(** GetID, extension.go:338-344 *)
Definition co_id : gval -> res string := co_field "id".
(** GetType, extension.go:347-353 *)
Definition co_type : gval -> res string := co_field "type".
(** GetCreated and GetModified through convTimeString, extension.go:357-377 *)
Definition co_time (k : string) (c : gval) : res (option Z) :=
  match map_get k c with None => Ok None | Some v => do s <- as_string v; Ok (ts_parse s) end.
