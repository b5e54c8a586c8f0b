(** Specification only: what the identifier of a constructed observable is made
    of, as a JSON value. *)
From Verif Require Import GoStr JsonStr Json Float NumSpec TimeSpec B64Spec JsonSpec CanonSpec Enums GoTypes GoVal Codec Constructors ConstrSpec.
Local Open Scope string_scope.

(** Text that stands for itself between quotation marks in canonical JSON. *)
Definition verbatim (s : string) : Prop := forall c, In c (list_ascii_of_string s) -> (32 <= N_of_ascii c)%N /\ c <> "034"%char /\ c <> "\"%char.

Definition absent (x : gval) : Prop := x = VNil \/ x = VStr "" \/ x = VInt 0 \/ x = VSlice [] \/ x = VMap [] \/ x = VBin "".

(** The preferred hash of a map. *)
Definition hash_order : list string := ["MD5"; "SHA-1"; "SHA-256"; "SHA-512"].
Definition preferred (l : list (string * gval)) (alg h : string) : Prop := exists before after,
  hash_order = (before ++ alg :: after)%list /\ (forall a, In a before -> alookup a l = None) /\ alookup alg l = Some (VStr h).

(** A whole number as a double in lowest terms. *)
Definition whole (z : Z) (n : cval) : Prop := exists m e, n = CNum (FFin (z <? 0)%Z m (Z.of_nat e)) /\ (Z.abs z = Z.of_N m * 10 ^ Z.of_nat e)%Z /\ (Z.abs z < 10 ^ 21)%Z.

(** One value of a registry key: the members that are there. *)
Definition member_if (k s : string) : list (string * cval) := if String.eqb s "" then [] else [(k, CStr s)].
Definition registry_object (x : gval) (o : cval) : Prop := exists w data name ty,
  x = VPtr w /\ get_field "Data" w = VStr data /\ get_field "Name" w = VStr name /\ verbatim data /\ verbatim name /\
  (exists n, get_field "DataType" w = VEnum n /\ In (n, ty) map_RegistryDataType) /\
  o = CObj (member_if "data" data ++ member_if "data_type" ty ++ member_if "name" name).

Section S.
Variable rnd : bool -> N -> Z -> option flt.
(** [id_value f x l]: the value [x] of property [f] contributes the JSON values [l]. *)
Inductive id_value : string -> gval -> list cval -> Prop :=
| iv_absent f x : absent x -> id_value f x []
| iv_string f s : s <> "" -> verbatim s -> id_value f (VStr s) [CStr s]
| iv_binary f b t spare : b <> "" -> base64 b spare t -> (forall x, In x spare -> x = false) -> id_value f (VBin b) [CStr t]
| iv_time f c ms r : valid_civil c -> (0 <= ms < 1000)%Z -> (0 <= r < 1000000)%Z ->
    id_value f (VPtr (VTime (instant c 0 (ms * 1000000 + r)))) [CStr (utc_ms_text c ms)]
| iv_int f z n : z <> 0%Z -> whole z n -> id_value f (VInt z) [n]
| iv_hash l alg h : preferred l alg h -> verbatim h -> id_value "Hashes" (VMap l) [CObj [(alg, CStr h)]]
| iv_strings ss : ss <> [] -> Forall verbatim ss -> id_value "Protocols" (VSlice (map VStr ss)) [CArr (map CStr ss)]
| iv_registry l os : l <> [] -> Forall2 registry_object l os -> id_value "Values" (VSlice l) os
| iv_extensions l t e : l <> [] -> marshal_bytes GExt (VMap l) = Ok t -> ijson_text rnd e t -> dup_free e -> id_value "Extensions" (VMap l) [e].
End S.

(** The contributing properties of an observable and where they are taken from:
    the argument if there is only one, the finished object otherwise. *)
Definition id_props (c : call) (v : gval) : list (string * gval) :=
  match single_key c with
  | Some _ => given c
  | None => map (fun f => (f, prop c f v)) (contributing c)
  end.
(** [id_array c v l]: the JSON array made of all contributions. *)
Definition id_array rnd (c : call) (v : gval) (a : cval) : Prop := exists ls,
  Forall2 (fun fx l => id_value rnd (fst fx) (snd fx) l) (id_props c v) ls /\ a = CArr (concat ls).

(** The ID contributing properties of STIX 2.1 (chapter 6), by their JSON names;
    process has none. *)
Definition standard_contributing : list (string * list string) :=
  [("artifact", ["hashes"; "payload_bin"]); ("autonomous-system", ["number"]); ("directory", ["path"]); ("domain-name", ["value"]);
   ("email-addr", ["value"]); ("email-message", ["from_ref"; "subject"; "body"]); ("file", ["hashes"; "name"; "extensions"; "parent_directory_ref"]);
   ("ipv4-addr", ["value"]); ("ipv6-addr", ["value"]); ("mac-addr", ["value"]); ("mutex", ["name"]);
   ("network-traffic", ["start"; "end"; "src_ref"; "dst_ref"; "src_port"; "dst_port"; "protocols"; "extensions"]);
   ("software", ["name"; "cpe"; "swid"; "vendor"; "version"]); ("url", ["value"]); ("user-account", ["account_type"; "user_id"; "account_login"]);
   ("windows-registry-key", ["key"; "values"]); ("x509-certificate", ["hashes"; "serial_number"])].
(** [written_as c f k]: the property [f] of the objects made by [c], their own or
    one of the base struct, has the JSON name [k]. *)
Definition written_as (c : call) (f k : string) : Prop := exists m t, fm_name m = f /\ fm_key m = k /\
  (In (m, t) (call_fields c) \/ exists mb nb fs, In (mb, GStruct nb fs) (call_fields c) /\ fm_embed mb = true /\ In (m, t) fs).
Definition contributes (c : call) (f : string) : Prop := single_key c = Some f \/ In f (contributing c).
