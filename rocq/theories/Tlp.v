(** The predefined TLP markings, meta.go:367-448. *)
From Verif Require Import GoStr JsonStr Json Float GoTypes Schema GoVal Codec.

(** The line break of the raw string literals, meta.go:395-448. *)
Definition nl : string := String "010" "".
(** The four texts differ in identifier, name and colour only
    (meta.go:395-448). *)
Definition tlp_json (id name colour : string) : string :=
  (nl ++ "{" ++ nl ++
   "  " ++ q "type" ++ ": " ++ q "marking-definition" ++ "," ++ nl ++
   "  " ++ q "spec_version" ++ ": " ++ q "2.1" ++ "," ++ nl ++
   "  " ++ q "id" ++ ": " ++ q id ++ "," ++ nl ++
   "  " ++ q "created" ++ ": " ++ q "2017-01-20T00:00:00.000Z" ++ "," ++ nl ++
   "  " ++ q "definition_type" ++ ": " ++ q "tlp" ++ "," ++ nl ++
   "  " ++ q "name" ++ ": " ++ q name ++ "," ++ nl ++
   "  " ++ q "definition" ++ ": {" ++ nl ++
   "    " ++ q "tlp" ++ ": " ++ q colour ++ nl ++
   "  }" ++ nl ++ "}" ++ nl)%string.
(** TLPWhite, TLPGreen, TLPAmber, TLPRed: JSON text and expected name. *)
Definition tlp_markings : list string :=
  [tlp_json "marking-definition--613f2e26-407d-48c7-9eca-b8e91df99dc9" "TLP:WHITE" "white";
   tlp_json "marking-definition--34098fce-860f-48ae-8e50-ebd3cc5e41da" "TLP:GREEN" "green";
   tlp_json "marking-definition--f88d31f6-486f-44da-b317-01333bde0b82" "TLP:AMBER" "amber";
   tlp_json "marking-definition--5e57c739-391a-4eb3-b6be-7d15ca92d5ed" "TLP:RED" "red"].
(** mustParseTLP, meta.go:388-393 (decoding into a pointer to the zero
    object); a failure panics when the package is initialised. *)
Definition must_parse_tlp (rnd : bool -> N -> Z -> option flt) (text : string) : res gval :=
  match unmarshal rnd text (GPtr ty_MarkingDefinition) (VPtr (zero ty_MarkingDefinition)) with
  | Ok (VPtr v) => Ok v
  | Ok v => Ok v
  | _ => Panic
  end.
