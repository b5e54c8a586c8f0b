(** Options of FromJSON and New, read off the list of options. *)
From Verif Require Import GoStr FromJson.

(** The last of the options that names a parser for the type [typ]; [None]: no
    option does, or the parser is nil. *)
Fixpoint last_parser (typ : string) (opts : list coll_option) : option (option handler) :=
  match opts with
  | [] => None
  | o :: opts' =>
      match last_parser typ opts' with
      | Some h => Some h
      | None => match o with UseParser typ' h => if String.eqb typ typ' then Some h else None | _ => None end
      end
  end.
Definition parser_in_use (typ : string) (opts : list coll_option) : option handler :=
  match last_parser typ opts with Some h => h | None => None end.
