(** Which of the library's errors a constructor returns. *)
From Verif Require Import GoStr Json Float Consts GoTypes Schema GoVal Codec CodecSpec OptTable FromJson Options OptionFacts PropOptions Ident Constructors ConstrSpec.
Local Open Scope string_scope.

(** A required argument is missing. *)
Definition lacks (c : call) : Prop :=
  match c with
  | CLocation r co la lo => r = "" /\ co = "" /\ is_0 la /\ is_0 lo
  | _ => args_bad c
  end.
(** Domain objects, relationships and the other meta objects say that a property
    is missing; observables and extension definitions that a parameter is
    invalid. *)
Definition lacks_error (c : call) : string :=
  match c with
  | CExtensionDefinition _ _ _ _ => ErrInvalidParameter
  | _ => match call_kind c with SCO => ErrInvalidParameter | _ => ErrPropertyMissing end
  end.
(** An argument has a value it cannot have. *)
Definition out_of_range (c : call) : Prop :=
  match c with
  | CLocation r co la lo =>
      ~ (within la 90 \/ la = FNaN) \/ ~ (within lo 180 \/ lo = FNaN) \/ (is_0 la /\ ~ is_0 lo) \/ (~ is_0 la /\ is_0 lo)
  | _ => False
  end.
(** Constructors that have no required argument, but need an option. *)
Definition option_wanted (c : call) : Prop := c = CProcess \/ c = CRegistryKey \/ c = CUserAccount \/ c = CX509Certificate.

(** The property [f] after the constructor's arguments and the options [l]. *)
Definition setting (c : call) (now : Z) (l : list stix_option) (f : string) : gval :=
  match field_by_name (call_fields c) f with
  | Some (_, t) => final f l (match alookup f (starts c now) with Some x => x | None => zero t end)
  | None => VNil
  end.
(** Properties [p] that do not go together, and the error they lead to. *)
Definition seen_backwards (p : string -> gval) : Prop :=
  exists a b, p "FirstSeen" = VPtr (VTime a) /\ p "LastSeen" = VPtr (VTime b) /\ (b < a)%Z.
Definition conflict (c : call) (p : string -> gval) (e : string) : Prop :=
  match c with
  | CCampaign _ => e = ErrInvalidProperty /\ seen_backwards p
  | CSighting _ => e = ErrInvalidProperty /\ ((exists n, p "Count" = VInt n /\ ~ (0 <= n <= 999999999)%Z) \/ seen_backwards p)
  | CLocation _ _ la lo => e = ErrInvalidProperty /\ (is_0 la \/ is_0 lo) /\ exists x, p "Precision" = VFloat x /\ ~ is_0 x
  | CMalware family => e = ErrInvalidProperty /\ family = true /\ p "Name" = VStr ""
  | CArtifact =>
      (e = ErrPropertyMissing /\ p "Payload" = VNil /\ (p "URL" = VStr "" \/ p "Hashes" = VNil)) \/
      (e = ErrInvalidParameter /\ p "Payload" <> VNil /\ p "URL" <> VStr "")
  | CNetworkTraffic _ => e = "at least one of src or dst is required" /\ p "Src" = VStr "" /\ p "Dst" = VStr ""
  | _ => False
  end.
(** A failing option comes first for these, a conflict for the others. *)
Definition options_first (c : call) : bool := match c with CSighting _ | CArtifact | CNetworkTraffic _ => true | _ => false end.

(** The three errors of error.go. *)
Definition documented_error (e : string) : Prop := e = ErrPropertyMissing \/ e = ErrInvalidProperty \/ e = ErrInvalidParameter.
