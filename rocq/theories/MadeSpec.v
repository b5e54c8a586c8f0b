(** Objects made by constructor calls, for their way through a collection, a
    bundle and FromJSON. *)
From Verif Require Import GoStr JsonStr Json Float Time Consts GoTypes Schema GoVal Codec CodecSpec OptTable FromJson Options OptionFacts PropOptions Ident Collection Constructors ConstrSpec.
Local Open Scope string_scope.

(** One constructor call and its result: the random bytes and the time it saw,
    how it reads numbers when canonicalizing extensions, the constructor with its
    arguments, the options, and the object. *)
Record made := Made { m_rb : string; m_now : Z; m_pf : string -> flt * bool; m_call : call; m_opts : list stix_option; m_val : gval }.
Definition m_obj (m : made) : gobj := (call_ty (m_call m), m_val m).
Definition made_ok (m : made) : Prop :=
  String.length (m_rb m) = 16%nat /\ args_typed (m_call m) = true /\ Forall go_option (m_opts m) /\
  construct (m_rb m) (m_now m) (m_pf m) (m_call m) (m_opts m) = Ret (Some (m_val m)) None.

(** Values that JSON can carry: strings in UTF-8, times with a year from 0 to
    9999, numbers in range ([wf], CodecSpec.v); an extension has the type that
    belongs to its key. *)
Definition readable_option (rnd : bool -> N -> Z -> option flt) (o : stix_option) : Prop :=
  match o with
  | ONil => True
  | OField r x => wf rnd (or_ty r) x = true
  | OExt k x => utf8b k = true /\ exists w, x = VDyn (GPtr (ext_ty k)) w /\ wf rnd (GPtr (ext_ty k)) w = true /\ w <> VNil
  end.
Definition readable (rnd : bool -> N -> Z -> option flt) (m : made) : Prop :=
  year_ok (m_now m) = true /\
  (forall f x t, In (f, x) (given (m_call m)) -> own_field (call_fields (m_call m)) f = Some t -> wf rnd t x = true) /\
  Forall (readable_option rnd) (m_opts m).
(** All required properties are set, no number is infinite or no number. *)
Definition writable (m : made) : Prop :=
  finite (m_call m) (m_val m) /\ forall f, In f (required (m_call m)) -> ~ unset (prop (m_call m) f (m_val m)).
(** What GetID and GetType report, and the call of Add. *)
Definition m_id (m : made) : string := match obj_id (m_obj m) with Ok s => s | _ => "" end.
Definition m_add (m : made) : string * string * gobj := (m_id m, call_name (m_call m), m_obj m).
