(** Who gave a reference to an object. *)
From Verif Require Import GoStr GoTypes Schema GoVal Codec CodecSpec OptTable FromJson Options PropOptions Constructors ConstrSpec Alias.
Local Open Scope string_scope.

(** The caller passes the reference [a] to a constructor: as an argument or as
    the value of an option. *)
Definition passed (q : request) (a : addr) : Prop :=
  (exists f x, In (f, x) (given (rq_call q)) /\ is_ref x = true /\ alookup f (rq_args q) = Some a) \/
  (exists r x, In (OField r x, a) (rq_opts q) /\ is_ref x = true).
(** The caller hands the reference [a] to an object. *)
Definition hands (e : event) (a : addr) : Prop :=
  match e with
  | Make q => passed q a
  | Assign _ _ x b => is_ref x = true /\ b = a
  | _ => False
  end.
(** In no event of the history. *)
Definition kept_private (es : list event) (a : addr) : Prop := forall e, In e es -> ~ hands e a.

(** A call the Go compiler accepts, made with references to existing memory that
    hold the values passed. *)
Record sound_call (w : world) (q : request) : Prop := {
  sc_args : args_typed (rq_call q) = true;
  sc_opts : Forall user_option (map fst (rq_opts q));
  sc_args_at : forall f x, In (f, x) (given (rq_call q)) -> is_ref x = true ->
    exists a, alookup f (rq_args q) = Some a /\ a < w_next w /\ w_heap w a = x;
  sc_opts_at : forall r x a, In (OField r x, a) (rq_opts q) -> is_ref x = true -> a < w_next w /\ w_heap w a = x }.
Definition sound_event (w : world) (e : event) : Prop :=
  match e with
  | Make q => sound_call w q
  | Assign _ _ x a => is_ref x = true -> a < w_next w /\ w_heap w a = x
  | Change a _ => a < w_next w
  | New _ => True
  end.
(** Every event of the history is sound when it happens. *)
Fixpoint sound_from (w : world) (es : list event) : Prop :=
  match es with [] => True | e :: es' => sound_event w e /\ sound_from (step w e) es' end.
Definition sound (es : list event) : Prop := sound_from start es.
(** The types whose constructors put one time into both time stamps. *)
Definition one_time (c : call) : Prop := In (call_name c) ["sighting"; "language-content"; "extension-definition"].
Definition both_stamps (f g : string) : Prop := (f = "Created" /\ g = "Modified") \/ (f = "Modified" /\ g = "Created").
