(** What is claimed about the caching graph adapter: which functions it invokes, and when what it
    returns is what a run without it returns. *)
From Coq Require Import Ascii.
From Verif Require Import Base Strings ExecModel ExecSpec HCacheModel.

Section Spec.
Context {V E C : Type}.
Variable g : graph.
Variable fmt : name -> option string.
Variable write : string -> name -> V -> option C * option E.
Variable read : string -> name -> C -> res E V.

(** Formats are words without dots. *)
Definition plain_formats : Prop := forall x fm, fmt x = Some fm -> lacks "."%char fm.

(** What was written in full can be read back; a write that raises leaves the file alone or
    has written everything. *)
Record faithful_files : Prop := {
  ff_read : forall fm x v c err, write fm x v = (Some c, err) -> read fm x c = Ok v;
  ff_done : forall fm x v err, write fm x v = (None, err) -> err <> None;
}.
(** No write raises. *)
Definition writes_succeed : Prop := forall fm x v, fmt x = Some fm -> (write fm x v).2 = None.

(** A cached variable that has to be computed whatever else happens: forced or without a file. *)
Definition no_usable_file (force : gset name) (st : hstate C) (y : name) : Prop :=
  exists nd fm, g !! y = Some nd /\ nd_ext nd = false /\ fmt y = Some fm /\
    (y ∈ force \/ hs_files st !! path y fm = None).
(** The variables whose value the value of [x] is computed from. *)
Definition uses (ov : gmap name V) : name -> name -> Prop :=
  rtc (fun a b => edge g a b /\ ov !! b = None).
Definition must_compute (force : gset name) (st : hstate C) (ov : gmap name V) (x : name) : Prop :=
  exists y, uses ov x y /\ no_usable_file force st y.

(** The files hold the values that the functions [f] give to the variables for the inputs [ins]. *)
Definition files_hold (f : name -> gmap name V -> res E V) (ins : gmap name V) (st : hstate C) : Prop :=
  forall x nd fm c, g !! x = Some nd -> nd_ext nd = false -> fmt x = Some fm ->
    hs_files st !! path x fm = Some c -> exists v, read fm x c = Ok v /\ eval f g ins ∅ x v.

(** Nothing about [y] has changed. *)
Definition unchanged (f0 f : name -> gmap name V -> res E V) (ins0 ins ov : gmap name V) (y : name) : Prop :=
  ov !! y = None /\ ins !! y = ins0 !! y /\ forall kw, f y kw = f0 y kw.

Definition requests (acts : list (action V E)) : list (request V E) :=
  omap (fun a => match a with AExec rq => Some rq | _ => None end) acts.
Definition plain (rq : request V E) : answer V E :=
  default_execute (fun _ => rq_fns rq) g (rq_config rq) (rq_inputs rq) (rq_overrides rq) (rq_final rq).
End Spec.
