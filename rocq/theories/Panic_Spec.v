(** What guards against panics are for. *)
From Coq Require Import List.
From Verif Require Import Str_Model Panic_Model.
Import ListNotations.

(** A deferred call that ends every panic. *)
Definition contains_all (d : deferred) : Prop := forall v, snd (d (Some v)) = None.

(** A deferred call that does nothing to a function that ended well. *)
Definition quiet (d : deferred) : Prop := snd (d None) = None.

(** The deferred calls the code has. *)
Definition ours (d : deferred) : Prop :=
  d = g_recover true \/ d = g_recover false \/ d = dg_done \/ d = ldg_done.
Definition own_of (j : job) : list deferred :=
  match j with JHttp own => own | JGrpc own => own | JGo own => own end.

(** Jobs outside gin's recovery. *)
Definition outside (j : job) : Prop := match j with JHttp _ => False | _ => True end.

(** The guards do their work: no job ends the server, and a worker's panic is delivered to
    its group. *)
Definition guarded : Prop :=
  (forall s j p, Forall ours (own_of j) -> own_of j <> [] -> sv_runs s = true -> sv_runs (fst (finish s (j, p))) = true) /\
  (forall v, In (Sent (text v)) (fst (dg_done (Some v)))).
