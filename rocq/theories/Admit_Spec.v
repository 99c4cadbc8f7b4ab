(** Vocabulary of the write admission properties. *)
From Verif Require Import Str_Model Meta_Model Meta_Spec Admit_Model.
From stdpp Require Import gmap.
Local Open Scope list_scope.

(** Every server holds exactly what the log entries it has applied give, and every
    acknowledged write is in the log. *)
Record agreed (cl : cluster) (es : list aevent) : Prop := {
  ag_rep : forall i r, cl_reps cl !! i = Some r ->
    r_done r <= length (cl_log cl) /\ r_db r = apply_log db_empty (take (r_done r) (cl_log cl));
  ag_ack : forall i q, Acked i q ∈ es -> exists f c, q = RCall f c /\ c ∈ cl_log cl }.

(** Requests that pass a check of the leader flag and go through the log. *)
Definition guarded (q : request) : Prop :=
  match q with
  | RCall (Rpc m) _ => m ∈ writable_methods
  | RCall Http _ => True
  | RLocate _ _ _ _ => False
  end.

(** Only guarded requests are made, and no server's flag drops while it has a request
    that passed the check and was not served. *)
Definition act_ok (cl : cluster) (a : aact) : Prop :=
  match a with
  | Arrive _ q => guarded q
  | Lead i false => forall q, (i, q) ∉ cl_pend cl
  | _ => True
  end.

Fixpoint acts_ok (cl : cluster) (acts : list aact) : Prop :=
  match acts with
  | [] => True
  | a :: acts' => act_ok cl a /\ acts_ok (fst (astep cl a)) acts'
  end.

(** No request is acknowledged or stored by a server that a migration has closed to
    writes, except the items of the migration. *)
Definition foreign_item (q : request) : Prop := exists c, q = RCall (Rpc streaming_receive) c.

(** Two servers that applied the same entries hold different data. *)
Definition diverged (cl : cluster) : Prop :=
  exists i j ri rj, cl_reps cl !! i = Some ri /\ cl_reps cl !! j = Some rj /\
    r_done ri = r_done rj /\ r_db ri <> r_db rj.

(** Flags only rise. *)
Definition no_drop (a : aact) : Prop := match a with Lead _ false => False | _ => True end.
