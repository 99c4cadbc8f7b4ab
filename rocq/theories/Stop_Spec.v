(** Words for the theorems about stopping and starting again. *)
From stdpp Require Import list.
From Verif Require Import Str_Model Registry_Model Stop_Model.
Local Open Scope list_scope.

(** Nothing is cut off and nothing fails. *)
Definition served (r : rq) : Prop := r = RGood.

(** The request has not been answered yet. *)
Definition running (r : rq) : Prop := exists n ok, r = RWork n ok.

(** The slots the group has at the end: those of its last migration, told by the events
    alone. *)
Fixpoint last_slots (lead : bool) (now : list str) (ops : list sop) : list str :=
  match ops with
  | [] => now
  | SElect _ :: r => last_slots true now r
  | SMigrate l :: r => last_slots lead (if lead then l else now) r
  | SCrash :: r => last_slots false now r
  | SStop _ _ _ :: r => last_slots lead now r
  end.

(** Nobody stops while it leads; crashes may happen. *)
Fixpoint leaders_stay (leader : option nat) (ops : list sop) : Prop :=
  match ops with
  | [] => True
  | SElect i :: r => leaders_stay (Some i) r
  | SMigrate _ :: r => leaders_stay leader r
  | SCrash :: r => leaders_stay None r
  | SStop i _ _ :: r => leader <> Some i /\ leaders_stay leader r
  end.

(** No election. *)
Definition no_election (o : sop) : Prop := match o with SElect _ => False | _ => True end.

(** Each start is followed by the closing functions, the last one first, and only then by
    the next start. *)
Inductive in_turns (fs : list nat) : list oev -> Prop :=
| turns_none : in_turns fs []
| turns_open : in_turns fs [OStarted]
| turns_both : forall l, in_turns fs l -> in_turns fs (OStarted :: map ORan (rev fs) ++ l).
