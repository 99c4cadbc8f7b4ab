(** Specification of the migration status: which histories are allowed. *)
From Verif Require Export Status_Model.
Local Open Scope list_scope.

(** The phase of a server, from its history alone: a start is allowed only when
    idle, a finish only in the direction that is running, closing only when idle. *)
Inductive phase := Idle | Busy (tid : nat) (d : direction) | Shut.
Definition next_phase (p : option phase) (e : event) : option phase :=
  match p, e with
  | Some Idle, EStart tid d _ _ => Some (Busy tid d)
  | Some (Busy _ d), EFinish _ d' _ => match d, d' with To, To | From, From => Some Idle | _, _ => None end
  | Some Idle, EClose _ => Some Shut
  | Some p, ECheck _ => Some p
  | Some p, ETable _ => Some p
  | _, _ => None
  end.
Definition phase_of (log : list event) : option phase := fold_left next_phase log (Some Idle).

(** The phase a status stands for. *)
Definition stands_for (st : status) (p : phase) : Prop :=
  match st, p with
  | Normal, Idle => True
  | MigTo, Busy _ To => True
  | MigFrom, Busy _ From => True
  | Closed, Shut => True
  | _, _ => False
  end.

(** The last start of a history. *)
Fixpoint last_start (log : list event) : option (direction * str * list str) :=
  match log with
  | [] => None
  | EStart _ d h sl :: r => match last_start r with Some x => Some x | None => Some (d, h, sl) end
  | _ :: r => last_start r
  end.

(** Every call in progress has returned. *)
Definition quiet (s : state) : Prop := forall p, In p (st_threads s) -> exists ok, p = PDone ok.

(** Call [tid] has seen the server idle. *)
Definition checked (tid : nat) (l : list event) : Prop :=
  exists l3 l4, l = l3 ++ ECheck tid :: l4 /\ phase_of l3 = Some Idle.

(** The two fields describe the migration that is running, and nothing else. *)
Definition fields_ok (s : state) : Prop :=
  match st_status s with
  | Normal | Closed => st_host s = [] /\ st_slots s = []
  | MigTo => last_start (st_log s) = Some (To, st_host s, st_slots s)
  | MigFrom => last_start (st_log s) = Some (From, st_host s, st_slots s)
  end.
