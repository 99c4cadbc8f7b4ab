(** What it takes to use a map safely. *)
From Coq Require Import List Bool Arith.
From Verif Require Import Race_Model.
Import ListNotations.

(** In no schedule does the runtime end the process for the map. *)
Definition safe_for (m : nat) (ps : list (list instr)) : Prop := forall sched, m_fatal (go (start ps) sched) <> Some m.

(** A program uses map [m] under lock [l]: [h] is how it holds the lock. *)
Fixpoint disciplined (l m : nat) (h : option bool) (p : list instr) : bool :=
  match p with
  | [] => true
  | ILock l' :: r => if l' =? l then match h with None => disciplined l m (Some true) r | _ => false end else disciplined l m h r
  | IRLock l' :: r => if l' =? l then match h with None => disciplined l m (Some false) r | _ => false end else disciplined l m h r
  | IUnlock l' :: r => if l' =? l then match h with Some true => disciplined l m None r | _ => false end else disciplined l m h r
  | IRUnlock l' :: r => if l' =? l then match h with Some false => disciplined l m None r | _ => false end else disciplined l m h r
  | ITry _ _ :: _ => false
  | IAcc m' w :: r =>
      (if m' =? m then match h with Some true => true | Some false => negb w | None => false end else true)
      && disciplined l m h r
  end.

(** A program never writes to the map; it does not mention it. *)
Definition writes_not (m : nat) (p : list instr) : Prop := ~ In (IAcc m true) p.
Definition untouched (m : nat) (p : list instr) : Prop := forall w, ~ In (IAcc m w) p.

(** One connection per address: never two made for the same address, and all calls for an
    address that return a connection return the same. *)
Definition one_each (s : pool) : Prop :=
  NoDup (p_made s) /\
  forall i j a c d, nth_error (p_calls s) i = Some (GDone a (Some c)) -> nth_error (p_calls s) j = Some (GDone a (Some d)) -> c = d.
