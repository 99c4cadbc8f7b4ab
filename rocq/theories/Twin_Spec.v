(** What is to hold of requests that overlap at a data server. *)
From Verif Require Import Twin_Model.
From Coq Require Import List Arith Bool.
Import ListNotations.

Section Store.
  Context {B : Type}.

  (** A request that appends and has seen no file but not ended. *)
  Definition busy (t : thread B) : bool :=
    match t_kind t, t_pc t with
    | Append _, Act | Append _, Writing _ _ => true
    | _, _ => false
    end.
  (** No two requests append at the same time. *)
  Definition exclusive (s : state B) : Prop := length (filter busy (st_threads s)) <= 1.
  Fixpoint always (P : state B -> Prop) (s : state B) (vs : list event) : Prop :=
    match vs with [] => P s | v :: r => P s /\ always P (happen s v) r end.

  (** The requests bring the content [c]. *)
  Definition brings (c : list B) (k : kind B) : Prop := match k with Rename => True | Append cs => concat cs = c end.
  Definition breaks (v : event) : Prop := match v with Break _ => True | _ => False end.

  Definition is_told (s : state B) (x : told) : Prop := exists i k, nth_error (st_threads s) i = Some (Thread k (Done x)).
  Definition nobody_writes (s : state B) : Prop := forall i k j r, nth_error (st_threads s) i <> Some (Thread k (Writing j r)).
End Store.

(** Some PATCH has seen the entry and not opened the file yet. *)
Definition halfway (u : upload) : bool := existsb (fun p => match p with PatchOpen => true | _ => false end) (u_reqs u).
(** The entry is never taken away while a PATCH is between its two steps. *)
Fixpoint apart (u : upload) (vs : list uevent) : Prop :=
  match vs with
  | [] => True
  | v :: r => (halfway u = true -> u_entry (uhappen u v) = u_entry u) /\ apart (uhappen u v) r
  end.
