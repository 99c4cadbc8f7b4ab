(** Vocabulary of the database file properties. *)
From Coq Require Import List Arith Bool.
From Verif Require Import Storage_Model.
Import ListNotations.

(** What should be stored: the last installed snapshot and the writes acknowledged
    since. *)
Definition wanted (es : list event) : list tok :=
  fold_left (fun l e => match e with EAck x => l ++ [x] | ERestored snap => snap | ERead _ => l end) es [].

(** What a process started now finds. *)
Definition found (w : world) : list tok :=
  match w_dir w 0 with Some i => w_data w i | None => [] end.

(** What the running process reads. *)
Definition readable (w : world) : option (list tok) :=
  match w_proc w with
  | Some p => match the_handle p (p_cur p) with Some h => Some (w_data w (h_ino h)) | None => None end
  | None => None
  end.

(** The clauses under which a restored snapshot is safe: no write holds the database
    when it is switched, and [Stop] has not been called; [Stop] renames only after
    every started clean-up has ended; a process that has restored ends only after
    [Stop]. *)
Definition no_holder (p : proc) : Prop := forall x k, ~ In (x, WLoaded k) (p_writers p).

Definition cleaned (p : proc) : Prop := forall g, In g (p_gc p) -> g_removed g = true.

Definition step_safe (w : world) (a : action) : Prop :=
  forall p, w_proc w = Some p ->
  match a with
  | ARestoreSwap => no_holder p /\ p_stop p = PUp
  | AStopRename => cleaned p
  | AExit => p_gc p = [] \/ p_stop p = PDone
  | _ => True
  end.

Fixpoint run_safe (w : world) (acts : list action) : Prop :=
  match acts with
  | [] => True
  | a :: acts' => step_safe w a /\ run_safe (fst (step w a)) acts'
  end.
