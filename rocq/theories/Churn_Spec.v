(** What uploads at once are held to. *)
From Verif Require Import Str_Model Meta_Model Meta_Spec Churn_Model.
From stdpp Require Import gmap.

(** The uploads of an execution. *)
Definition arrived (es : list event) : list upload :=
  omap (fun e => match e with Arrive u => Some u | _ => None end) es.

(** Uploads of named objects with versions as the servers make them: hash and a unique id of
    its own (metadata_service.go 41); short enough that numbers stay in the range of Go's int. *)
Definition execution (es : list event) : Prop :=
  Forall (fun u => u_id u <> [] /\ v_hash (u_ver u) <> [] /\ v_uid (u_ver u) <> []) (arrived es) /\
  NoDup (map (fun u => v_uid (u_ver u)) (arrived es)) /\
  (N.of_nat (length es) < 2 ^ 63)%N.

(** The state after some events. *)
Definition after (es : list event) : state := run (start db_empty) es.

(** Upload [u], the [i]-th, was given number [n]. *)
Definition given (s : state) (i : nat) (u : upload) (n : N) : Prop :=
  s_ups s !! i = Some (u, Finished n) \/ exists f, s_ups s !! i = Some (u, Removing n f).

(** How many versions the bucket that an upload read promises to keep. *)
Definition promised (u : upload) : Z :=
  Z.max 1 (if u_versioning u then u_remains u else 1).

(** An upload is under way. *)
Definition under_way (p : phase) : bool :=
  match p with Finished _ | Broken => false | _ => true end.

(** How many uploads are under way. *)
Definition busy (s : state) : nat := length (List.filter (fun x => under_way (snd x)) (s_ups s)).
