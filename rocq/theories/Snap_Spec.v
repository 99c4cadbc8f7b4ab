(** What the snapshots of a metadata server are for (independent of how they are taken). *)
From Coq Require Import List Bool Arith.
From Verif Require Import Snap_Model.
Import ListNotations.

(** The data after the first [k] entries. *)
Definition after {E D : Type} (step : D -> E -> D) (d : D) (l : list E) (k : nat) : D := fold_left step (firstn k l) d.

(** The database holds the entries applied and nothing else. *)
Definition exact {E D : Type} (step : D -> E -> D) (d : D) (n : node E D) : Prop :=
  n_data n = after step d (n_log n) (n_applied n).

(** Everything committed can still be had from what is on disk: the entries from the first on, or a
    snapshot and the entries behind it. *)
Definition recoverable {E D : Type} (n : node E D) : Prop :=
  n_first n = 0 \/ exists s r, n_snaps n = s :: r /\ n_first n <= sn_index s.

(** Reading the database for a snapshot works. *)
Definition readable {E : Type} (v : event E) : Prop := match v with EPersist CopyRead _ _ => False | _ => True end.

(** Every start finds a snapshot, or the database as it was at first. *)
Fixpoint starts_from {E D : Type} (step : D -> E -> D) (trailing : nat) (d : D) (n : node E D) (vs : list (event E)) : Prop :=
  match vs with
  | [] => True
  | v :: r =>
      (match v with EStart _ => n_snaps n <> [] \/ n_data n = d | _ => True end) /\
      starts_from step trailing d (happen step trailing n v) r
  end.
