(** What the erasure-code properties C22-C24, C26 talk about. *)
From Verif Require Export Rs_Model.

(** Shard [i] can still be read for block [k]. *)
Definition up (avail : nat -> option nat) (k i : nat) : bool :=
  match avail i with Some n => k <? n | None => false end.

(** Number of the [n] shards that cannot be read for block [k]. *)
Definition missing (n : nat) (avail : nat -> option nat) (k : nat) : nat :=
  length (filter (fun i => negb (up avail k i)) (seq 0 n)).

(** The erasure-code law: [D] equally long data shards get [P] parity shards of the
    same length; the full row is restored from any row with at most [P] shards
    missing, and restoring fails when more are missing. *)
Definition mds {B} (lib : rs_lib B) (D P : nat) : Prop :=
  forall len ds, 0 < len -> length ds = D -> Forall (fun s => length s = len) ds ->
    let row := ds ++ lib_encode lib ds in
    length (lib_encode lib ds) = P /\ Forall (fun s => length s = len) (lib_encode lib ds) /\
    forall ok : nat -> bool,
      let lost := length (filter (fun i => negb (ok i)) (seq 0 (D + P))) in
      lib_reconstruct lib (map (fun i => if ok i then Some (nth i row []) else None) (seq 0 (D + P)))
      = if lost <=? P then Some row else None.

(** The bytes of shard [i] of an upload. *)
Definition shard_bytes {B} (sent : list (list (list B))) (i : nat) : list B := concat (shard_blocks sent i).
