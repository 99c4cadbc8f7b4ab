(** Model of the snapshots of a metadata server: [Snapshot], [Restore], [Persist] and [Release] in
    src/metaserver/internal/usecase/raftimpl/fsm_impl.go 166-200 with the stores of
    raft_impl.go 110-126, and what the consensus library (hashicorp/raft 1.3.11, go.mod 69) does
    with them: it takes a snapshot of what was applied, gives it to [Persist], and if that answers no
    error drops the entries of its log that are no longer needed; a process that starts restores the
    newest snapshot that can be restored and goes through the entries behind it.

    Simplified: the library is outside the repository, its part is written from its documentation
    and sources; one server, entries are committed when they are in its log; terms,
    configurations, the snapshot sent by a leader and [ReapSnapshots]'s file names are left out;
    Storage_Model has the files that [Restore] writes, here a restored snapshot is the data.
    Snapshots are numbered by the entries they hold. *)
From Coq Require Import List Bool Arith.
Import ListNotations.

(** ** The file of a snapshot *)

(** [raft.FileSnapshotSink] of the store at raft_impl.go 120: is it closed, has a write failed (the
    buffer keeps the error), is there a snapshot. *)
Record sink := Sink { k_closed : bool; k_failed : bool; k_kept : bool }.
Definition fresh : sink := Sink false false false.
Definition failed (k : sink) : sink := Sink (k_closed k) true (k_kept k).

(** [Close] and [Cancel] of the sink (fsm_impl.go 192, 195): is an error answered.  [fin]: the end of
    the file can be written. *)
Definition sink_close (k : sink) (fin : bool) : bool * sink :=
  if k_closed k then (false, k)
  else if k_failed k || negb fin then (true, Sink true (k_failed k) false)
  else (false, Sink true false true).
Definition sink_cancel (k : sink) (fin : bool) : bool * sink :=
  if k_closed k then (false, k)
  else (k_failed k || negb fin, Sink true (k_failed k) false).

(** What [WriteTo] does (fsm_impl.go 190): everything is copied; the database cannot be opened or
    read; the sink cannot be written. *)
Inductive copied := CopyOk | CopyRead | CopyWrite.

(** [Persist] (fsm_impl.go 188-196): is an error answered.  [gz]: closing the compressor (194), whose
    error is only logged, reaches the sink. *)
Definition persist (c : copied) (gz fin : bool) : bool * sink :=
  match c with
  | CopyRead => sink_cancel fresh fin
  | CopyWrite => sink_cancel (failed fresh) fin
  | CopyOk => sink_close (if gz then fresh else failed fresh) fin
  end.

(** The library after [Persist]: an error ends the attempt, else the sink is closed; does it
    count the snapshot as taken, and is there one. *)
Definition taken (c : copied) (gz fin : bool) : bool * bool :=
  let (e, k) := persist c gz fin in
  if e then (false, k_kept k)
  else let (e2, k2) := sink_close k fin in (negb e2, k_kept k2).

(** ** The server *)

Section Server.
  Variables E D : Type.
  (** [Apply] of one entry (fsm_impl.go 94-119). *)
  Variable step : D -> E -> D.
  (** The entries the library keeps behind a snapshot ([TrailingLogs], raft_impl.go 46). *)
  Variable trailing : nat.

  Record snap := Snap { sn_index : nat; sn_data : D }.
  Inductive phase := Up | Down | Broken.

  (** The log with the number of entries dropped at its start, the snapshots (newest first), the
      database; of the process: the number of entries applied, the number of the last snapshot
      taken, the snapshot being written. *)
  Record node := Node {
    n_log : list E; n_first : nat; n_snaps : list snap; n_data : D;
    n_applied : nat; n_last : nat; n_taking : option snap; n_phase : phase }.

  Definition init (d : D) : node := Node [] 0 [] d 0 0 None Up.

  (** The library drops entries up to the snapshot, but keeps [trailing] of them. *)
  Definition compact (n : node) (i : nat) : nat :=
    if length (n_log n) <=? trailing then n_first n else max (n_first n) (min i (length (n_log n) - trailing)).

  (** The store sorts its snapshots and keeps two of them (raft_impl.go 120). *)
  Fixpoint insert (s : snap) (l : list snap) : list snap :=
    match l with [] => [s] | x :: r => if sn_index x <=? sn_index s then s :: l else x :: insert s r end.
  Definition keep (s : snap) (l : list snap) : list snap := firstn 2 (insert s l).

  (** The first snapshot that can be restored (fsm_impl.go 174-182, metadata_repo.go 308-328): [oks]
      says which; [None] if there are some and none can. *)
  Fixpoint pick (snaps : list snap) (oks : list bool) : option snap :=
    match snaps, oks with
    | [], _ => None
    | s :: r, [] => Some s
    | s :: r, ok :: oks' => if ok then Some s else pick r oks'
    end.

  (** [NewRaft] (raft_impl.go 56-59): an error of it, or an entry it misses, ends the process. *)
  Definition start (n : node) (oks : list bool) : node :=
    let from := match n_snaps n with
                | [] => Some (n_data n, 0)
                | _ => match pick (n_snaps n) oks with Some s => Some (sn_data s, sn_index s) | None => None end
                end in
    match from with
    | None => Node (n_log n) (n_first n) (n_snaps n) (n_data n) 0 0 None Broken
    | Some (d, i) =>
        if (n_first n <=? i) || (length (n_log n) <=? i)
        then Node (n_log n) (n_first n) (n_snaps n) d i i None Up
        else Node (n_log n) (n_first n) (n_snaps n) d 0 0 None Broken
    end.

  Inductive event :=
  | EAppend (e : E)                            (* an entry is committed *)
  | EApply                                     (* the next entry is applied *)
  | EBegin                                     (* [Snapshot], fsm_impl.go 166-172, metadata_repo.go 304-306 *)
  | EPersist (c : copied) (gz fin : bool)
  | ECrash
  | EStart (oks : list bool).

  Definition happen (n : node) (v : event) : node :=
    match n_phase n, v with
    | Up, EAppend e => Node (n_log n ++ [e]) (n_first n) (n_snaps n) (n_data n) (n_applied n) (n_last n) (n_taking n) Up
    | Up, EApply =>
        match nth_error (n_log n) (n_applied n) with
        | Some e => Node (n_log n) (n_first n) (n_snaps n) (step (n_data n) e) (S (n_applied n)) (n_last n) (n_taking n) Up
        | None => n
        end
    | Up, EBegin =>
        match n_taking n with
        | Some _ => n
        | None =>
            if n_applied n <=? n_last n then n      (* nothing new *)
            else Node (n_log n) (n_first n) (n_snaps n) (n_data n) (n_applied n) (n_last n)
                      (Some (Snap (n_applied n) (n_data n))) Up
        end
    | Up, EPersist c gz fin =>
        match n_taking n with
        | None => n
        | Some s =>
            let (told, kept) := taken c gz fin in
            let snaps := if kept then keep s (n_snaps n) else n_snaps n in
            if told
            then Node (n_log n) (compact n (sn_index s)) snaps (n_data n) (n_applied n) (sn_index s) None Up
            else Node (n_log n) (n_first n) snaps (n_data n) (n_applied n) (n_last n) None Up
        end
    | _, ECrash => Node (n_log n) (n_first n) (n_snaps n) (n_data n) 0 0 None Down
    | Down, EStart oks | Broken, EStart oks => start n oks
    | _, _ => n
    end.

  Definition run (n : node) (vs : list event) : node := fold_left happen vs n.
End Server.
Arguments Snap {D}. Arguments sn_index {D}. Arguments sn_data {D}.
Arguments Node {E D}. Arguments n_log {E D}. Arguments n_first {E D}. Arguments n_snaps {E D}. Arguments n_data {E D}.
Arguments n_applied {E D}. Arguments n_last {E D}. Arguments n_taking {E D}. Arguments n_phase {E D}.
Arguments EAppend {E}. Arguments EApply {E}. Arguments EBegin {E}. Arguments EPersist {E}. Arguments ECrash {E}. Arguments EStart {E}.
Arguments init {E D}. Arguments compact {E D}. Arguments pick {D}. Arguments insert {D}. Arguments keep {D}. Arguments start {E D}. Arguments happen {E D}. Arguments run {E D}.
