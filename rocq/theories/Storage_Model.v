(** Model of the database file of a metadata server
    (src/metaserver/internal/usecase/db/storage.go,
    [Restore] in src/metaserver/internal/usecase/repo/metadata_repo.go 308-328,
    src/metaserver/internal/usecase/pool/pool.go 72-78, 99-100): opening it, writing to it, putting a
    snapshot in its place, stopping, and the process ending at any moment.

    Simplified: a database file is the list of the writes it holds; a transaction is
    atomic and durable (bolt syncs every commit) and [Close] waits for it; the path
    of generation [k] is the configured path followed by [k] times "_replace"
    (metadata_repo.go 309); a snapshot written over an older file at the same path
    leaves that file's tail behind, which bolt does not read; [MkdirAll],
    permissions, full disks and the 12 seconds bolt waits for a file lock are left out
    (no path is opened twice by one process). *)
From Coq Require Import List Arith Bool.
Import ListNotations.

(** One write (the function given to [Update] or [Batch]). *)
Definition tok := nat.

(** A [bolt.DB]: its path, the file it holds open, whether it is open. *)
Record handle := mk_handle { h_path : nat; h_ino : nat; h_open : bool }.

(** A call of [Update] or [Batch] (storage.go 49-73): not yet begun, past the check of
    [rdOnly] (56, 69), holding the database it will use (59, 72), returned. *)
Inductive wstage := WBegun | WChecked | WLoaded (h : nat) | WReturned (ok : bool).

(** [Restore] (metadata_repo.go 308-328) and [Replace] (storage.go 119-144): not
    running, snapshot written to its file (310-325), [rdOnly] set (120), database
    switched (135). *)
Inductive rstage := RIdle | RWritten (path : nat) (snap : list tok) | RFlagged (path : nat) (snap : list tok) | RSwapped.

(** [Stop] (storage.go 75-87): not called, database closed (79), returned. *)
Inductive pstage := PUp | PClosed | PDone.

(** The goroutine of [Replace] (storage.go 137-142): which database, closed yet,
    removed yet. *)
Record cleaner := mk_cleaner { g_h : nat; g_closed : bool; g_removed : bool }.

(** A process: its databases and which of them is [current], [rdOnly], the calls. *)
Record proc := mk_proc {
  p_hs : list handle; p_cur : nat; p_ro : bool;
  p_writers : list (tok * wstage); p_readers : list nat;
  p_restore : rstage; p_gc : list cleaner; p_stop : pstage }.

(** The directory, the files, the number of the next file, the process. *)
Record world := mk_world {
  w_dir : nat -> option nat; w_data : nat -> list tok; w_next : nat; w_proc : option proc }.

(** A new machine. *)
Definition blank : world := mk_world (fun _ => None) (fun _ => []) 0 None.

(** What callers see: a write acknowledged, a snapshot installed, the answer of a read
    ([None] an error). *)
Inductive event := EAck (x : tok) | ERestored (snap : list tok) | ERead (r : option (list tok)).

Inductive action :=
| AOpen | AExit
| AWrite (x : tok) | ACheck (i : nat) | ALoad (i : nat) | ACommit (i : nat)
| AReadLoad | ARead (i : nat)
| ARestoreWrite (snap : list tok) | ARestoreFlag | ARestoreSwap | ARestoreEnd
| AClean (i : nat)
| AStopClose | AStopRename.

(** A function changed at one point. *)
Definition upd {A} (f : nat -> A) (k : nat) (v : A) : nat -> A := fun n => if n =? k then v else f n.

(** A list changed at one place. *)
Fixpoint set_nth {A} (l : list A) (i : nat) (x : A) : list A :=
  match l, i with
  | [], _ => []
  | _ :: l', 0 => x :: l'
  | y :: l', S i' => y :: set_nth l' i' x
  end.

Definition closed_handle (h : handle) : handle := mk_handle (h_path h) (h_ino h) false.

(** The database [i] of the process; [None] cannot happen. *)
Definition the_handle (p : proc) (i : nat) : option handle := nth_error (p_hs p) i.

Definition close_at (p : proc) (i : nat) : list handle :=
  match the_handle p i with Some h => set_nth (p_hs p) i (closed_handle h) | None => p_hs p end.

Definition with_writers (p : proc) (ws : list (tok * wstage)) : proc :=
  mk_proc (p_hs p) (p_cur p) (p_ro p) ws (p_readers p) (p_restore p) (p_gc p) (p_stop p).

(** The file at a path: an existing one, or a new empty one. *)
Definition file_at (w : world) (path : nat) : nat * world :=
  match w_dir w path with
  | Some i => (i, w)
  | None => (w_next w, mk_world (upd (w_dir w) path (Some (w_next w))) (upd (w_data w) (w_next w) []) (S (w_next w)) (w_proc w))
  end.

(** [Open] (storage.go 102-117) by a process just started (pool.go 72-78). *)
Definition open_db (w : world) : world :=
  let (i, w') := file_at w 0 in
  mk_world (w_dir w') (w_data w') (w_next w')
    (Some (mk_proc [mk_handle 0 i true] 0 false [] [] RIdle [] PUp)).

(** A step of the running process [p]. *)
Definition step_proc (w : world) (p : proc) (a : action) : world * list event :=
  let put p' := mk_world (w_dir w) (w_data w) (w_next w) (Some p') in
  let same := (w, @nil event) in
  match a with
  | AOpen => same
  | AExit => (mk_world (w_dir w) (w_data w) (w_next w) None, [])
  | AWrite x => (put (with_writers p (p_writers p ++ [(x, WBegun)])), [])
  | ACheck i =>                       (* 56-58, 69-71 *)
      match nth_error (p_writers p) i with
      | Some (x, WBegun) =>
          (put (with_writers p (set_nth (p_writers p) i (x, if p_ro p then WReturned false else WChecked))), [])
      | _ => same
      end
  | ALoad i =>                        (* 35-37 in 59, 72 *)
      match nth_error (p_writers p) i with
      | Some (x, WChecked) => (put (with_writers p (set_nth (p_writers p) i (x, WLoaded (p_cur p)))), [])
      | _ => same
      end
  | ACommit i =>                      (* bolt's Update on that database *)
      match nth_error (p_writers p) i with
      | Some (x, WLoaded k) =>
          match the_handle p k with
          | Some h =>
              if h_open h
              then (mk_world (w_dir w) (upd (w_data w) (h_ino h) (w_data w (h_ino h) ++ [x])) (w_next w)
                      (Some (with_writers p (set_nth (p_writers p) i (x, WReturned true)))), [EAck x])
              else (put (with_writers p (set_nth (p_writers p) i (x, WReturned false))), [])
          | None => same
          end
      | _ => same
      end
  | AReadLoad =>                      (* 46 *)
      (put (mk_proc (p_hs p) (p_cur p) (p_ro p) (p_writers p) (p_readers p ++ [p_cur p]) (p_restore p) (p_gc p) (p_stop p)), [])
  | ARead i =>
      match nth_error (p_readers p) i with
      | Some k =>
          match the_handle p k with
          | Some h => (w, [ERead (if h_open h then Some (w_data w (h_ino h)) else None)])
          | None => same
          end
      | None => same
      end
  | ARestoreWrite snap =>             (* metadata_repo.go 309-325 *)
      match p_restore p, the_handle p (p_cur p) with
      | RIdle, Some h =>
          let path := S (h_path h) in
          let (i, w') := file_at w path in
          (mk_world (w_dir w') (upd (w_data w') i snap) (w_next w')
             (Some (mk_proc (p_hs p) (p_cur p) (p_ro p) (p_writers p) (p_readers p) (RWritten path snap) (p_gc p) (p_stop p))), [])
      | _, _ => same
      end
  | ARestoreFlag =>                   (* storage.go 120-122 *)
      match p_restore p with
      | RWritten path snap =>
          if p_ro p
          then (put (mk_proc (p_hs p) (p_cur p) (p_ro p) (p_writers p) (p_readers p) RIdle (p_gc p) (p_stop p)), [])
          else (put (mk_proc (p_hs p) (p_cur p) true (p_writers p) (p_readers p) (RFlagged path snap) (p_gc p) (p_stop p)), [])
      | _ => same
      end
  | ARestoreSwap =>                   (* 126-142 *)
      match p_restore p with
      | RFlagged path snap =>
          match w_dir w path with
          | Some i =>
              (put (mk_proc (p_hs p ++ [mk_handle path i true]) (length (p_hs p)) (p_ro p) (p_writers p) (p_readers p)
                      RSwapped (p_gc p ++ [mk_cleaner (p_cur p) false false]) (p_stop p)), [ERestored snap])
          | None => same
          end
      | _ => same
      end
  | ARestoreEnd =>                    (* 123 *)
      match p_restore p with
      | RSwapped => (put (mk_proc (p_hs p) (p_cur p) false (p_writers p) (p_readers p) RIdle (p_gc p) (p_stop p)), [])
      | _ => same
      end
  | AClean i =>                       (* 139-141 *)
      match nth_error (p_gc p) i with
      | Some g =>
          if negb (g_closed g)
          then (put (mk_proc (close_at p (g_h g)) (p_cur p) (p_ro p) (p_writers p) (p_readers p) (p_restore p)
                       (set_nth (p_gc p) i (mk_cleaner (g_h g) true false)) (p_stop p)), [])
          else if negb (g_removed g)
          then match the_handle p (g_h g) with
               | Some h =>
                   (mk_world (upd (w_dir w) (h_path h) None) (w_data w) (w_next w)
                      (Some (mk_proc (p_hs p) (p_cur p) (p_ro p) (p_writers p) (p_readers p) (p_restore p)
                               (set_nth (p_gc p) i (mk_cleaner (g_h g) true true)) (p_stop p))), [])
               | None => same
               end
          else same
      | None => same
      end
  | AStopClose =>                     (* 77-81 *)
      match p_stop p with
      | PUp => (put (mk_proc (close_at p (p_cur p)) (p_cur p) (p_ro p) (p_writers p) (p_readers p) (p_restore p) (p_gc p) PClosed), [])
      | _ => same
      end
  | AStopRename =>                    (* 82-86 *)
      match p_stop p, the_handle p (p_cur p) with
      | PClosed, Some h =>
          let dir := if h_path h =? 0 then w_dir w
                     else match w_dir w (h_path h) with
                          | Some i => upd (upd (w_dir w) 0 (Some i)) (h_path h) None
                          | None => w_dir w
                          end in
          (mk_world dir (w_data w) (w_next w)
             (Some (mk_proc (p_hs p) (p_cur p) (p_ro p) (p_writers p) (p_readers p) (p_restore p) (p_gc p) PDone)), [])
      | _, _ => same
      end
  end.

(** One step; without a process only a start does anything. *)
Definition step (w : world) (a : action) : world * list event :=
  match w_proc w with
  | Some p => step_proc w p a
  | None => match a with AOpen => (open_db w, []) | _ => (w, []) end
  end.

(** A run from a new machine: the world and what was seen, in order. *)
Definition run (acts : list action) : world * list event :=
  fold_left (fun s a => let (w', es) := step (fst s) a in (w', snd s ++ es)) acts (blank, []).
