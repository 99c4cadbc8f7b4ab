(** Model of Go maps used by several goroutines: what the runtime does about accesses at
    the same time, locks, and the programs of the code that touch shared maps.

    Source: src/apiserver/internal/usecase/grpcapi/base.go 12-35,
    src/adminserver/internal/usecase/logic/conn.go 12-35,
    src/apiserver/internal/usecase/componet/selector/space_first_selector.go 13-61,
    src/apiserver/internal/usecase/componet/selector/weighted_io_first.go 20-66,
    src/common/registry/service_list.go 5-55, src/common/registry/etcd_discovery.go 15-65,
    src/common/collection/set/map_set.go 5-59,
    src/adminserver/internal/usecase/db/server_stat_db.go 99-172,
    src/adminserver/internal/usecase/logic/server_monitor.go 82-108,
    src/apiserver/internal/usecase/service/copy_fix_stream.go 57-72.

    From the runtime: an access to a map (read, write, or a step of an iteration) that
    begins while a write to the same map is in progress ends the process ("concurrent map
    read and map write", "concurrent map writes"); nothing recovers from it.

    Simplified: an access is two steps, begin and end; all other work between accesses and
    locks is left out; a reader does not wait for a waiting writer. *)
From Coq Require Import List Bool Arith.
Import ListNotations.

(** ** Threads, locks and maps *)

(** What a goroutine does next.  [ITry l n] takes the lock if it is free and skips the next
    [n] instructions otherwise. *)
Inductive instr :=
| ILock (l : nat) | IUnlock (l : nat)
| IRLock (l : nat) | IRUnlock (l : nat)
| ITry (l n : nat)
| IAcc (m : nat) (write : bool).

(** A goroutine: what is left of its program, the locks it holds (with [true]: alone), and
    the access it is in. *)
Record thread := mk_thread { t_rest : list instr; t_held : list (nat * bool); t_in : option (nat * bool) }.

(** The goroutines and, when the process has been ended, the map it was for. *)
Record machine := mk_machine { m_threads : list thread; m_fatal : option nat }.

Definition start (ps : list (list instr)) : machine := mk_machine (map (fun p => mk_thread p [] None) ps) None.

Definition has (l : nat) (alone : bool) (t : thread) : bool :=
  existsb (fun h => (fst h =? l) && Bool.eqb (snd h) alone) (t_held t).
Definition has_any (l : nat) (t : thread) : bool := has l true t || has l false t.
Definition writes_now (m : nat) (t : thread) : bool :=
  match t_in t with Some (m', true) => m' =? m | _ => false end.

Fixpoint drop_lock (l : nat) (alone : bool) (hs : list (nat * bool)) : list (nat * bool) :=
  match hs with
  | [] => []
  | h :: r => if (fst h =? l) && Bool.eqb (snd h) alone then r else h :: drop_lock l alone r
  end.

Fixpoint put_at {A} (i : nat) (x : A) (l : list A) : list A :=
  match l, i with
  | [], _ => []
  | _ :: r, 0 => x :: r
  | y :: r, S j => y :: put_at j x r
  end.

(** A step of goroutine [i]; a goroutine that cannot go on stays as it is. *)
Definition move (s : machine) (i : nat) : machine :=
  match m_fatal s, nth_error (m_threads s) i with
  | None, Some t =>
      let upd t' := mk_machine (put_at i t' (m_threads s)) None in
      match t_in t, t_rest t with
      | Some _, _ => upd (mk_thread (t_rest t) (t_held t) None)
      | None, [] => s
      | None, ILock l :: r =>
          if existsb (has_any l) (m_threads s) then s else upd (mk_thread r ((l, true) :: t_held t) None)
      | None, IRLock l :: r =>
          if existsb (has l true) (m_threads s) then s else upd (mk_thread r ((l, false) :: t_held t) None)
      | None, IUnlock l :: r => upd (mk_thread r (drop_lock l true (t_held t)) None)
      | None, IRUnlock l :: r => upd (mk_thread r (drop_lock l false (t_held t)) None)
      | None, ITry l n :: r =>
          if existsb (has_any l) (m_threads s) then upd (mk_thread (skipn n r) (t_held t) None)
          else upd (mk_thread r ((l, true) :: t_held t) None)
      | None, IAcc m w :: r =>
          if existsb (writes_now m) (m_threads s) then mk_machine (m_threads s) (Some m)
          else upd (mk_thread r (t_held t) (Some (m, w)))
      end
  | _, _ => s
  end.

Definition go (s : machine) (sched : list nat) : machine := fold_left move sched s.

(** ** The programs of the code *)

(** base.go and conn.go 17-35 [getConn], with the pool [m] and its lock [l]: the address is
    known at 18; or at 24; or neither, with [grpc.Dial] failing (30-32) or not. *)
Definition get_conn_hit (m : nat) : list instr := [IAcc m false].
Definition get_conn_hit2 (l m : nat) : list instr := [IAcc m false; ILock l; IAcc m false; IUnlock l].
Definition get_conn_fail (l m : nat) : list instr := [IAcc m false; ILock l; IAcc m false; IUnlock l].
Definition get_conn_miss (l m : nat) : list instr :=
  [IAcc m false; ILock l; IAcc m false; IAcc m true; IUnlock l].

(** space_first_selector.go 24-61 and weighted_io_first.go 30-66 [Pop] over [n] servers:
    when the figures are old ([stale]) they are fetched, one write (34, 37; 39, 42) per
    server, unless another does; then they are compared, two reads at a time. *)
Definition pop_reads (m n : nat) : list instr := repeat (IAcc m false) (2 * (n - 1)).
Definition pop_prog (l m n : nat) (stale : bool) : list instr :=
  (if stale then ITry l (S n) :: repeat (IAcc m true) n ++ [IUnlock l] else []) ++ pop_reads m n.

(** service_list.go 18-22 [combine] of [n] entries (no lock), 24-28 [add], 30-34 [remove],
    36-44 [list] and 47-55 [copy] of [n] entries. *)
Definition sl_combine (m n : nat) : list instr := repeat (IAcc m true) n.
Definition sl_add (l m : nat) : list instr := [ILock l; IAcc m true; IUnlock l].
Definition sl_remove (l m : nat) : list instr := [ILock l; IAcc m true; IUnlock l].
Definition sl_list (l m n : nat) : list instr := IRLock l :: repeat (IAcc m false) n ++ [IRUnlock l].

(** etcd_discovery.go 23-41: the constructor enters the list of each service in the map [o] of
    the lists (34) and starts its goroutine (35, 43-65), which reads [o] at 61; [addService]
    (40, 175-180) reads, and writes for a name that is not among the services. *)
Definition disc_new (o k : nat) (own : bool) : list instr :=
  repeat (IAcc o true) k ++ IAcc o false :: (if own then [] else [IAcc o true]) ++ [IAcc o false].
Definition disc_init (o m n : nat) : list instr := IAcc o false :: sl_combine m n.

(** map_set.go 49-59 [WriteSyncSet.Add], [Remove] and 21-24 [Contains], which is not
    overridden; copy_fix_stream.go 63-70 only adds while the goroutines run. *)
Definition ws_add (l m : nat) : list instr := [ILock l; IAcc m true; IUnlock l].
Definition ws_remove (l m : nat) (there : bool) : list instr :=
  ILock l :: IAcc m false :: (if there then [IAcc m true] else []) ++ [IUnlock l].
Definition ws_contains (m : nat) : list instr := [IAcc m false].

(** server_stat_db.go 133-159 [addStat] over the outer map [o] and the map [m] of a service:
    135, 138 when the service is new, 146, 148 and 149 when the id is new. *)
Definition add_prog (o m : nat) (new_serv new_id : bool) : list instr :=
  IAcc o false :: (if new_serv then [IAcc o true] else []) ++
  IAcc m false :: (if new_id then [IAcc m true; IAcc m false] else []).
(** server_stat_db.go 120-124: the same under the lock of [init]. *)
Definition load_prog (l o m : nat) (new_serv new_id : bool) : list instr :=
  ILock l :: add_prog o m new_serv new_id ++ [IUnlock l].
(** server_stat_db.go 99-104 and server_monitor.go 83-94: a page that shows [n] servers. *)
Definition page_prog (o m n : nat) : list instr := IAcc o false :: repeat (IAcc m false) n.

(** ** The pool of connections *)

(** Where a call of [getConn] (base.go and conn.go 17-35) for an address is: before 18; before
    22; holding the lock, before 24; before 29; before 33 with the new connection; after the
    end, with what it returned ([None]: an error). *)
Inductive pc := GLook (a : nat) | GWant (a : nat) | GLook2 (a : nat) | GDial (a : nat) | GStore (a c : nat) | GDone (a : nat) (r : option nat).

(** The pool, the call that holds the lock, the connections made so far (with their
    addresses, the last one first), and the calls.  Addresses are numbers. *)
Record pool := mk_pool { p_conns : nat -> option nat; p_lock : option nat; p_made : list nat; p_calls : list pc }.

Definition pool_new (addrs : list nat) : pool := mk_pool (fun _ => None) None [] (map GLook addrs).

(** A step of call [i]; [ok] tells whether [grpc.Dial] succeeds.  A new connection is named by
    the number of those made before. *)
Definition pool_step (s : pool) (x : nat * bool) : pool :=
  let (i, ok) := x in
  match nth_error (p_calls s) i with
  | None => s
  | Some c =>
      let upd lock c' := mk_pool (p_conns s) lock (p_made s) (put_at i c' (p_calls s)) in
      match c with
      | GLook a => upd (p_lock s) (match p_conns s a with Some k => GDone a (Some k) | None => GWant a end)
      | GWant a => match p_lock s with None => upd (Some i) (GLook2 a) | Some _ => s end
      | GLook2 a => match p_conns s a with Some k => upd None (GDone a (Some k)) | None => upd (p_lock s) (GDial a) end
      | GDial a =>
          if ok then mk_pool (p_conns s) (p_lock s) (a :: p_made s) (put_at i (GStore a (length (p_made s))) (p_calls s))
          else upd None (GDone a None)
      | GStore a k =>
          mk_pool (fun b => if b =? a then Some k else p_conns s b) None (p_made s) (put_at i (GDone a (Some k)) (p_calls s))
      | GDone _ _ => s
      end
  end.

Definition pool_run (s : pool) (l : list (nat * bool)) : pool := fold_left pool_step l s.
