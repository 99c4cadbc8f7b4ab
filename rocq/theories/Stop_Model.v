(** Model of stopping and starting again: a server process that is told to stop
    (src/common/graceful/graceful.go 22-68, the [Shutdown] of the servers:
    metaserver/internal/controller/http/http.go 45-61,
    objectserver/internal/controller/http/router.go 50-66, net/http for the others; the
    deferred calls of the four app.go), the slots of a group of metadata servers over
    stops and elections (src/metaserver/internal/app/app.go 19-81,
    service/hashslot_service.go 48-69, logic/hashslot_logic.go 27-38,
    db/hashslot_db.go 158-199), and the services of a data server that leaves and joins
    again (src/objectserver/internal/usecase/pool/instance.go 38-59, 161-177;
    src/objectserver/internal/app/app.go 16-51; common/registry/etcd_lifecycle.go 47-94).

    Simplified: a request is a number of steps that need what the process closes at its
    end (database, caches, etcd); connections are not modelled; the connections of
    HTTP/2 that net/http does not wait for are left out for the API and admin servers,
    which do not accept them without TLS. *)
From stdpp Require Import list.
From Coq Require Import NArith.
From Verif Require Import Str_Model Registry_Model.
Local Open Scope list_scope.

(** ** Ending a process *)

(** A request: steps to go and whether all went well so far; finished; failed; cut off by
    the end of the process. *)
Inductive rq := RWork (n : nat) (ok : bool) | RGood | RBad | RCut.

(** Where the main goroutine is: waiting for a signal (graceful.go 58-66), in [Shutdown]
    (graceful.go 37-54), in the deferred calls of [Run] (app.go of each server), over. *)
Inductive mphase := MServe | MShut | MClose | MExit | MEnd.

(** [KWait]: [http.Server.Shutdown], which waits for the requests or the context (API
    server, admin server: http_server.go embeds [http.Server]).  [KHurry]: the wait group
    is never waited for (http.go 47-60, router.go 52-65). *)
Inductive kind := KWait | KHurry.

Record proc := Proc { pr_reqs : list rq; pr_main : mphase; pr_timer : bool; pr_store : bool }.

(** [PTimer]: the 15 seconds are over (graceful.go 40). *)
Inductive pop := PNew (n : nat) | PStep (i : nat) | PSignal | PMain | PTimer.

Definition rq_step (store : bool) (r : rq) : rq :=
  match r with
  | RWork (S n) ok => RWork n (ok && store)
  | RWork O ok => if ok then RGood else RBad
  | _ => r
  end.

Definition rq_done (r : rq) : bool := match r with RWork _ _ => false | _ => true end.

(** The end of the process takes running requests with it (main returns: cmd). *)
Definition rq_cut (r : rq) : rq := match r with RWork _ _ => RCut | _ => r end.

(** One step of the process (graceful.go 22-68, http.go 45-61, router.go 50-66, app.go). *)
Definition pstep (k : kind) (p : proc) (o : pop) : proc :=
  match o with
  | PNew n =>
      match k, pr_main p with
      | _, MEnd => p
      | KWait, MServe | KHurry, _ => Proc (pr_reqs p ++ [RWork n true]) (pr_main p) (pr_timer p) (pr_store p)
      | KWait, _ => p
      end
  | PStep i =>
      match pr_main p, pr_reqs p !! i with
      | MEnd, _ | _, None => p
      | _, Some r => Proc (<[i := rq_step (pr_store p) r]> (pr_reqs p)) (pr_main p) (pr_timer p) (pr_store p)
      end
  | PSignal => match pr_main p with MServe => Proc (pr_reqs p) MShut (pr_timer p) (pr_store p) | _ => p end
  | PTimer => match pr_main p with MShut => Proc (pr_reqs p) (pr_main p) true (pr_store p) | _ => p end
  | PMain =>
      match pr_main p with
      | MServe | MEnd => p
      | MShut =>
          match k with
          | KWait => if pr_timer p || forallb rq_done (pr_reqs p) then Proc (pr_reqs p) MClose (pr_timer p) (pr_store p) else p
          | KHurry => Proc (pr_reqs p) MClose (pr_timer p) (pr_store p)
          end
      | MClose => Proc (pr_reqs p) MExit (pr_timer p) false
      | MExit => Proc (map rq_cut (pr_reqs p)) MEnd (pr_timer p) (pr_store p)
      end
  end.

(** A process as it serves (graceful.go 28-35), and what becomes of it. *)
Definition proc0 : proc := Proc [] MServe false true.
Definition prun (k : kind) (p : proc) (ops : list pop) : proc := foldl (pstep k) p ops.

(** ** The slots of a group *)

Notation slots := (list str).

(** The entry of the group in etcd, the slots in the configuration of each server, and the
    server that leads ([HashSlotConfig.Slots], config.go 80-84). *)
Record slotst := Slotst { st_etcd : option slots; st_cfg : nat -> slots; st_leader : option nat }.

(** [SMigrate l]: the leader has given away or taken slots and saves what it has now
    (hashslot_logic.go 27-38).  [SCrash]: a process ends without its deferred calls.
    [SStop i down busy]: a server ends by its deferred calls; [down]: etcd does not answer
    the question for the entry; [busy]: the entry cannot be removed, since a migration is on
    (hashslot_db.go 189-192) or etcd fails. *)
Inductive sop := SElect (i : nat) | SMigrate (l : slots) | SCrash | SStop (i : nat) (down busy : bool).

Definition set_cfg (c : nat -> slots) (i : nat) (l : slots) : nat -> slots := fun x => if x =? i then l else c x.

(** [SaveToEtcd] (hashslot_logic.go 27-38) writes the entry and, in a goroutine that is taken
    to be done at once and without failure, the configuration. *)
Definition save_slots (s : slotst) (i : nat) (l : slots) : slotst :=
  Slotst (Some l) (set_cfg (st_cfg s) i l) (Some i).

Definition sstep (s : slotst) (o : sop) : slotst :=
  match o with
  | SElect i =>                             (* hashslot_service.go 48-69 *)
      save_slots s i (match st_etcd s with Some l => l | None => st_cfg s i end)
  | SMigrate l => match st_leader s with Some i => save_slots s i l | None => s end
  | SCrash => Slotst (st_etcd s) (st_cfg s) None
  | SStop i down busy =>                    (* app.go 69-78 *)
      let leads := match st_leader s with Some j => j =? i | None => false end in
      let out := if leads then None else st_leader s in
      match st_etcd s with
      | None => Slotst None (st_cfg s) out
      | Some l =>
          Slotst (if leads && negb busy then None else Some l)
                 (if down then st_cfg s else set_cfg (st_cfg s) i l) out
      end
  end.

Definition srun (s : slotst) (ops : list sop) : slotst := foldl sstep s ops.

(** Does ending by the deferred calls panic: the entry is used though there is none
    (app.go 71-74, hashslot_db.go 164-166). *)
Definition stop_panics (s : slotst) (down : bool) : bool :=
  match st_etcd s with None => negb down | Some _ => false end.

(** ** Leaving and joining again *)

(** pool/instance.go of the data server 38-75, 161-177: the two [sync.Once] and the functions to
    call at the end. *)
Record opener := Opener { op_opened : bool; op_closed : bool; op_events : list nat }.

(** What happened: services started, a closing function called. *)
Inductive oev := OStarted | ORan (f : nat).

Inductive ocall := OOpen | OClose.

(** [Open] (instance.go 54-59) with the functions [fs] of app.go 29-44, and [Close] (168-177):
    the deferred calls run last in first out, then the list is emptied. *)
Definition ostep (fs : list nat) (p : opener) (o : ocall) : opener * list oev :=
  match o with
  | OOpen => if op_opened p then (p, []) else (Opener true false (op_events p ++ fs), [OStarted])
  | OClose => if op_closed p then (p, []) else (Opener false true [], map ORan (rev (op_events p)))
  end.

Fixpoint orun (fs : list nat) (p : opener) (ops : list ocall) : opener * list oev :=
  match ops with
  | [] => (p, [])
  | o :: r => let (p1, l1) := ostep fs p o in let (p2, l2) := orun fs p1 r in (p2, l1 ++ l2)
  end.

Definition opener0 : opener := Opener false false [].

(** [DeadLoop] started once more on the same lifecycle (app.go 30, etcd_lifecycle.go
    47-85): the context that [Close] has cancelled (91-94) is never renewed. *)
Definition life_again (s : life) : life :=
  mk_life LLock (lf_lock s) (lf_lease s) (lf_live s) (lf_entry s) (lf_calls s) (lf_ctx s).
