(** Model of what happens to a panic: [graceful.Recover], the interceptors of the gRPC
    servers, the group of workers, and the process around them.

    Source: src/common/graceful/recover.go, src/common/logs/logs.go,
    src/common/util/h2c_handler.go 34-86, src/common/util/done_group.go 50-156,
    src/apiserver/internal/controller/http/server.go 25-26,
    src/metaserver/internal/controller/http/http.go 22-26,
    src/objectserver/internal/controller/http/router.go 22-24,
    src/adminserver/internal/controller/http_server.go 22.

    From the libraries: [logrus.Entry.Panicf] writes the message and panics with the entry
    (logrus v1.9.3, entry.go, [log]: [if level <= PanicLevel { panic(newEntry) }]; the
    panic level is always enabled); gin's recovery answers 500; a goroutine that ends with
    a panic ends the process; a gRPC server runs each call in a goroutine of its own.

    Simplified: a line of the log is without the stack; what the runtime does not let
    anyone recover (concurrent map writes) is in [Race_Model]. *)
From Coq Require Import List Bool Arith.
From Verif Require Import Str_Model.
Import ListNotations.
Local Open Scope list_scope.

(** What a goroutine panics with: any value, by its text, or an entry of the log. *)
Inductive pval := PValue (text : str) | PEntry (text : str).

(** [fmt.Sprint] of it. *)
Definition text (v : pval) : str := match v with PValue t => t | PEntry t => t end.

(** What can be seen of a deferred call. *)
Inductive effect :=
| Logged (t : str)          (* a line of the log *)
| Called (t : str)          (* the function given to [Recover] *)
| Sent (t : str)            (* an error delivered to the group *)
| Counted                   (* the counter of the group goes down *)
| Freed.                    (* a place of a limited group is free again *)

(** A deferred call: the panic it finds, what it does, the panic it leaves. *)
Definition deferred := option pval -> list effect * option pval.

(** [PrintStacks] (recover.go 21-23): [logger.Panicf]. *)
Definition print_stacks (v : pval) : list effect * pval := ([Logged (text v)], PEntry (text v)).

(** [Recover] (recover.go 12-19); [fn] tells whether a function is given. *)
Definition g_recover (fn : bool) : deferred := fun p =>
  match p with
  | None => ([], None)
  | Some v =>
      let (l, e) := print_stacks v in
      ((if fn then [Called (text v)] else []) ++ l, Some e)
  end.

(** [doneGroup.Done] deferred by a worker (done_group.go 51-65): the panic of the worker is
    recovered at 61, [PrintStacks] panics at 62, the inner function recovers that at 54 and
    panics again at 55.  Neither call of [Error] is reached. *)
Definition dg_done : deferred := fun p =>
  match p with
  | None => ([Counted], None)
  | Some v =>
      let (l1, e1) := print_stacks v in
      let (l2, e2) := print_stacks e1 in
      (Counted :: l1 ++ l2, Some e2)
  end.

(** [limitDoneGroup.Done] deferred by a worker (done_group.go 143-151): within the inner
    [Done] nothing is recovered, since it is not itself the deferred call. *)
Definition ldg_done : deferred := fun p =>
  match p with
  | None => ([Counted; Freed], None)
  | Some v => let (l, e) := print_stacks v in (Counted :: Freed :: l, Some e)
  end.

(** gin's recovery (server.go 25-26, http.go 22-26, router.go 22-24, http_server.go 22). *)
Definition gin_recovery : deferred := fun p =>
  match p with None => ([], None) | Some v => ([Logged (text v)], None) end.

(** The deferred calls of a function that ended with [p], the last deferred one first. *)
Fixpoint unwind (ds : list deferred) (p : option pval) : list effect * option pval :=
  match ds with
  | [] => ([], p)
  | d :: ds' =>
      let (l, q) := d p in
      let (l', r) := unwind ds' q in
      (l ++ l', r)
  end.

(** What runs in a server: a handler of an HTTP request under gin's recovery; a gRPC call
    under the interceptors (h2c_handler.go 34-40, 68-86); a goroutine with deferred calls. *)
Inductive job := JHttp (own : list deferred) | JGrpc (own : list deferred) | JGo (own : list deferred).

Definition guards (j : job) : list deferred :=
  match j with
  | JHttp own => own ++ [gin_recovery]
  | JGrpc own => own ++ [g_recover true]
  | JGo own => own
  end.

(** The answer of a call: as its body has it, or an error for a panic that was recovered. *)
Inductive reply := Replied | Failed500 | Gone.

(** The state of a server: what its jobs have done so far, and whether it runs. *)
Record server := mk_server { sv_effects : list effect; sv_runs : bool }.

(** One job of a running server comes to its end, with the panic [p] of its body. *)
Definition finish (s : server) (jp : job * option pval) : server * reply :=
  let (j, p) := jp in
  if sv_runs s then
    let (l, q) := unwind (guards j) p in
    match q with
    | Some _ => (mk_server (sv_effects s ++ l) false, Gone)
    | None => (mk_server (sv_effects s ++ l) true, match p with None => Replied | Some _ => Failed500 end)
    end
  else (s, Gone).

Definition server_new : server := mk_server [] true.
Definition serve (s : server) (l : list (job * option pval)) : server :=
  fold_left (fun s jp => fst (finish s jp)) l s.
