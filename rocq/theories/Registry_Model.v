(** Model of the registration of servers in etcd and of their discovery by others: the
    keys and ids, the watched copy of the registry, the lease that keeps an entry alive,
    and the change of a metadata server's role.

    Source: src/common/registry/etcd_discovery.go 23-187, etcd_lifecycle.go 32-94,
    etcd_registry.go 23-104, config.go 22-44, service_list.go 5-59,
    src/common/cst/etcd_prefix.go 27-29,
    src/metaserver/internal/usecase/logic/registry_logic.go 11-18,
    src/metaserver/internal/app/app.go 53-66,
    src/metaserver/internal/usecase/raftimpl/raft_impl.go 128-152.

    Simplified: etcd is one log of events in the order of its revisions; a watch delivers
    them one by one from the revision at which it was set up, or is cancelled.  The
    address of a server is given (not looked up).  Unlocked accesses are atomic. *)
From Verif Require Import Str_Model Meta_Model.
From stdpp Require Import gmap.
Local Open Scope list_scope.

(** ** Keys and ids *)

(** cst/etcd_prefix.go 27-29 [FmtRegistry] (the name of the directory: line 19). *)
Definition fmt_registry (group name : str) : str := group ++ s2l "/registry/"%string ++ name.

(** config.go 11-20 [Config]: group, name, configured id (may be empty), and the result of
    [RegisterAddr] (22-30). *)
Record rcfg := mk_rcfg { rc_group : str; rc_name : str; rc_id : str; rc_addr : str }.

(** config.go 39-40 [strings.ReplaceAll(addr, ".", "")], [ReplaceAll(addr, ":", "-")]. *)
Fixpoint dashes (s : str) : str :=
  match s with
  | [] => []
  | c :: s' =>
      if ascii_dec c "."%char then dashes s'
      else (if ascii_dec c ":"%char then "-"%char else c) :: dashes s'
  end.

(** config.go 36-44 [SID]. *)
Definition sid (c : rcfg) : str :=
  match rc_id c with
  | [] => rc_name c ++ "-"%char :: dashes (rc_addr c)
  | _ => rc_id c
  end.

(** config.go 32-34 [RegisterKey]: the key under which a server enters itself in its own copy. *)
Definition self_key (c : rcfg) : str := rc_group c ++ "/"%char :: rc_name c ++ "/"%char :: sid c.

(** etcd_registry.go 15-21: [name] is [stdName], or [stdName] with one of two suffixes. *)
Inductive role := RPlain | RMaster | RSlave.

(** etcd_registry.go 43-51 [AsMaster], [AsSlave]. *)
Definition role_suffix (r : role) : str :=
  match r with RPlain => [] | RMaster => s2l "_master"%string | RSlave => s2l "_slave"%string end.

(** etcd_registry.go 28, 39-41 [Key]. *)
Definition reg_key (c : rcfg) (r : role) : str :=
  fmt_registry (rc_group c) (rc_name c ++ "/"%char :: sid c ++ role_suffix r).

(** ** Reading ids from keys *)

(** What a key contributes to a mapping: nothing, an id, or a panic (slice bounds). *)
Inductive found := FSkip | FId (i : str) | FPanic.

(** etcd_discovery.go 107-115 (and etcd_registry.go 61-69): the text between the last
    slash and the last underscore; [k[idx1+1:idx2]] panics when [idx2 < idx1+1]. *)
Definition key_id (k : str) : found :=
  match cut_last "/" k with
  | None => FSkip
  | Some (a, b) =>
      let idx1 := length a in
      let idx2 := match cut_last "_" k with Some (a', _) => length a' | None => length k end in
      if idx2 <? S idx1 then FPanic else FId (firstn (idx2 - S idx1) b)
  end.

(** etcd_discovery.go 103-119 [GetServiceMapping] over the entries in the order of the
    iteration; [None] is a panic. *)
Fixpoint mapping (kvs : list (str * str)) (acc : gmap str str) : option (gmap str str) :=
  match kvs with
  | [] => Some acc
  | (k, addr) :: r =>
      match key_id k with
      | FSkip => mapping r acc
      | FPanic => None
      | FId i => mapping r (<[i := addr]> acc)
      end
  end.

(** etcd_discovery.go 148-159: the id the key contributes for the asked role. *)
Definition key_id_with (master : bool) (k : str) : option str :=
  match cut_last "/" k with
  | None => None
  | Some (_, b) =>
      match cut_on "_" b with
      | None => if master then Some b else None
      | Some (i, r) =>
          if master then (if str_eqb r (s2l "master"%string) then Some i else None)
          else (if str_eqb r (s2l "slave"%string) then Some i else None)
      end
  end.

(** etcd_discovery.go 144-164 [GetServiceMappingWith]. *)
Fixpoint mapping_with (master : bool) (kvs : list (str * str)) (acc : gmap str str) : gmap str str :=
  match kvs with
  | [] => acc
  | (k, addr) :: r =>
      mapping_with master r (match key_id_with master k with Some i => <[i := addr]> acc | None => acc end)
  end.

(** ** The watched copy *)

(** A change in etcd: an entry written, or removed (by request, or with its lease). *)
Inductive event := EPut (k v : str) | EDel (k : str).
Definition event_key (e : event) : str := match e with EPut k _ => k | EDel k => k end.
Definition apply_event (m : gmap str str) (e : event) : gmap str str :=
  match e with EPut k v => <[k := v]> m | EDel k => delete k m end.

(** What etcd holds after a log of changes. *)
Definition etcd_at (log : list event) : gmap str str := foldl apply_event ∅ log.

(** etcd_discovery.go 43-101: before the fetch; fetched but not yet watching; watching, with
    the index of the next change to be delivered; watch cancelled, before the next; given up
    after a failed fetch (51-54). *)
Inductive phase := PStart | PGot | PWatch (i : nat) | PBroken | PDead.

(** The copy for one service, below one prefix (service_list.go 5-8). *)
Record view := mk_view { w_log : list event; w_phase : phase; w_data : gmap str str }.

Inductive vop :=
| VEvent (e : event)        (* something changes in etcd *)
| VGet                      (* the fetch succeeds *)
| VGetFail                  (* it fails *)
| VWatch                    (* the watch is set up *)
| VDeliver                  (* it delivers the next change *)
| VCancel                   (* it is cancelled *)
| VSelf (k v : str).        (* the server enters itself *)

(** etcd_discovery.go 43-65 [initService], 67-101 [asyncWatch] (the watch has no starting
    revision, 72; after a cancellation only the watch is repeated, 70-99), 37-39 (own entry),
    service_list.go 18-22 [combine], 24-34 [add], [remove]. *)
Definition vstep (p : str) (s : view) (o : vop) : view :=
  match o with
  | VEvent e => mk_view (w_log s ++ [e]) (w_phase s) (w_data s)
  | VGet =>
      match w_phase s with
      | PStart => mk_view (w_log s) PGot
                    (filter (fun kv => prefixb p kv.1 = true) (etcd_at (w_log s)) ∪ w_data s)
      | _ => s
      end
  | VGetFail => match w_phase s with PStart => mk_view (w_log s) PDead (w_data s) | _ => s end
  | VWatch =>
      match w_phase s with
      | PGot | PBroken => mk_view (w_log s) (PWatch (length (w_log s))) (w_data s)
      | _ => s
      end
  | VDeliver =>
      match w_phase s with
      | PWatch i =>
          match w_log s !! i with
          | Some e => mk_view (w_log s) (PWatch (S i))
                        (if prefixb p (event_key e) then apply_event (w_data s) e else w_data s)
          | None => s
          end
      | _ => s
      end
  | VCancel => match w_phase s with PWatch _ => mk_view (w_log s) PBroken (w_data s) | _ => s end
  | VSelf k v => mk_view (w_log s) (w_phase s) (<[k := v]> (w_data s))
  end.

(** From a registry with some past. *)
Definition vstart (log : list event) : view := mk_view log PStart ∅.
Definition vrun (p : str) (s : view) (ops : list vop) : view := foldl (vstep p) s ops.

(** ** The lease *)

(** etcd_lifecycle.go 47-85: about to lock; holding the lock, about to ask for a lease;
    about to notify; about to keep the lease alive; waiting; ended. *)
Inductive lpc := LLock | LGrant | LNotify | LKeep | LWait | LDone.

(** etcd_lifecycle.go 11-19; [lf_live]: etcd's leases; [lf_entry]: lease of the server's entry
    in etcd; [lf_calls]: notifications not yet run (32-39); [lf_ctx]: not closed. *)
Record life := mk_life {
  lf_pc : lpc; lf_lock : bool; lf_lease : N; lf_live : list N; lf_entry : option N;
  lf_calls : nat; lf_ctx : bool }.

Inductive lop :=
| LStep (grant : option N) (keep : bool)  (* the loop goes on; etcd's answers *)
| LCall (ok : bool)                       (* a notification runs; the put reaches etcd *)
| LExpire (id : N)                        (* etcd drops a lease, and the entries it holds *)
| LClose.

(** etcd's part in dropping a lease. *)
Definition drop_lease (id : N) (s : life) : life :=
  mk_life (lf_pc s) (lf_lock s) (lf_lease s) (List.remove N.eq_dec id (lf_live s))
    (match lf_entry s with Some l => if (l =? id)%N then None else Some l | None => None end)
    (lf_calls s) (lf_ctx s).

(** etcd_lifecycle.go 32-39 [notifying], 47-85 [DeadLoop], 91-94 [Close];
    etcd_registry.go 93-99 [Register] of one key (etcd refuses a put with an unknown lease).
    A mutex held by the loop itself blocks it (51, after 53-57). *)
Definition lstep (s : life) (o : lop) : life :=
  match o with
  | LStep grant keep =>
      match lf_pc s with
      | LLock => if lf_lock s then s
                 else mk_life LGrant true (lf_lease s) (lf_live s) (lf_entry s) (lf_calls s) (lf_ctx s)
      | LGrant =>
          match grant with
          | None => mk_life LLock (lf_lock s) (lf_lease s) (lf_live s) (lf_entry s) (lf_calls s) (lf_ctx s)
          | Some id => mk_life LNotify false id (id :: lf_live s) (lf_entry s) (lf_calls s) (lf_ctx s)
          end
      | LNotify => mk_life LKeep (lf_lock s) (lf_lease s) (lf_live s) (lf_entry s) (S (lf_calls s)) (lf_ctx s)
      | LKeep => mk_life (if keep then LWait else LLock)
                   (lf_lock s) (lf_lease s) (lf_live s) (lf_entry s) (lf_calls s) (lf_ctx s)
      | LWait =>
          if lf_ctx s then
            if existsb (N.eqb (lf_lease s)) (lf_live s) then s
            else mk_life LLock (lf_lock s) (lf_lease s) (lf_live s) (lf_entry s) (lf_calls s) (lf_ctx s)
          else drop_lease (lf_lease s)
                 (mk_life LDone (lf_lock s) (lf_lease s) (lf_live s) (lf_entry s) (lf_calls s) (lf_ctx s))
      | LDone => s
      end
  | LCall ok =>
      match lf_calls s with
      | O => s
      | S n =>
          mk_life (lf_pc s) (lf_lock s) (lf_lease s) (lf_live s)
            (if ok && existsb (N.eqb (lf_lease s)) (lf_live s) then Some (lf_lease s) else lf_entry s)
            n (lf_ctx s)
      end
  | LExpire id => drop_lease id s
  | LClose => mk_life (lf_pc s) (lf_lock s) (lf_lease s) (lf_live s) (lf_entry s) (lf_calls s) false
  end.

(** app.go of the API server 27-44: a new lifecycle, with [Register] subscribed. *)
Definition life0 : life := mk_life LLock false 0 [] None 0 true.
Definition lrun (s : life) (ops : list lop) : life := foldl lstep s ops.

(** etcd_lifecycle.go 41-45 [Lease] would block. *)
Definition lease_blocks (s : life) : bool := lf_lock s.

(** ** Changes of role *)

(** A running call, by what it does next.
    [TReg]: [Register] of a notification: read the lease (etcd_lifecycle.go 36); read the key;
    put (etcd_registry.go 94).
    [TLead b]: registry_logic.go 11-18: read the key and delete it (etcd_registry.go 102); set
    the role; read the lease; read the key; put. *)
Inductive task :=
| TReg | TRegKey (l : N) | TRegPut (l : N) (r : role)
| TLead (b : bool) | TDel (b : bool) (r : role) | TSet (b : bool) | TLease
| TDone.

(** The server's entries in etcd under its two keys (the one for each role) with their leases,
    0 for none. *)
Record member := mk_member {
  mb_role : role; mb_lease : N; mb_live : list N;
  mb_master : option N; mb_slave : option N; mb_tasks : list task }.

Definition mb_entry (r : role) (s : member) : option N :=
  match r with RMaster => mb_master s | RSlave => mb_slave s | RPlain => None end.
Definition set_entry (r : role) (x : option N) (s : member) : member :=
  match r with
  | RMaster => mk_member (mb_role s) (mb_lease s) (mb_live s) x (mb_slave s) (mb_tasks s)
  | RSlave => mk_member (mb_role s) (mb_lease s) (mb_live s) (mb_master s) x (mb_tasks s)
  | RPlain => s
  end.
Definition set_tasks (ts : list task) (s : member) : member :=
  mk_member (mb_role s) (mb_lease s) (mb_live s) (mb_master s) (mb_slave s) ts.
Definition set_role (r : role) (s : member) : member :=
  mk_member r (mb_lease s) (mb_live s) (mb_master s) (mb_slave s) (mb_tasks s).

(** etcd accepts a put without a lease, or with one it knows. *)
Definition known (l : N) (s : member) : bool := (l =? 0)%N || existsb (N.eqb l) (mb_live s).

(** registry_logic.go 13-17. *)
Definition role_of (b : bool) : role := if b then RMaster else RSlave.

(** One step of a call: the new state and what the call does next. *)
Definition task_step (t : task) (s : member) : member * task :=
  match t with
  | TReg => (s, TRegKey (mb_lease s))
  | TRegKey l => (s, TRegPut l (mb_role s))
  | TRegPut l r => (if known l s then set_entry r (Some l) s else s, TDone)
  | TLead b => (s, TDel b (mb_role s))
  | TDel b r => (set_entry r None s, TSet b)
  | TSet b => (set_role (role_of b) s, TLease)
  | TLease => (s, TRegKey (mb_lease s))
  | TDone => (s, TDone)
  end.

Inductive mop :=
| MGrant (id : N)     (* a new lease: etcd_lifecycle.go 51-62; one more call *)
| MLeader (b : bool)  (* raft_impl.go 139-152: a call in a new goroutine *)
| MStep (i : nat)     (* a call goes on *)
| MExpire (id : N).   (* etcd drops a lease and its entries *)

Definition expire_entry (id : N) (x : option N) : option N :=
  match x with Some l => if (l =? id)%N then None else Some l | None => None end.

Definition mstep (s : member) (o : mop) : member :=
  match o with
  | MGrant id =>
      mk_member (mb_role s) id (id :: mb_live s) (mb_master s) (mb_slave s) (mb_tasks s ++ [TReg])
  | MLeader b => set_tasks (mb_tasks s ++ [TLead b]) s
  | MStep i =>
      match mb_tasks s !! i with
      | Some t => let '(s', t') := task_step t s in set_tasks (<[i := t']> (mb_tasks s)) s'
      | None => s
      end
  | MExpire id =>
      mk_member (mb_role s) (mb_lease s) (List.remove N.eq_dec id (mb_live s))
        (expire_entry id (mb_master s)) (expire_entry id (mb_slave s)) (mb_tasks s)
  end.

(** metaserver app.go 53-59: the server starts as a slave, or as a master without raft. *)
Definition member0 (r : role) : member := mk_member r 0 [] None None [].
Definition mrun (s : member) (ops : list mop) : member := foldl mstep s ops.
