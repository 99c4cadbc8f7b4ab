(** Model of how a data server that joins or leaves learns what the others store, and of what
    the servers store after a join
    (src/objectserver/internal/usecase/service/migration_service.go 45-63 [getPeersCapacity],
    src/objectserver/internal/controller/grpc/migration_server.go 72-85 [RequireSend], 104-156
    [JoinCommand]).  The plan and the walk over the files are in Migrate_Model, what a server
    answers to [/stat] in Sel_Model.

    Simplified: a server counts exactly the sizes of its files; the servers asked send one after
    the other; a file has one name on all servers and lies on one of them (its name ends in the
    index of the piece); nothing else is stored or removed meanwhile. *)
From Coq Require Import List Ascii ZArith Bool.
From Verif Require Import Str_Model Util_Model Sel_Model Migrate_Model.
Import ListNotations.
Local Open Scope list_scope.
Local Open Scope Z_scope.

(** A data server as others see it: its address, does it answer at all, its drives if they can
    be read (disk/stat.go 32-59), and its files with their sizes. *)
Record peer := Peer { pr_addr : str; pr_up : bool; pr_drives : option (list iostat); pr_files : list (str * Z) }.

(** The sizes of files together ([ObjectCapacity], object_capacity_db.go 7-25). *)
Definition stored (files : list (str * Z)) : Z := fold_right (fun f a => snd f + a) 0 files.

(** What [http.Get] of [/stat] gives (migration_service.go 55-60): nothing, or the header
    [Capacity] of an answer of whatever status; an answer with 500 has no such header. *)
Definition stat_of (p : peer) : option str :=
  if pr_up p then
    match stat_info (stored (pr_files p)) (pr_drives p) with
    | Some t => Some (ts_capacity t)
    | None => Some []
    end
  else None.

(** The answer from an address. *)
Definition ask (peers : list peer) (ip : str) : option str :=
  match find (fun p => str_eqb (pr_addr p) ip) peers with Some p => stat_of p | None => None end.

(** Writing to the map [res] (migration_service.go 60). *)
Fixpoint set_cap (m : list (str * Z)) (ip : str) (c : Z) : list (str * Z) :=
  match m with
  | [] => [(ip, c)]
  | (k, v) :: r => if str_eqb k ip then (k, c) :: r else (k, v) :: set_cap r ip c
  end.

(** The body of the loop (migration_service.go 50-61). *)
Definition one_cap (self : str) (answer : str -> option str) (res : list (str * Z)) (ip : str) : list (str * Z) :=
  if str_eqb ip self then res
  else match answer ip with
       | None => res
       | Some h => set_cap res ip (to_int64 h)
       end.

(** [getPeersCapacity] (migration_service.go 46-63) with the addresses discovered and the own
    one, which is empty if it is not discovered. *)
Definition peers_capacity (ips : list str) (self : str) (answer : str -> option str) : list (str * Z) :=
  fold_left (one_cap self answer) ips [].

(** ** A join *)

(** How many files the walk of [SendingTo] for one target takes (migration_service.go 188-239):
    it ends with the file that uses up the size asked for. *)
Definition taken (q : Z) (files : list (str * Z)) : nat := List.length (sending_plan [([], q)] files).

(** [RequireSend] (migration_server.go 72-85) at one server for [q] bytes: the files it keeps and
    those that were moved; [ok]: does the transfer of a file succeed. *)
Definition require_send (ok : str -> bool) (q : Z) (files : list (str * Z)) : list (str * Z) * list (str * Z) :=
  let sent := firstn (taken q files) files in
  (filter (fun f => negb (ok (fst f))) sent ++ skipn (taken q files) files, filter (fun f => ok (fst f)) sent).

(** The size asked of a server by the plan, 0 for none (migration_server.go 132-146). *)
Definition asked (plan : list (str * Z)) (ip : str) : Z :=
  match find (fun x => str_eqb (fst x) ip) plan with Some x => snd x | None => 0 end.

(** The files a server tries to send (migration_service.go 188-239). *)
Definition tried (plan : list (str * Z)) (p : peer) : list (str * Z) :=
  let q := asked plan (pr_addr p) in
  if q =? 0 then [] else firstn (taken q (pr_files p)) (pr_files p).

(** A server after the requests, and what it sent (migration_server.go 132-146). *)
Definition give (ok : str -> bool) (plan : list (str * Z)) (p : peer) : peer * list (str * Z) :=
  let q := asked plan (pr_addr p) in
  if q =? 0 then (p, [])
  else let r := require_send ok q (pr_files p) in
       (Peer (pr_addr p) (pr_up p) (pr_drives p) (fst r), snd r).

(** [JoinCommand] from line 113 on: is success told (147-156: no server asked had a transfer that
    failed, migration_service.go 246-262), what the others and the server itself hold
    afterwards.  [ips]: the addresses discovered. *)
Definition join (ok : str -> bool) (ips : list str) (self : str) (mine : list (str * Z)) (peers : list peer)
  : bool * list peer * list (str * Z) :=
  match deviation_values (stored mine) (peers_capacity ips self (ask peers)) true with
  | None => (false, peers, mine)
  | Some plan =>
      let r := map (give ok plan) peers in
      (forallb (fun p => forallb (fun f => ok (fst f)) (tried plan p)) peers,
       map fst r, mine ++ List.concat (map snd r))
  end.
