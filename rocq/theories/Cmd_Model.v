(** Model of the command lines of the servers (src/common/cmd/cmd.go 31-55,
    src/metaserver/cmd/raft/raft.go 16-186, src/metaserver/cmd/hashslot/hashslot.go 16-74,
    src/objectserver/cmd/rpc/rpc.go 14-63, the main functions and cmd/app of both) and of leaving
    and joining as a data server does when told to
    (src/objectserver/internal/controller/grpc/migration_server.go 87-156).

    Simplified: what is printed is not modelled, only what is asked of a server and how the
    process ends; [grpc.Dial] does not fail, it connects later. *)
From stdpp Require Import list.
From Verif Require Import Str_Model Meta_Model Migrate_Model Group_Model.
Local Open Scope list_scope.

(** ** What a command line asks *)

(** The calls a command makes; an entry of a list is [None] where the code leaves nil. *)
Inductive question :=
| QAddVoter (l : list (option (str * str * N)))
| QJoin (id : str)
| QApplied
| QBootstrap (l : list (option (str * str)))
| QPeers
| QLeave
| QRemove (id : str) (prev : N)
| QMigrate (host port : str) (slots : list str)
| QSlots
| QDataJoin
| QDataLeave.

(** A command serves (with its arguments), asks a question at an address, or only prints. *)
Inductive doing := Serves (args : list str) | Asks (addr : str) (q : question) | Prints.

(** [GetHostPort] (src/common/util/ip_tool.go 33-35) with [net.JoinHostPort]. *)
Definition host_port (host port : str) : str :=
  if existsb (fun c => if ascii_dec c ":"%char then true else false) host
  then "["%char :: host ++ "]"%char :: ":"%char :: port
  else host ++ ":"%char :: port.

(** The loops of [addVoter] and [bootstrap] (raft.go 73-84, 125-135). *)
Definition voter_arg (v : str) : option (str * str * N) :=
  match split_on ","%char v with [a; b; i] => Some (a, b, to_uint64 i) | _ => None end.
Definition service_arg (v : str) : option (str * str) :=
  match split_on ","%char v with [a; b] => Some (a, b) | _ => None end.

(** The command [raft] (raft.go 17-57). *)
Definition raft_line (host : str) (args : list str) : doing :=
  match args with
  | port :: c :: rest =>
      let at_ := Asks (host_port host port) in
      if str_eqb c (s2l "add_voter") then match rest with [] => Prints | _ => at_ (QAddVoter (map voter_arg rest)) end
      else if str_eqb c (s2l "join_leader") then match rest with [] => Prints | id :: _ => at_ (QJoin id) end
      else if str_eqb c (s2l "applied_index") then at_ QApplied
      else if str_eqb c (s2l "bootstrap") then at_ (QBootstrap (map service_arg rest))
      else if str_eqb c (s2l "peers") then at_ QPeers
      else if str_eqb c (s2l "leave") then at_ QLeave
      else if str_eqb c (s2l "demote_voter") then
        match rest with id :: prev :: _ => at_ (QRemove id (to_uint64 prev)) | _ => Prints end
      else Prints
  | _ => Prints
  end.

(** The commands [start-migration] and [get-slots] (hashslot.go 17-33). *)
Definition migration_line (host : str) (args : list str) : doing :=
  match args with
  | [port; target; tport; slots] => Asks (host_port host port) (QMigrate target tport (split_on ","%char slots))
  | _ => Prints
  end.
Definition slots_line (host : str) (args : list str) : doing :=
  match args with port :: _ => Asks (host_port host port) QSlots | [] => Prints end.

(** The command [rpc] of a data server (rpc.go 19-32); further arguments are not looked at. *)
Definition rpc_line (host : str) (args : list str) : doing :=
  match args with
  | port :: c :: _ =>
      if str_eqb c (s2l "join-cluster") then Asks (host_port host port) QDataJoin
      else if str_eqb c (s2l "leave-cluster") then Asks (host_port host port) QDataLeave
      else Prints
  | _ => Prints
  end.

(** [Run] (cmd.go 35-55); [None]: the panic of an index out of range at line 41. *)
Fixpoint command_of (table : list (str * (list str -> doing))) (name : str) : option (list str -> doing) :=
  match table with
  | [] => None
  | (n, f) :: r => if str_eqb n name then Some f else command_of r name
  end.
Definition run_line (table : list (str * (list str -> doing))) (args def : list str) : option doing :=
  let args := match args with [] | [_] => args ++ def | _ => args end in
  match args with
  | _ :: name :: rest => Some (match command_of table name with Some f => f rest | None => Prints end)
  | _ => None
  end.

(** The processes (metaserver/main.go 11-13, objectserver/main.go 10-12; the imports register
    the commands). *)
Definition meta_main (host : str) (args : list str) : option doing :=
  run_line [(s2l "app", Serves); (s2l "raft", raft_line host); (s2l "start-migration", migration_line host);
            (s2l "get-slots", slots_line host)] args [s2l "app"].
Definition data_main (host : str) (args : list str) : option doing :=
  run_line [(s2l "app", Serves); (s2l "rpc", rpc_line host)] args [s2l "app"].

(** How the process ends for an answer: no command calls [os.Exit] (raft.go 84-90, hashslot.go
    55-59, rpc.go 44-49); a panic ends with 2. *)
Definition exit_status (d : option doing) (answer : resp) : Z := match d with None => 2%Z | Some _ => 0%Z end.

(** ** What the asked server is told *)

(** A nil entry of a list of messages is an empty message at the other end (raft.go 73-84;
    proto3). *)
Definition wire (v : option (str * str)) : str * str := match v with Some p => p | None => ([], []) end.
Definition wire_voter (v : option (str * str * N)) : str * str :=
  match v with Some (a, b, _) => (a, b) | None => ([], []) end.

(** The questions that change groups, as metadata server [m] takes them (raft_cmd_server.go
    36-162 do not read [PrevIndex]). *)
Definition told (fails : list bool) (w : world) (m : str) (q : question) : resp * world :=
  match q with
  | QAddVoter l => add_voter fails w m (map wire_voter l)
  | QRemove id _ => remove_follower (hd false fails) w m id
  | QLeave => leave (hd false fails) w m
  | _ => (ROk, w)
  end.

(** ** A data server told to leave or to join *)

(** Is it among the discovered servers, do its services run, its counter of stored bytes and the
    files it holds with their sizes. *)
Record dnode := DNode { dn_known : bool; dn_up : bool; dn_cap : Z; dn_files : list (str * Z) }.

(** Is a file sent by a plan (migration_service.go 192-239). *)
Definition sent (plan : list (str * str * Z)) (f : str) : bool := existsb (fun x => str_eqb (fst (fst x)) f) plan.

(** [LeaveCommand] (migration_server.go 87-102): the capacities of [peers] as they answer; closing
    takes the server off the registry (instance.go 69-75, 168-177) and may panic ([closes]
    false); [ok f]: the transfer of [f] succeeds, after which it is deleted (migration_service.go
    208-227). *)
Definition leave_command (peers : list (str * Z)) (closes : bool) (ok : str -> bool) (n : dnode) : bool * dnode :=
  if negb (dn_known n) then (false, n) else
  match deviation_values (dn_cap n) peers false with
  | None => (false, n)
  | Some quotas =>
      if negb closes then (false, DNode false false (dn_cap n) (dn_files n)) else
      let plan := sending_plan quotas (dn_files n) in
      (forallb (fun x => ok (fst (fst x))) plan,
       DNode false false (dn_cap n) (List.filter (fun f => negb (sent plan (fst f) && ok (fst f))) (dn_files n)))
  end.

(** [JoinCommand] (migration_server.go 104-156): [opens]: opening does not panic; [known]: is the
    entry that the opened services make in the background discovered yet; [ok]: the servers asked
    answer without an error. *)
Definition join_command (peers : list (str * Z)) (opens known : bool) (ok : str -> bool) (n : dnode) : bool * dnode :=
  if negb opens then (false, n) else
  let n1 := DNode known true (dn_cap n) (dn_files n) in
  if negb known then (false, n1) else
  match deviation_values (dn_cap n) peers true with
  | None => (false, n1)
  | Some asked => (forallb (fun x => ok (fst x)) asked, n1)
  end.
