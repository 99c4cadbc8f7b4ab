(** Model of the commands that make, join and leave groups of metadata servers:
    src/metaserver/internal/controller/grpc/raft_cmd_server.go 36-208 (the commands),
    controller/grpc/middleware.go 15-99 (who may be asked for them),
    usecase/logic/raft_cluster_logic.go 17-53 (what a server that joined remembers),
    usecase/logic/peers_logic.go 14-30, usecase/raftimpl/raft_impl.go 39-94 and
    config/config.go 38-106 (what a server starts with).

    Simplified: a raft configuration lists voters only; a change of it that the library
    accepts is committed at once, one it does not accept (or that times out) changes
    nothing; who leads a group only changes when the leader is removed; names in the
    registry reach the servers of that name, and the address of a leader reaches the
    leader; the configuration file is written at once (in the code by a goroutine:
    raft_cmd_server.go 104-107, 156-159, raft_cluster_logic.go 47-50). *)
From stdpp Require Import list.
From Verif Require Import Str_Model Meta_Model.
Local Open Scope list_scope.

(** ** The raft library *)

(** A voter: its id and its address ([raft.Server], raft_cmd_server.go 42-46). *)
Notation voter := (str * str)%type.
Notation conf := (list (str * str)).

(** No entry twice. *)
Fixpoint distinct (l : list str) : bool :=
  match l with
  | [] => true
  | x :: r => negb (existsb (str_eqb x) r) && distinct r
  end.

(** What the library accepts as a configuration (called from raft_cmd_server.go 67, 81,
    122, 139 and raft_impl.go 89): a voter at least, no empty or double id or address. *)
Definition check_conf (c : conf) : bool :=
  negb (match c with [] => true | _ => false end)
  && forallb (fun v => negb (str_eqb v.1 []) && negb (str_eqb v.2 [])) c
  && distinct (map fst c) && distinct (map snd c).

(** [Raft.AddVoter] (raft_cmd_server.go 81): a voter known by its id gets the address. *)
Fixpoint set_voter (id addr : str) (c : conf) : conf :=
  match c with
  | [] => [(id, addr)]
  | v :: r => if str_eqb v.1 id then (id, addr) :: r else v :: set_voter id addr r
  end.

(** [Raft.RemoveServer] (raft_cmd_server.go 122, 139). *)
Definition drop_voter (id : str) (c : conf) : conf := List.filter (fun v => negb (str_eqb v.1 id)) c.

(** A change of the configuration, if the library takes it. *)
Definition change (fail : bool) (c c' : conf) : option conf :=
  if fail then None else if check_conf c' then Some c' else None.

(** ** Servers *)

(** What the commands read and change of a server: [RaftWrapper] (raft_impl.go 24-33) and
    the parts of the configuration (config.go 80-96). *)
Record server := Server
  { s_on : bool              (* is raft switched on *)
  ; s_addr : str
  ; s_leads : option nat     (* the group it leads *)
  ; s_leader : str           (* the leader it knows, "" for none *)
  ; s_nodes : list str
  ; s_group : str
  ; s_store : str            (* HashSlot.StoreID *)
  ; s_slots : list str }.

(** The servers by id, the configurations of the groups, the ids in the registry and the
    slots written to etcd (raft_cmd_server.go 166-170, hashslot_logic.go 27-60). *)
Record world := World
  { w_srv : str -> server
  ; w_conf : nat -> conf
  ; w_known : str -> bool
  ; w_etcd : str -> option (list str) }.

(** Updates of the records above. *)
Definition put_srv (w : world) (id : str) (s : server) : world :=
  World (fun x => if str_eqb x id then s else w_srv w x) (w_conf w) (w_known w) (w_etcd w).
Definition put_conf (w : world) (g : nat) (c : conf) : world :=
  World (w_srv w) (fun x => if x =? g then c else w_conf w x) (w_known w) (w_etcd w).
Definition put_etcd (w : world) (id : str) (v : option (list str)) : world :=
  World (w_srv w) (w_conf w) (w_known w) (fun x => if str_eqb x id then v else w_etcd w x).
Definition with_nodes (s : server) (l : list str) : server :=
  Server (s_on s) (s_addr s) (s_leads s) (s_leader s) l (s_group s) (s_store s) (s_slots s).
Definition with_group (s : server) (id : str) (l : list str) : server :=
  Server (s_on s) (s_addr s) (s_leads s) (s_leader s) l id (s_store s) (s_slots s).
Definition with_store (s : server) (id : str) : server :=
  Server (s_on s) (s_addr s) (s_leads s) (s_leader s) (s_nodes s) (s_group s) id (s_slots s).
Definition with_slots (s : server) (l : list str) : server :=
  Server (s_on s) (s_addr s) (s_leads s) (s_leader s) (s_nodes s) (s_group s) (s_store s) l.
Definition no_leader (s : server) : server :=
  Server (s_on s) (s_addr s) None (s_leader s) (s_nodes s) (s_group s) (s_store s) (s_slots s).

(** How a command is answered: done ([okResp]), [Success: false], or an error. *)
Inductive resp := ROk | RSays | RErr.

(** ** The commands *)

(** [id,host:port] of a node (raft_cmd_server.go 97, 145). *)
Definition node (v : voter) : str := v.1 ++ ","%char :: v.2.

(** [AddVoter] (raft_cmd_server.go 80-90): each change by itself; [fails] names the
    ones that time out. *)
Fixpoint add_all (fails : list bool) (voters : list voter) (c : conf) : conf * bool :=
  match voters with
  | [] => (c, true)
  | v :: r =>
      match change (hd false fails) c (set_voter v.1 v.2 c) with
      | Some c' => add_all (tl fails) r c'
      | None => ((add_all (tl fails) r c).1, false)
      end
  end.

(** [append(nodes)] for each voter that is not in the list (raft_cmd_server.go 95-102). *)
Definition record_nodes (voters : list voter) (nodes : list str) : list str :=
  fold_left (fun l v => if existsb (str_eqb (node v)) nodes then l else l ++ []) voters nodes.

(** [AddVoter] (raft_cmd_server.go 75-109) behind the interceptors that want raft enabled
    and the server leading (middleware.go 42-58). *)
Definition add_voter (fails : list bool) (w : world) (m : str) (voters : list voter) : resp * world :=
  let s := w_srv w m in
  if negb (s_on s) then (RErr, w) else
  match s_leads s with
  | None => (RErr, w)
  | Some g =>
      match voters with
      | [] => (RSays, w)
      | _ =>
          let (c, ok) := add_all fails voters (w_conf w g) in
          if ok then (ROk, put_srv (put_conf w g c) m (with_nodes s (record_nodes voters (s_nodes s))))
          else (RSays, put_conf w g c)
      end
  end.

(** The first node of the id (raft_cmd_server.go 143-151). *)
Fixpoint node_index (id : str) (l : list str) : option nat :=
  match l with
  | [] => None
  | n :: r => if prefixb (id ++ [","%char]) n then Some 0 else option_map S (node_index id r)
  end.

(** raft_cmd_server.go 152-154: swapped with the first, which is then cut off. *)
Definition remove_node (id : str) (l : list str) : list str :=
  match node_index id l with
  | Some (S i) => tl (<[0 := nth (S i) l []]> (<[S i := hd [] l]> l))
  | _ => l
  end.

(** [RemoveFollower] (raft_cmd_server.go 138-162) behind the same interceptors; a leader
    that removes itself leads no longer. *)
Definition remove_follower (fail : bool) (w : world) (m id : str) : resp * world :=
  let s := w_srv w m in
  if negb (s_on s) then (RErr, w) else
  match s_leads s with
  | None => (RErr, w)
  | Some g =>
      match change fail (w_conf w g) (drop_voter id (w_conf w g)) with
      | None => (RErr, w)
      | Some c =>
          let s1 := with_nodes s (remove_node id (s_nodes s)) in
          (ROk, put_srv (put_conf w g c) m (if str_eqb id m then no_leader s1 else s1))
      end
  end.

(** [LeaveCluster] (raft_cmd_server.go 119-136): a leader removes itself, a follower asks
    the leader it knows; without one the call ends in an error. *)
Definition leave (fail : bool) (w : world) (id : str) : resp * world :=
  let s := w_srv w id in
  if negb (s_on s) then (RErr, w) else
  match s_leads s with
  | Some g =>
      match change fail (w_conf w g) (drop_voter id (w_conf w g)) with
      | None => (RSays, w)
      | Some c => (ROk, put_srv (put_conf w g c) id (no_leader s))
      end
  | None => if str_eqb (s_leader s) [] then (RErr, w) else remove_follower fail w (s_leader s) id
  end.

(** [HashSlot.GetById] (hashslot_logic.go 44-60) on a server. *)
Definition get_slots (w : world) (id store : str) : option (list str) :=
  match w_etcd w store with
  | Some l => Some l
  | None => if str_eqb store (s_store (w_srv w id)) then Some (s_slots (w_srv w id)) else None
  end.

(** [UpdateConfiguration] (raft_cluster_logic.go 17-53); [leads]: does the server lead at
    that moment, [down]: does etcd fail. *)
Definition update_conf (leads down : bool) (w : world) (id group : str) (nodes : list str) : resp * world :=
  let s := with_group (w_srv w id) group nodes in
  let w1 := put_srv w id s in
  if leads then
    if down then (RErr, w1) else
    match get_slots w1 id (s_store s) with
    | None => (RErr, w1)
    | Some l =>
        let w2 := put_etcd w1 (s_store s) None in
        let s2 := with_slots (with_store s group) l in
        (ROk, put_etcd (put_srv w2 id s2) group (Some l))
    end
  else
    let s1 := with_store s group in
    let w2 := put_srv w id s1 in
    if down then (RErr, w2) else
    match get_slots w2 id group with
    | None => (RErr, w2)
    | Some l => (ROk, put_srv w2 id (with_slots s1 l))
    end.

(** What can go wrong while joining: the change on the other leader, the question for its
    configuration, etcd; and whether the server leads in the end. *)
Record mishap := Mishap { p_drop : bool; p_add : bool; p_conf : bool; p_etcd : bool; p_leads : bool }.

(** The end of [JoinLeader] (raft_cmd_server.go 197-207): the answer of [Config] (111-117)
    is the group id and the nodes of the leader. *)
Definition join_end (p : mishap) (w : world) (id m : str) : resp * world :=
  if p_conf p then (RSays, w)
  else if negb (s_on (w_srv w m)) then (RSays, w)
  else update_conf (p_leads p) (p_etcd p) w id (s_group (w_srv w m)) (s_nodes (w_srv w m)).

(** raft_cmd_server.go 187-195. *)
Definition join_add (p : mishap) (w : world) (id addr m : str) : resp * world :=
  match add_voter [p_add p] w m [(id, addr)] with
  | (ROk, w') => join_end p w' id m
  | (_, w') => (RSays, w')
  end.

(** [JoinLeader] (raft_cmd_server.go 164-208) behind the interceptor for servers that do
    not lead (middleware.go 92-99); without raft the service does not exist (grpc.go
    37-42). *)
Definition join (p : mishap) (w : world) (id m : str) : resp * world :=
  let s := w_srv w id in
  if negb (s_on s) then (RErr, w) else
  if match s_leads s with Some _ => true | None => false end then (RErr, w) else
  if negb (w_known w m) then (RErr, w) else
  if str_eqb (s_leader s) m then join_end p w id m
  else if str_eqb (s_leader s) [] then join_add p w id (s_addr s) m
  else match remove_follower (p_drop p) w m id with
       | (ROk, w') => join_add p w' id (s_addr s) m
       | (_, w') => (RErr, w')
       end.

(** ** Forming a group *)

(** The node list as servers; what is not [id,host:port] leaves an empty entry
    (raft_cmd_server.go 52-64). *)
Definition parse_node (n : str) : voter :=
  match split_on ","%char n with
  | [a; b] => (a, b)
  | _ => ([], [])
  end.

(** [fmt.Sprint] of the cluster configuration (raft_cmd_server.go 50, config.go 86-96):
    the values of the fields in braces, the server's id among them. *)
Definition print_cluster (before id after : str) : str :=
  "{"%char :: before ++ " "%char :: id ++ " "%char :: after ++ ["}"%char].

(** [Bootstrap] (raft_cmd_server.go 36-73) of a server with an id, an address and a node
    list: the answer, the group formed and the list afterwards. [fresh]: the server has no
    raft state yet (the library forms no second group). *)
Definition bootstrap (fresh : bool) (before after id addr : str) (services : list voter) (nodes : list str)
  : resp * option conf * list str :=
  let nodes' := match services, nodes with
                | [], [] => [print_cluster before id after ++ ","%char :: addr]
                | _, _ => nodes
                end in
  let c := match services with [] => map parse_node nodes' | _ => services end in
  if fresh && check_conf c then (ROk, Some c, nodes') else (RSays, None, nodes').

(** [NewRaft] (raft_impl.go 62-94) with [bootstrap] in the configuration: [None] is the
    panic of line 71. *)
Definition start_conf (id addr : str) (nodes : list str) : option conf :=
  if forallb (fun n => match split_on ","%char n with [_; _] => true | _ => false end) nodes
  then Some (match nodes with [] => [(id, addr)] | _ => map parse_node nodes end)
  else None.

(** The node list taken from the environment, a variable split at commas (config.go 95). *)
Definition env_nodes (value : str) : list str := split_on ","%char value.

(** Starting again from the written configuration (config.go 38-54): group, nodes and
    slots are kept, the store id follows from the group. *)
Definition restart (id : str) (s : server) : server :=
  Server (s_on s) (s_addr s) None [] (s_nodes s) (s_group s) (if s_on s then s_group s else id) (s_slots s).

(** [GetPeers] (peers_logic.go 14-30). *)
Definition peers (w : world) (id : str) (g : nat) : list str :=
  if s_on (w_srv w id) then List.filter (fun x => negb (str_eqb x id)) (map fst (w_conf w g)) else [].
