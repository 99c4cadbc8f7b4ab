(** Words for the theorems about groups of metadata servers, written without the commands
    of [Group_Model]. *)
From stdpp Require Import list.
From Verif Require Import Str_Model Group_Model.
Local Open Scope list_scope.

(** The server is a voter of the group, under that address. *)
Definition voter_of (w : world) (g : nat) (id addr : str) : Prop := In (id, addr) (w_conf w g).
Definition member (w : world) (g : nat) (id : str) : Prop := exists addr, voter_of w g id addr.

(** The list of nodes names the server. *)
Definition listed (nodes : list str) (id : str) : Prop := exists addr, In (id ++ ","%char :: addr) nodes.

(** A sound group: someone is in it, nobody twice, every server has a name and an address
    of its own. *)
Definition sound (c : conf) : Prop :=
  c <> [] /\ NoDup (map fst c) /\ NoDup (map snd c) /\ Forall (fun v => v.1 <> [] /\ v.2 <> []) c.

(** Nothing but the group [g] and the server [m] differs. *)
Definition else_same (g : nat) (m : str) (w w' : world) : Prop :=
  (forall g', g' <> g -> w_conf w' g' = w_conf w g') /\
  (forall x, x <> m -> w_srv w' x = w_srv w x) /\
  w_known w' = w_known w /\ w_etcd w' = w_etcd w.

(** A server belongs to what it says: the slots it looks up are those of its group. *)
Definition at_home (s : server) : Prop := s_on s = true -> s_store s = s_group s.

(** Every group is sound. *)
Definition all_sound (w : world) : Prop := forall g, sound (w_conf w g).

(** What a server remembers after joining [m]. *)
Definition takes (w w' : world) (id m : str) : Prop :=
  s_group (w_srv w' id) = s_group (w_srv w m) /\
  s_nodes (w_srv w' id) = s_nodes (w_srv w' m) /\
  s_store (w_srv w' id) = s_group (w_srv w m) /\
  s_slots (w_srv w' id) = match w_etcd w (s_group (w_srv w m)) with Some l => l | None => s_slots (w_srv w id) end /\
  s_on (w_srv w' id) = s_on (w_srv w id) /\ s_addr (w_srv w' id) = s_addr (w_srv w id) /\
  s_leads (w_srv w' id) = s_leads (w_srv w id) /\ s_leader (w_srv w' id) = s_leader (w_srv w id).
