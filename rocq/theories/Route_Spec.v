(** Words for the theorems about the way to the metadata servers. *)
From Verif Require Import Str_Model Meta_Model Meta_Spec Owner_Model Owner_Spec Owner_Proofs Admit_Model Route_Model.
From stdpp Require Import gmap.
Local Open Scope list_scope.

(** The server that leads the group with the slot of a name, by the tables in etcd. *)
Definition master_of (crc : str -> N) (kv : etcd) (name id : str) : Prop :=
  exists g sl, List.In (g, (id, sl)) kv /\ named sl (key_slot crc name).

(** A generator that gives numbers below its bound. *)
Definition lawful (intn : Z -> nat -> nat) : Prop := forall sec n, 0 < n -> intn sec n < n.

(** The addresses of the group of a server as its leader tells it. *)
Definition in_group (w : world) (id b : str) : Prop :=
  address (w_reg w) id = Some b \/
  exists a p, address (w_reg w) id = Some a /\ List.In p (peers_at w a) /\ address (w_reg w) p = Some b.

(** All servers of the group of [id] have the tables of etcd and know [id] as their leader. *)
Definition settled (w : world) (id : str) (table : list edge) : Prop :=
  forall b, in_group w id b -> exists s, w_at w b = Some s /\ sv_table s = table /\ (sv_id s = id \/ sv_leader s = id).

(** The servers of the group of [id] have the data of servers of the cluster. *)
Definition data_of (w : world) (id : str) (cl : cluster) : Prop :=
  forall b s, in_group w id b -> w_at w b = Some s -> exists i, cl_reps cl !! i = Some (sv_rep s).
