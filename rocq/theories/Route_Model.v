(** Model of the way of a metadata request from an API server to a metadata server
    (src/apiserver/internal/usecase/logic/{discovery_logic,hashslot_logic}.go,
    usecase/repo/{meta_repo,version_repo,bucket_repo}.go, service/meta_service.go,
    componet/selector/random_selector.go; src/metaserver/internal/usecase/logic/peers_logic.go,
    controller/grpc/middleware.go).

    Simplified: a server that cannot be reached answers nothing; a read is one look at the
    database of the server; caches are in Cache_Model. *)
From Verif Require Import Str_Model Meta_Model Meta_Spec Cache_Model Owner_Model Admit_Model.
From stdpp Require Import gmap.
Local Open Scope list_scope.

(** A metadata server: its id, its table of slots, the leader it knows of, its answer to
    [GetPeers] (peers_logic.go 14-30; [None]: an error), and its data (Admit_Model). *)
Record mserver := MServer { sv_id : str; sv_table : list edge; sv_leader : str; sv_peers : option (list str); sv_rep : replica }.

(** The tables in etcd, the registered servers (id and address) and who listens where. *)
Record world := World { w_kv : etcd; w_reg : list (str * str); w_at : str -> option mserver }.

(** [KeySlotLocation] (apiserver hashslot_logic.go 22-47): the server id, or the status of the
    error: 503 if the tables are not accepted (37-40), 500 if no slot is found (41-44). *)
Definition key_slot_location (sort : sorter) (crc : str -> N) (kv : etcd) (name : str) : str + Z :=
  match provider sort kv with
  | None => inr 503%Z
  | Some table => match get_string_identify crc name table with Some id => inl id | None => inr 500%Z end
  end.

(** [GetServiceMapping] at an id (discovery_logic.go 68-69, 77). *)
Fixpoint address (reg : list (str * str)) (id : str) : option str :=
  match reg with
  | [] => None
  | (k, a) :: r => if str_eq_dec k id then Some a else address r id
  end.

Fixpoint addresses (reg : list (str * str)) (ids : list str) : list str :=
  match ids with
  | [] => []
  | id :: r => match address reg id with Some a => a :: addresses reg r | None => addresses reg r end
  end.

(** grpcapi.GetPeers with the error dropped (discovery_logic.go 73). *)
Definition peers_at (w : world) (a : str) : list str :=
  match w_at w a with Some s => match sv_peers s with Some l => l | None => [] end | None => [] end.

(** Those a read may be sent to (discovery_logic.go 73-80). *)
Definition candidates (w : world) (id a : str) : list str := addresses (w_reg w) (peers_at w a ++ [id]).

(** [SelectMetaServerGRPC] (discovery_logic.go 67-85) with [RandomSelector.Select] (random_selector.go
    24-27), which seeds the generator with the second each time: [intn sec n] is the number it
    gives below [n] in second [sec]. *)
Definition select_meta (intn : Z -> nat -> nat) (sec : Z) (w : world) (id : str) : str + Z :=
  match address (w_reg w) id with
  | None => inr 503%Z
  | Some a =>
      match candidates w id a with
      | [] => inr 503%Z
      | l => inl (nth (intn sec (length l)) l [])
      end
  end.

(** [GetMetaServerGRPC] (discovery_logic.go 27-33): the empty address if there is none. *)
Definition master_address (w : world) (id : str) : str := match address (w_reg w) id with Some a => a | None => [] end.

(** Where a read (meta_repo.go 19-30, version_repo.go 22-33, bucket_repo.go 14-24,
    metadata_api.go 57-67) and a write (meta_repo.go 32-38, version_repo.go 36-66, bucket_repo.go
    26-54) go. *)
Definition read_address (sort : sorter) (crc : str -> N) (intn : Z -> nat -> nat) (sec : Z) (w : world) (name : str) : str + Z :=
  match key_slot_location sort crc (w_kv w) name with inr e => inr e | inl id => select_meta intn sec w id end.
Definition write_address (sort : sorter) (crc : str -> N) (w : world) (name : str) : str + Z :=
  match key_slot_location sort crc (w_kv w) name with inr e => inr e | inl id => inl (master_address w id) end.

(** A read at an address: [CheckKeySlot] (middleware.go 101-120) turns away with [Aborted], which
    is 400 to the API server (generate.go 31-32); nobody there is 500 (33-34). *)
Definition ask {A : Type} (crc : str -> N) (w : world) (a : str) (name : str) (f : db -> A) : A + Z :=
  match w_at w a with
  | None => inr 500%Z
  | Some s =>
      match check_rpc crc (sv_table s) (sv_id s) (sv_leader s) (fun id => master_address w id) (RMetaReq name) with
      | Owner_Model.Serve => inl (f (r_db (sv_rep s)))
      | _ => inr 400%Z
      end
  end.

Definition api_read {A : Type} (sort : sorter) (crc : str -> N) (intn : Z -> nat -> nat) (sec : Z) (w : world) (name : str) (f : db -> A) : A + Z :=
  match read_address sort crc intn sec w name with inr e => inr e | inl a => ask crc w a name f end.

(** Does a write pass the checks of the server it is sent to ([CheckKeySlot], then
    [CheckWritableUnary], middleware.go 60-73, for a method of its list): the server, or the
    status of the refusal.  [r_lead] is read as: leads, or runs without raft. *)
Definition api_write (sort : sorter) (crc : str -> N) (w : world) (name : str) : mserver + Z :=
  match write_address sort crc w name with
  | inr e => inr e
  | inl a =>
      match w_at w a with
      | None => inr 500%Z
      | Some s =>
          match check_rpc crc (sv_table s) (sv_id s) (sv_leader s) (fun id => master_address w id) (RMetadata name) with
          | Owner_Model.Serve => if r_lead (sv_rep s) && r_normal (sv_rep s) then inl s else inr 500%Z
          | _ => inr 400%Z
          end
      end
  end.

(** The metadata a server finds ([FindByName], meta_repo.go 19-30). *)
Definition look_meta (name : str) (d : db) : option metadata := d_meta d !! name.

(** [GetMetadata] with a version (meta_service.go 52-69): two reads, of which the second may
    fall into another second and find other servers. *)
Definition get_both (sort : sorter) (crc : str -> N) (intn : Z -> nat -> nat) (sec1 sec2 : Z) (w1 w2 : world) (name : str) (ver : Z)
  : (metadata * version) + Z :=
  match api_read sort crc intn sec1 w1 name (look_meta name) with
  | inr e => inr e
  | inl None => inr 404%Z
  | inl (Some m) =>
      match api_read sort crc intn sec2 w2 name (service_get_version name ver) with
      | inr e => inr e
      | inl None => inr 404%Z
      | inl (Some v) => inl (m, v)
      end
  end.
