(** Model of how a write reaches the metadata servers of one raft group: the checks in
    front of the services, the choice between the replicated log and the local
    repository, and the application of the log.

    Source: src/metaserver/internal/controller/grpc/middleware.go 31-40, 60-90,
    controller/http/middleware.go 11-35, usecase/raftimpl/raft_apply.go 19-41,
    raft_impl.go 128-137, 158-167, usecase/service/metadata_service.go 26-135, 231-233,
    bucket_service.go 20-62.

    Simplified: hashicorp/raft is the log of committed entries, which every server
    applies in order; that a server's [Apply] succeeds, fails, or fails although the
    entry is committed, is a parameter; the flag [isLeader] changes at any time (it
    follows the leader channel with a delay).  The check of the key's slot is in
    Owner_Model, times and unique ids are part of the call, lookups (which may clean
    the hash index) are left out, and so is a server with raft switched off. *)
From Verif Require Import Str_Model Meta_Model Meta_Spec Cache_Model.
From stdpp Require Import gmap.
Local Open Scope list_scope.

(** How a write arrives: a gRPC method or one of the HTTP routes with a writing verb
    (http/middleware.go 11-16). *)
Inductive iface := Rpc (m : str) | Http.

(** [checkWritableMethods] (grpc/middleware.go 31-40). *)
Definition writable_methods : list str :=
  [s2l "/proto.HashSlot/StartMigration"%string; s2l "/proto.HashSlot/PrepareMigration"%string;
   s2l "/proto.HashSlot/StreamingReceive"%string; s2l "/proto.MetadataApi/SaveVersion"%string;
   s2l "/proto.MetadataApi/SaveMetadata"%string; s2l "/proto.MetadataApi/UpdateMetadata"%string;
   s2l "/proto.MetadataApi/SaveBucket"%string; s2l "/proto.MetadataApi/RemoveVersion"%string].

(** The other path: items of a migration (grpc/middleware.go 65, 81). *)
Definition streaming_receive : str := s2l "/proto.HashSlot/StreamingReceive"%string.

(** The gRPC methods by which a call can arrive (src/common/proto/metadata.proto 35-39,
    grpc/metadata_server.go 101-167; hashslot_server.go 51-63, hashslot_service.go 193-222). *)
Definition rpc_methods (c : call) : list str :=
  match c with
  | AddMetadata _ _ => [s2l "/proto.MetadataApi/SaveMetadata"%string; streaming_receive]
  | AddVersion _ _ => [s2l "/proto.MetadataApi/SaveVersion"%string]
  | UpdateVersion _ _ _ => [s2l "/proto.MetadataApi/UpdateVersion"%string]
  | CreateBucket _ => [s2l "/proto.MetadataApi/SaveBucket"%string; streaming_receive]
  | RemoveVersion _ _ => [s2l "/proto.MetadataApi/RemoveVersion"%string]
  | MigrateVersion _ _ => [streaming_receive]
  | _ => []
  end.

(** The calls with an HTTP route (metadata_rest.go 22-28, version_rest.go 20-28,
    bucket_rest.go 20-28). *)
Definition has_route (c : call) : bool :=
  match c with MigrateVersion _ _ => false | _ => true end.

Definition arrives (f : iface) (c : call) : bool :=
  match f with
  | Rpc m => bool_decide (m ∈ rpc_methods c)
  | Http => has_route c
  end.

(** A write: a call of one of the logged services, or a change of locations, for which
    the service calls the repository at once (metadata_service.go 231-233; HTTP only,
    version_rest.go 26). *)
Inductive request := RCall (f : iface) (c : call) | RLocate (h : str) (i : nat) (l : str) (now : Z).

(** One server: its database, how many log entries it has applied, its flag
    [isLeader], whether no migration is going on ([HashSlot.IsNormal]). *)
Record replica := mk_replica { r_db : db; r_done : nat; r_lead : bool; r_normal : bool }.

(** The checks [CheckWritableUnary]/[CheckWritableStreaming] (grpc/middleware.go 60-90)
    and [CheckInNormal], [CheckLeaderInRaftMode] (http/middleware.go 18-35). *)
Definition admitted (r : replica) (q : request) : bool :=
  match q with
  | RCall (Rpc m) _ =>
      if bool_decide (m ∈ writable_methods)
      then if r_lead r then (if bool_decide (m = streaming_receive) then true else r_normal r) else false
      else true
  | RCall Http _ | RLocate _ _ _ _ => r_normal r && r_lead r
  end.

(** The group: the committed log, its servers, the requests past the checks and not yet
    served (server and request). *)
Record cluster := mk_cluster { cl_log : list call; cl_reps : list replica; cl_pend : list (nat * request) }.

Definition cluster_start (n : nat) : cluster := mk_cluster [] (replicate n (mk_replica db_empty 0 false true)) [].

(** What callers see: server [i] acknowledged request [q], or answered with an error. *)
Inductive aevent := Acked (i : nat) (q : request) | Errored (i : nat) (q : request).

(** How [rf.Apply] ends (raft_apply.go 25-28): the entry is committed and applied here;
    an error, the entry being committed or not. *)
Inductive apply_end := ACommitted | AFailed (committed : bool).

Inductive aact :=
| Arrive (i : nat) (q : request)
| Serve (k : nat) (o : apply_end)
| Deliver (i : nat)
| Lead (i : nat) (b : bool)
| Normal (i : nat) (b : bool).

(** Applying one entry ([ApplyBatch], fsm_impl.go 123-164). *)
Definition apply_next (log : list call) (r : replica) : replica :=
  match log !! r_done r with
  | Some c => mk_replica (fst (dispatch (command true c) (r_db r))) (S (r_done r)) (r_lead r) (r_normal r)
  | None => r
  end.

(** Applying all entries before number [n]. *)
Definition catch_up (log : list call) (n : nat) (r : replica) : replica :=
  Nat.iter (n - r_done r) (apply_next log) r.

(** The answer of an entry is a success (fsm_impl.go 224-226). *)
Definition answered_ok (x : fsm_res) : bool :=
  match x with RStatus st _ => (st =? 200)%Z | _ => false end.

(** [ApplyRaft] (raft_apply.go 19-41) and, when it does not take the request, the local
    repository (metadata_service.go 38, 56, 72, 89, 105, 117, 130-134, bucket_service.go
    34, 45, 61). *)
Definition serve (i : nat) (q : request) (o : apply_end) (cl : cluster) : cluster * list aevent :=
  match cl_reps cl !! i with
  | None => (cl, [])
  | Some r =>
      match q with
      | RCall _ c =>
          if r_lead r then
            match o with
            | ACommitted =>
                let log := cl_log cl ++ [c] in
                let r' := catch_up log (length (cl_log cl)) r in
                let (d, x) := dispatch (command true c) (r_db r') in
                (mk_cluster log (<[ i := mk_replica d (length log) (r_lead r) (r_normal r) ]> (cl_reps cl)) (cl_pend cl),
                 if answered_ok x then [Acked i q] else [Errored i q])
            | AFailed committed =>
                (mk_cluster (if committed then cl_log cl ++ [c] else cl_log cl) (cl_reps cl) (cl_pend cl), [Errored i q])
            end
          else
            let (d, e) := repo_call c (r_db r) in
            (mk_cluster (cl_log cl) (<[ i := mk_replica d (r_done r) (r_lead r) (r_normal r) ]> (cl_reps cl)) (cl_pend cl),
             match e with None => [Acked i q] | Some _ => [Errored i q] end)
      | RLocate h j l now =>
          let (d, e) := update_locate_by_hash h j l now (r_db r) in
          (mk_cluster (cl_log cl) (<[ i := mk_replica d (r_done r) (r_lead r) (r_normal r) ]> (cl_reps cl)) (cl_pend cl),
           match e with None => [Acked i q] | Some _ => [Errored i q] end)
      end
  end.

(** A request that can be made. *)
Definition possible (q : request) : bool :=
  match q with RCall f c => arrives f c | RLocate _ _ _ _ => true end.

Definition set_rep (i : nat) (f : replica -> replica) (cl : cluster) : cluster :=
  match cl_reps cl !! i with
  | Some r => mk_cluster (cl_log cl) (<[ i := f r ]> (cl_reps cl)) (cl_pend cl)
  | None => cl
  end.

(** One step. *)
Definition astep (cl : cluster) (a : aact) : cluster * list aevent :=
  match a with
  | Arrive i q =>
      match cl_reps cl !! i with
      | Some r => if possible q && admitted r q
                  then (mk_cluster (cl_log cl) (cl_reps cl) (cl_pend cl ++ [(i, q)]), [])
                  else (cl, [])
      | None => (cl, [])
      end
  | Serve k o =>
      match cl_pend cl !! k with
      | Some (i, q) =>
          serve i q o (mk_cluster (cl_log cl) (cl_reps cl) (delete k (cl_pend cl)))
      | None => (cl, [])
      end
  | Deliver i => (set_rep i (apply_next (cl_log cl)) cl, [])
  | Lead i b => (set_rep i (fun r => mk_replica (r_db r) (r_done r) b (r_normal r)) cl, [])
  | Normal i b => (set_rep i (fun r => mk_replica (r_db r) (r_done r) (r_lead r) b) cl, [])
  end.

Definition arun (s : cluster * list aevent) (acts : list aact) : cluster * list aevent :=
  fold_left (fun s a => let (cl, es) := astep (fst s) a in (cl, snd s ++ es)) acts s.
