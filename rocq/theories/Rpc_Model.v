(** Model of the calls the API server makes to the metadata servers, the gRPC handlers
    that answer them, the way errors travel between the two, and the helpers that write
    HTTP answers.

    Source: src/apiserver/internal/usecase/grpcapi/meta_server.go 44-103, 120-242,
    entity/metadata.go 49-74, src/metaserver/internal/controller/grpc/metadata_server.go
    44-167, 180-188, usecase/service/metadata_service.go 26-60, 92-106, 120-135, 162-176,
    service/bucket_service.go 20-35, usecase/raftimpl/raft_apply.go 19-41, fsm_impl.go
    202-233, usecase/errors.go 8-15, src/common/response/response.go 15-170,
    gin_executor.go 9-44, errors.go 5-46, resp_util.go 28-34, src/common/proto/generate.go
    21-36, src/common/proto/msg/metadata.go 16-62.

    Simplified: the server asked leads its group and owns the key (the checks in front of
    the handlers are in Admit_Model and Owner_Model); connections and the encoding of
    messages do not fail (C11, C45 are about decoding); messages of errors are left out,
    only their kinds are kept; the clock and the new unique id are parameters.
    [GetMetadata] and [GetPeers] are left out. *)
From Verif Require Import Str_Model Meta_Model Meta_Spec.
From stdpp Require Import gmap.
Local Open Scope list_scope.
Local Notation length := List.length.

(** ** Go's conversions between integers *)

(** Conversion to a signed type of [bits] bits. *)
Definition signed (bits : Z) (z : Z) : Z := ((z + 2 ^ (bits - 1)) mod 2 ^ bits - 2 ^ (bits - 1))%Z.

(** Conversion of a signed number to uint64. *)
Definition unsigned64 (z : Z) : N := Z.to_N (z mod 2 ^ 64)%Z.

(** ** What the API server works with *)

(** src/apiserver/internal/entity/metadata.go 49-60 (DataShards, ParityShards, ShardSize
    are int, Sequence int32, StoreStrategy int8). *)
Record eversion := mk_eversion {
  ev_compress : bool; ev_hash : str; ev_strategy : Z; ev_seq : Z; ev_size : Z; ev_ts : Z;
  ev_ds : Z; ev_ps : Z; ev_shard : Z; ev_locate : list str }.

(** src/apiserver/internal/entity/metadata.go 62-74 (all numbers but the times are int). *)
Record ebucket := mk_ebucket {
  eb_versioning : bool; eb_readonly : bool; eb_compress : bool; eb_strategy : Z;
  eb_ds : Z; eb_ps : Z; eb_remains : Z; eb_ctime : Z; eb_utime : Z;
  eb_name : str; eb_policies : list str }.

(** ** Errors *)

(** The kinds of error a handler meets: a [*response.Err] with its status, failed
    validation of a message, a gRPC status, any other Go error. *)
Inductive code := COk | CInvalid | CNotFound | CAborted | CUnauthenticated | CDenied | CUnavailable | CInternal | CUnknown.
Inductive gerr := GResp (status : Z) | GValid | GCode (c : code) | GOther.

(** [IsOk], [IsInternal] (src/common/response/resp_util.go 28-34). *)
Definition is_ok (st : Z) : bool := (st / 100 =? 2)%Z.
Definition is_internal (st : Z) : bool := (st / 100 =? 5)%Z.

(** [httpGrpcStatus] (response.go 140-146); any other is Unknown (159-163). *)
Definition http_code (st : Z) : code :=
  if (st =? 200)%Z then COk else if (st =? 400)%Z then CInvalid else if (st =? 401)%Z then CUnauthenticated
  else if (st =? 403)%Z then CDenied else if (st =? 404)%Z then CNotFound else CUnknown.

(** [GRPCError] (response.go 148-170); [None] is nil. *)
Definition grpc_error (e : gerr) : option gerr :=
  match e with
  | GValid => Some (GCode CInvalid)
  | GResp st =>
      if is_ok st then None else if is_internal st then Some (GCode CInternal) else Some (GCode (http_code st))
  | GCode _ | GOther => Some (GCode CInternal)
  end.

(** What the client's gRPC library gives for the error a handler returned
    ([status.FromError] in google.golang.org/grpc: any error that is no status is
    Unknown). *)
Definition on_wire (e : option gerr) : code :=
  match e with None => COk | Some (GCode c) => c | Some _ => CUnknown end.

(** [ResolveErr] (generate.go 21-36): the status of the error, [None] is nil. *)
Definition resolve (c : code) : option Z :=
  match c with
  | COk => None
  | CNotFound => Some 404%Z
  | CInvalid | CAborted => Some 400%Z
  | _ => Some 500%Z
  end.

(** ** Messages *)

(** The version as [SaveVersion] (meta_server.go 150-159) and [UpdateVersion] (126-136)
    encode it; [seq] is the field Sequence. *)
Definition wire_version (seq : N) (b : eversion) : version :=
  mk_version (ev_compress b) (signed 8 (ev_strategy b)) (signed 32 (ev_ds b)) (signed 32 (ev_ps b))
             (ev_shard b) (ev_size b) 0 seq (ev_hash b) [] (ev_locate b).

(** [GetVersion], the answer (meta_server.go 60-71). *)
Definition read_version_msg (v : version) : eversion :=
  mk_eversion (v_compress v) (v_hash v) (v_strategy v) (signed 32 (Z.of_N (v_seq v))) (v_size v) (v_ts v)
              (v_ds v) (v_ps v) (v_shard v) (v_locate v).

(** [SaveBucket], the message (meta_server.go 194-204). *)
Definition wire_bucket (b : ebucket) : bucket :=
  mk_bucket (eb_versioning b) (eb_readonly b) (eb_compress b) (signed 8 (eb_strategy b)) (signed 32 (eb_ds b))
            (signed 32 (eb_ps b)) (signed 32 (eb_remains b)) 0 0 (eb_name b) (eb_policies b).

(** [GetBucket], the answer (meta_server.go 90-102). *)
Definition read_bucket_msg (b : bucket) : ebucket :=
  mk_ebucket (b_versioning b) (b_readonly b) (b_compress b) (b_strategy b) (b_ds b) (b_ps b) (b_remains b)
             (b_ctime b) (b_utime b) (b_name b) (b_policies b).

(** The tags [binding:"required"] and [binding:"min=1"] of a version
    (msg/metadata.go 28-40). *)
Definition valid_version (v : version) : bool :=
  negb (v_strategy v =? 0)%Z && negb (v_ds v =? 0)%Z && negb (v_shard v =? 0)%Z && negb (v_size v =? 0)%Z
  && bool_decide (v_hash v <> []) && bool_decide (v_locate v <> []).

(** The tags of metadata (msg/metadata.go 18-19). *)
Definition valid_metadata (m : metadata) : bool := bool_decide (m_name m <> []) && bool_decide (m_bucket m <> []).

(** [ShouldBindMsgpack] (metadata_server.go 180-188) after decoding: the error of the
    validator, already turned into a status. *)
Definition should_bind (valid : bool) : option gerr := if valid then None else grpc_error GValid.

(** ** Services *)

(** [ApplyRaft] on the leader (raft_apply.go 19-41, fsm_impl.go 224-233): the answer of
    the state machine as an error; [GOther] for an answer that is an error or nil. *)
Definition raft_err (x : fsm_res) : option gerr :=
  match x with
  | RStatus st _ => if is_ok st then None else Some (GResp st)
  | RErr | RPanic => Some GOther
  end.

(** [MetadataService.AddVersion], [data.UniqueId], [data.Ts] (metadata_service.go 42-43). *)
Definition stamp_version (now : Z) (uid : str) (v : version) : version :=
  mk_version (v_compress v) (v_strategy v) (v_ds v) (v_ps v) (v_shard v) (v_size v) now (v_seq v) (v_hash v) uid (v_locate v).

(** [MetadataService.UpdateVersion], [data.Ts], [data.Sequence] (metadata_service.go 93-94). *)
Definition stamp_update (now : Z) (ver : Z) (v : version) : version :=
  mk_version (v_compress v) (v_strategy v) (v_ds v) (v_ps v) (v_shard v) (v_size v) now (unsigned64 ver) (v_hash v) (v_uid v) (v_locate v).

(** [MetadataService.AddMetadata] (metadata_service.go 27-28). *)
Definition stamp_metadata (now : Z) (m : metadata) : metadata := mk_metadata (m_name m) (m_bucket m) now now.

(** [BucketService.Create] (bucket_service.go 24-25), [md.Name = req.Id]
    (metadata_server.go 123). *)
Definition stamp_bucket (now : Z) (name : str) (b : bucket) : bucket :=
  mk_bucket (b_versioning b) (b_readonly b) (b_compress b) (b_strategy b) (b_ds b) (b_ps b) (b_remains b)
            now now name (b_policies b).

(** ** Handlers *)

(** A request that fits [pb.MetaReq] or [pb.Metadata]: its id and version (0 when not
    set; src/common/proto/metadata.proto). *)
Record preq := mk_preq { pq_id : str; pq_ver : Z }.

(** [SaveVersion] (metadata_server.go 130-143, metadata_service.go 41-60). *)
Definition h_save_version (now : Z) (uid : str) (q : preq) (v : version) (d : db) : db * (option gerr * Z) :=
  if bool_decide (pq_id q = []) then (d, (Some (GCode CInvalid), 0%Z)) else
  match should_bind (valid_version v) with
  | Some e => (d, (grpc_error e, 0%Z))
  | None =>
      let (d', x) := dispatch (command true (AddVersion (pq_id q) (stamp_version now uid v))) d in
      match raft_err x, x with
      | Some e, _ => (d', (grpc_error e, 0%Z))
      | None, RStatus _ (Some n) => (d', (None, signed 32 (Z.of_N n)))
      (* [resp.(uint64)] of nil would panic; no run gets here, a version added is always
         answered with its number (C63_version_partial) *)
      | None, _ => (d', (Some (GCode CInternal), 0%Z))
      end
  end.

(** [UpdateVersion] (metadata_server.go 145-157, metadata_service.go 92-103). *)
Definition h_update_version (now : Z) (q : preq) (v : version) (d : db) : db * option gerr :=
  if bool_decide (pq_id q = []) || (pq_ver q <=? 0)%Z then (d, Some (GCode CInvalid)) else
  match should_bind (valid_version v) with
  | Some e => (d, grpc_error e)
  | None =>
      let v' := stamp_update now (pq_ver q) v in
      let (d', x) := dispatch (command true (UpdateVersion (pq_id q) (v_seq v') v')) d in
      (d', match raft_err x with Some e => grpc_error e | None => None end)
  end.

(** [RemoveVersion] (metadata_server.go 159-167, metadata_service.go 120-128). *)
Definition h_remove_version (q : preq) (d : db) : db * option gerr :=
  if bool_decide (pq_id q = []) || (pq_ver q <=? 0)%Z then (d, Some (GCode CInvalid)) else
  let c := if (pq_ver q <? 0)%Z then RemoveVersions (pq_id q) else RemoveVersion (pq_id q) (unsigned64 (pq_ver q)) in
  let (d', x) := dispatch (command true c) d in
  (d', match raft_err x with Some e => grpc_error e | None => None end).

(** [SaveMetadata] (metadata_server.go 101-113, metadata_service.go 26-36). *)
Definition h_save_metadata (now : Z) (q : preq) (m : metadata) (d : db) : db * option gerr :=
  if bool_decide (pq_id q = []) then (d, Some (GCode CInvalid)) else
  match should_bind (valid_metadata m) with
  | Some e => (d, grpc_error e)
  | None =>
      let (d', x) := dispatch (command true (AddMetadata (pq_id q) (stamp_metadata now m))) d in
      (d', match raft_err x with Some e => grpc_error e | None => None end)
  end.

(** [SaveBucket] (metadata_server.go 115-128, bucket_service.go 20-33); a bucket has no
    required fields (msg/metadata.go 46-58). *)
Definition h_save_bucket (now : Z) (q : preq) (b : bucket) (d : db) : db * option gerr :=
  if bool_decide (pq_id q = []) then (d, Some (GCode CInvalid)) else
  let (d', x) := dispatch (command true (CreateBucket (stamp_bucket now (pq_id q) b))) d in
  (d', match raft_err x with Some e => grpc_error e | None => None end).

(** [GetVersion] (metadata_server.go 86-99, metadata_service.go 162-167). *)
Definition h_get_version (q : preq) (d : db) : version + gerr :=
  if bool_decide (pq_id q = []) then inr (GCode CInvalid) else
  match service_get_version (pq_id q) (pq_ver q) d with
  | Some v => inl v
  | None => match grpc_error (GResp 404) with Some e => inr e | None => inr GOther end
  end.

(** [GetBucket] (metadata_server.go 62-71, bucket_logic.go 49-61). *)
Definition h_get_bucket (q : preq) (d : db) : bucket + gerr :=
  if bool_decide (pq_id q = []) then inr (GCode CInvalid) else
  match d_bkt d !! pq_id q with
  | Some b => inl b
  | None => match grpc_error (GResp 404) with Some e => inr e | None => inr GOther end
  end.

(** [ListVersion] (metadata_server.go 44-60): the error of the service is returned as it
    is (53). *)
Definition h_list_version (id : str) (page size_ : Z) (d : db) : (list version * nat) + gerr :=
  if bool_decide (id = []) then inr (GCode CInvalid) else
  if (page <=? 0)%Z || (size_ <=? 0)%Z then inr (GCode CInvalid) else
  match service_list_versions id (Z.to_N page) (Z.to_nat size_) d with
  | Some r => inl r
  | None => inr (GResp 404)
  end.

(** ** Calls *)

(** [SaveVersion] (meta_server.go 144-169): the new number or the status of the error. *)
Definition c_save_version (now : Z) (uid id : str) (body : eversion) (d : db) : db * (Z + Z) :=
  let '(d', (e, n)) := h_save_version now uid (mk_preq id (ev_seq body)) (wire_version 0 body) d in
  (d', match resolve (on_wire e) with Some st => inr st | None => inl n end).

(** [UpdateVersion] (meta_server.go 120-142): the request has no Version. *)
Definition c_update_version (now : Z) (id : str) (body : eversion) (d : db) : db * option Z :=
  let (d', e) := h_update_version now (mk_preq id 0) (wire_version (unsigned64 (ev_seq body)) body) d in
  (d', resolve (on_wire e)).

(** [RemoveVersion] (meta_server.go 234-242): the error is not resolved, so all that is
    left of it is its code. *)
Definition c_remove_version (id : str) (ver : Z) (d : db) : db * code :=
  let (d', e) := h_remove_version (mk_preq id ver) d in (d', on_wire e).

(** [SaveMetadata] (meta_server.go 171-186); [m] has a name and a bucket only. *)
Definition c_save_metadata (now : Z) (id name bucket : str) (d : db) : db * option Z :=
  let (d', e) := h_save_metadata now (mk_preq id 0) (mk_metadata name bucket 0 0) d in (d', resolve (on_wire e)).

(** [SaveBucket] (meta_server.go 188-210). *)
Definition c_save_bucket (now : Z) (body : ebucket) (d : db) : db * option Z :=
  let (d', e) := h_save_bucket now (mk_preq (eb_name body) 0) (wire_bucket body) d in (d', resolve (on_wire e)).

(** [GetVersion] (meta_server.go 44-72), [ver] an int32. *)
Definition c_get_version (id : str) (ver : Z) (d : db) : eversion + Z :=
  match h_get_version (mk_preq id ver) d with
  | inl v => inl (read_version_msg v)
  | inr e => inr (default 0%Z (resolve (on_wire (Some e))))
  end.

(** [GetBucket] (meta_server.go 74-103). *)
Definition c_get_bucket (name : str) (d : db) : ebucket + Z :=
  match h_get_bucket (mk_preq name 0) d with
  | inl b => inl (read_bucket_msg b)
  | inr e => inr (default 0%Z (resolve (on_wire (Some e))))
  end.

(** [ListVersion] (meta_server.go 212-232), page and size converted to int32. *)
Definition c_list_version (id : str) (page size_ : Z) (d : db) : (list version * nat) + Z :=
  match h_list_version id (signed 32 page) (signed 32 size_) d with
  | inl r => inl r
  | inr e => inr (default 0%Z (resolve (on_wire (Some e))))
  end.

(** [ver.Locate = locates] and the update (object_service.go 234-238): what a read that
    repaired an object's pieces does to the metadata. *)
Definition with_locate (l : list str) (b : eversion) : eversion :=
  mk_eversion (ev_compress b) (ev_hash b) (ev_strategy b) (ev_seq b) (ev_size b) (ev_ts b) (ev_ds b) (ev_ps b) (ev_shard b) l.
Definition record_repair (now : Z) (id : str) (body : eversion) (l : list str) (d : db) : db * option Z :=
  c_update_version now id (with_locate l body) d.

(** ** HTTP answers *)

(** What a helper does to the answer: set the status ([c.Status]) or write a body with
    a status ([c.JSON], which sets the status and writes; [Render] of the gin library). *)
Inductive wr := WStatus (st : Z) | WBody (st : Z).

(** The answer: its status, and whether the header is on its way (gin
    library: the first write sends the header). *)
Definition wr_step (a : Z * bool) (w : wr) : Z * bool :=
  match w with
  | WStatus st => if snd a then a else (st, false)
  | WBody st => if snd a then a else (st, true)
  end.

(** The status the client sees; gin starts with 200. *)
Definition answered (ws : list wr) : Z := fst (fold_left wr_step ws (200%Z, false)).

(** response.go 21-107. *)
Definition r_ok : list wr := [WStatus 200].
Definition r_ok_json : list wr := [WBody 200].
Definition r_created : list wr := [WStatus 201].
Definition r_created_json : list wr := [WBody 201].
Definition r_no_content : list wr := [WStatus 204].
Definition r_not_found : list wr := [WStatus 404].
Definition r_not_found_msg : list wr := [WBody 404].
Definition r_bad_request : list wr := [WBody 400].
(** [ge.Status(503).JSON(..)] (response.go 97-103); [GinExecutor.JSON] writes with 200
    (gin_executor.go 34-37). *)
Definition r_service_unavailable : list wr := [WStatus 503; WBody 200].

(** [FailErr] (response.go 109-137). *)
Definition fail_err (e : gerr) : list wr :=
  match e with
  | GValid => r_bad_request
  | GResp st => if is_ok st then [WStatus st] else [WBody st]
  | GCode _ | GOther => [WBody 500]
  end.

(** The metadata server refuses a request and the API server passes the error it
    resolved on ([FailErr] in objects_api.go 47, 67, 73, 80, bucket_api.go 28-67). *)
Definition http_of (e : gerr) : Z :=
  match grpc_error e with
  | None => 200
  | Some g => match resolve (on_wire (Some g)) with Some st => answered (fail_err (GResp st)) | None => 200 end
  end.
