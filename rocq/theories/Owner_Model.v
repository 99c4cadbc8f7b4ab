(** Model of slot ownership on the metadata servers: slot tables in etcd, the
    migration of slots between two groups, and the slot check of requests
    (src/metaserver/internal/usecase/service/hashslot_service.go,
    usecase/db/hashslot_db.go, usecase/logic/hashslot_logic.go,
    controller/grpc/{hashslot_server,middleware}.go, controller/http/middleware.go).

    Simplified: the moved objects are in Move_Model; the steps of the two servers
    are sequential as the protocol makes them, with everything that can go wrong
    in between given as a record of faults. *)
From Verif Require Export HashSlot_Model.
Local Notation length := List.length.
Local Open Scope list_scope.

(** ** Slot tables in etcd *)

(** Group id -> server id of its leader and slot texts ([hashslot.SlotInfo]). *)
Definition etcd := list (str * (str * list str)).

(** hashslot_db.go:158-172 [Get]. *)
Fixpoint kv_get (kv : etcd) (g : str) : option (str * list str) :=
  match kv with
  | [] => None
  | (k, v) :: r => if str_eq_dec k g then Some v else kv_get r g
  end.

(** hashslot_db.go:174-187 [Save] while the status is normal. *)
Fixpoint kv_put (kv : etcd) (g : str) (v : str * list str) : etcd :=
  match kv with
  | [] => [(g, v)]
  | (k, w) :: r => if str_eq_dec k g then (k, v) :: r else (k, w) :: kv_put r g v
  end.

(** hashslot_db.go:91-115 [reloadProvider]: server id -> slots, a later record
    of the same server id replaces an earlier one. *)
Fixpoint map_set (m : list (str * list str)) (k : str) (v : list str) : list (str * list str) :=
  match m with
  | [] => [(k, v)]
  | (k', w) :: r => if str_eq_dec k' k then (k', v) :: r else (k', w) :: map_set r k v
  end.
Definition slots_map (kv : etcd) : list (str * list str) :=
  fold_left (fun m gi => map_set m (fst (snd gi)) (snd (snd gi))) kv [].
Definition provider (sort : sorter) (kv : etcd) : option (list edge) := wrap_slots sort (slots_map kv).

(** ** Migration of slots *)

(** hashslot_service.go:84-98: the sender holds every slot range named. *)
Definition prepare_to (sort : sorter) (prov : list edge) (sid : str) (slots : list str) : bool :=
  match wrap_slots_to_edges sort slots sid with
  | Some (edges, true) => forallb (fun e => is_valid_edge e prov) edges
  | _ => false
  end.

(** hashslot_service.go:125-139: the receiver holds none of them. *)
Definition prepare_from (sort : sorter) (prov : list edge) (sid : str) (slots : list str) : bool :=
  match wrap_slots_to_edges sort slots sid with
  | Some (edges, true) => forallb (fun e => negb (is_valid_edge e prov)) edges
  | _ => false
  end.

(** [WrapSlotsToEdges] with the error ignored (hashslot_service.go:182-183, 243, 259). *)
Definition edges_of (sort : sorter) (slots : list str) : list edge :=
  match wrap_slots_to_edges sort slots [] with
  | Some (edges, _) => edges
  | None => []
  end.

(** hashslot_service.go:182-184. *)
Definition slots_added (sort : sorter) (cur new : list str) : list str :=
  edge_strings (combine_edges sort (edges_of sort cur) (edges_of sort new)).

(** hashslot_service.go:259-260. *)
Definition slots_removed (sort : sorter) (cur del : list str) : list str :=
  edge_strings (remove_edges (edges_of sort cur) (edges_of sort del)).

(** What can go wrong: the prepare call fails; the sender is no longer in normal
    status; an item is not sent or not acknowledged; the receiver's timer of
    lines 149-157 fires before the first item; the sender cannot write its table;
    the sender stops after writing it; the receiver sees the cancellation of
    line 238 instead of the end of the stream; the receiver cannot write its
    table (etcd, or a new migration has begun, hashslot_db.go:175-177). *)
Record faults := mk_faults {
  f_rpc : bool; f_not_normal : bool; f_item : bool; f_timer : bool; f_sender_save : bool;
  f_crash : bool; f_cancel : bool; f_receiver_save : bool }.
Definition no_faults := mk_faults false false false false false false false false.

Inductive outcome := Migrated | Failed.

(** hashslot_server.go:29-37 [StartMigration] = hashslot_service.go:83-121
    [PrepareMigrationTo] and 226-271 [AutoMigrate] at the sender (group [gs],
    server [sids]), 124-159 [PrepareMigrationFrom] and hashslot_server.go:39-69
    with 161-191 [FinishReceiveItem] at the receiver; [ps], [pr] are the tables
    the two servers have cached (hashslot_db.go:81-89).  The answer is the sender's. *)
Definition migrate (sort : sorter) (kv : etcd) (gs sids gr sidr : str) (ps pr : list edge)
  (slots : list str) (f : faults) : etcd * outcome :=
  if negb (prepare_to sort ps sids slots) then (kv, Failed)
  else if f_rpc f || negb (prepare_from sort pr sidr slots) then (kv, Failed)
  else if f_not_normal f then (kv, Failed)
  else if f_item f then (kv, Failed)
  else match kv_get kv gs with
       | None => (kv, Failed)
       | Some (_, cur) =>
           if f_sender_save f then (kv, Failed)
           else
             let kv1 := kv_put kv gs (sids, slots_removed sort cur slots) in
             let ans := if f_crash f then Failed else Migrated in
             if f_crash f || f_cancel f || f_timer f || f_receiver_save f then (kv1, ans)
             else match kv_get kv1 gr with
                  | None => (kv1, ans)
                  | Some (_, cur') => (kv_put kv1 gr (sidr, slots_added sort cur' slots), ans)
                  end
       end.

(** ** The slot check of requests *)

(** hashslot_logic.go:14-21 with hashslot_db.go:201-212 [GetKeyIdentify];
    [leader] is empty without raft (raft_impl.go:169-175). *)
Definition is_key_on_this_server (crc : str -> N) (prov : list edge) (sid leader key : str) : bool * str :=
  match get_string_identify crc key prov with
  | None => (false, [])
  | Some id => ((if str_eq_dec id sid then true else false) || (if str_eq_dec id leader then true else false), id)
  end.

Inductive decision := Serve | Redirect (address : str) | BadRequest.

(** Requests by type: [*pb.MetaReq], [*pb.Metadata], others (middleware.go:101-135). *)
Inductive rpc_request := RNil | RMetaReq (id : str) | RMetadata (id : str) | ROther.

(** grpc/middleware.go:101-120 [CheckKeySlot], 122-135 [checkKeySlotMetadata];
    [peer] = discover_logic.go:17-20 [PeerIp]. *)
Definition check_rpc (crc : str -> N) (prov : list edge) (sid leader : str) (peer : str -> str) (r : rpc_request) : decision :=
  match r with
  | RNil => BadRequest
  | ROther => Serve
  | RMetaReq id | RMetadata id =>
      match id with
      | [] => Serve
      | _ => let '(ok, other) := is_key_on_this_server crc prov sid leader id in
             if ok then Serve else Redirect (peer other)
      end
  end.

(** http/middleware.go:37-53 [CheckKeySlot]: only writing methods are checked. *)
Definition check_http (crc : str -> N) (prov : list edge) (sid leader : str) (peer : str -> str) (writing : bool) (name : str) : decision :=
  if writing then
    match name with
    | [] => Serve
    | _ => let '(ok, other) := is_key_on_this_server crc prov sid leader name in
           if ok then Serve else Redirect (peer other)
    end
  else Serve.
