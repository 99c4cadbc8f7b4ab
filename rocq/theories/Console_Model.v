(** Model of who may do what through the admin server: its sessions and credentials
    (src/adminserver/internal/controller/http/auth.go), its routes and handlers
    (controller/http_server.go 21-57, controller/http/metadata.go, object.go,
    server_state.go), the requests it makes on behalf of its clients
    (usecase/webapi/api_server.go, usecase/logic/api_server_logic.go, object_logic.go,
    metadata_logic.go 127-244, config_logic.go) and the statuses it answers with.

    Simplified: of a request to the API server only the operation and the credential are
    kept (names are in [Url_Model], contents in [Break_Model]); reads from the metadata
    servers, etcd and the monitor (listings: [Admin_Model], measurements: [Mon_Model])
    are one call with an outcome; the files of the console itself (http_server.go 25) and
    the cross-origin headers (28-34) are left out. *)
From Coq Require Import ZArith.
From Verif Require Import Str_Model Meta_Model Rpc_Model.
Local Open Scope list_scope.

(** ** Requests made by the admin server *)

(** webapi/api_server.go 15-158. *)
Inductive apiop := ACheck | AVersions | APut | AGet | ACreate | AUpdate | ADelete | AConfig.

(** gRPC calls that change the clusters (metadata_logic.go 127-156, 185-218;
    object_logic.go 43-83). *)
Inductive command :=
| Migrate (slots : list str) (dest : str) | LeaveGroup | JoinGroup (master : str) | JoinCluster | LeaveCluster.

Inductive call :=
| CApi (addr : str) (op : apiop) (token : str)
| CCmd (addr : str) (cmd : command)
| CConfig (addr : str)      (* config_logic.go 17-18 *)
| CPeers (addr : str)       (* metadata_logic.go 230 *)
| CRead.                    (* a listing, etcd or the monitor *)

(** The statuses taken for success (api_server.go 28, 51, 68, 85, 102, 119, 136, 153). *)
Definition expected (op : apiop) : Z :=
  match op with APut | ACreate => 201 | ADelete => 204 | _ => 200 end.

(** ** The requests of clients *)

(** http_server.go 36-41, auth.go 45-62, metadata.go 21-35, object.go 20-27,
    server_state.go 21-28. *)
Inductive route :=
| RLogin | RLogout
| RPage | RVersions | RMigration | RSlots | RPeers | RBuckets | RCreate | RUpdate | RDelete
| RLeaveGroup | RJoinGroup | RMetaConfig
| RDownload | RUpload | RJoin | RLeave | RDataConfig
| RStat | ROverview | REtcd | RTimeline | RConfig.

(** [Use(RequireToken)] in metadata.go 22 and object.go 21, not in server_state.go 22 nor
    in auth.go 46, 53. *)
Definition guarded (r : route) : bool :=
  match r with RLogin | RLogout | RStat | ROverview | REtcd | RTimeline | RConfig => false | _ => true end.

(** Reading the parameters: done, failed validation, or not even readable
    ([ShouldBindJSON], [ShouldBindQuery], [ShouldBind] of gin). *)
Inductive bound := BOk | BInvalid | BBroken.

Record req := mk_req {
  q_route : route;
  q_header : str;           (* Authorization, empty if there is none *)
  q_cookie : option str;    (* the token in a session cookie with a valid signature *)
  q_bound : bound;
  q_sid : str;              (* serverId, srcServerId *)
  q_other : str;            (* masterId, destServerId *)
  q_slots : list str }.

(** What the answer to a gRPC command says. *)
Inductive told := TError | TSays (success : bool).

(** The surroundings: the registry, the random choice and the answers. *)
Record env := mk_env {
  e_apis : list str;                (* GetServices of the API servers *)
  e_pick : nat;                     (* rand.Intn *)
  e_meta : str -> option str;       (* GetServiceMapping of the metadata servers *)
  e_data : str -> option str;       (* of the data servers *)
  e_api : str -> option str;        (* of the API servers *)
  e_split : str -> bool;            (* net.SplitHostPort succeeds *)
  e_http : apiop -> str -> option Z;(* status of the API server for a credential, None: no answer *)
  e_told : command -> told;
  e_config : bool;                  (* GetConfig succeeds *)
  e_peers : option gerr;            (* error of GetPeers, through ResolveErr *)
  e_read : option gerr }.           (* error of a listing *)

(** ** Credentials *)

(** [SaveToken] (auth.go 16-28): the token of the session becomes the header. *)
Definition save_token (q : req) : option str :=
  match q_cookie q with
  | Some t => if str_eqb t (q_header q) then Some t else Some (q_header q)
  | None => Some (q_header q)
  end.

(** [GetAuthToken] (auth.go 30-36). *)
Definition auth_token (session : option str) (header : str) : str :=
  match session with Some t => t | None => header end.

(** The cookie the client has afterwards (auth.go 20-27, [sess.Save]): a session that does
    not fit into a cookie is not saved ([fits], securecookie).  [Clear] in auth.go 47 is
    not followed by [Save]. *)
Definition cookie_after (fits : str -> bool) (q : req) : option str :=
  match q_cookie q with
  | Some t => if str_eqb t (q_header q) then Some t else if fits (q_header q) then Some (q_header q) else Some t
  | None => if fits (q_header q) then Some (q_header q) else None
  end.

(** ** Handlers *)

(** What a handler did: its calls and its answer; [None]: it panicked, and gin's recovery
    (http_server.go 22) answers 500. *)
Definition done : Type := list call * option (list wr).
Definition status (d : done) : Z := match snd d with Some ws => answered ws | None => 500 end.

(** [SelectApiServer] (api_server_logic.go 10-15): [rand.Intn(0)] panics. *)
Definition select_api (e : env) : option str :=
  match e_apis e with [] => None | l => nth_error l (e_pick e mod List.length l) end.

(** A request to the API server [addr] and the error it gives (api_server.go 15-158;
    errors of the transport are not of type [IErr]). *)
Definition ask_api (e : env) (addr : str) (op : apiop) (token : str) (ok : list wr) : done :=
  ([CApi addr op token],
   Some match e_http e op token with
        | None => fail_err GOther
        | Some st => if (st =? expected op)%Z then ok else fail_err (GResp st)
        end).

(** The same to a server chosen at random. *)
Definition via_api (e : env) (op : apiop) (token : str) (ok : list wr) : done :=
  match select_api e with None => ([], None) | Some addr => ask_api e addr op token ok end.

(** A gRPC command: its error is no [IErr]; a refusal becomes 400
    (metadata_logic.go 149-154, 210-216; object_logic.go 54-60, 75-81). *)
Definition command_to (e : env) (addr : str) (c : command) : done :=
  ([CCmd addr c],
   Some match e_told e c with
        | TError => fail_err GOther
        | TSays true => r_ok
        | TSays false => fail_err (GResp 400)
        end).

(** [StartMigration] (metadata_logic.go 127-156): the map gives "" for unknown ids. *)
Definition start_migration (e : env) (q : req) : done :=
  match e_meta e (q_sid q), e_meta e (q_other q) with
  | Some ((_ :: _) as src), Some ((_ :: _) as dest) =>
      if e_split e dest then command_to e src (Migrate (q_slots q) dest) else ([], Some (fail_err GOther))
  | _, _ => ([], Some (fail_err (GResp 400)))
  end.

(** [LeaveRaftCluster] (metadata_logic.go 185-197): of the answer only the error is looked
    at. *)
Definition leave_group (e : env) (q : req) : done :=
  match e_meta e (q_sid q) with
  | None => ([], Some (fail_err (GResp 400)))
  | Some addr =>
      ([CCmd addr LeaveGroup], Some match e_told e LeaveGroup with TError => fail_err GOther | TSays _ => r_ok end)
  end.

(** [JoinRaftCluster] (metadata_logic.go 199-218). *)
Definition join_group (e : env) (q : req) : done :=
  match e_meta e (q_sid q) with
  | None => ([], Some (fail_err (GResp 400)))
  | Some addr => command_to e addr (JoinGroup (q_other q))
  end.

(** [JoinCluster] and [LeaveCluster] (object_logic.go 43-83). *)
Definition data_command (e : env) (q : req) (c : command) : done :=
  match e_data e (q_sid q) with
  | None => ([], Some (fail_err (GResp 400)))
  | Some addr => command_to e addr c
  end.

(** [ConfigLogic.GetConfig] (config_logic.go 12-23) and writing the text (metadata.go
    167-176). *)
Definition config_of (e : env) (addr : str) : done :=
  ([CConfig addr], Some (if e_config e then [WBody 200; WStatus 200] else fail_err (GResp 400))).

(** metadata.go 160-177, object.go 83-100. *)
Definition get_config (e : env) (q : req) (mapping : str -> option str) : done :=
  match mapping (q_sid q) with None => ([], Some r_bad_request) | Some addr => config_of e addr end.

(** [ServerConfig] (server_state.go 119-153); a missing serverId is [BInvalid]. *)
Definition server_config (e : env) (q : req) (token : str) : done :=
  match e_meta e (q_sid q), e_data e (q_sid q), e_api e (q_sid q) with
  | Some addr, _, _ | None, Some addr, _ => config_of e addr
  | None, None, Some addr => ask_api e addr AConfig token [WBody 200; WStatus 200]
  | None, None, None => ([], Some r_bad_request)
  end.

(** A listing or a measurement (metadata.go 43-50, 88-95, 150-157; server_state.go
    30-117). *)
Definition reading (e : env) : done :=
  ([CRead], Some match e_read e with None => r_ok_json | Some err => fail_err err end).

(** [GetPeers] (metadata_logic.go 220-244, metadata.go 136-141). *)
Definition get_peers (e : env) (q : req) : done :=
  match e_meta e (q_sid q) with
  | None => ([], Some (fail_err (GResp 400)))
  | Some addr => ([CPeers addr], Some match e_peers e with None => r_ok_json | Some err => fail_err err end)
  end.

(** Parameters are read first (metadata.go 39-42, 55-58, 77-80, 102-105, 117-120, 132-135,
    146-149, 181-184, 195-198; object.go 34-37, 51-54). *)
Definition reads_params (r : route) : bool :=
  match r with
  | RPage | RVersions | RMigration | RPeers | RBuckets | RCreate | RUpdate | RLeaveGroup | RJoinGroup
  | RDownload | RUpload | RConfig => true
  | _ => false
  end.

Definition handler (e : env) (q : req) (token : str) : done :=
  match q_route q with
  | RLogin => via_api e ACheck token r_ok                      (* auth.go 52-62 *)
  | RLogout => ([], Some r_ok)                                 (* auth.go 45-50 *)
  | RPage | RSlots | RBuckets | RStat | ROverview | REtcd | RTimeline => reading e
  | RVersions => via_api e AVersions token [WBody 200]         (* metadata.go 53-69 *)
  | RMigration => start_migration e q                          (* metadata.go 71-86 *)
  | RPeers => get_peers e q                                    (* metadata.go 128-142 *)
  | RCreate => via_api e ACreate token r_ok                    (* metadata.go 179-191 *)
  | RUpdate => via_api e AUpdate token r_ok                    (* metadata.go 193-205 *)
  | RDelete => via_api e ADelete token r_ok                    (* metadata.go 207-215 *)
  | RLeaveGroup => leave_group e q                             (* metadata.go 113-126 *)
  | RJoinGroup => join_group e q                               (* metadata.go 97-111 *)
  | RMetaConfig => get_config e q (e_meta e)                   (* metadata.go 160-177 *)
  | RDownload => via_api e AGet token [WBody 200; WStatus 200] (* object.go 45-65 *)
  | RUpload => via_api e APut token r_created                  (* object.go 29-43 *)
  | RJoin => data_command e q JoinCluster                      (* object.go 67-73 *)
  | RLeave => data_command e q LeaveCluster                    (* object.go 75-81 *)
  | RDataConfig => get_config e q (e_data e)                   (* object.go 83-100 *)
  | RConfig => server_config e q token                         (* server_state.go 119-153 *)
  end.

(** The whole chain (http_server.go 26-27, auth.go 37-43): 403 without a credential. *)
Definition handle (e : env) (q : req) : done :=
  let token := auth_token (save_token q) (q_header q) in
  if guarded (q_route q) && str_eqb token [] then ([], Some [WBody 403])
  else if reads_params (q_route q)
  then match q_bound q with
       | BOk => handler e q token
       | BInvalid => ([], Some r_bad_request)
       | BBroken => ([], Some (fail_err GOther))
       end
  else handler e q token.

(** A client that keeps cookies sends one request after the other, in surroundings that
    may change. *)
Definition with_cookie (q : req) (c : option str) : req :=
  mk_req (q_route q) (q_header q) c (q_bound q) (q_sid q) (q_other q) (q_slots q).

Fixpoint browse (fits : str -> bool) (jar : option str) (qs : list (env * req)) : list done * option str :=
  match qs with
  | [] => ([], jar)
  | (e, q) :: t =>
      let q' := with_cookie q jar in
      let (ds, jar') := browse fits (cookie_after fits q') t in
      (handle e q' :: ds, jar')
  end.
