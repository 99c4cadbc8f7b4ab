(** Model of how the servers come to their settings: cleanenv 1.4.1 on the structures of
    src/apiserver/config/config.go 21-111, src/metaserver/config/config.go 23-96,
    src/objectserver/config/config.go 19-61, src/adminserver/config/config.go 15-34 and
    those they contain (src/common/logs/config.go 3-16, etcd/config.go 3-7,
    registry/config.go 11-20, performance/config.go 13-19, auth_config.go 3-20), what the API
    server makes of its block sizes, what the raft library says to the timeouts
    (src/metaserver/internal/usecase/raftimpl/raft_impl.go 39-60), and what two of the
    settings decide (service/copy_fix_stream.go 39-49, rs_decoder.go 99-136).

    cleanenv (trusted, from its documentation and source): first the file is read into the
    structure; then, field by field, a variable of the environment that is set is parsed into
    the field; without one, a field that has the zero value of its type is given its default,
    or, if it is required, is an error.  A name of a variable is the prefixes of the
    structures and the name of the field without anything between.

    Simplified: a file is a value for each key it has; times are milliseconds, sizes bytes,
    the rate of losses thousandths; how a number, a time or a size is read from a text is a
    parameter; fields that neither file nor environment can set ([yaml:"-"]) are left out. *)
From Coq Require Import List Ascii ZArith Bool.
From Verif Require Import Str_Model Meta_Model.
Import ListNotations.
Local Open Scope list_scope.
Local Open Scope Z_scope.

(** ** Fields *)

(** Kinds of fields and values (apiserver config.go 21-103: numbers, sizes and times alike). *)
Inductive kind := KFlag | KNum | KText | KNames.
Inductive sval := VFlag (b : bool) | VNum (n : Z) | VText (t : str) | VNames (l : list str).

(** A field: its key in the file, its variable ([env], with the prefixes), whether it is
    required ([env-required]), its kind and its default ([env-default]). *)
Record field := Field { f_key : str; f_var : option str; f_need : bool; f_kind : kind; f_def : option sval }.

(** The zero value of a kind, in a structure nothing was read into. *)
Definition zero_of (k : kind) : sval :=
  match k with KFlag => VFlag false | KNum => VNum 0 | KText => VText [] | KNames => VNames [] end.

(** cleanenv's [isZero] of a field after the file was read; a list in the file is none, even
    an empty one: it is not nil. *)
Definition is_zero (v : option sval) : bool :=
  match v with
  | None => true
  | Some (VFlag b) => negb b
  | Some (VNum n) => n =? 0
  | Some (VText []) => true
  | Some (VText _) => false
  | Some (VNames _) => false
  end.

(** [strconv.ParseBool]. *)
Definition read_flag (s : str) : option bool :=
  if existsb (str_eqb s) (map s2l ["1"; "t"; "T"; "TRUE"; "true"; "True"]%string) then Some true
  else if existsb (str_eqb s) (map s2l ["0"; "f"; "F"; "FALSE"; "false"; "False"]%string) then Some false
  else None.

(** cleanenv's [parseSlice] with [env-separator:","]: nothing for a blank text. *)
Definition read_names (s : str) : list str :=
  if forallb (fun c => Ascii.eqb c " "%char) s then [] else split_on ","%char s.

(** cleanenv's [parseValue]; [None] is an error. *)
Definition read_val (num : str -> option Z) (k : kind) (s : str) : option sval :=
  match k with
  | KFlag => option_map VFlag (read_flag s)
  | KNum => option_map VNum (num s)
  | KText => Some (VText s)
  | KNames => Some (VNames (read_names s))
  end.

(** cleanenv's [readEnvVars] for a field that is set by the file or not; [None] is an error,
    for which the servers panic (apiserver config.go 115-121 and the like). *)
Definition settle (num : str -> option Z) (f : field) (env : str -> option str) (file : option sval) : option sval :=
  match (match f_var f with Some x => env x | None => None end) with
  | Some raw => read_val num (f_kind f) raw
  | None =>
      if is_zero file then
        if f_need f then None
        else match f_def f with
             | Some d => Some d
             | None => Some (match file with Some v => v | None => zero_of (f_kind f) end)
             end
      else file
  end.

(** All fields of a server ([ReadConfig], apiserver config.go 115-123): [None] is a panic. *)
Fixpoint settle_all (num : str -> option Z) (fs : list field) (env : str -> option str) (file : str -> option sval)
  : option (list (str * sval)) :=
  match fs with
  | [] => Some []
  | f :: r =>
      match settle num f env (file (f_key f)), settle_all num r env file with
      | Some v, Some l => Some ((f_key f, v) :: l)
      | _, _ => None
      end
  end.

(** ** The fields of the servers *)

(** Fields of the kinds, with a variable (the tags of the structures, apiserver config.go 21-103). *)
Definition flag (k v : String.string) (d : option bool) : field :=
  Field (s2l k) (Some (s2l v)) false KFlag (option_map VFlag d).
Definition num (k v : String.string) (d : option Z) : field := Field (s2l k) (Some (s2l v)) false KNum (option_map VNum d).
Definition text (k v : String.string) (d : option String.string) : field :=
  Field (s2l k) (Some (s2l v)) false KText (option_map (fun t => VText (s2l t)) d).
Definition names (k v : String.string) : field := Field (s2l k) (Some (s2l v)) false KNames None.
Definition needed (k v : String.string) : field := Field (s2l k) (Some (s2l v)) true KText None.

(** logs/config.go 3-16. *)
Definition log_fields : list field :=
  [ text "log.email.target" "LOGEMAILTARGET" None; text "log.email.sender" "LOGEMAILSENDER" None;
    text "log.email.password" "LOGEMAILPASSWORD" None; text "log.email.smtp-host" "LOGEMAILSMTP_HOST" None;
    text "log.email.smtp-port" "LOGEMAILSMTP_PORT" (Some "587"%string);
    text "log.level" "LOGLEVEL" (Some "info"%string); flag "log.caller" "LOGCALLER" None;
    text "log.store-dir" "LOGSTORE_DIR" None ]%string.

(** etcd/config.go 3-7. *)
Definition etcd_fields : list field :=
  [ Field (s2l "etcd.endpoint"%string) (Some (s2l "ETCDENDPOINT"%string)) true KNames None;
    needed "etcd.username" "ETCDUSERNAME"; needed "etcd.password" "ETCDPASSWORD" ]%string.

(** registry/config.go 11-18. *)
Definition registry_fields : list field :=
  [ text "registry.server-ip" "REGISTRYSERVER_IP" None; text "registry.server-id" "REGISTRYSERVER_ID" None;
    text "registry.group" "REGISTRYGROUP" (Some "goodfs"%string); needed "registry.name" "REGISTRYNAME";
    num "registry.interval" "REGISTRYINTERVAL" (Some 5000); num "registry.timeout" "REGISTRYTIMEOUT" (Some 3000);
    names "registry.services" "REGISTRYSERVICES" ]%string.

(** apiserver config.go 21-103 with auth_config.go 3-18 and performance/config.go 13-19. *)
Definition api_fields : list field :=
  [ text "port" "PORT" (Some "8080"%string); text "select-strategy" "SELECT_STRATEGY" (Some "random"%string) ]%string
  ++ log_fields ++ etcd_fields ++
  [ flag "object.checksum" "OBJECTCHECKSUM" None; num "object.distinct-size" "OBJECTDISTINCT_SIZE" None;
    num "object.distinct-timeout" "OBJECTDISTINCT_TIMEOUT" (Some 200);
    num "object.reed-solomon.data-shards" "OBJECTREED_SOLOMONDATA_SHARDS" (Some 4);
    num "object.reed-solomon.parity-shards" "OBJECTREED_SOLOMONPARITY_SHARDS" (Some 2);
    num "object.reed-solomon.block-per-shard" "OBJECTREED_SOLOMONBLOCK_PER_SHARD" (Some 16384);
    flag "object.reed-solomon.rewrite-async" "OBJECTREED_SOLOMONREWRITE_ASYNC" (Some true);
    num "object.replication.copies-count" "OBJECTREPLICATIONCOPIES_COUNT" (Some 3);
    num "object.replication.block-size" "OBJECTREPLICATIONBLOCK_SIZE" (Some 32768);
    num "object.replication.loss-tolerance-rate" "OBJECTREPLICATIONLOSS_TOLERANCE_RATE" (Some 0);
    flag "object.replication.copy-async" "OBJECTREPLICATIONCOPY_ASYNC" (Some true);
    text "discovery.data-serv-name" "DISCOVERYDATA_SERV_NAME" (Some "objectserver"%string);
    text "discovery.meta-serv-name" "DISCOVERYMETA_SERV_NAME" (Some "metaserver"%string) ]%string
  ++ registry_fields ++
  [ flag "auth.enable" "AUTHENABLE" None; flag "auth.callback.enable" "AUTHCALLBACKENABLE" None;
    text "auth.callback.url" "AUTHCALLBACKURL" None; names "auth.callback.params" "AUTHCALLBACKPARAMS";
    flag "auth.password.enable" "AUTHPASSWORDENABLE" None; text "auth.password.username" "AUTHPASSWORDUSERNAME" None;
    text "auth.password.password" "AUTHPASSWORDPASSWORD" None;
    flag "performance.enable" "PERFORMANCEENABLE" (Some false); text "performance.store" "PERFORMANCESTORE" (Some "none"%string);
    num "performance.flush-interval" "PERFORMANCEFLUSH_INTERVAL" (Some 300000);
    num "performance.max-in-memory" "PERFORMANCEMAX_IN_MEMORY" (Some 1000);
    flag "performance.flush-when-reached" "PERFORMANCEFLUSH_WHEN_REACHED" (Some false);
    flag "tls.enabled" "TLSENABLED" None; text "tls.server-cert-file" "TLSSERVER_CERT_FILE" None;
    text "tls.server-key-file" "TLSSERVER_KEY_FILE" None ]%string.

(** metaserver config.go 86-95, the timeouts first. *)
Definition heartbeat_field : field :=
  (num "cluster.heartbeat-timeout" "CLUSTERHEARTBEAT_TIMEOUT" (Some 800))%string.
Definition election_field : field :=
  (num "cluster.election-timeout" "CLUSTERELECTION_TIMEOUT" (Some 900))%string.

(** metaserver config.go 23-96. *)
Definition meta_fields : list field :=
  [ text "port" "PORT" (Some "8090"%string); text "data-dir" "DATA_DIR" None;
    num "max-concurrent-streams" "MAX_CONCURRENT_STREAMS" (Some 100) ]%string
  ++ log_fields ++
  [ flag "cluster.enable" "CLUSTERENABLE" (Some false); flag "cluster.bootstrap" "CLUSTERBOOTSTRAP" (Some false);
    text "cluster.group-id" "CLUSTERGROUP_ID" (Some "raft"%string); election_field; heartbeat_field;
    names "cluster.nodes" "CLUSTERNODES" ]%string
  ++ registry_fields ++ etcd_fields ++
  [ Field (s2l "hash-slot.slots"%string) None false KNames (Some (VNames [s2l "0-16384"%string]));
    Field (s2l "hash-slot.prepare-timeout"%string) None false KNum (Some (VNum 10000));
    num "cache.ttl" "CACHETTL" (Some 1200000); num "cache.clean-interval" "CACHECLEAN_INTERVAL" (Some 600000);
    num "cache.max-size" "CACHEMAX_SIZE" (Some (128 * 2 ^ 20)) ]%string.

(** objectserver config.go 19-53. *)
Definition data_fields : list field :=
  [ Field (s2l "port"%string) None false KText (Some (VText (s2l "8100"%string)));
    needed "base-mount-point" "BASE_MOUNT_POINT"; text "storage-path" "STORAGE_PATH" (Some "/objects"%string);
    names "allowed-mount-points" "ALLOWED_MOUNT_POINTS"; names "exclude-mount-points" "EXCLUDE_MOUNT_POINTS";
    num "temp-cleaners" "TEMP_CLEANERS" (Some 3) ]%string
  ++ log_fields ++
  [ num "state.sync-interval" "STATESYNC_INTERVAL" (Some 60000);
    num "cache.ttl" "CACHETTL" (Some 3600000); num "cache.clean-interval" "CACHECLEAN_INTERVAL" (Some 3600000);
    num "cache.max-item-size" "CACHEMAX_ITEM_SIZE" (Some (12 * 2 ^ 20));
    num "cache.max-size" "CACHEMAX_SIZE" (Some (128 * 2 ^ 20)) ]%string
  ++ etcd_fields ++ registry_fields ++
  [ Field (s2l "discovery.meta-serv-name"%string) None false KText (Some (VText (s2l "metaserver"%string))) ].

(** adminserver config.go 15-27. *)
Definition admin_fields : list field :=
  [ text "port" "PORT" (Some "80"%string); flag "enabled-api-tls" "ENABLED_API_TLS" None;
    text "discovery.group" "DISCOVERYGROUP" (Some "goodfs"%string);
    text "discovery.data-serv-name" "DISCOVERYDATA_SERV_NAME" (Some "objectserver"%string);
    text "discovery.meta-serv-name" "DISCOVERYMETA_SERV_NAME" (Some "metaserver"%string);
    text "discovery.api-serv-name" "DISCOVERYAPI_SERV_NAME" (Some "apiserver"%string) ]%string
  ++ log_fields ++ etcd_fields.

(** The fields of all four. *)
Definition servers : list (list field) := [api_fields; meta_fields; data_fields; admin_fields].

(** ** Block sizes of the API server *)

(** cst.OS.NetPkgSize (src/common/cst/os_const.go 17). *)
Definition packet : Z := 65536.

(** [initialize] (apiserver config.go 34-40) on [BlockPerShard] with [BlockSize] (87-89); Go's
    division and remainder. *)
Definition shard_block (bps data : Z) : Z :=
  let i := Z.rem (bps * data) packet in
  if 0 <? i then Z.quot (bps * data - i + packet) data else bps.

(** [initialize] (41-44) on the block size of copies, which is not below zero. *)
Definition copy_block (size : Z) : Z :=
  let i := Z.rem size packet in if 0 <? i then size - i + packet else size.

(** ** Raft *)

(** hashicorp/raft 1.3.11 [ValidateConfig] on what [NewRaft] (raft_impl.go 46-57) sets; the
    lease of a leader is the library's 500ms. *)
Definition lease : Z := 500.
Definition raft_takes (id : str) (heartbeat election : Z) : bool :=
  negb (str_eqb id []) && (5 <=? heartbeat) && (5 <=? election) && (lease <=? heartbeat) && (heartbeat <=? election).

(** [NewRaft] (raft_impl.go 39-60): raft is off, runs with these timeouts, or the server
    panics. *)
Inductive rstart := ROff | RRuns (heartbeat election : Z) | RPanics.
Definition new_raft (on : bool) (id : str) (heartbeat election : Z) : rstart :=
  if on then if raft_takes id heartbeat election then RRuns heartbeat election else RPanics else ROff.

(** A metadata server up to that (app.go 23-30): the two fields as they are settled. *)
Definition meta_raft (num : str -> option Z) (on : bool) (id : str) (env : str -> option str) (hb el : option sval) : rstart :=
  match settle num heartbeat_field env hb, settle num election_field env el with
  | Some (VNum h), Some (VNum e) => new_raft on id h e
  | _, _ => RPanics
  end.

(** ** What two of the flags decide *)

(** [CopyFixStream.Close] (copy_fix_stream.go 39-49): [fault] is what storing the lost copies
    or writing down their places gives; whether the answer waits for it, and the answer. *)
Definition fix_close {A} (async : bool) (fault : option A) : bool * option A :=
  if async then (false, None) else (true, fault).

(** Lost shards being stored again while a block is read (rs_decoder.go 99-136): those whose
    goroutine was not started yet, those at work, what became of the others ([None]: written),
    the variable [err] and what [getData] returned. *)
Record wstate (A : Type) := WState {
  w_todo : list nat; w_on : list nat; w_done : list (nat * option A); w_err : option A; w_ret : option (option A) }.
Arguments WState {A}. Arguments w_todo {A}. Arguments w_on {A}. Arguments w_done {A}. Arguments w_err {A}. Arguments w_ret {A}.

(** The goroutine of line 101 starts the next (102-107), one at work ends (108-115), [getData]
    comes to its end. *)
Inductive wevent (A : Type) := WAdd | WEnds (i : nat) (fault : option A) | WReturn.
Arguments WAdd {A}. Arguments WEnds {A}. Arguments WReturn {A}.

(** Up to line 100. *)
Definition w_begin {A} (lost : list nat) : wstate A := WState lost [] [] None None.

(** A step; those that cannot happen change nothing.  [wg.Wait] (132) waits for what was added. *)
Definition w_step {A} (async : bool) (s : wstate A) (e : wevent A) : wstate A :=
  match e with
  | WAdd => match w_todo s with
            | i :: r => WState r (w_on s ++ [i]) (w_done s) (w_err s) (w_ret s)
            | [] => s
            end
  | WEnds i fault =>
      if existsb (Nat.eqb i) (w_on s)
      then WState (w_todo s) (remove Nat.eq_dec i (w_on s)) (w_done s ++ [(i, fault)])
                  (match fault with Some x => Some x | None => w_err s end) (w_ret s)
      else s
  | WReturn =>
      match w_ret s with
      | Some _ => s
      | None =>
          if async then WState (w_todo s) (w_on s) (w_done s) (w_err s) (Some None)
          else match w_on s with
               | [] => WState (w_todo s) (w_on s) (w_done s) (w_err s) (Some (w_err s))
               | _ => s
               end
      end
  end.
Definition w_run {A} (async : bool) (evs : list (wevent A)) (s : wstate A) : wstate A := fold_left (w_step async) evs s.

(** The flag at a key of the settings. *)
Fixpoint flag_at (key : str) (l : list (str * sval)) : option bool :=
  match l with
  | [] => None
  | (k, v) :: r => if str_eqb k key then match v with VFlag b => Some b | _ => None end else flag_at key r
  end.
