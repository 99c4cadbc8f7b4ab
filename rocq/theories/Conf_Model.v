(** Model of configurations as they are shown and written: the text of sizes
    (src/common/datasize/datasize.go 50-59, yaml_env.go 5-25), the answers that show a
    configuration (src/apiserver/internal/controller/http/internal_api.go 15-29,
    src/metaserver/internal/controller/grpc/config_service.go 14-24 and the same file of the
    data server), what a metadata server writes and starts with again
    (src/metaserver/config/config.go 38-72, 98-119), what a data server starts with
    (src/objectserver/config/config.go 57-63) and the limit of the caches
    (src/metaserver/internal/usecase/pool/pool.go 88-97,
    src/objectserver/internal/usecase/pool/instance.go 131-140).

    Simplified: sizes are below 8PB where a [float64] is exact; a configuration has the fields
    that matter, all others are a list of texts; a path is its parts joined by a slash; the
    environment is a value for each of the fields that a server derives others from. *)
From Coq Require Import List NArith Ascii Bool.
From Verif Require Import Str_Model Util_Model Registry_Model.
Import ListNotations.
Local Open Scope list_scope.
Local Open Scope N_scope.

(** ** Sizes as texts *)

(** [fmt.Sprintf("%.0f", a/b)]: the nearest whole number, the even one of two (datasize.go 58). *)
Definition round_even (a b : N) : N :=
  let q := a / b in let r := a mod b in
  if 2 * r <? b then q
  else if b <? 2 * r then q + 1
  else if N.even q then q else q + 1.

(** The unit of a size: how often 1024 divides it. *)
Definition unit_of (d : N) : N := N.log2 d / 10.

(** What is assumed of [math.Floor(math.Log(d) / math.Log(1024))] (datasize.go 51): it is the
    unit, or, where the quotient is too close to a whole number to tell, that number or the
    one below. *)
Definition near (i d : N) : Prop :=
  i = unit_of d \/ (d = 1024 ^ unit_of d /\ i + 1 = unit_of d) \/ (i = unit_of d + 1 /\ 2047 * 1024 ^ unit_of d < 2 * d).

(** [String] (datasize.go 50-59) with [i] for the value of line 51.  For 0 the logarithm is
    minus infinity, and [units[i]] is out of range: a panic ([None]). *)
Definition show_size (i d : N) : option str :=
  if d =? 0 then None
  else if i <? 6 then Some (print_N (round_even d (1024 ^ i)) ++ fst (nth (N.to_nat i) units ([], 0)))
  else Some (print_N (round_even (d * 1024 ^ (i - 5)) (1024 ^ 5)) ++ s2l "PB"%string).

(** ** Showing a configuration *)

(** User and password of etcd (etcd/config.go 3-7), those of [auth.password]
    (auth_config.go 9-13; [None] on servers that have none), the password of the mail account
    (logs/config.go 10-16), the sizes and the rest. *)
Record conf := Conf {
  cf_etcd : str * str; cf_auth : option (str * str); cf_mail : str;
  cf_sizes : list (str * N); cf_rest : list (str * str) }.

(** The text shown instead (internal_api.go 17-21). *)
Definition stars : str := s2l "*****"%string.

(** internal_api.go 16-21, config_service.go 15-18: a copy without the secrets. *)
Definition masked (c : conf) : conf :=
  Conf (stars, stars) (match cf_auth c with Some _ => Some (stars, stars) | None => None end) stars (cf_sizes c) (cf_rest c).

(** The lines of the sizes; [None]: a panic within [yaml.Marshal], which it does not keep. *)
Fixpoint size_lines (idx : N -> N) (l : list (str * N)) : option (list (str * str)) :=
  match l with
  | [] => Some []
  | (k, d) :: r =>
      match show_size (idx d) d, size_lines idx r with
      | Some t, Some r' => Some ((k, t) :: r')
      | _, _ => None
      end
  end.

(** [yaml.Marshal]: keys and texts. *)
Definition marshal (idx : N -> N) (c : conf) : option (list (str * str)) :=
  match size_lines idx (cf_sizes c) with
  | None => None
  | Some sizes =>
      Some ([(s2l "etcd.username"%string, fst (cf_etcd c)); (s2l "etcd.password"%string, snd (cf_etcd c));
             (s2l "log.email.password"%string, cf_mail c)]
            ++ match cf_auth c with
               | Some (u, p) => [(s2l "auth.password.username"%string, u); (s2l "auth.password.password"%string, p)]
               | None => [] end
            ++ sizes ++ cf_rest c)
  end.

(** [Config] of the API server (internal_api.go 15-29): status and lines; gin answers 500 for a
    panic (server.go 26).  [GetConfig] of the others (config_service.go 14-24) gives the same
    lines. *)
Definition show_config (idx : N -> N) (c : conf) : N * list (str * str) :=
  match marshal idx (masked c) with Some l => (200, l) | None => (500, []) end.

(** ** Metadata servers *)

(** What is in the file: the fields that others are derived from. *)
Record mfile := MFile {
  mf_port : str; mf_dir : str; mf_name : str; mf_ip : str; mf_id : str;
  mf_on : bool; mf_group : str; mf_slots : list str; mf_cache : str }.

(** Values of environment variables for these fields, where set. *)
Record menv := MEnv { me_port : option str; me_dir : option str; me_ip : option str; me_id : option str }.

(** What a server runs with: these fields, and what [initialize] adds. *)
Record mconf := MConf {
  mc_port : str; mc_dir : str; mc_name : str; mc_ip : str; mc_id : str;
  mc_on : bool; mc_group : str; mc_slots : list str; mc_cache : N;
  mc_path : str; mc_store : str }.

(** cleanenv: the environment, else the file, else the default (config.go 25-84). *)
Definition pick (e : option str) (f d : str) : str :=
  match e with Some v => v | None => match f with [] => d | _ => f end end.

(** [RegisterAddr] and [SID] (src/common/registry/config.go 22-44) with the address of the
    machine. *)
Definition reg_addr (ip port detected : str) : str :=
  match ip with [] => detected ++ ":"%char :: port | _ => ip ++ ":"%char :: port end.
Definition server_id (name ip id port detected : str) : str :=
  sid (mk_rcfg [] name id (reg_addr ip port detected)).

(** [ReadConfigFrom] (config.go 108-119) with [initialize] (38-54) for a file ([None]: empty):
    [None] is a panic.  A file that is empty or has a size that cannot be read is none. *)
Definition start (tmp : str) (e : menv) (f : option mfile) (detected : str) : option mconf :=
  match f with
  | None => None
  | Some f =>
      match (match mf_cache f with [] => Some (128 * 2 ^ 20) | t => parse_size t end) with
      | None => None
      | Some cache0 =>
          let cache := if cache0 =? 0 then 128 * 2 ^ 20 else cache0 in
          let port := pick (me_port e) (mf_port f) (s2l "8090"%string) in
          let ip := pick (me_ip e) (mf_ip f) [] in
          let dir := match pick (me_dir e) (mf_dir f) [] with [] => tmp | d => d end in
          let id := server_id (mf_name f) ip (pick (me_id e) (mf_id f) []) port detected in
          let group := match mf_group f with [] => s2l "raft"%string | g => g end in
          Some (MConf port dir (mf_name f) ip id (mf_on f) group (mf_slots f) cache
                      (dir ++ "/"%char :: id) (if mf_on f then group else id))
      end
  end.

(** [Persist] (config.go 56-72): the file is emptied, then written; [None]: the server ends
    between the two, or the size cannot be shown. *)
Definition persist (idx : N -> N) (whole : bool) (c : mconf) : option mfile :=
  if whole then
    match show_size (idx (mc_cache c)) (mc_cache c) with
    | None => None
    | Some t => Some (MFile (mc_port c) (mc_dir c) (mc_name c) (mc_ip c) (mc_id c) (mc_on c) (mc_group c) (mc_slots c) t)
    end
  else None.

(** ** Data servers *)

(** [initialize] (objectserver config.go 57-63): the directories of the objects and of the
    path cache; nothing is ever written back. *)
Definition data_start (path name ip id port detected : str) : str * str * str :=
  let i := server_id name ip id port detected in
  (i, path ++ "/"%char :: i ++ s2l "_store"%string, path ++ "/"%char :: i ++ s2l "_path-cache"%string).

(** ** Caches *)

(** [HardMaxCacheSize] (pool.go 90, instance.go 134) in bytes; bigcache takes 0 for no limit. *)
Definition cache_limit (d : N) : option N :=
  if d / 2 ^ 20 =? 0 then None else Some (d / 2 ^ 20 * 2 ^ 20).
