(** Model of the checks in front of the API server's routes: white list, callback,
    password, the answer to a refused request, and the first writing of the
    administrator's credential.

    Source: src/apiserver/internal/usecase/componet/auth/auth_middleware.go 14-62,
    callback_validator.go 25-66, password_validator.go 23-79, auth_config.go 3-25,
    credential/callback_token.go 5-25, src/apiserver/internal/controller/http/server.go
    19-43, objects_api.go 23-26, 58-65, 96-101, big_api.go 33-46, 138-144, 180,
    bucket_api.go 18-70, metadata_api.go 22-57, security_api.go 15-22,
    src/apiserver/internal/usecase/service/rs_resumable_stream.go 11-39.

    Simplified: a request is the fields the checks and the routes look at; the header
    Authorization is already split into user and password (net/http BasicAuth); the
    callback server is a function of what it is sent (status, or no answer); redirects
    followed by net/http are part of it.  Etcd is the one credential key. *)
From Verif Require Import Str_Model Meta_Model Rpc_Model.
From stdpp Require Import gmap.
Local Open Scope list_scope.

(** ** Requests *)

(** The routes below /v1 (server.go 33-40). *)
Inductive route :=
| PutObject | GetObject                                   (* objects_api.go 24-25 *)
| PostBig | HeadBig | PatchBig                            (* big_api.go 35-37 *)
| GetMeta | GetVersions                                   (* metadata_api.go 24-25 *)
| Check                                                   (* security_api.go 17 *)
| PostBucket | GetBucket | PutBucket | DeleteBucket_.     (* bucket_api.go 19-22 *)

(** The registered pattern, which [c.FullPath()] gives. *)
Definition full_path (r : route) : str :=
  match r with
  | PutObject | GetObject => s2l "/v1/objects/:name"%string
  | PostBig => s2l "/v1/big/:name"%string
  | HeadBig | PatchBig => s2l "/v1/big/:token"%string
  | GetMeta => s2l "/v1/metadata/:name"%string
  | GetVersions => s2l "/v1/metadata/:name/versions"%string
  | Check => s2l "/v1/security/check"%string
  | PostBucket => s2l "/v1/bucket"%string
  | GetBucket | PutBucket | DeleteBucket_ => s2l "/v1/bucket/:name"%string
  end.

(** The method of the route. *)
Definition method (r : route) : str :=
  match r with
  | PutObject | PutBucket => s2l "PUT"%string
  | GetObject | GetMeta | GetVersions | Check | GetBucket => s2l "GET"%string
  | PostBig | PostBucket => s2l "POST"%string
  | HeadBig => s2l "HEAD"%string
  | PatchBig => s2l "PATCH"%string
  | DeleteBucket_ => s2l "DELETE"%string
  end.

(** A request: the header Host, the headers Bucket and Region (empty when absent), what
    stands in the path for [:name] or [:token], the query parameter version, the
    arrays [CallbackConfig.Params] picks up, user and password, the bucket and name in
    the token (unsealed: rs_resumable_stream.go 29-39), the name in a JSON body. *)
Record areq := mk_areq {
  aq_route : route; aq_host : str; aq_bucket : str; aq_region : str; aq_param : str; aq_version : str;
  aq_query : str -> list str; aq_header : str -> str; aq_basic : option (str * str);
  aq_token : str * str; aq_body : str }.

(** [c.Param("name")]: routes with [:name] only. *)
Definition param_name (q : areq) : str :=
  match aq_route q with
  | HeadBig | PatchBig | Check | PostBucket => []
  | _ => aq_param q
  end.

(** ** Configuration *)

(** auth_config.go 3-20. *)
Record aconf := mk_aconf {
  ac_enable : bool; ac_white : list str;
  ac_cb : bool; ac_params : list str;
  ac_pw : bool; ac_user : str; ac_pass : str }.

(** ** The callback *)

(** credential/callback_token.go 5-12. *)
Record cbtoken := mk_cbtoken {
  ct_bucket : str; ct_region : str; ct_file : str; ct_version : Z; ct_method : str; ct_extra : list (str * list str) }.

(** The callback server: what it answers to a token, [None] for no answer. *)
Definition callback := cbtoken -> option Z.

(** [strings.IndexByte(host, '.')] and the slice before it, [None] for an index <= 0
    (callback_validator.go 43-45). *)
Fixpoint before_dot (s : str) : option str :=
  match s with
  | [] => None
  | c :: s' => if ascii_dec c "."%char then Some [] else option_map (cons c) (before_dot s')
  end.
Definition host_bucket (host : str) : option str :=
  match before_dot host with Some [] => None | x => x end.

(** [CallbackValidator.Middleware], the token (callback_validator.go 42-63); [None] when
    there is no bucket. *)
Definition cb_token (cf : aconf) (q : areq) : option cbtoken :=
  let extra := map (fun k => (k, aq_query q k ++ match aq_header q k with [] => [] | v => [v] end)) (ac_params cf) in
  let tok b := mk_cbtoken b (aq_region q) (param_name q) (to_int (aq_version q)) (method (aq_route q)) extra in
  match host_bucket (aq_host q) with
  | Some b => Some (tok b)
  | None => match aq_bucket q with [] => None | b => Some (tok b) end
  end.

(** [CallbackValidator.Verify] (callback_validator.go 25-36); [None] is no error. *)
Definition cb_verify (cb : callback) (t : cbtoken) : option gerr :=
  match cb t with
  | None => Some GOther
  | Some st => if (st =? 200)%Z then None else Some (GResp st)
  end.

(** [CallbackValidator.Middleware] (callback_validator.go 38-66): granted, or an error. *)
Definition cb_middleware (cf : aconf) (cb : callback) (q : areq) : bool * option gerr :=
  if ac_cb cf then
    match cb_token cf q with
    | None => (false, Some (GResp 400))
    | Some t => match cb_verify cb t with None => (true, None) | Some e => (false, Some e) end
    end
  else (false, None).

(** ** The password *)

(** What a read of the credential key gives: an error, no key, a text that does not
    decode, a credential. *)
Inductive etcd_read := KErr | KNone | KBad | KCred (u p : str).

(** [PasswordValidator.Verify] (password_validator.go 54-71). *)
Definition pw_verify (k : etcd_read) (u p : str) : option gerr :=
  match k with
  | KErr | KNone | KBad => Some GOther
  | KCred u' p' => if bool_decide (u = u') && bool_decide (p = p') then None else Some (GResp 401)
  end.

(** [PasswordValidator.Middleware] (password_validator.go 73-79). *)
Definition pw_middleware (cf : aconf) (k : etcd_read) (q : areq) : bool * option gerr :=
  match aq_basic q with
  | Some (u, p) =>
      if ac_pw cf then match pw_verify k u p with None => (true, None) | Some e => (false, Some e) end
      else (false, None)
  | None => (false, None)
  end.

(** ** The chain *)

(** [IsAuthenticated] and [AuthenticatedErr] in the context (auth_middleware.go 11-12). *)
Definition actx := (bool * option gerr)%type.

(** [PreAuthenticate] (auth_middleware.go 14-32). *)
Definition pre (cf : aconf) (q : areq) : actx :=
  if negb (ac_enable cf) then (true, None)
  else if existsb (fun w => prefixb w (full_path (aq_route q))) (ac_white cf) then (true, None)
  else (false, Some (GResp 403)).

(** [AuthenticateWrap] (auth_middleware.go 34-47). *)
Definition wrap (v : bool * option gerr) (x : actx) : actx :=
  if fst x then x
  else match v with
       | (_, Some e) => (fst x, Some e)
       | (ok, None) => (ok, snd x)
       end.

(** [AfterAuthenticate] (auth_middleware.go 49-54): [None] lets the request pass;
    [err.(error)] panics without an error, which gin's recovery answers with 500. *)
Definition after (x : actx) : option (list wr) :=
  if fst x then None
  else match snd x with Some e => Some (fail_err e) | None => Some [WStatus 500] end.

(** [AuthenticationMiddleware] (auth_middleware.go 56-62) with the validators of
    server.go 20-23. *)
Definition authenticate (cf : aconf) (cb : callback) (k : etcd_read) (q : areq) : option (list wr) :=
  after (wrap (pw_middleware cf k q) (wrap (cb_middleware cf cb q) (pre cf q))).

(** ** What a request is about *)

(** The bucket and the object the handler works on: from the header and the path
    (entity/dto.go 23-48, metadata_api.go 29-33, 47-52), from the token (big_api.go 144,
    180), from the path or the body for buckets (bucket_api.go 26-66).  Simplified: no key
    with the Go name of a field in the query or the headers; BindAuth_Model has them. *)
Definition target (q : areq) : str * str :=
  match aq_route q with
  | PutObject | GetObject | PostBig | GetMeta | GetVersions => (aq_bucket q, aq_param q)
  | HeadBig | PatchBig => aq_token q
  | Check => ([], [])
  | PostBucket => (aq_body q, [])
  | GetBucket | PutBucket | DeleteBucket_ => (aq_param q, [])
  end.

(** ** The first credential *)

(** [PasswordValidator.init] (password_validator.go 29-52) at the start of an API server:
    [get_ok], [put_ok] tell whether etcd answers. *)
Definition pw_init (cf : aconf) (get_ok put_ok : bool) (stored : option (str * str)) : option (str * str) :=
  if negb (ac_pw cf) then stored
  else if get_ok && (match stored with Some _ => true | None => false end
                     || bool_decide (ac_user cf = []) || bool_decide (ac_pass cf = []))
  then stored
  else if put_ok then Some (ac_user cf, ac_pass cf) else stored.

(** What [Verify] reads when etcd answers. *)
Definition read_cred (stored : option (str * str)) : etcd_read :=
  match stored with Some (u, p) => KCred u p | None => KNone end.

(** Starts of API servers, one after the other. *)
Definition starts (l : list (aconf * bool * bool)) (stored : option (str * str)) : option (str * str) :=
  fold_left (fun s x => let '(cf, g, p) := x in pw_init cf g p s) l stored.
