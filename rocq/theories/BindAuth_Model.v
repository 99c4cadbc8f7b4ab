(** The requests of the API server seen by both the checks in front of its routes
    (Auth_Model) and the bindings of its handlers (Bind_Model).

    Source: src/apiserver/internal/usecase/componet/auth/callback_validator.go 38-66,
    src/apiserver/internal/controller/http/objects_api.go 23-26, 58-64, 96-101, big_api.go
    34-46, metadata_api.go 22-57. *)
From Verif Require Import Str_Model Bind_Model Auth_Model.
Local Open Scope list_scope.

(** The structure a route binds (objects_api.go 60, 98; big_api.go 43; metadata_api.go 34,
    53); [None] for routes named otherwise. *)
Definition binder_of (r : route) : option binder :=
  match r with
  | PutObject => Some put_req
  | GetObject => Some get_req
  | PostBig => Some big_post_req
  | GetMeta => Some meta_get
  | GetVersions => Some meta_versions
  | _ => None
  end.

(** The request as gin's bindings read it: the path parameter, the query, the headers, of
    which Bucket and Region are kept apart in [areq]. *)
Definition one (s : str) : list str := match s with [] => [] | _ => [s] end.
Definition request_of (q : areq) : request :=
  mk_request
    (fun k => if str_eqb k (s2l "name"%string) then [aq_param q] else [])
    (aq_query q)
    (fun k => if str_eqb k (s2l "Bucket"%string) then one (aq_bucket q)
              else if str_eqb k (s2l "Region"%string) then one (aq_region q) else one (aq_header q k))
    None.

(** The bucket and the name a handler goes on with. *)
Fixpoint field_value (go : str) (fs : list field) (o : list value) : option value :=
  match fs, o with
  | f :: fs', v :: o' => if str_eqb (f_go f) go then Some v else field_value go fs' o'
  | _, _ => None
  end.
Definition acted_on (dec : str -> bool) (b : binder) (q : areq) : option (str * str) :=
  let r := bind dec b (request_of q) in
  if snd r then
    match field_value (s2l "Bucket"%string) (b_fields b) (fst r), field_value (s2l "Name"%string) (b_fields b) (fst r) with
    | Some (VText bk), Some (VText n) => Some (bk, n)
    | _, _ => None
    end
  else None.
