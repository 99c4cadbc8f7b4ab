(** Model of the pages of the metadata server over HTTP: metadata, versions and buckets
    (src/metaserver/internal/controller/http/metadata_rest.go 30-85, version_rest.go 30-121,
    bucket_rest.go 30-86, src/metaserver/internal/usecase/service/metadata_service.go 26-176,
    bucket_service.go 20-62, src/common/request/request.go 20-25).

    Simplified: the request has passed the checks in front of the handlers (Admit_Model, Owner_Model,
    Url_Model); caches do not change answers (Cache_Model is about that); a write in a group is made by
    its leader and does not fail in the group (Group_Model).  Listing of metadata and buckets is in
    Admin_Model, the change of locations in Bind_Model and Meta_Model. *)
From Verif Require Import Str_Model Util_Model Meta_Model Meta_Spec Rpc_Model.
From Verif Require Bind_Model.
From stdpp Require Import gmap.

(** A body as JSON: read, or ended with an error after some fields were set, which [part] holds (encoding/json:
    nothing is set after a fault of syntax, other fields are after a value of a wrong type). *)
Inductive json (A : Type) := JRead (a : A) | JBroken (part : A).
Arguments JRead {A}. Arguments JBroken {A}.
Definition json_value {A} (j : json A) : A := match j with JRead a => a | JBroken a => a end.

(** gin's [ShouldBindJSON]: the error of reading, or that of the rules. *)
Definition bind_json {A} (valid : A -> bool) (j : json A) : A + gerr :=
  match j with
  | JRead a => if valid a then inl a else inr GValid
  | JBroken _ => inr GOther
  end.

(** gin's [ShouldBindQuery] of a number and of a truth value; [None]: the key is not in the query. *)
Definition query_int (q : option str) : option Z :=
  match q with None | Some [] => Some 0%Z | Some s => atoi s end.
Definition query_bool (q : option str) : option bool :=
  match q with None | Some [] => Some false | Some s => Bind_Model.parse_bool s end.

(** [GetQryInt] (request.go 20-25) with [util.ToInt] (util.go 130-139): unreadable is 0, too large is
    the largest. *)
Definition qry_int (q : option str) : option Z := option_map to_int64 q.

(** ** Writes *)

(** The repository without group (metadata_repo.go 31-181, bucket_repo.go 42-76). *)
Definition direct (c : call) (d : db) : db * option err :=
  match c with
  | AddMetadata id m => commit d (add_meta id m d)
  | RemoveMetadata id => commit d (remove_meta id d)
  | UpdateMetadata id m => commit d (update_meta id m d)
  | AddVersion id v => repo_add_version false id v d
  | MigrateVersion id v => repo_add_version_raft false id v d
  | RemoveVersion id n => commit d (remove_ver id n d)
  | UpdateVersion id n v => commit d (update_ver id (with_seq n v) d)
  | RemoveVersions id => commit d (remove_all_ver id d)
  | CreateBucket b => commit d (bkt_create b d)
  | DeleteBucket n => commit d (bkt_delete n d)
  | UpdateBucket b => commit d (bkt_update b d)
  end.

(** errors.go 8-15 of package usecase. *)
Definition plain_err (e : err) : gerr :=
  match e with
  | ENotFound => GResp 404
  | EExists | EOldData | ENilData => GResp 400
  | EUnknownLog => GResp 500
  | EEmpty | EBolt => GOther
  end.

(** A write of a service: through the group ([raft], raft_apply.go 19-41), else directly; the error and
    the number of a new version (metadata_service.go 44-59). *)
Definition write (raft : bool) (c : call) (d : db) : db * option gerr * N :=
  if raft then
    let (d', x) := dispatch (command true c) d in
    (d', raft_err x, match x with RStatus _ (Some n) => n | _ => 0%N end)
  else
    let (d', e) := direct c d in
    (d', option_map plain_err e, match c with AddVersion id v => repo_add_version_seq false id v d | _ => 0%N end).

(** ** Answers *)

Inductive body :=
| BNothing
| BMeta (m : metadata) (extra : option (nat * Z * Z)) (v : option version)
| BVersion (v : version) | BVersions (l : list version) (total : nat) | BFound (l : list version)
| BBucket (b : bucket) | BNumber (n : Z).

Record answer := Answer { an_status : Z; an_body : body }.
Definition says (l : list wr) : answer := Answer (answered l) BNothing.
Definition fails (e : gerr) : answer := says (fail_err e).

(** A write that is answered with [l] when it went well. *)
Definition told (r : db * option gerr * N) (l : list wr) : db * answer :=
  match r with (d', e, _) => (d', match e with Some g => fails g | None => says l end) end.

(** ** The pages *)

Inductive request :=
| MPost (id : str) (b : json metadata) | MPut (id : str) (b : json metadata)
| MGet (id : str) (ver extra : option str) | MDelete (id : str)
| VPost (id : str) (b : json version) | VPut (id : str) (ver : option str) (b : json version)
| VGet (id : str) (ver : option str) | VDelete (id : str) (ver : option str)
| VList (id : str) (page size : option str) | VFind (hash : option str)
| KCreate (b : json bucket) | KUpdate (name : str) (b : json bucket) | KGet (name : str) | KDelete (name : str).

(** [UpdateMetadata] (metadata_service.go 79). *)
Definition stamp_meta_update (now : Z) (m : metadata) : metadata := mk_metadata (m_name m) (m_bucket m) (m_ctime m) now.
(** [Update] of a bucket (bucket_rest.go 71, bucket_service.go 52). *)
Definition stamp_bucket_update (now : Z) (name : str) (b : bucket) : bucket :=
  mk_bucket (b_versioning b) (b_readonly b) (b_compress b) (b_strategy b) (b_ds b) (b_ps b) (b_remains b)
            (b_ctime b) now name (b_policies b).

(** [GetMetadata] (metadata_service.go 138-160) behind [Get] (metadata_rest.go 53-76). *)
Definition get_metadata (id : str) (ver : Z) (extra : bool) (d : db) : answer :=
  match d_meta d !! id with
  | None => fails (GResp 404)
  | Some m =>
      match (if extra then match get_extra id d with Some x => Some (Some x) | None => None end else Some None) with
      | None => fails (GResp 404)
      | Some x => Answer 200 (BMeta m x (if (ver =? -1)%Z then None else service_get_version id ver d))
      end
  end.

(** [ListVersions] (metadata_service.go 169-176, metadata_repo.go 240-269, metadata_cache_repo.go 75-76):
    the arithmetic wraps; a list of more than [room] elements, or fewer than none, cannot be made. *)
Definition wrap64 (z : Z) : Z := ((z + 2 ^ 63) mod 2 ^ 64 - 2 ^ 63)%Z.
Definition list_page (room : Z) (id : str) (page size_ : Z) (d : db) : option (list version * nat) + gerr :=
  let p := if (page =? 0)%Z then 1%Z else page in
  let start := wrap64 (wrap64 ((p - 1) * size_) + 1) in
  let n := wrap64 (wrap64 (start + size_) - start + 1) in
  if (n <? 0)%Z || (room <? n)%Z then inr GOther else
  match d_vers d !! id with
  | None => inl None
  | Some b =>
      let ks := filter (fun k => str_ltb k (id ++ "."%char :: print_Z start) = false) (keys (vb_map b)) in
      inl (Some (omap (fun k => vb_map b !! k) (take (Z.to_nat n) ks), size (vb_map b)))
  end.

(** One request at the time [now]; [uid]: the id made for a new version; [own]: does the table of slots give the
    name to this server (bucket_rest.go 51-56, asked for again there). *)
Definition serve (raft : bool) (room : Z) (own : str -> bool) (now : Z) (uid : str) (d : db) (r : request) : db * answer :=
  match r with
  | MPost id b =>  (* metadata_rest.go 30-41 *)
      match bind_json valid_metadata b with
      | inr e => (d, fails e)
      | inl m => told (write raft (AddMetadata id (stamp_metadata now m)) d) r_created
      end
  | MPut id b =>  (* metadata_rest.go 43-51: the error of the binding is dropped *)
      told (write raft (UpdateMetadata id (stamp_meta_update now (json_value b))) d) r_ok
  | MGet id ver extra =>
      match query_int ver, query_bool extra with
      | Some v, Some x => (d, get_metadata id v x d)
      | _, _ => (d, fails GOther)
      end
  | MDelete id => told (write raft (RemoveMetadata id) d) r_no_content  (* metadata_rest.go 78-85 *)
  | VPost id b =>  (* version_rest.go 30-43 *)
      match bind_json valid_version b with
      | inr e => (d, fails e)
      | inl v =>
          match write raft (AddVersion id (stamp_version now uid (with_seq 0 v))) d with
          | (d', Some e, _) => (d', fails e)
          | (d', None, n) => (d', Answer 201 (BNumber (wrap64 (Z.of_N n))))
          end
      end
  | VPut id ver b =>  (* version_rest.go 45-61 *)
      match bind_json valid_version b with
      | inr e => (d, fails e)
      | inl v =>
          match qry_int ver with
          | None => (d, says r_bad_request)
          | Some n => told (write raft (UpdateVersion id (unsigned64 n) (stamp_update now n v)) d) r_ok
          end
      end
  | VGet id ver =>  (* version_rest.go 63-74 *)
      match qry_int ver with
      | None => (d, says r_bad_request)
      | Some n => (d, match service_get_version id n d with Some v => Answer 200 (BVersion v) | None => fails (GResp 404) end)
      end
  | VDelete id ver =>  (* version_rest.go 111-121, metadata_service.go 120-135 *)
      match qry_int ver with
      | None => (d, says r_bad_request)
      | Some n =>
          told (write raft (if (n <? 0)%Z then RemoveVersions id else RemoveVersion id (unsigned64 n)) d) r_no_content
      end
  | VList id page size_ =>  (* version_rest.go 92-109 *)
      match query_int page, query_int size_ with
      | Some p, Some n =>
          if (p =? 0)%Z || (n =? 0)%Z then (d, says r_bad_request) else
          (d, match list_page room id p n d with
              | inr e => fails e
              | inl None => fails (GResp 404)
              | inl (Some (l, total)) => Answer 200 (BVersions l total)
              end)
      | _, _ => (d, says r_bad_request)
      end
  | VFind h =>  (* version_rest.go 76-90 *)
      match h with
      | None | Some [] => (d, says r_bad_request)
      | Some h => let (d', l) := find_by_hash h d in (d', Answer 200 (BFound l))
      end
  | KCreate b =>  (* bucket_rest.go 40-62 *)
      match bind_json (fun _ => true) b with
      | inr e => (d, fails e)
      | inl k =>
          if bool_decide (b_name k = []) then (d, says r_bad_request)
          else if own (b_name k) then told (write raft (CreateBucket (stamp_bucket now (b_name k) k)) d) r_created
          else (d, says r_bad_request)
      end
  | KUpdate name b =>  (* bucket_rest.go 64-76 *)
      match bind_json (fun _ => true) b with
      | inr e => (d, fails e)
      | inl k => told (write raft (UpdateBucket (stamp_bucket_update now name k)) d) r_ok
      end
  | KGet name =>  (* bucket_rest.go 30-38 *)
      (d, match d_bkt d !! name with Some b => Answer 200 (BBucket b) | None => fails (GResp 404) end)
  | KDelete name => told (write raft (DeleteBucket name) d) r_no_content  (* bucket_rest.go 78-86 *)
  end.
