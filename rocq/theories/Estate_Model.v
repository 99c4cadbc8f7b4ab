(** What deleting does: buckets, objects and versions removed, and the bytes on the data
    servers, one request after the other.

    Source: src/apiserver/internal/usecase/service/object_service.go 111-194,
    src/apiserver/internal/usecase/service/meta_service.go 52-69,
    src/apiserver/internal/controller/http/objects_api.go 58-94, bucket_api.go 18-62,
    src/apiserver/internal/usecase/webapi/object_server.go 14-29,
    src/metaserver/internal/usecase/logic/bucket_logic.go 63-92.

    Simplified: the pieces of an object on the data servers are one entry, named by the hash
    of the version; the version of an upload is the one [MakeVersion] and [UniqueHash] made
    (object_service.go 146-151); requests come one after the other but for [store] (uploads at once are
    [Churn_Model]) and the background removal of the first version is over before the next; data
    servers neither fail nor lose anything; the metadata servers are one raft group; caches
    of the metadata servers are left out; versions enter by uploads only (the pages of the metadata server that add one
    are left out); a read with the version -1, which asks for no version, is left out. *)
From Verif Require Import Str_Model Meta_Model Meta_Spec Client_Model Churn_Model.
From stdpp Require Import gmap.

(** The metadata store, and what the data servers hold (object_service.go 158-169). *)
Record estate := mk_estate { e_db : db; e_pieces : gset str }.

(** A new system (object_service.go 111). *)
Definition nothing : estate := mk_estate db_empty ∅.

(** Requests: to store an object ([asks]: it is large enough to be looked for first,
    object_service.go 153-155; [sent]: its bytes reach the data servers, 158-168), and those
    that only concern the metadata (bucket_api.go 18-62; metadata_rest.go 22-28,
    version_rest.go 20-28 of the metadata server). *)
Inductive op :=
| Put (bucket name : str) (m : metadata) (v : version) (asks sent : bool)
| Manage (c : call).

(** Requests that bring no version (bucket_api.go 18-23, metadata_rest.go 22-28,
    version_rest.go 20-28). *)
Definition manages (c : call) : bool :=
  match c with
  | AddMetadata _ _ | AddVersion _ _ | MigrateVersion _ _ => false
  | _ => true
  end.

(** The metadata side of storing, without others in between (object_service.go 171-194). *)
Definition record_version (u : Churn_Model.upload) (d : db) : db * option N :=
  let s := Churn_Model.run (Churn_Model.mk_state d [(u, Begun)]) (whole 0) in
  (s_db s, match s_ups s !! 0%nat with Some (_, Finished n) => Some n | _ => None end).

(** [StoreObject] once the bucket is read (object_service.go 141-194): the answer is the number of
    the version, or an error.  The bucket is not looked at again. *)
Definition store (b : bucket) (bucket name : str) (m : metadata) (v : version) (asks sent : bool) (st : estate)
  : estate * option N :=
  if b_readonly b then (st, None)
  else
    let found := asks && bool_decide (v_hash v ∈ e_pieces st) in
    if found || sent then
      let r := record_version
                 (Churn_Model.mk_upload (object_id bucket name) m v (b_versioning b) (b_remains b)) (e_db st) in
      (mk_estate (fst r) (if found then e_pieces st else {[ v_hash v ]} ∪ e_pieces st), snd r)
    else (st, None).

(** [StoreObject] (object_service.go 111-194), all of it at once. *)
Definition put (bucket name : str) (m : metadata) (v : version) (asks sent : bool) (st : estate)
  : estate * option N :=
  match d_bkt (e_db st) !! bucket with
  | None => (st, None)
  | Some b => store b bucket name m v asks sent st
  end.

(** Other requests (bucket_api.go 25-62, metadata_service.go 78-136): no data server is asked for
    anything. *)
Definition manage (c : call) (st : estate) : estate * bool :=
  if manages c then
    let r := dispatch (command true c) (e_db st) in
    (mk_estate (fst r) (e_pieces st), match snd r with RStatus 200 _ => true | _ => false end)
  else (st, false).

(** One request, and whether it is told to be done (objects_api.go 28-57, bucket_api.go 25-62). *)
Definition step (st : estate) (o : op) : estate * bool :=
  match o with
  | Put b n m v a s => let r := put b n m v a s st in (fst r, match snd r with Some _ => true | None => false end)
  | Manage c => manage c st
  end.

(** Requests one after the other (objects_api.go 28-57, bucket_api.go 25-62). *)
Definition run (st : estate) (ops : list op) : estate := fold_left (fun st o => fst (step st o)) ops st.

(** What they are told (objects_api.go 28-57, bucket_api.go 25-62). *)
Fixpoint told (st : estate) (ops : list op) : list bool :=
  match ops with
  | [] => []
  | o :: r => snd (step st o) :: told (fst (step st o)) r
  end.

(** [Get] (objects_api.go 58-94 with meta_service.go 52-69, object_service.go 234-248): the
    version read; [None] is an error. *)
Definition get (bucket name : str) (n : Z) (st : estate) : option version :=
  let id := object_id bucket name in
  match d_meta (e_db st) !! id with
  | None => None
  | Some _ =>
      match service_get_version id n (e_db st) with
      | None => None
      | Some v => if decide (v_hash v ∈ e_pieces st) then Some v else None
      end
  end.
