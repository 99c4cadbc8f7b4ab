(** Model of storing and reading an object through the API server, from the request to
    the metadata and back, with many requests at once.

    Source: src/apiserver/internal/usecase/service/object_service.go 111-248,
    controller/http/objects_api.go 28-112, controller/http/big_api.go 40-273,
    usecase/repo/meta_repo.go 18-48, version_repo.go 21-57,
    service/rs_get_stream.go 74-84, service/temp_stream.go 33-56,
    src/objectserver/internal/controller/http/temp/temp_rest.go 108-128,
    usecase/service/temp_service.go 28-30.

    Simplified: the shards of an object on the data servers are one entry, named by the
    version hash; that shards give the object back is C22-C26, C35, C43, that
    locating them is right is C34, and the pieces of a resumable upload are put together
    as in C28.  Compression is a pair of functions on the whole content.  Reading with a
    size other than the stored one gives an arbitrary text.  The metadata servers are one
    raft group (entries are applied with [batch] true); a request reads the bucket once.
    Tokens of resumable uploads are those issued by the server. *)
From Verif Require Import Str_Model Meta_Model Meta_Spec Api_Model.
From stdpp Require Import gmap.
Local Open Scope list_scope.
Local Notation length := List.length.

(** [fmt.Sprint(bucket, "/", name)] (meta_repo.go 20, 33, version_repo.go 23, 37, 47, 60). *)
Definition object_id (bucket name : str) : str := bucket ++ "/"%char :: name.

(** A request to store an object, by [PUT /objects] (entity/dto.go 23-32) or [POST /big]
    with the following PATCHes (entity/dto.go 41-48): the headers, what the client sends,
    the unique id and the time the metadata server gives the version
    (metaserver metadata_service.go 42, 43). *)
Record upload := mk_upload {
  u_bucket : str; u_name : str; u_digest : str; u_size : nat; u_want : layout;
  u_sent : str; u_uid : str; u_now : Z }.

Definition u_id (u : upload) : str := object_id (u_bucket u) (u_name u).

(** net/http gives at most Content-Length bytes, and an error if fewer come. *)
Definition received (u : upload) : str := firstn (u_size u) (u_sent u).
Definition cut_short (u : upload) : bool := (length (u_sent u) <? u_size u)%nat.

(** Required headers and a body ([binding:"required"], entity/dto.go 26-28, 43-46;
    objects_api.go 31-34, 102-105). *)
Definition bound (u : upload) : bool :=
  bool_decide (u_bucket u <> []) && bool_decide (u_name u <> []) && bool_decide (u_digest u <> []) && (0 <? u_size u)%nat.

(** What the data servers hold for a version hash. *)
Record stored := mk_stored { s_content : str; s_comp : bool }.

Record config := mk_config { cf_checksum : bool; cf_distinct : nat; cf_def : defaults }.

(** Where a request stands: [PUT] before locating, uploading, saving the metadata, the
    version, answered ([None] an error); resumable upload before [POST], with a token,
    finishing ([loc]: found in [POST], object_service located), saving metadata,
    version, committing, answered. *)
Inductive thread :=
| PLocate (u : upload) | PUpload (u : upload) (l : layout) | PMeta (u : upload) (l : layout)
| PVersion (u : upload) (l : layout) | PDone (u : upload) (l : layout) (r : option Z)
| BPost (u : upload) | BPatch (u : upload) (l : layout) | BFinish (u : upload) (l : layout) (loc : bool)
| BMeta (u : upload) (l : layout) (loc : bool) | BVersion (u : upload) (l : layout) (loc : bool)
| BCommit (u : upload) (l : layout) (n : Z) | BDone (u : upload) (l : layout) (r : option Z).

Record world := mk_world { w_db : db; w_data : gmap str stored; w_threads : list thread }.

(** What is decided elsewhere: two yes/no outcomes, the temp files open on the data
    servers (their uuids) and what reading them would give. *)
Record choice := mk_choice { ch_a : bool; ch_b : bool; ch_uuids : list str; ch_digest : str }.

Inductive cact := CPut (u : upload) | CBig (u : upload) | CStep (k : nat) (ch : choice) | COther (c : call).

(** [GenerateTempID] (objectserver temp_service.go 28-30, entity/dto.go 11). *)
Definition temp_id (uuid : str) : str := s2l "TempInfo_"%string ++ uuid.
(** The name [NewRSTempStream] asks for (rs_get_stream.go 80). *)
Definition temp_name (hash : str) (i : nat) : str := hash ++ "."%char :: print_N (N.of_nat i).
(** [SHA256IO] of the temp stream (big_api.go 213, crypto SHA256IO): the data servers
    refuse names without an open temp file (temp_rest.go 118-122), no shard is read, the
    decoder fails and the text is empty. *)
Definition temp_digest (ch : choice) (hash : str) (shards : nat) : str :=
  if existsb (fun i => bool_decide (temp_name hash i ∈ map temp_id (ch_uuids ch))) (seq 0 shards)
  then ch_digest ch else [].

(** int32(vn) (metaserver metadata_server.go 142). *)
Definition int32 (n : N) : Z :=
  let r := Z.of_N (n mod 2 ^ 32) in if (r <? 2 ^ 31)%Z then r else (r - 2 ^ 32)%Z.

Definition policy_of (b : bucket) : policy := mk_policy (b_compress b) (b_strategy b) (b_ds b) (b_ps b).

(** entity/metadata.go 103-118 [MakeConf] with big_api.go 57-62. *)
Definition big_layout (b : bucket) (cf : defaults) (u : upload) : layout :=
  let own := (b_strategy b =? ec_rs)%Z in
  mk_layout ec_rs (if own then b_ds b else df_data cf) (if own then b_ps b else df_parity cf)
    (if b_compress b then true else l_compress (u_want u)).

Definition all_shards (l : layout) : nat := Z.to_nat (l_data l + l_parity l).

Section Client.
  (** SHA-256 in hexadecimal, the compression used by the data servers and its inverse,
      and reading stored bytes with another size. *)
  Variable sha : str -> str.
  Variable comp decomp : str -> str.
  Variable other_size : str -> Z -> str.

  Definition u_hash (u : upload) (l : layout) : str :=
    unique_hash sha (u_digest u) (l_strategy l) (l_data l) (l_parity l) (l_compress l).

  (** The version sent to the metadata server (grpcapi/meta_server.go 144-169); the shard
      size, which follows from the others, and the locations are left out. *)
  Definition u_version (u : upload) (l : layout) (compress : bool) : version :=
    mk_version compress (l_strategy l) (l_data l) (l_parity l) 0 (Z.of_nat (u_size u)) (u_now u) 0
      (u_hash u l) (u_uid u) [].

  (** [streamToDataServer] (object_service.go 196-233): is the body accepted? *)
  Definition accepted (cf : config) (u : upload) : bool :=
    if cf_checksum cf
    then bool_decide ((if cut_short u then [] else sha (received u)) = u_digest u)
    else negb (cut_short u).

  (** [Commit(true)] of the stream: [a] reported as success, else [b] whether the shards
      were stored all the same. *)
  Definition put_data (h content : str) (compress : bool) (ch : choice) (m : gmap str stored) : gmap str stored :=
    if ch_a ch || ch_b ch then <[ h := mk_stored content compress ]> m else m.

  (** Saving metadata (meta_service.go 22-24): [ErrMetadataExists] never comes from a raft
      group, where the answer is success (fsm_impl.go 207-222). *)
  Definition save_meta (u : upload) (d : db) : db * bool :=
    let (d', x) := dispatch (command true (AddMetadata (u_id u) (mk_metadata (u_name u) (u_bucket u) (u_now u) (u_now u)))) d in
    (d', match x with RStatus st _ => (st =? 200)%Z | _ => false end).

  (** Adding the version (version_repo.go 45-57). *)
  Definition save_version (id : str) (v : version) (d : db) : db * option Z :=
    let (d', x) := dispatch (command true (AddVersion id v)) d in
    (d', match x with RStatus st (Some n) => if (st =? 200)%Z then Some (int32 n) else None | _ => None end).

  (** One step of a request. *)
  Definition advance (cf : config) (d : db) (m : gmap str stored) (t : thread) (ch : choice)
    : db * gmap str stored * thread :=
    match t with
    | PLocate u =>          (* object_service.go 126-157 *)
        match d_bkt d !! u_bucket u with
        | None => (d, m, PDone u (u_want u) None)
        | Some b =>
            if b_readonly b then (d, m, PDone u (u_want u) None)
            else
              let l := make_version (policy_of b) (cf_def cf) (u_want u) in
              let present := bool_decide (is_Some (m !! u_hash u l)) in
              if (cf_distinct cf <=? u_size u)%nat && (ch_a ch && present)
              then (d, m, PMeta u l) else (d, m, PUpload u l)
        end
    | PUpload u l =>        (* object_service.go 158-170, 196-233 *)
        if accepted cf u
        then (d, put_data (u_hash u l) (received u) (l_compress l) ch m,
              if ch_a ch then PMeta u l else PDone u l None)
        else (d, m, PDone u l None)
    | PMeta u l =>          (* object_service.go 171-181; [ch_a]: no metadata was found *)
        if ch_a ch
        then let (d', ok) := save_meta u d in (d', m, if ok then PVersion u l else PDone u l None)
        else (d, m, PVersion u l)
    | PVersion u l =>       (* object_service.go 182-184, meta_service.go 26-28 *)
        let (d', r) := save_version (u_id u) (u_version u l (l_compress l)) d in (d', m, PDone u l r)
    | PDone _ _ _ => (d, m, t)
    | BPost u =>            (* big_api.go 48-114 *)
        match d_bkt d !! u_bucket u with
        | None => (d, m, BDone u (u_want u) None)
        | Some b =>
            if b_readonly b then (d, m, BDone u (u_want u) None)
            else
              let l := big_layout b (cf_def cf) u in
              let present := bool_decide (is_Some (m !! u_hash u l)) in
              if ch_a ch && present then (d, m, BFinish u l true) else (d, m, BPatch u l)
        end
    | BPatch u l =>         (* big_api.go 160-188: only the announced size finishes *)
        if (length (u_sent u) =? u_size u)%nat then (d, m, BFinish u l false) else (d, m, BDone u l None)
    | BFinish u l loc =>    (* big_api.go 206-218 *)
        if cf_checksum cf
        then if bool_decide (temp_digest ch (u_hash u l) (all_shards l) = u_hash u l)
             then (d, m, BMeta u l loc) else (d, m, BDone u l None)
        else (d, m, BMeta u l loc)
    | BMeta u l loc =>      (* big_api.go 247, 261-270 *)
        if ch_a ch
        then let (d', ok) := save_meta u d in (d', m, if ok then BVersion u l loc else BDone u l None)
        else (d, m, BVersion u l loc)
    | BVersion u l loc =>   (* big_api.go 69-78, 180-188: the version made by Patch has no Compress *)
        let (d', r) := save_version (u_id u) (u_version u l (if loc then l_compress l else false)) d in
        (d', m, match r with
                | None => BDone u l None
                | Some n => if loc then BDone u l (Some n) else BCommit u l n
                end)
    | BCommit u l n =>      (* big_api.go 194-197 *)
        (d, put_data (u_hash u l) (u_sent u) (l_compress l) ch m, BDone u l (if ch_a ch then Some n else None))
    | BDone _ _ _ => (d, m, t)
    end.

  Definition cstep (cf : config) (w : world) (a : cact) : world :=
    match a with
    | CPut u => if bound u then mk_world (w_db w) (w_data w) (w_threads w ++ [PLocate u]) else w
    | CBig u => if bound u then mk_world (w_db w) (w_data w) (w_threads w ++ [BPost u]) else w
    | CStep k ch =>
        match w_threads w !! k with
        | None => w
        | Some t => let '(d, m, t') := advance cf (w_db w) (w_data w) t ch in
                    mk_world d m (<[ k := t' ]> (w_threads w))
        end
    | COther c => mk_world (fst (dispatch (command true c) (w_db w))) (w_data w) (w_threads w)
    end.

  Definition crun (cf : config) (w : world) (acts : list cact) : world := fold_left (cstep cf) acts w.

  Definition world_start : world := mk_world db_empty ∅ [].

  (** Reading a version ([GetObject], object_service.go 234-248). *)
  Definition read_version (m : gmap str stored) (v : version) : option str :=
    match m !! v_hash v with
    | None => None
    | Some s =>
        let raw := if s_comp s then comp (s_content s) else s_content s in
        let x := if v_compress v then decomp raw else raw in
        Some (if (v_size v =? Z.of_nat (length (s_content s)))%Z then x else other_size raw (v_size v))
    end.

  (** [GET /objects/name?version=n] (objects_api.go 58-94, meta_service.go 52-69). *)
  Definition get_object (w : world) (bucket name : str) (ver : Z) : option str :=
    match d_meta (w_db w) !! object_id bucket name with
    | None => None
    | Some _ =>
        match service_get_version (object_id bucket name) ver (w_db w) with
        | None => None
        | Some v => read_version (w_data w) v
        end
    end.
End Client.
