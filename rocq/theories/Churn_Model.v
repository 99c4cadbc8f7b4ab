(** Uploads at once and the versions that are kept: the metadata side of
    [ObjectService.StoreObject] (src/apiserver/internal/usecase/service/object_service.go
    111-194) and of the end of a resumable upload
    (src/apiserver/internal/controller/http/big_api.go 222-272), request by request, against
    the metadata store.

    Simplified: sending the content and reading the bucket happen in between without
    touching the store, so the settings of the bucket are part of the upload; the entries
    are applied as raft's batches apply them (the other repository does the same for
    versions with hash and unique id, C15); an answer that is lost is the request followed
    by [Cut]. *)
From Verif Require Import Str_Model Meta_Model Meta_Spec Retain_Model.
From stdpp Require Import gmap.

(** One upload: the id of the object (meta_repo.go 33), its metadata and version as sent, and
    the bucket it read (object_service.go 127-137). *)
Record upload := mk_upload {
  u_id : str; u_meta : metadata; u_ver : version; u_versioning : bool; u_remains : Z }.

(** Where an upload stands: nothing read; metadata read (object_service.go 117-125; [None] also
    when the reading failed, line 122 tests another error); metadata inserted (meta_service.go
    23-25); told that it exists (object_service.go 174-176); version [n] added and version
    [first] to be removed in the background (185-192); through with version [n]; failed. *)
Inductive phase :=
| Begun
| Known (r : option (nat * Z * Z))
| Created
| Again
| Removing (n : N) (first : Z)
| Finished (n : N)
| Broken.

(** The metadata store and the uploads begun so far (object_service.go 111-194). *)
Record state := mk_state { s_db : db; s_ups : list (upload * phase) }.

(** Before the first upload (object_service.go 111). *)
Definition start (d : db) : state := mk_state d [].

(** What may happen next: an upload arrives; it reads the metadata, which succeeds or not
    (117-125); it inserts the metadata ([tells]: a server without raft tells that they exist,
    fsm_impl.go 207-222); reads again (177-180); adds its version (182-184); its background
    goroutine removes one (186-191); the request or the goroutine ends early. *)
Inductive event :=
| Arrive (u : upload)
| Read (i : nat) (reached : bool)
| Insert (i : nat) (tells : bool)
| Reread (i : nat)
| Add (i : nat)
| Remove (i : nat)
| Cut (i : nat).

(** The rule of object_service.go 185 and big_api.go 251. *)
Definition too_many (u : upload) (total : nat) : bool :=
  ((0 <? Z.of_nat total)%Z && negb (u_versioning u)) || (u_remains u <=? Z.of_nat total)%Z.

(** [Insert] of the metadata (meta_repo.go 32-48 with metadata_service.go 26-38). *)
Definition insert_meta (u : upload) (tells : bool) (d : db) : db * phase :=
  match d_meta d !! u_id u with
  | Some _ => (d, if tells then Again else Created)
  | None =>
      match dispatch (command true (AddMetadata (u_id u) (u_meta u))) d with
      | (d', RStatus 200 _) => (d', Created)
      | (d', _) => (d', Broken)
      end
  end.

(** [AddVersion] (version_repo.go 45-57 with metadata_service.go 40-59), and what follows. *)
Definition add_one (u : upload) (after : N -> phase) (d : db) : db * phase :=
  match dispatch (command true (AddVersion (u_id u) (u_ver u))) d with
  | (d', RStatus 200 (Some n)) => (d', after n)
  | (d', _) => (d', Broken)
  end.

(** [RemoveVersion] (version_repo.go 59-66, metadata_server.go 159-167, metadata_service.go
    118-135): numbers <= 0 are refused. *)
Definition remove_one (u : upload) (first : Z) (d : db) : db :=
  if (0 <? first)%Z then fst (dispatch (command true (RemoveVersion (u_id u) (Z.to_N first))) d) else d.

(** What one event does to the store and to the upload it belongs to (object_service.go 111-194);
    events that do not fit leave both alone. *)
Definition advance (e : event) (u : upload) (p : phase) (d : db) : db * phase :=
  match e, p with
  | Read _ true, Begun => (d, Known (get_extra (u_id u) d))
  | Read _ false, Begun => (d, Known None)
  | Insert _ tells, Known None => insert_meta u tells d
  | Reread _, Again =>
      (d, match get_extra (u_id u) d with Some r => Known (Some r) | None => Broken end)
  | Add _, Created => add_one u Finished d
  | Add _, Known (Some (total, first, _)) =>
      add_one u (fun n => if too_many u total then Removing n first else Finished n) d
  | Remove _, Removing n first => (remove_one u first d, Finished n)
  | Cut _, Removing n _ => (d, Finished n)
  | Cut _, Finished n => (d, Finished n)
  | Cut _, _ => (d, Broken)
  | _, _ => (d, p)
  end.

(** Which upload an event belongs to (object_service.go 111: each request has its own variables). *)
Definition owner (e : event) : option nat :=
  match e with
  | Arrive _ => None
  | Read i _ | Insert i _ | Reread i | Add i | Remove i | Cut i => Some i
  end.

(** One event (object_service.go 111-194). *)
Definition step (s : state) (e : event) : state :=
  match e with
  | Arrive u => mk_state (s_db s) (s_ups s ++ [(u, Begun)])
  | _ =>
      match owner e with
      | None => s
      | Some i =>
          match s_ups s !! i with
          | None => s
          | Some (u, p) => let (d, p') := advance e u p (s_db s) in
                           mk_state d (<[ i := (u, p') ]> (s_ups s))
          end
      end
  end.

(** Any interleaving of any number of uploads. *)
Definition run (s : state) (es : list event) : state := fold_left step es s.

(** The requests of upload [i] when nothing fails (object_service.go 111-194). *)
Definition whole (i : nat) : list event := [Read i true; Insert i false; Add i; Remove i].
