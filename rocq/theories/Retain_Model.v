(** Storing a new version and dropping the oldest one, against the metadata store. *)
From Verif Require Import Str_Model Meta_Model Meta_Spec.
From stdpp Require Import gmap.

Definition run_calls (d : db) (cs : list call) : db := hrun d (map (fun c => HCmd (command true c)) cs).

(** What object_service.go 117-125 reads before the upload: [GetMetadata] with extra
    (metaserver metadata_service.go 138-160, GetExtra); [None] is no such object. *)
Definition put_read (id : str) (d : db) : option (nat * Z * Z) := get_extra id d.

(** object_service.go 172-192 (and big_api.go 245-272): the metadata calls that follow,
    given what was read.  A new object gets metadata and its first version
    (meta_service.go 22-30 [SaveMetadata]); otherwise a version is added and, by the rule
    of line 185, the version then first is removed.  metadata_server.go 159-167 refuses
    to remove a number <= 0.  Simplified: the removal, started in the background, is
    done before the next upload; [SaveMetadata] answering [ErrMetadataExists] is left
    out. *)
Definition put_calls (versioning : bool) (remains : Z) (id : str) (m : metadata) (v : version)
    (r : option (nat * Z * Z)) : list call :=
  match r with
  | None => [AddMetadata id m; AddVersion id v]
  | Some (total, first, _) =>
      AddVersion id v ::
      if ((0 <? Z.of_nat total)%Z && negb versioning) || (remains <=? Z.of_nat total)%Z
      then if (0 <? first)%Z then [RemoveVersion id (Z.to_N first)] else []
      else []
  end.

(** One upload (object_service.go 112-194), the metadata side. *)
Definition put (versioning : bool) (remains : Z) (id : str) (m : metadata) (d : db) (v : version) : db :=
  run_calls d (put_calls versioning remains id m v (put_read id d)).

(** A series of uploads of one object. *)
Definition uploads (versioning : bool) (remains : Z) (id : str) (m : metadata) (vs : list version) (d : db) : db :=
  fold_left (put versioning remains id m) vs d.

(** Two uploads at once: both read before either writes. *)
Definition put_two (versioning : bool) (remains : Z) (id : str) (m : metadata) (v w : version) (d : db) : db :=
  let r := put_read id d in
  run_calls (run_calls d (put_calls versioning remains id m v r)) (put_calls versioning remains id m w r).
