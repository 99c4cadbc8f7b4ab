(** Model of where a data server keeps its files: the directories of its configuration
    (src/objectserver/config/config.go 52-60), the paths made of names
    (src/objectserver/internal/usecase/service/objects_service.go,
    usecase/component/driver_manager.go, controller/http/temp/temp_rest.go) and the files taken
    over from other servers (controller/grpc/migration_server.go 30-71,
    usecase/service/migration_service.go 265-336).

    Simplified: a file system is the content of its files by cleaned path and the set of its
    directories; no symbolic links; reading and writing succeed; bodies are stored without
    padding (Reader_Model) and uncompressed (Comp_Model); goroutines started by a request have
    run when it is answered (Store_Model has them apart). *)
From Coq Require Import List Bool Arith NArith ZArith Ascii.
From Verif Require Import Str_Model Path_Model Panic_Model.
Import ListNotations.
Local Open Scope list_scope.

(** ** Paths *)

(** Texts with slashes between them, [strings.Join(l, "/")]. *)
Fixpoint slashes (l : list str) : str :=
  match l with [] => [] | [x] => x | x :: r => x ++ "/"%char :: slashes r end.

Definition dot : str := ["."%char].
Definition dots : str := ["."%char; "."%char].

(** One element of a path in [filepath.Clean] of Go, called by [filepath.Join]
    (objects_service.go 52, 88, 175, 287-288). *)
Definition estep (rooted : bool) (st : list str) (e : str) : list str :=
  if str_eqb e [] || str_eqb e dot then st
  else if str_eqb e dots then
    match st with
    | [] => if rooted then [] else [dots]
    | t :: r => if str_eqb t dots then dots :: st else r
    end
  else e :: st.

Definition rooted (p : str) : bool := match p with c :: _ => if ascii_dec c "/"%char then true else false | [] => false end.

(** [filepath.Clean] on Unix (as above). *)
Definition clean (p : str) : str :=
  let st := rev (fold_left (estep (rooted p)) (split_on "/"%char p) []) in
  if rooted p then "/"%char :: slashes st else match st with [] => dot | _ => slashes st end.

(** [filepath.Join] on Unix (as above): empty elements at the front are dropped. *)
Fixpoint join_path (l : list str) : str :=
  match l with [] => [] | [] :: r => join_path r | _ => clean (slashes l) end.

(** ** The server *)

(** [StoragePath] and [TempPath] as [initialize] leaves them (config.go 52-60). *)
Definition store_dir (storage sid : str) : str := join_path [storage; sid ++ s2l "_store"%string].
Definition temp_dir (storage sid : str) : str := store_dir storage sid.

(** [LocateKeyPrefix] (objects_service.go 23) and [TempKeyPrefix] (entity/dto.go 11). *)
Definition locate_prefix : str := s2l "LocateCache#"%string.
Definition temp_prefix : str := s2l "TempInfo_"%string.

(** The drives in use, the directories of the configuration, files, directories, the index of
    paths (Path_Model) and the cache. *)
Record dserver := DServer {
  ds_mps : list str;
  ds_storage : str;
  ds_sid : str;
  ds_fs : str -> option str;
  ds_dirs : str -> bool;
  ds_index : str -> cell;
  ds_cache : str -> option str }.

(** Changes of single fields. *)
Definition set_key {A : Type} (f : str -> A) (k : str) (v : A) : str -> A := fun x => if str_eqb x k then v else f x.
Definition with_file (s : dserver) (p : str) (v : option str) : dserver :=
  DServer (ds_mps s) (ds_storage s) (ds_sid s) (set_key (ds_fs s) p v) (ds_dirs s) (ds_index s) (ds_cache s).
Definition with_cell (s : dserver) (n : str) (v : cell) : dserver :=
  DServer (ds_mps s) (ds_storage s) (ds_sid s) (ds_fs s) (ds_dirs s) (set_key (ds_index s) n v) (ds_cache s).
Definition with_cached (s : dserver) (k : str) (v : option str) : dserver :=
  DServer (ds_mps s) (ds_storage s) (ds_sid s) (ds_fs s) (ds_dirs s) (ds_index s) (set_key (ds_cache s) k v).

(** The path a file is written to (objects_service.go 88, 287, migration_service.go 321) and the
    path of an upload (temp_rest.go 54, objects_service.go 288). *)
Definition object_path (s : dserver) (mp name : str) : str := join_path [mp; store_dir (ds_storage s) (ds_sid s); name].
Definition temp_path (s : dserver) (mp id : str) : str := join_path [mp; temp_dir (ds_storage s) (ds_sid s); id].

(** [os.Stat] succeeds (objects_service.go 66-69). *)
Definition there (s : dserver) (p : str) : bool := ds_dirs s p || match ds_fs s p with Some _ => true | None => false end.

(** [FindMountPath] (driver_manager.go 107-115) for the path that objects_service.go 52 gives it. *)
Fixpoint find_mount (s : dserver) (mps : list str) (path : str) : option str :=
  match mps with
  | [] => None
  | mp :: r => if there s (join_path [mp; path]) then Some (join_path [mp; path]) else find_mount s r path
  end.

(** [FindRealStoragePath] (objects_service.go 49-63). *)
Definition find_real (s : dserver) (name : str) : option str * dserver :=
  match path_last (ds_index s name) with
  | Some p => (Some p, s)
  | None =>
      match find_mount s (ds_mps s) (join_path [store_dir (ds_storage s) (ds_sid s); name]) with
      | None => (None, s)
      | Some p => (Some p, with_cell s name (path_put (ds_index s name) p))
      end
  end.

(** [Exist] (objects_service.go 27-46). *)
Definition exist (s : dserver) (name : str) : bool * dserver :=
  match ds_cache s (locate_prefix ++ name), ds_cache s name with
  | Some _, _ | _, Some _ => (true, s)
  | None, None =>
      match find_real s name with
      | (None, s1) => (false, s1)
      | (Some p, s1) =>
          if there s1 p then (true, with_cached s1 (locate_prefix ++ name) (Some []))
          else (false, with_cell s1 name (path_remove (ds_index s1 name) p))
      end
  end.

Definition content (s : dserver) (p : str) : str := match ds_fs s p with Some c => c | None => [] end.

(** [Put] of an object (objects_rest.go 18-48 with objects_service.go 82-106): is success
    answered. *)
Definition put (s : dserver) (mp name body : str) : bool * dserver :=
  match exist s name with
  | (true, s1) => (true, s1)
  | (false, s1) =>
      let p := object_path s1 mp name in
      if ds_dirs s1 p then (false, s1) else
      let s2 := with_file s1 p (Some (content s1 p ++ body)) in
      (true, with_cached (with_cell s2 name (path_put (ds_index s2 name) p)) (locate_prefix ++ name) (Some []))
  end.

(** [Get] of a whole object (objects_cache.go 11-22, objects_rest.go 58-91): the body of an answer
    with 200. *)
Definition get (s : dserver) (name : str) : option str :=
  match ds_cache s name with
  | Some bt => Some bt
  | None =>
      match exist s name with
      | (false, _) => None
      | (true, s1) => match fst (find_real s1 name) with Some p => ds_fs s1 p | None => None end
      end
  end.

(** [Delete] of an object (objects_rest.go 50-58 with objects_service.go 155-187). *)
Definition delete (s : dserver) (name : str) : bool * dserver :=
  let s0 := with_cached s name None in
  match exist s0 name with
  | (false, s1) => (true, s1)
  | (true, s1) =>
      match find_real s1 name with
      | (None, s2) => (true, with_cached s2 (locate_prefix ++ name) None)
      | (Some p, s2) =>
          if ds_dirs s2 p then (false, s2) else
          let s3 := with_file s2 p None in
          (true, with_cached (with_cell s3 name (path_remove (ds_index s3 name) p)) (locate_prefix ++ name) None)
      end
  end.

(** Uploads: [Post] keeps the record [rec] under the new id (temp_rest.go 44-61), [Patch] appends
    (19-36), [Put] moves the file (63-83, objects_service.go 286-326); the status. *)
Definition post (s : dserver) (id rec : str) : dserver := with_cached s id (Some rec).
Definition patch (s : dserver) (mp id data : str) : Z * dserver :=
  match ds_cache s id with
  | None => (404%Z, s)
  | Some _ => let p := temp_path s mp id in (200%Z, with_file s p (Some (content s p ++ data)))
  end.
Definition commit (s : dserver) (mp id name : str) : Z * dserver :=
  match ds_cache s id with
  | None => (404%Z, s)
  | Some _ =>
      let p := object_path s mp name in let t := temp_path s mp id in
      if there s p then (200%Z, with_cached s id None) else
      match ds_fs s t with
      | None => (404%Z, s)
      | Some c =>
          let s1 := with_file (with_file s t None) p (Some c) in
          (200%Z, with_cached (with_cached (with_cell s1 name (path_put (ds_index s1 name) p)) (locate_prefix ++ name) (Some [])) id None)
      end
  end.

(** ** Files taken over *)

(** [OpenFile] (migration_service.go 318-336): the file is there already, cannot be opened, or is
    open and empty.  The size of a directory is not modelled: it counts as another one. *)
Inductive opened := Already (s : dserver) | Refused (s : dserver) | Open (p : str) (s : dserver).
Definition open_file (s : dserver) (mp name : str) (size : Z) : opened :=
  let '(p, s1) := match find_real s name with
                  | (Some p, s1) => (p, s1)
                  | (None, s1) => let p := object_path s1 mp name in (p, with_cell s1 name (path_put (ds_index s1 name) p))
                  end in
  if ds_dirs s1 p then Refused s1 else
  match ds_fs s1 p with
  | Some c => if (Z.of_nat (List.length c) =? size)%Z then Already s1 else Open p (with_file s1 p (Some []))
  | None => Open p (with_file s1 p (Some []))
  end.

(** [ReceiveData] (migration_server.go 30-63): the messages of a stream with name, size and data;
    is success answered. *)
Definition receive (s : dserver) (mp : str) (msgs : list (str * Z * str)) : bool * dserver :=
  match msgs with
  | [] => (true, s)
  | (name, size, _) :: _ =>
      match name with
      | [] => (false, s)
      | _ =>
          match open_file s mp name size with
          | Already s1 => (true, s1)
          | Refused s1 => (false, s1)
          | Open p s1 => (true, with_file s1 p (Some (content s1 p ++ List.concat (map snd msgs))))
          end
      end
  end.

(** [strings.LastIndexByte(name, '.')] and the slices around it (migration_service.go 284-286). *)
Fixpoint last_dot (name : str) : option (str * str) :=
  match name with
  | [] => None
  | c :: r =>
      match last_dot r with
      | Some (a, b) => Some (c :: a, b)
      | None => if ascii_dec c "."%char then Some ([], r) else None
      end
  end.

(** [FinishReceive] (migration_server.go 65-70, migration_service.go 265-316): [known]: is the server
    registered; [metas] metadata servers are told, of which [fails] fail.  Without a dot the
    slice at 286 is out of range. *)
Inductive finished := FErr | FOk | FPanic.
Definition finish_object (s : dserver) (name : str) (size : Z) (known : bool) (metas fails : nat) : finished :=
  match find_real s name with
  | (None, _) => FErr
  | (Some p, s1) =>
      match ds_fs s1 p with
      | None => FErr
      | Some c =>
          if negb (Z.of_nat (List.length c) =? size)%Z then FErr else
          if negb known then FErr else
          match last_dot name with
          | None => FPanic
          | Some _ =>
              if metas =? 0 then FErr else
              if (metas + 1) / 2 <=? fails then FErr else FOk
          end
      end
  end.

(** What becomes of the server then (Panic_Model; h2c_handler.go 34-40). *)
Definition panic_of (f : finished) : option pval :=
  match f with FPanic => Some (PValue (s2l "slice bounds out of range [:-1]"%string)) | _ => None end.
Definition after_finish (sv : server) (f : finished) : server * reply := finish sv (JGrpc [], panic_of f).

(** [sendFileTo] (migration_service.go 141-160) as the receiver sees it: one file in messages of
    any sizes, then the end of it. *)
Definition take_over (s : dserver) (mp name : str) (chunks : list str) (known : bool) (metas fails : nat) : finished :=
  let size := Z.of_nat (List.length (List.concat chunks)) in
  match receive s mp (map (fun d => (name, size, d)) chunks) with
  | (false, _) => FErr
  | (true, s1) => finish_object s1 name size known metas fails
  end.

(** The files [SendingTo] comes by on a drive (migration_service.go 196-204): those whose path is
    in the storage directory of the drive; here by name. *)
Definition walked (s : dserver) (mp name : str) : bool :=
  match ds_fs s (object_path s mp name) with Some _ => true | None => false end.
