(** Model of one data server: its files, path index, cache and background
    goroutines
    (src/objectserver/internal/usecase/service/objects_service.go,
    src/objectserver/internal/controller/http/objects/objects_rest.go and
    objects_cache.go, src/objectserver/internal/usecase/component/driver_manager.go).

    Simplified: requests are atomic except the uploads written with
    [PutBegin]/[PutWrite]/[PutEnd]; goroutines started by a request are kept as
    pending effects that run at any later time or never; the capacity counter,
    s2 compression and file-system errors other than a missing file are left
    out; the cache ([bigcache]) may drop any key at any time ([Evict]). *)
From Verif Require Export Str_Model Path_Model Reader_Model.
Local Notation length := List.length.

(** objects_service.go:23 [LocateKeyPrefix]. *)
Definition locate_prefix : str := s2l "LocateCache#".

(** objects_service.go:88 [filepath.Join(mp, StoragePath, fileName)] with
    [storage] = "/" ++ StoragePath ++ "/", for clean path parts. *)
Definition path_of (storage mp name : str) : str := mp ++ storage ++ name.

(** Update of a map from texts. *)
Definition upd {A} (f : str -> A) (k : str) (v : A) : str -> A :=
  fun k' => if str_eq_dec k' k then v else f k'.

Section Store.
  Context {B : Type}.
  Variable zero : B.
  (** [Config.StoragePath]. *)
  Variable storage : str.
  (** [Config.Cache.MaxItemSize]. *)
  Variable max_item : nat.

  (** One effect of a background goroutine. *)
  Inductive effect :=
  | EPut (name path : str)      (* PathDB.Put: lines 59, 102, 321 *)
  | ERemove (name path : str)   (* PathDB.Remove: lines 42, 167 *)
  | EMark (name : str)          (* MarkExist: lines 103, 322 *)
  | EUnmark (name : str)        (* UnMarkExist: line 168 *)
  | ECache (name : str) (bt : list B). (* objects_rest.go:44, 89 *)

  (** An upload in progress (objects_service.go:82-106 between its steps):
      target file, chunks still to write, whole body for the cache. *)
  Record writer := { w_name : str; w_path : str; w_chunks : list (list B); w_body : list B }.

  (** The data server: files by full path, path index, cache, mounted drivers,
      goroutines not finished, uploads in progress. *)
  Record store := {
    fs : str -> option (list B);
    idx : str -> cell;
    cch : str -> option (list B);
    drv : list str;
    tasks : list (list effect);
    writers : list writer }.

  (** A fresh data server. *)
  Definition empty_store (drivers : list str) : store :=
    {| fs := fun _ => None; idx := fun _ => None; cch := fun _ => None;
       drv := drivers; tasks := []; writers := [] |}.

  (** Field updates. *)
  Definition with_fs (s : store) f := {| fs := f; idx := idx s; cch := cch s; drv := drv s; tasks := tasks s; writers := writers s |}.
  Definition with_idx (s : store) i := {| fs := fs s; idx := i; cch := cch s; drv := drv s; tasks := tasks s; writers := writers s |}.
  Definition with_cch (s : store) c := {| fs := fs s; idx := idx s; cch := c; drv := drv s; tasks := tasks s; writers := writers s |}.
  Definition with_drv (s : store) d := {| fs := fs s; idx := idx s; cch := cch s; drv := d; tasks := tasks s; writers := writers s |}.
  Definition with_tasks (s : store) t := {| fs := fs s; idx := idx s; cch := cch s; drv := drv s; tasks := t; writers := writers s |}.
  Definition with_writers (s : store) w := {| fs := fs s; idx := idx s; cch := cch s; drv := drv s; tasks := tasks s; writers := w |}.
  (** The [go] statement. *)
  Definition spawn (s : store) (t : list effect) := with_tasks s (tasks s ++ [t]).

  (** One effect happening (cache.go:78-87 for the cache, Path_Model for the index). *)
  Definition do_effect (s : store) (e : effect) : store :=
    match e with
    | EPut n p => with_idx s (upd (idx s) n (path_put (idx s n) p))
    | ERemove n p => with_idx s (upd (idx s) n (path_remove (idx s n) p))
    | EMark n => with_cch s (upd (cch s) (locate_prefix ++ n) (Some []))
    | EUnmark n => with_cch s (upd (cch s) (locate_prefix ++ n) None)
    | ECache n bt => with_cch s (upd (cch s) n (Some bt))
    end.

  (** Goroutine number [i] takes its next step. *)
  Definition run_task (s : store) (i : nat) : store :=
    match nth_error (tasks s) i with
    | Some (e :: r) =>
        let s' := with_tasks s (firstn i (tasks s) ++ r :: skipn (S i) (tasks s)) in
        do_effect s' e
    | _ => s
    end.

  (** driver_manager.go:107-115 [FindMountPath]. *)
  Fixpoint find_mount (s : store) (mps : list str) (name : str) : option str :=
    match mps with
    | [] => None
    | mp :: r =>
        match fs s (path_of storage mp name) with
        | Some _ => Some (path_of storage mp name)
        | None => find_mount s r name
        end
    end.

  (** objects_service.go:49-63 [FindRealStoragePath]: the path and the state with
      its goroutine. *)
  Definition find_path (s : store) (name : str) : option str * store :=
    match path_last (idx s name) with
    | Some p => (Some p, s)
    | None =>
        match find_mount s (drv s) name with
        | None => (None, s)
        | Some p => (Some p, spawn s [EPut name p])
        end
    end.

  (** objects_service.go:27-46 [Exist]. *)
  Definition exist (s : store) (name : str) : bool * store :=
    match cch s (locate_prefix ++ name), cch s name with
    | Some _, _ | _, Some _ => (true, s)
    | None, None =>
        match find_path s name with
        | (None, s1) => (false, s1)
        | (Some p, s1) =>
            match fs s1 p with
            | Some _ => (true, do_effect s1 (EMark name))
            | None => (false, spawn s1 [ERemove name p])
            end
        end
    end.

  Inductive resp := ROk | RBytes (bt : list B) | RNotFound | RFail | RNone.

  (** objects_service.go:87-106: the file at the path gets the (padded) body;
      [fails] = the body broke off after [data]. *)
  Definition write_file (s : store) (p : str) (data : list B) (fails : bool) : store * bool :=
    let old := match fs s p with Some f => f | None => [] end in
    match append_aligned zero old (2 * block) {| src_bytes := data; src_fails := fails |} with
    | Some (f, e) => (with_fs s (upd (fs s) p (Some f)), negb e)
    | None => (s, false)
    end.

  (** objects_rest.go:41-46 after a body of [bt]. *)
  Definition cache_body (s : store) (name : str) (size : nat) (bt : list B) : store :=
    if size <=? max_item then match bt with [] => s | _ => spawn s [ECache name bt] end else s.

  (** router.go:26 and objects_rest.go:18-48 [Put] with objects_service.go:82-106,
      written to mount point [mp] (the balancer's choice); [fails] as above.  The
      existence is checked twice, as in the code. *)
  Definition put (s : store) (name mp : str) (data : list B) (fails : bool) : resp * store :=
    match data with
    | [] => (RFail, s) (* temp_mid.go:17-21 *)
    | _ =>
        match exist s name with
        | (true, s1) => (ROk, s1)
        | (false, s1) =>
            match exist s1 name with
            | (true, s2) => (ROk, cache_body s2 name (length data) [])
            | (false, s2) =>
                let p := path_of storage mp name in
                match write_file s2 p data fails with
                | (s3, false) => (RFail, s3)
                | (s3, true) => (ROk, cache_body (spawn s3 [EPut name p; EMark name]) name (length data) data)
                end
            end
        end
    end.

  (** The chunks one upload writes: the padded body in pieces of two pages
      (objects_service.go:236, 241). *)
  Fixpoint chunks (fuel : nat) (data : list B) : list (list B) :=
    match fuel, data with
    | S f, _ :: _ => firstn (2 * block) data :: chunks f (skipn (2 * block) data)
    | _, _ => []
    end.

  (** The same upload, one write at a time: both existence checks, ... *)
  Definition put_begin (s : store) (name mp : str) (data : list B) : resp * store :=
    match data with
    | [] => (RFail, s)
    | _ =>
        match exist s name with
        | (true, s1) => (ROk, s1)
        | (false, s1) =>
            match exist s1 name with
            | (true, s2) => (ROk, s2)
            | (false, s2) =>
                let padded := data ++ repeat zero (aligned_size (length data) - length data) in
                (RNone, with_writers s2 (writers s2 ++
                   [{| w_name := name; w_path := path_of storage mp name;
                       w_chunks := chunks (length padded) padded; w_body := data |}]))
            end
        end
    end.
  (** ... one write to the file opened for appending, ... *)
  Definition put_write (s : store) (i : nat) : resp * store :=
    match nth_error (writers s) i with
    | Some w =>
        match w_chunks w with
        | [] => (RNone, s)
        | c :: r =>
            let old := match fs s (w_path w) with Some f => f | None => [] end in
            (RNone, with_writers (with_fs s (upd (fs s) (w_path w) (Some (old ++ c))))
               (firstn i (writers s) ++
                {| w_name := w_name w; w_path := w_path w; w_chunks := r; w_body := w_body w |}
                :: skipn (S i) (writers s)))
        end
    | None => (RNone, s)
    end.
  (** ... and the answer. *)
  Definition put_end (s : store) (i : nat) : resp * store :=
    match nth_error (writers s) i with
    | Some w =>
        match w_chunks w with
        | [] => (ROk, cache_body (spawn (with_writers s (firstn i (writers s) ++ skipn (S i) (writers s)))
                                  [EPut (w_name w) (w_path w); EMark (w_name w)])
                                 (w_name w) (length (w_body w)) (w_body w))
        | _ => (RNone, s)
        end
    | None => (RNone, s)
    end.

  (** objects_service.go:129-152 [GetFile]. *)
  Definition get_file (s : store) (p : str) (off size : nat) : option (list B) :=
    match fs s p with None => None | Some f => Some (firstn size (skipn off f)) end.

  (** objects_cache.go:11-22 [GetFromCache] (no look at the range), then
      objects_rest.go:60-93 [Get] with objects_service.go:109-125, for the offset
      of the range header and the size header. *)
  Definition get (s : store) (name : str) (off size : nat) : resp * store :=
    match cch s name with
    | Some bt => (RBytes bt, s)
    | None =>
        match exist s name with
        | (false, s1) => (RNotFound, s1)
        | (true, s1) =>
            match find_path s1 name with
            | (None, s2) => (RNotFound, s2) (* the empty path is opened *)
            | (Some p, s2) =>
                match get_file s2 p off size with
                | None => (RNotFound, s2)
                | Some bt => (RBytes bt, cache_body (do_effect s2 (EMark name)) name size bt)
                end
            end
        end
    end.

  (** objects_rest.go:95-102 [Head]. *)
  Definition head (s : store) (name : str) : resp * store :=
    match exist s name with (true, s1) => (ROk, s1) | (false, s1) => (RNotFound, s1) end.

  (** objects_rest.go:50-58 [Delete] with objects_service.go:155-187. *)
  Definition delete (s : store) (name : str) : resp * store :=
    let s0 := with_cch s (upd (cch s) name None) in
    match exist s0 name with
    | (false, s1) => (ROk, s1)
    | (true, s1) =>
        match find_path s1 name with
        | (None, s2) => (ROk, spawn s2 [ERemove name []; EUnmark name])
        | (Some p, s2) =>
            (ROk, spawn (with_fs s2 (upd (fs s2) p None)) [ERemove name p; EUnmark name])
        end
    end.

  (** objects_service.go:286-326 [CommitFile] without compression, of a temp file
      holding [file] on mount point [mp]. *)
  Definition commit (s : store) (mp name : str) (file : list B) : resp * store :=
    let p := path_of storage mp name in
    match fs s p with
    | Some _ => (ROk, s)
    | None => (ROk, spawn (with_fs s (upd (fs s) p (Some file))) [EPut name p; EMark name])
    end.

  (** What can happen to a data server. *)
  Inductive op :=
  | Put (name mp : str) (data : list B)
  | PutFails (name mp : str) (data : list B)
  | PutBegin (name mp : str) (data : list B)
  | PutWrite (i : nat)
  | PutEnd (i : nat)
  | Get (name : str) (off size : nat)
  | Head (name : str)
  | Delete (name : str)
  | Commit (mp name : str) (file : list B)
  | Run (i : nat)
  | Evict (key : str)
  | Drivers (mps : list str)
  | Restart.

  (** One event; [Restart] loses cache and goroutines, files and index stay
      (badger and the file system are on disk). *)
  Definition step (s : store) (o : op) : resp * store :=
    match o with
    | Put n m d => put s n m d false
    | PutFails n m d => put s n m d true
    | PutBegin n m d => put_begin s n m d
    | PutWrite i => put_write s i
    | PutEnd i => put_end s i
    | Get n off size => get s n off size
    | Head n => head s n
    | Delete n => delete s n
    | Commit m n f => commit s m n f
    | Run i => (RNone, run_task s i)
    | Evict k => (RNone, with_cch s (upd (cch s) k None))
    | Drivers l => (RNone, with_drv s l)
    | Restart => (RNone, {| fs := fs s; idx := idx s; cch := fun _ => None; drv := drv s; tasks := []; writers := [] |})
    end.

  (** A history: the final state. *)
  Definition run (s : store) (ops : list op) : store := fold_left (fun s o => snd (step s o)) ops s.
  (** The answer to the last event. *)
  Definition answer (s : store) (ops : list op) (o : op) : resp := fst (step (run s ops) o).
End Store.
Arguments op B : clear implicits.
Arguments resp B : clear implicits.
Arguments store B : clear implicits.
Arguments effect B : clear implicits.
