(** Model of the uploads of pieces to a data server: their temporary files, the entries
    in its cache, the removal of what is left, and the counter of stored bytes.

    Source: src/objectserver/internal/controller/http/temp/temp_mid.go 10-21,
    temp_rest.go 19-128, src/objectserver/internal/usecase/service/temp_service.go 16-68,
    objects_service.go 82-106, 154-187, 229-237, 264-278, 286-326, common.go 12-35,
    migration_service.go 265-279, 317-334, src/common/cache/cache.go 46-106,
    src/objectserver/internal/db/object_capacity_db.go 7-25,
    src/objectserver/internal/app/app.go 36-48.

    Simplified: requests and the handling of one notification are atomic.  A file below
    [TempPath] of a mount point is the pair of mount point and id, one below [StoragePath]
    the pair of mount point and name; the two directories differ and no mount point lies
    in another's.  Compression is a function of the content.  The cache drops an entry
    whenever it likes.  Failures of the disk are left out. *)
From Verif Require Import Str_Model.
From stdpp Require Import gmap.
Local Open Scope list_scope.

(** ** Uploads *)

(** entity/dto.go 25-31 [TempInfo] as filled by [Post] (temp_rest.go 46-52). *)
Record tinfo := mk_tinfo { ti_id : str; ti_name : str; ti_size : nat; ti_mp : str }.

(** The mount point the relative [TempPath] leads to from the working directory (the
    cleaner uses it without a mount point, temp_service.go 48); the page size; compression. *)
Record pconf := mk_pconf { pc_base : str; pc_page : nat; pc_comp : str -> str }.

(** Cache entries, temporary files, objects, notifications on their way (cache.go 46-53). *)
Record pstate := mk_pstate {
  ps_cache : gmap str tinfo; ps_temp : gmap (str * str) str; ps_objs : gmap (str * str) str; ps_events : list tinfo }.

Definition p0 : pstate := mk_pstate ∅ ∅ ∅ [].

Definition zero_byte : ascii := Ascii.zero.

(** What [disk.PaddingReader] makes of a body (objects_service.go 229-237). *)
Definition pad (page : nat) (s : str) : str :=
  s ++ List.repeat zero_byte ((page - length s mod page) mod page).

(** Requests and events.  [arrived]: [None] for a body that arrives in full, [Some k] for
    one that breaks off after [k] bytes. *)
Inductive pop :=
| OPost (name : str) (size : nat) (mp id : str)
| OPatch (id body : str) (arrived : option nat)
| OHead (id : str)
| ODelete (id : str)
| OPut (id : str) (compress : bool)
| OExpire (id : str)
| OClean (k : nat)
| ORestart.

(** [Cache.Delete] (cache.go 82-87) and the cache's own evictions: both notify. *)
Definition drop_entry (id : str) (s : pstate) : pstate :=
  match ps_cache s !! id with
  | Some ti => mk_pstate (delete id (ps_cache s)) (ps_temp s) (ps_objs s) (ps_events s ++ [ti])
  | None => s
  end.

(** The part of a body that arrives. *)
Definition arriving (body : str) (arrived : option nat) : str :=
  match arrived with None => body | Some k => firstn k body end.

(** [Patch] (temp_rest.go 19-36) behind [FilterExpired] and [FilterEmptyRequest]. *)
Definition patch (c : pconf) (id body : str) (arrived : option nat) (s : pstate) : pstate * Z :=
  match ps_cache s !! id with
  | None => (s, 404%Z)
  | Some ti =>
      match body with
      | [] => (s, 400%Z)
      | _ =>
          let old := default ([] : str) (ps_temp s !! (ti_mp ti, id)) in
          (mk_pstate (ps_cache s) (<[(ti_mp ti, id) := old ++ pad (pc_page c) (arriving body arrived)]> (ps_temp s))
             (ps_objs s) (ps_events s),
           match arrived with None => 200%Z | Some _ => 500%Z end)
      end
  end.

(** [CommitFile] (objects_service.go 286-314): the state and whether it succeeds.  A
    compressed commit of an empty file panics after creating the object ([io.CopyBuffer]
    with an empty buffer, 265-273, 305-306). *)
Definition commit (c : pconf) (ti : tinfo) (id : str) (compress : bool) (s : pstate) : pstate * Z :=
  match ps_objs s !! (ti_mp ti, ti_name ti) with
  | Some _ => (s, 200%Z)
  | None =>
      match ps_temp s !! (ti_mp ti, id) with
      | None => (s, 404%Z)
      | Some x =>
          if compress then
            match x with
            | [] => (mk_pstate (ps_cache s) (ps_temp s) (<[(ti_mp ti, ti_name ti) := []]> (ps_objs s)) (ps_events s), 500%Z)
            | _ => (mk_pstate (ps_cache s) (ps_temp s) (<[(ti_mp ti, ti_name ti) := pc_comp c x]> (ps_objs s)) (ps_events s), 200%Z)
            end
          else (mk_pstate (ps_cache s) (delete (ti_mp ti, id) (ps_temp s))
                  (<[(ti_mp ti, ti_name ti) := x]> (ps_objs s)) (ps_events s), 200%Z)
      end
  end.

(** [Put] (temp_rest.go 63-83). *)
Definition put (c : pconf) (id : str) (compress : bool) (s : pstate) : pstate * Z :=
  match ps_cache s !! id with
  | None => (s, 404%Z)
  | Some ti =>
      let '(s', st) := commit c ti id compress s in
      if (st =? 200)%Z then (drop_entry id s', 200%Z) else (s', st)
  end.

(** [Head] (temp_rest.go 86-106): the answer and the size it tells. *)
Definition head (id : str) (s : pstate) : option nat :=
  match ps_cache s !! id with
  | None => None
  | Some ti => match ps_temp s !! (ti_mp ti, id) with
               | None => Some 0
               | Some x => Some (Nat.min (length x) (ti_size ti))
               end
  end.

(** One request or event and the status it is answered with. *)
Definition pstep (c : pconf) (s : pstate) (o : pop) : pstate * Z :=
  match o with
  | OPost name size mp id =>  (* temp_rest.go 44-61 *)
      match size with
      | O => (s, 400%Z)
      | _ => (mk_pstate (<[id := mk_tinfo id name size mp]> (ps_cache s)) (ps_temp s) (ps_objs s) (ps_events s), 200%Z)
      end
  | OPatch id body arrived => patch c id body arrived s
  | OHead id => (s, match head id s with Some _ => 200%Z | None => 404%Z end)
  | ODelete id =>  (* temp_rest.go 38-42 *)
      match ps_cache s !! id with None => (s, 404%Z) | Some _ => (drop_entry id s, 200%Z) end
  | OPut id compress => put c id compress s
  | OExpire id => (drop_entry id s, 200%Z)
  | OClean k =>  (* temp_service.go 43-56, [DeleteFile] (objects_service.go 174-187) *)
      match ps_events s !! k with
      | Some ti => (mk_pstate (ps_cache s) (delete (pc_base c, ti_id ti) (ps_temp s)) (ps_objs s) (delete k (ps_events s)), 200%Z)
      | None => (s, 200%Z)
      end
  | ORestart => (mk_pstate ∅ (ps_temp s) (ps_objs s) [], 200%Z)
  end.

Definition prun (c : pconf) (ops : list pop) (s : pstate) : pstate := fold_left (fun s o => fst (pstep c s o)) ops s.

(** ** The counter of stored bytes *)

(** What goroutines still have to do with the counter. *)
Inductive ceff := CAdd (n : Z) | CSub (n : Z) | CStat (name : str).

(** Objects with the sizes of their files, the counter, the goroutines.  Simplified: the
    counter (an int64) does not overflow. *)
Record cstate := mk_cstate { cs_objs : gmap str Z; cs_cap : Z; cs_pend : list ceff }.

Definition c0 : cstate := mk_cstate ∅ 0 [].

(** [plain] is the length written, [file] the length of the file. *)
Inductive cop :=
| CPut (name : str) (plain file : Z) (compress : bool)
| CCommit (name : str) (plain file : Z) (compress : bool)
| CDelete (name : str)
| CReceive (name : str) (size : Z)
| CRun (k : nat)
| CStart (dirs : Z).

(** Total size of the stored files. *)
Definition total_size (m : gmap str Z) : Z := map_fold (fun _ n a => (n + a)%Z) 0%Z m.

(** What a goroutine does (objects_service.go 99-104, 164-169, 317-324). *)
Definition run_eff (s : cstate) (e : ceff) : Z :=
  match e with
  | CAdd n => n
  | CSub n => (- n)%Z
  | CStat name => default 0%Z (cs_objs s !! name)
  end.

Definition cap_step (s : cstate) (o : cop) : cstate :=
  match o with
  | CPut name plain file compress =>  (* objects_service.go 82-106 *)
      match cs_objs s !! name with
      | Some _ => s
      | None => mk_cstate (<[name := file]> (cs_objs s)) (cs_cap s) (cs_pend s ++ [CAdd (if compress then plain else file)])
      end
  | CCommit name plain file compress =>  (* 286-326; a compressed commit returns at 307 *)
      match cs_objs s !! name with
      | Some _ => s
      | None =>
          if compress then mk_cstate (<[name := file]> (cs_objs s)) (cs_cap s) (cs_pend s)
          else mk_cstate (<[name := file]> (cs_objs s)) (cs_cap s) (cs_pend s ++ [CStat name])
      end
  | CDelete name =>  (* 154-171 *)
      match cs_objs s !! name with
      | Some n => mk_cstate (delete name (cs_objs s)) (cs_cap s) (cs_pend s ++ [CSub n])
      | None => s
      end
  | CReceive name size =>  (* migration_service.go 317-334, then 265-279 *)
      mk_cstate (<[name := size]> (cs_objs s)) (cs_cap s + size) (cs_pend s)
  | CRun k =>
      match cs_pend s !! k with
      | Some e => mk_cstate (cs_objs s) (cs_cap s + run_eff s e) (delete k (cs_pend s))
      | None => s
      end
  | CStart dirs =>  (* a new process (pool/instance.go 127-129), then common.go 13-35: directories count, too *)
      mk_cstate (cs_objs s) (total_size (cs_objs s) + dirs) []
  end.

Definition cap_run (ops : list cop) (s : cstate) : cstate := fold_left cap_step ops s.
