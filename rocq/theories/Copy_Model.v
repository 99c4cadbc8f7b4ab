(** Model of the replicated streams of the API server
    (src/apiserver/internal/usecase/service/copy_put_stream.go, copy_get_stream.go,
    copy_fix_stream.go, get_stream.go) on top of the files of Rs_Model.

    Simplified: as in Rs_Model a data server failing during an upload aborts the upload;
    compression is not modelled. *)
From Verif Require Export Rs_Model.

Section Copy.
  Context {B : Type}.
  Variable zero : B.

  (** copy_put_stream.go:13-17: bytes not sent yet, blocks sent to every writer. *)
  Record copier := { c_cache : list B; c_sent : list (list B) }.
  Definition new_copier : copier := {| c_cache := []; c_sent := [] |}.

  (** copy_put_stream.go:45-62 [Flush]. *)
  Definition c_flush (e : copier) : copier :=
    match c_cache e with
    | [] => e
    | _ => {| c_cache := []; c_sent := c_sent e ++ [c_cache e] |}
    end.

  (** copy_put_stream.go:64-83 [Write] with block size [bs]; [None] = still looping. *)
  Fixpoint c_write (bs fuel : nat) (e : copier) (bt : list B) : option copier :=
    match bt with
    | [] => Some e
    | _ =>
        match fuel with
        | O => None
        | S f =>
            let next := Nat.min (bs - length (c_cache e)) (length bt) in
            let e1 := {| c_cache := c_cache e ++ firstn next bt; c_sent := c_sent e |} in
            let e2 := if bs <=? length (c_cache e1) then c_flush e1 else e1 in
            c_write bs f e2 (skipn next bt)
        end
    end.
  Fixpoint c_writes (bs fuel : nat) (e : copier) (bts : list (list B)) : option copier :=
    match bts with
    | [] => Some e
    | bt :: rest => match c_write bs fuel e bt with Some e' => c_writes bs fuel e' rest | None => None end
    end.
  (** Writes, then [Commit] (copy_put_stream.go:95-113): the blocks every copy got. *)
  Definition c_upload (bs fuel : nat) (bts : list (list B)) : option (list (list B)) :=
    match c_writes bs fuel new_copier bts with Some e => Some (c_sent (c_flush e)) | None => None end.

  (** ** Data servers *)

  (** The copies on the data servers: server, copy number -> file. *)
  Definition servers := nat -> nat -> option (list B).

  (** objects_service.go:129-152 [GetFile]: at most [size] bytes from [off] on (the
      limit does not shrink with the offset). *)
  Definition fetch_at (file : list B) (off size : nat) : list B := firstn size (skipn off file).

  (** objects_service.go:82-106 [Put]: nothing happens if the object exists. *)
  Definition put_object (rf : bool) (sv : servers) (s i : nat) (data : list B) : servers :=
    match sv s i with
    | Some _ => sv
    | None =>
        match store_blocks zero rf [data] with
        | Some f => fun s' i' => if (s' =? s) && (i' =? i) then Some f else sv s' i'
        | None => sv
        end
    end.

  (** ** Reading *)

  (** copy_get_stream.go:21-30: the first reachable copy and the new servers chosen
      ([lb.Select]) for the copies before it. *)
  Fixpoint copy_open (sv : servers) (sel : nat -> nat) (idx : nat) (locs : list nat) : option nat * list nat :=
    match locs with
    | [] => (None, [])
    | l :: rest =>
        match sv l idx with
        | Some _ => (Some idx, [])
        | None => let '(found, nl) := copy_open sv sel (S idx) rest in (found, sel idx :: nl)
        end
    end.

  (** copy_get_stream.go:16-53: what a client receives that seeks to [off]
      (objects_api.go:78-83; [None] = no seek) and then reads [k] bytes; [None] = no copy
      found. *)
  Definition copy_read (sv : servers) (sel : nat -> nat) (locs : list nat) (size : nat)
    (off : option nat) (k : nat) : option (list B * list nat) :=
    match copy_open sv sel 0 locs with
    | (Some j, nl) =>
        match sv (nth j locs 0) j with
        | Some f => Some (firstn k (fetch_at f (match off with Some o => o | None => 0 end) size), nl)
        | None => None
        end
    | (None, _) => None
    end.

  (** copy_fix_stream.go:51-83 [startFix]: store what the client received under the
      names of the lost copies on their new servers. *)
  Fixpoint put_all (rf : bool) (sv : servers) (idx : nat) (nl : list nat) (data : list B) : servers :=
    match nl with
    | [] => sv
    | s :: rest => put_all rf (put_object rf sv s idx data) (S idx) rest data
    end.

  (** copy_get_stream.go:35-38, 59-69 and copy_fix_stream.go:51-83: reading, then
      closing.  [tol] = [ToleranceLossNum].  Result: bytes received, data servers and
      recorded locations afterwards (object_service.go:235-238 stores what the updater
      is given). *)
  Definition read_close (rf : bool) (sv : servers) (sel : nat -> nat) (locs : list nat) (size tol : nat)
    (off : option nat) (k : nat) : option (list B * servers * list nat) :=
    match copy_read sv sel locs size off k with
    | None => None
    | Some (bytes, nl) =>
        if tol <? length nl then Some (bytes, put_all rf sv 0 nl bytes, nl)
        else Some (bytes, sv, locs)
    end.
End Copy.
Arguments copier B : clear implicits.
Arguments servers B : clear implicits.
