(** Model of the direct-I/O readers, src/common/system/disk/aligend_reader.go and
    multi_reader.go, and of the file writers that use them,
    src/objectserver/internal/usecase/service/objects_service.go:191-242. *)
From Coq Require Export List Arith ZArith Lia Bool.
Export ListNotations.

(** [directio.BlockSize] = [cst.OS.PageSize] = 4096 (common/cst/os_const.go:8-18). *)
Definition block : nat := Z.to_nat 4096.

Section Byte.
  Context {B : Type}.
  Variable zero : B.

  (** aligend_reader.go:12-17 [AlignedSize] (and 20-25 [AlignedSize64]). *)
  Definition aligned_size (n : nat) : nat :=
    if n mod block =? 0 then n else n - n mod block + block.

  Inductive rerr := NoErr | EOF | Failed.

  (** A source of bytes: what it delivers, then end of input or an error. *)
  Record source := { src_bytes : list B; src_fails : bool }.
  Definition src_end (s : source) : rerr := if src_fails s then Failed else EOF.

  (** aligend_reader.go:36-46 [AlignedReader.Read] for a buffer of [p] bytes:
      [io.ReadFull], [ErrUnexpectedEOF] turned into [EOF], zero padding. *)
  Definition aligned_read (s : source) (p : nat) : list B * rerr * source :=
    let got := firstn p (src_bytes s) in
    let n := length got in
    let err := if n =? p then NoErr else src_end s in
    let padding_end := Nat.min p (aligned_size n) in
    (got ++ repeat zero (padding_end - n), err,
     {| src_bytes := skipn p (src_bytes s); src_fails := src_fails s |}).

  (** [io.CopyBuffer] with a buffer of [p] bytes (objects_service.go:226, 236):
      everything written and whether an error is returned.  An empty buffer panics
      ([None]); [fuel] bounds the rounds. *)
  Fixpoint copy_loop (fuel p : nat) (s : source) (out : list B) : option (list B * bool) :=
    match fuel with
    | O => None
    | S f =>
        let '(bt, err, s') := aligned_read s p in
        match err with
        | NoErr => copy_loop f p s' (out ++ bt)
        | EOF => Some (out ++ bt, false)
        | Failed => Some (out ++ bt, true)
        end
    end.
  Definition copy_padded (p : nat) (s : source) : option (list B * bool) :=
    if p =? 0 then None else copy_loop (S (length (src_bytes s))) p s [].

  (** A regular file read from its current position: [file_read k p f] returns at
      most [p] bytes, any positive number [S k] at most (short reads are allowed). *)
  Definition file_read (k p : nat) (f : list B) : list B * rerr * list B :=
    if p =? 0 then ([], NoErr, f)
    else match f with
         | [] => ([], EOF, [])
         | _ => let n := Nat.min p (S k) in (firstn n f, NoErr, skipn n f)
         end.

  (** aligend_reader.go:53-68 [AlignedLimitedReader.Read], buffer of [p] bytes with
      capacity [c]; [None] = slice bounds panic.  A negative limit behaves as 0. *)
  Definition limited_read (k p c : nat) (limit : nat) (f : list B)
    : option (list B * rerr * nat * list B) :=
    if limit =? 0 then Some ([], EOF, limit, f)
    else
      let p' := if limit <? p then aligned_size limit else p in
      if c <? p' then None
      else
        let '(bt, err, f') := file_read k p' f in
        let n := if limit <? length bt then limit else length bt in
        Some (firstn n bt, err, limit - n, f').

  (** A caller reading until end of input with arbitrary buffers [(k, p, c)]:
      bytes received and whether end of input was seen. *)
  Fixpoint read_all (reqs : list (nat * nat * nat)) (limit : nat) (f : list B) (out : list B)
    : option (list B * bool) :=
    match reqs with
    | [] => Some (out, false)
    | (k, p, c) :: reqs' =>
        match limited_read k p c limit f with
        | None => None
        | Some (bt, err, limit', f') =>
            match err with
            | NoErr => read_all reqs' limit' f' (out ++ bt)
            | _ => Some (out ++ bt, true)
            end
        end
    end.

  (** ** multi_reader.go *)

  (** An inner reader as the script of what its [Read] calls deliver; [Fail] is a
      lasting error. *)
  Inductive event := Chunk (c : list B) | Fail.
  Definition script_read (p : nat) (r : list event) : list B * rerr * list event :=
    match r with
    | [] => ([], EOF, [])
    | Fail :: _ => ([], Failed, r)
    | Chunk c :: r' =>
        if length c <=? p then (c, NoErr, r')
        else (firstn p c, NoErr, Chunk (skipn p c) :: r')
    end.

  (** multi_reader.go:25-53 [multiReader.Read] (flattening of nested readers left
      out: it does not change what is read); [acc] is [p[:n]]. *)
  Fixpoint multi_read (fuel p : nat) (readers : list (list event)) (acc : list B)
    : option (list B * rerr * list (list event)) :=
    match readers with
    | [] => Some (acc, EOF, [])
    | r :: rs =>
        match fuel with
        | O => None
        | S f =>
            let '(bt, err, r') := script_read (p - length acc) r in
            let acc' := acc ++ bt in
            let readers' := match err with EOF => rs | _ => r' :: rs end in
            if p <=? length acc' then
              Some (acc', match err, readers' with EOF, _ :: _ => NoErr | _, _ => err end, readers')
            else multi_read f p readers' acc'
        end
    end.

  (** objects_service.go:230-237 [AppendFileAligned] on the file content. *)
  Definition append_aligned (file : list B) (p : nat) (s : source) : option (list B * bool) :=
    match copy_padded p s with
    | Some (bt, e) => Some (file ++ bt, e)
    | None => None
    end.

  (** Writing [bt] at offset [off] of a file (no truncation). *)
  Definition write_at (file : list B) (off : nat) (bt : list B) : list B :=
    firstn off file ++ bt ++ skipn (off + length bt) file.

  (** objects_service.go:191-227 [WriteFileWithSize]; [None] = error returned or
      panic.  The file is not opened for appending, so without the seek (no
      padding to strip) the copy starts at offset 0. *)
  Definition write_file_with_size (file : list B) (cur : nat) (data : list B) (p : nat) : option (list B) :=
    let len := length file in
    if block + cur <=? len then None (* padding length >= page size *)
    else if cur <? len then
      if len <? block then None (* seek before the start *)
      else
        let padding := len - cur in
        let tail := skipn (len - block) file in
        let head := firstn (length tail - padding) tail in
        match copy_padded p {| src_bytes := head ++ data; src_fails := false |} with
        | Some (bt, false) => Some (write_at file (len - block) bt)
        | _ => None
        end
    else
      match copy_padded p {| src_bytes := data; src_fails := false |} with
      | Some (bt, false) => Some (write_at file 0 bt)
      | _ => None
      end.
End Byte.
Arguments source B : clear implicits.
Arguments event B : clear implicits.
