(** Model of the erasure-coded streams of the API server
    (src/apiserver/internal/usecase/service/rs_encoder.go, rs_decoder.go,
    rs_get_stream.go, rs_put_stream.go), of the block-size configuration
    (src/apiserver/config/config.go, object_service.go:250-269) and of the shard
    files the data servers keep (objectserver temp_rest.go, objects_service.go).

    Simplified: bytes are an arbitrary type [B]; the Reed-Solomon library is a
    parameter ([rs_lib]); a data server that fails during an upload aborts the upload
    (rs_encoder.go:46-49) and is not modelled; byte counts are unbounded naturals. *)
From Coq Require Export List Arith ZArith Lia Bool.
From Verif Require Export Reader_Model.
Export ListNotations.

Section Rs.
  Context {B : Type}.
  Variable zero : B.

  (** The calls made on github.com/klauspost/reedsolomon (rs_encoder.go:65, 79;
      rs_decoder.go:95): parity of the data shards; restoring a row of shards in
      which [None] is a missing (nil or empty) shard, [None] = error; the bytes
      [Split] fills the last data shards of a flush with (stale or zero bytes,
      depending on the version): byte [j] of flush number [k]. *)
  Record rs_lib := {
    lib_encode : list (list B) -> list (list B);
    lib_reconstruct : list (option (list B)) -> option (list (list B));
    lib_fill : nat -> nat -> B }.

  (** config.go:76-98 [RsConfig]; [rc_bps] is [BlockPerShard]. *)
  Record rs_config := { rc_data : nat; rc_parity : nat; rc_bps : nat }.
  (** config.go:83-85 [AllShards]. *)
  Definition all_shards (c : rs_config) : nat := rc_data c + rc_parity c.
  (** config.go:87-89 [BlockSize]. *)
  Definition block_size (c : rs_config) : nat := rc_bps c * rc_data c.
  (** config.go:95-98 [ShardSize]. *)
  Definition shard_size (c : rs_config) (total : nat) : nat := (total + rc_data c - 1) / rc_data c.

  (** reedsolomon [Split] (rs_encoder.go:65): [d] shards of ceil(len/d) bytes. *)
  Definition split_shards (d : nat) (fill : nat -> B) (data : list B) : list (list B) :=
    let per := (length data + d - 1) / d in
    let padded := data ++ map fill (seq 0 (per * d - length data)) in
    map (fun i => firstn per (skipn (i * per) padded)) (seq 0 d).

  (** rs_encoder.go:12-27 [rsEncoder]: the bytes not sent yet and, for each flush so
      far, the row of shards given to the writers (shard [i] to writer [i]). *)
  Record encoder := { e_cache : list B; e_sent : list (list (list B)) }.
  Definition new_encoder : encoder := {| e_cache := []; e_sent := [] |}.

  Section Lib.
    Variable lib : rs_lib.
    Variable c : rs_config.

    (** The row of shards flush number [k] produces (rs_encoder.go:65, 79). *)
    Definition encode_row (k : nat) (data : list B) : list (list B) :=
      let ds := split_shards (rc_data c) (lib_fill lib k) data in ds ++ lib_encode lib ds.

    (** rs_encoder.go:59-112 [Flush]. *)
    Definition flush (e : encoder) : encoder :=
      match e_cache e with
      | [] => e
      | _ => {| e_cache := []; e_sent := e_sent e ++ [encode_row (length (e_sent e)) (e_cache e)] |}
      end.

    (** rs_encoder.go:39-57 [Write]; [fuel] bounds the rounds of the loop, [None] =
        still looping. *)
    Fixpoint write (fuel : nat) (e : encoder) (bt : list B) : option encoder :=
      match bt with
      | [] => Some e
      | _ =>
          match fuel with
          | O => None
          | S f =>
              let next := Nat.min (block_size c - length (e_cache e)) (length bt) in
              let e1 := {| e_cache := e_cache e ++ firstn next bt; e_sent := e_sent e |} in
              let e2 := if block_size c <=? length (e_cache e1) then flush e1 else e1 in
              write f e2 (skipn next bt)
          end
      end.

    (** A sequence of writes, then [Commit] (rs_put_stream.go:47-68), which flushes. *)
    Fixpoint writes (fuel : nat) (e : encoder) (bts : list (list B)) : option encoder :=
      match bts with
      | [] => Some e
      | bt :: rest => match write fuel e bt with Some e' => writes fuel e' rest | None => None end
      end.
    Definition upload (fuel : nat) (bts : list (list B)) : option (list (list (list B))) :=
      match writes fuel new_encoder bts with Some e => Some (e_sent (flush e)) | None => None end.

    (** What writer [i] was given, one element per flush (rs_encoder.go:86, 104). *)
    Definition shard_blocks (sent : list (list (list B))) (i : nat) : list (list B) :=
      map (fun row => nth i row []) sent.

    (** ** Decoder *)

    (** A shard reader (rs_decoder.go:72-92): the bytes still to come and the number of
        further reads that succeed before the connection fails for good. *)
    Record reader := { rd_rest : list B; rd_ok : nat }.

    (** rs_decoder.go:72-92: reading one shard of a block with [io.ReadFull]; a
        failed read leaves a nil shard, end of input a shorter one. *)
    Definition read_shard (r : option reader) : option (list B) * option reader :=
      match r with
      | None => (None, None)
      | Some r =>
          match rd_ok r with
          | O => (None, Some r)
          | S n =>
              let got := firstn (rc_bps c) (rd_rest r) in
              (match got with [] => None | _ => Some got end,
               Some {| rd_rest := skipn (rc_bps c) (rd_rest r); rd_ok := n |})
          end
      end.

    (** rs_decoder.go:14-24 [rsDecoder]: [d_cache] is the unread part of the cache;
        [d_rows] the restored rows handed to the repair writers (lines 99-118). *)
    Record decoder := {
      d_readers : list (option reader);
      d_size : nat;
      d_total : nat;
      d_cache : list B;
      d_rows : list (list (list B)) }.

    Inductive dres := Ok (d : decoder) | Eof | OverRead | Broken.

    (** rs_decoder.go:120-129: appending the data shards, cut at the object size. *)
    Fixpoint combine (size : nat) (shards : list (list B)) (cache : list B) (total : nat) : list B * nat :=
      match shards with
      | [] => (cache, total)
      | s :: rest =>
          let n := if size <? total + length s then size - total else length s in
          combine size rest (cache ++ firstn n s) (total + n)
      end.

    (** rs_decoder.go:63-137 [getData]. *)
    Definition get_data (d : decoder) : dres :=
      if d_total d =? d_size d then Eof
      else if d_size d <? d_total d then OverRead
      else
        let rs := map read_shard (d_readers d) in
        match lib_reconstruct lib (map fst rs) with
        | None => Broken
        | Some row =>
            let '(cache, total) := combine (d_size d) (firstn (rc_data c) row) (d_cache d) (d_total d) in
            Ok {| d_readers := map snd rs; d_size := d_size d; d_total := total;
                  d_cache := cache; d_rows := d_rows d ++ [row] |}
        end.

    (** rs_decoder.go:44-61 [Read] for a buffer of [k] bytes. *)
    Definition read (d : decoder) (k : nat) : list B * dres :=
      match match d_cache d with [] => get_data d | _ => Ok d end with
      | Ok d1 =>
          let n := Nat.min k (length (d_cache d1)) in
          (firstn n (d_cache d1),
           Ok {| d_readers := d_readers d1; d_size := d_size d1; d_total := d_total d1;
                 d_cache := skipn n (d_cache d1); d_rows := d_rows d1 |})
      | e => ([], e)
      end.

    (** A client reading with buffers of the given sizes until an error or end of
        file: bytes received, outcome, and the rows handed to the repair writers. *)
    Fixpoint read_many (d : decoder) (reqs : list nat) (out : list B) : list B * dres * list (list (list B)) :=
      match reqs with
      | [] => (out, Ok d, d_rows d)
      | k :: rest =>
          match read d k with
          | (bt, Ok d') => read_many d' rest (out ++ bt)
          | (bt, e) => (out ++ bt, e, d_rows d)
          end
      end.

    (** rs_decoder.go:26-38 [NewDecoder] over shard [i] = [content i], reachable for
        [avail i] blocks ([None]: no reader, rs_get_stream.go:56-67). *)
    Definition open_shards (size : nat) (content : nat -> list B) (avail : nat -> option nat) : decoder :=
      {| d_readers := map (fun i => match avail i with
                                    | None => None
                                    | Some n => Some {| rd_rest := content i; rd_ok := n |}
                                    end) (seq 0 (all_shards c));
         d_size := size; d_total := 0; d_cache := []; d_rows := [] |}.
  End Lib.

  (** ** Shard files on the data servers *)

  (** temp_rest.go:19-34 [Patch] and objects_service.go:230-237: append one block.
      With [rf] the copy is taken over by [os.File.ReadFrom] and its 32 KB buffer,
      otherwise the handler's own buffer min(length, 8192) is used. *)
  Definition patch_buffer (rf : bool) (n : nat) : nat :=
    if rf then 8 * block else Nat.min n (2 * block).
  Definition patch (rf : bool) (file data : list B) : option (list B) :=
    match append_aligned zero file (patch_buffer rf (length data)) {| src_bytes := data; src_fails := false |} with
    | Some (f, false) => Some f
    | _ => None
    end.
  Fixpoint patches (rf : bool) (file : list B) (blocks : list (list B)) : option (list B) :=
    match blocks with
    | [] => Some file
    | b :: rest => match patch rf file b with Some f => patches rf f rest | None => None end
    end.
  (** The committed shard file (objects_service.go:286-326 renames the temp file). *)
  Definition store_blocks (rf : bool) (blocks : list (list B)) : option (list B) := patches rf [] blocks.
  (** objects_service.go:129-152 [GetFile] at offset 0 delivers the first [size] bytes
      (exactly, by C13_limited_read_exact). *)
  Definition fetch (file : list B) (size : nat) : list B := firstn size file.

  (** ** Repair (rs_get_stream.go:114-139) *)

  (** The blocks of shard [i] written by the repair goroutines
      (rs_decoder.go:99-118) in the order [order] in which they reach the data
      server before the commit. *)
  Definition repair_blocks (rows : list (list (list B))) (order : list nat) (i : nat) : list (list B) :=
    map (fun k => nth i (nth k rows []) []) order.
End Rs.
Arguments rs_lib B : clear implicits.
Arguments encoder B : clear implicits.
Arguments decoder B : clear implicits.
Arguments reader B : clear implicits.
Arguments dres B : clear implicits.

(** ** Block sizes *)
Local Open Scope Z_scope.

(** cst.OS.NetPkgSize (common/cst/os_const.go). *)
Definition net_pkg : Z := 65536.

(** config.go:34-39 [initialize]: the server-wide [BlockPerShard]. *)
Definition init_bps (bps data : Z) : Z :=
  let i := (bps * data) mod net_pkg in
  if i >? 0 then (bps * data - i + net_pkg) / data else bps.

(** object_service.go:250-269 [NewStreamProvider] (and metadata.go:103-118
    [MakeConf]): the block per shard used for an object of [size] bytes. *)
Definition object_bps (bps data size : Z) : Z :=
  let i := (bps * data) mod net_pkg in
  if i >? 0 then Z.min (bps * data - i + net_pkg) size / data else bps.

(** config.go:40-43: the replication block size. *)
Definition init_copy_block (bs : Z) : Z :=
  let i := bs mod net_pkg in if i >? 0 then bs - i + net_pkg else bs.
