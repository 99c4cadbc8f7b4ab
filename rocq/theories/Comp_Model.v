(** Model of compressed pieces: the framing of s2, writing a piece to a compressed file of
    a data server, reading it back over HTTP, and the stream by which the API server reads.

    Source: src/objectserver/internal/usecase/service/objects_service.go 82-106, 109-126,
    245-283, 286-307, controller/http/objects/objects_rest.go 19-91,
    src/common/response/response.go 109-137, src/apiserver/internal/usecase/webapi/object_server.go
    139-150, service/get_stream.go 18-83, service/copy_get_stream.go 48-66.

    The library github.com/klauspost/compress v1.15.9 (objectserver go.mod 11) is modelled
    at the level of its chunks: type, length in three bytes, payload; what packs a block is
    a parameter, and so is the checksum.  Simplified: bytes are numbers; a chunk is
    written by one call; the file is opened and read without errors of the disk; the
    piece exists (C35, C111 are about that); the cache in front of the handler is in
    Store_Model; the connection between the servers delivers what was written. *)
From Coq Require Import List ZArith Bool Lia.
Import ListNotations.
Local Open Scope list_scope.

(** [[]byte]. *)
Definition bytes := list N.

(** ** Frames *)

(** The framing of s2's writer and reader (objects_service.go 260, 272): three bytes of a
    length, the lowest first. *)
Definition le3 (n : N) : bytes := [n mod 256; (n / 256) mod 256; (n / 65536) mod 256]%N.

(** A chunk (objects_service.go 260, 272): type, length, payload. *)
Definition chunk (ty : N) (p : bytes) : bytes := ty :: le3 (N.of_nat (length p)) ++ p.

(** The stream identifier s2 writes first (objects_service.go 272): its body "S2sTwO", the
    one of snappy, which the reader takes, too, and the chunk. *)
Definition magic_body : bytes := [83; 50; 115; 84; 119; 79]%N.
Definition snappy_body : bytes := [115; 78; 97; 80; 112; 89]%N.
Definition magic : bytes := chunk 255 magic_body.

(** [bytes.Equal]. *)
Definition eqb_bytes (a b : bytes) : bool := if list_eq_dec N.eq_dec a b then true else false.

(** The blocks of a text (objects_service.go 272-273): [bs] bytes each, the last one
    shorter. *)
Fixpoint blocks_from (fuel bs : nat) (l : bytes) : list bytes :=
  match fuel, l with
  | O, _ | _, [] => []
  | S f, _ => firstn bs l :: blocks_from f bs (skipn bs l)
  end.
Definition blocks (bs : nat) (l : bytes) : list bytes := blocks_from (length l) bs l.

(** [blockSize] (objects_service.go 271): within 4 KB and 2 MB; [buf] the size of the buffer
    (273, 282, 305). *)
Definition block_size (buf : Z) : Z := Z.min (2 * 2 ^ 20) (Z.max buf (4 * 2 ^ 10)).

Section Comp.
  (** Packing a block ([None]: it does not get smaller), its inverse, the checksum. *)
  Variable pack : bytes -> option bytes.
  Variable unpack : bytes -> option bytes.
  Variable crc : bytes -> bytes.

  (** The chunk of one block (s2's writer, objects_service.go 272). *)
  Definition block_chunk (b : bytes) : bytes :=
    match pack b with
    | Some c => chunk 0 (crc b ++ c)
    | None => chunk 1 (crc b ++ b)
    end.

  (** The writes [AppendFileCompress] (objects_service.go 264-278) makes for a text; a
      writer that gets nothing writes nothing. *)
  Definition writes (bs : nat) (l : bytes) : list bytes :=
    match l with [] => [] | _ => magic :: map block_chunk (blocks bs l) end.

  (** What they add to the file, which is opened for appending (265). *)
  Definition encode (bs : nat) (l : bytes) : bytes := concat (writes bs l).

  (** ** Reading *)

  (** The reader of s2 (objects_service.go 260): the blocks it delivers before the end, and whether that is the end
      of the file or an error.  [started]: a stream identifier has been seen. *)
  Fixpoint decode_from (fuel : nat) (started : bool) (l : bytes) : list bytes * bool :=
    match fuel, l with
    | _, [] => ([], true)
    | O, _ => ([], false)
    | S f, ty :: a :: b :: c :: r =>
        let n := N.to_nat (a + 256 * b + 65536 * c) in
        let p := firstn n r in
        let more := decode_from f true (skipn n r) in
        let deliver x := (x :: fst more, snd more) in
        if negb started && negb (ty =? 255)%N then ([], false)
        else if (length r <? n)%nat then ([], false)
        else if (ty =? 0)%N then
          if (n <? 4)%nat then ([], false)
          else match unpack (skipn 4 p) with
               | Some x => if eqb_bytes (crc x) (firstn 4 p) then deliver x else ([], false)
               | None => ([], false)
               end
        else if (ty =? 1)%N then
          if (n <? 4)%nat then ([], false)
          else if eqb_bytes (crc (skipn 4 p)) (firstn 4 p) then deliver (skipn 4 p) else ([], false)
        else if (ty =? 255)%N then
          if eqb_bytes p magic_body || eqb_bytes p snappy_body then more else ([], false)
        else if (ty <? 128)%N then ([], false)
        else more
    | S _, _ => ([], false)
    end.
  Definition decode (l : bytes) : bytes * bool :=
    let r := decode_from (S (length l)) false l in (concat (fst r), snd r).

  (** How a request ends: a status and a body, or a panic, which gin answers with 500. *)
  Definition answer := (Z * bytes)%type.

  (** The text of an error answer. *)
  Variable message : bytes.

  (** [Get] (objects_rest.go 58-91) of a compressed piece: [GetFileCompress]
      (objects_service.go 245-262) and [FailErr] (response.go 130-136).  The status is sent
      with the first byte, so an error after it adds the message to the body.  A size of 0
      fails the binding (objects_rest.go 62), [make] panics for a negative one (259-260). *)
  Definition get_compressed (file : bytes) (offset size : Z) : answer :=
    if (size =? 0)%Z then (400%Z, message)
    else if (size <? 0)%Z then (500%Z, message)
    else
      let data := if (0 <? offset)%Z then skipn (Z.to_nat offset) file else file in
      let '(out, clean) := decode data in
      let body := firstn (Z.to_nat size) out in
      if (size <=? Z.of_nat (length out))%Z || clean then (200%Z, body)
      else match body with [] => (500%Z, message) | _ => (200%Z, body ++ message) end.
End Comp.

(** ** The stream of the API server *)

(** The rest of the answer, once there is one (get_stream.go 10-16). *)
Definition gstream := option bytes.

(** [request] (get_stream.go 34-44): the data server's answer for an offset, [None] when
    there is none. *)
Definition request (server : Z -> option (Z * bytes)) (offset : Z) : option bytes :=
  match server offset with
  | Some (200%Z, body) => Some body
  | _ => None
  end.

(** package io. *)
Inductive whence := SeekStart | SeekCurrent | SeekEnd.

(** [Seek] (get_stream.go 46-67): the position told ([None] an error) and the stream. *)
Definition seek (server : Z -> option (Z * bytes)) (offset : Z) (w : whence) (g : gstream) : option Z * gstream :=
  if (offset <? 0)%Z then (None, g)
  else match w with
  | SeekEnd => (None, g)
  | _ =>
      match g with
      | None => match request server offset with Some b => (Some offset, Some b) | None => (None, None) end
      | Some b =>
          if (0 <? offset)%Z
          then (Some (Z.of_nat (Nat.min (Z.to_nat offset) (length b))), Some (skipn (Z.to_nat offset) b))
          else (Some 0%Z, Some b)
      end
  end.

(** [Read] (get_stream.go 69-76) of [n] bytes. *)
Definition read (server : Z -> option (Z * bytes)) (n : nat) (g : gstream) : option bytes * gstream :=
  match g with
  | Some b => (Some (firstn n b), Some (skipn n b))
  | None => match request server 0 with Some b => (Some (firstn n b), Some (skipn n b)) | None => (None, None) end
  end.

(** Reading to the end (get_stream.go 69-76 until io.EOF). *)
Definition read_all (server : Z -> option (Z * bytes)) (g : gstream) : option bytes :=
  match g with Some b => Some b | None => request server 0 end.
