(** Model of the length-prefixed array codec and integer keys,
    src/common/util/util.go:212-255, 284-293, with Go's encoding/binary varints. *)
From Coq Require Export List NArith ZArith Lia Bool.
Export ListNotations.
Local Open Scope N_scope.

(** A byte is a number below 256. *)
Notation byte := N (only parsing).

(** encoding/binary [PutUvarint] (called at util.go:230, 286): the bytes written.
    [fuel] bounds the loop; 10 rounds cover every uint64, [None] when exhausted. *)
Fixpoint uvarint_bytes (fuel : nat) (x : N) : option (list byte) :=
  match fuel with
  | O => None
  | S f =>
      if x <? 128 then Some [x]
      else match uvarint_bytes f (N.shiftr x 7) with
           | Some r => Some (N.lor (N.land x 255 mod 256) 128 :: r)
           | None => None
           end
  end.

(** [binary.PutUvarint(buf, x)] overwrites a prefix of [buf]; [None] = index panic. *)
Definition put_uvarint (buf : list byte) (x : N) : option (list byte) :=
  match uvarint_bytes 10 x with
  | None => None
  | Some b => if (length b <=? length buf)%nat then Some (b ++ skipn (length b) buf) else None
  end.

(** encoding/binary [Uvarint] (called at util.go:242): value and number of bytes
    read; 0 bytes = buffer too small, negative = overflow. *)
Fixpoint uvarint_loop (buf : list byte) (i : nat) (x : N) (s : N) : N * Z :=
  match buf with
  | [] => (0, 0%Z)
  | b :: r =>
      if (i =? 10)%nat then (0, (- (Z.of_nat i + 1))%Z)
      else if b <? 128 then
        if ((i =? 9)%nat && (1 <? b)) then (0, (- (Z.of_nat i + 1))%Z)
        else (N.lor x (N.shiftl b s mod 2 ^ 64), (Z.of_nat i + 1)%Z)
      else uvarint_loop r (S i) (N.lor x (N.shiftl (N.land b 127) s mod 2 ^ 64)) (s + 7)
  end.
Definition uvarint (buf : list byte) : N * Z := uvarint_loop buf 0 0 0.

(** [binary.MaxVarintLen32], [binary.MaxVarintLen64], [math.MaxInt32]. *)
Definition max_varint_len32 : nat := 5.
Definition max_varint_len64 : nat := 10.
Definition max_int32 : N := 2147483647.

Inductive enc_result := EncOk (bytes : list byte) | EncErr | EncPanic.

Section Array.
  Context {A : Type}.
  (** [MarshalMsg] of one record (generated msgp code, not modelled; [None] = error)
      and [UnmarshalMsg] into a fresh record. *)
  Variable marshal : A -> option (list byte).
  Variable unmarshal : list byte -> option A.

  (** util.go:212-236 [EncodeArrayMsgp]; [size] is the header buffer shared by all
      rounds, so bytes of an earlier longer header stay behind. *)
  Fixpoint encode_loop (size : list byte) (arr : list A) (res : list byte) : enc_result :=
    match arr with
    | [] => EncOk res
    | v :: arr' =>
        match marshal v with
        | None => EncErr
        | Some buf =>
            if max_int32 <? N.of_nat (length buf) then EncErr
            else match put_uvarint size (N.of_nat (length buf)) with
                 | None => EncPanic
                 | Some size' => encode_loop size' arr' (res ++ size' ++ buf)
                 end
        end
    end.
  Definition encode_array (arr : list A) : enc_result :=
    encode_loop (repeat 0 max_varint_len32) arr [].

  Inductive dec_result := DecOk (l : list A) | DecErr | DecPanic.

  (** util.go:239-255 [DecodeArrayMsgp]; [data] is what follows [cur].  A slice
      expression past the end is a run-time panic.  Every round consumes at least
      five bytes; [fuel] is the number of bytes. *)
  Fixpoint decode_loop (fuel : nat) (data : list byte) (arr : list A) : dec_result :=
    match data with
    | [] => DecOk arr
    | _ =>
        match fuel with
        | O => DecPanic
        | S f =>
            if (length data <? max_varint_len32)%nat then DecPanic
            else
              let '(size, n) := uvarint (firstn max_varint_len32 data) in
              if (n <=? 0)%Z then DecErr
              else
                let rest := skipn max_varint_len32 data in
                if N.of_nat (length rest) <? size then DecPanic
                else match unmarshal (firstn (N.to_nat size) rest) with
                     | None => DecErr
                     | Some a => decode_loop f (skipn (N.to_nat size) rest) (arr ++ [a])
                     end
        end
    end.
  Definition decode_array (data : list byte) : dec_result := decode_loop (length data) data [].
End Array.
Arguments DecOk {A} _.
Arguments DecErr {A}.
Arguments DecPanic {A}.

(** util.go:284-288 [IntToBytes]. *)
Definition int_to_bytes (i : N) : option (list byte) := put_uvarint (repeat 0 max_varint_len64) i.

(** util.go:290-293 [BytesToInt]: [binary.ReadUvarint] with the error dropped.
    [ReadUvarint] reads at most ten bytes; on overflow or end of input it returns
    the bits read so far (end of input) or so far (overflow). *)
Fixpoint read_uvarint_loop (buf : list byte) (i : nat) (x : N) (s : N) : N :=
  match buf with
  | [] => x
  | b :: r =>
      if (i =? 10)%nat then x
      else if b <? 128 then
        if ((i =? 9)%nat && (1 <? b)) then x
        else N.lor x (N.shiftl b s mod 2 ^ 64)
      else read_uvarint_loop r (S i) (N.lor x (N.shiftl (N.land b 127) s mod 2 ^ 64)) (s + 7)
  end.
Definition bytes_to_int (b : list byte) : N := read_uvarint_loop b 0 0 0.
