(** What compressed pieces and the streams that read them are for. *)
From Coq Require Import List ZArith.
From Verif Require Import Comp_Model.
Import ListNotations.

(** Packing can be undone and does not make a block longer; a checksum has four bytes. *)
Definition lawful (pack unpack : bytes -> option bytes) (crc : bytes -> bytes) : Prop :=
  (forall b, length (crc b) = 4) /\
  (forall b c, pack b = Some c -> unpack c = Some b /\ length c <= length b).

(** A block size the writer of s2 takes. *)
Definition sane (bs : nat) : Prop := 0 < bs /\ (Z.of_nat bs <= 2 ^ 22)%Z.

(** The rest of a text from an offset, at most [size] bytes of it. *)
Definition part (l : bytes) (offset size : Z) : bytes := firstn (Z.to_nat size) (skipn (Z.to_nat offset) l).

(** [io.Seeker]: the position after a call, from the position before, of a text of length
    [n], for a position within the text. *)
Definition moved (pos n offset : Z) (w : whence) : Z :=
  match w with SeekStart => offset | SeekCurrent => pos + offset | SeekEnd => n + offset end.

(** A server that gives the rest of a text from any offset. *)
Definition serves (content : bytes) (server : Z -> option (Z * bytes)) : Prop :=
  forall o, (0 <= o)%Z -> server o = Some (200%Z, skipn (Z.to_nat o) content).

(** Reads of the given sizes, one after the other. *)
Fixpoint reads (server : Z -> option (Z * bytes)) (ns : list nat) (g : gstream) : list (option bytes) :=
  match ns with
  | [] => []
  | n :: t => let r := read server n g in fst r :: reads server t (snd r)
  end.
