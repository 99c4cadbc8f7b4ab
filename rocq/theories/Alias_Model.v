(** The memory of the decoder of erasure-coded objects: [NewDecoder] makes one buffer and
    lets the cache and the buffers of the shards lie in it
    (src/apiserver/internal/usecase/service/rs_decoder.go 26-38), so that reading the shards,
    restoring missing ones and appending them to the cache (44-137) all write to the same
    memory.  Rs_Model has the same functions with separate memory.

    Simplified: as in Rs_Model; the goroutines that read the shards write their bytes in
    chunks, in any order; the library restores all missing shards at once; errors of the
    repair writers do not concern the memory. *)
From Verif Require Export Rs_Model.

Section Alias.
  Context {B : Type}.
  Variable lib : rs_lib B.
  Variable c : rs_config.
  (** Whether the library puts a restored shard into the empty slice it was given, or into new
      memory (reedsolomon called in rs_decoder.go 95). *)
  Variable reuse : bool.

  (** Go's copy to offset [off] (rs_decoder.go 84, 127): bytes beyond the end are not written. *)
  Definition put (mem : list B) (off : nat) (x : list B) : list B :=
    firstn (length mem) (firstn off mem ++ x ++ skipn (off + length x) mem).

  (** A slice of the buffer (rs_decoder.go 79). *)
  Definition get (mem : list B) (off n : nat) : list B := firstn n (skipn off mem).

  (** What a shard of a row is: a part of the buffer, given by offset and length, or memory of
      its own (nil and restored shards; rs_decoder.go 79, 87, 95). *)
  Inductive slice := Part (off n : nat) | Own (x : list B).

  (** The bytes of a slice (rs_decoder.go 111, 127). *)
  Definition content (mem : list B) (s : slice) : list B :=
    match s with Part off n => get mem off n | Own x => x end.

  (** The chunks that were written for shard [i] (rs_decoder.go 84). *)
  Fixpoint chunks (i : nat) (fills : list (nat * list B)) : list B :=
    match fills with
    | [] => []
    | (j, x) :: r => if j =? i then x ++ chunks i r else chunks i r
    end.

  (** The reading goroutines at work (rs_decoder.go 81-92): each chunk goes behind what the same
      shard has already; [done] are the chunks written before. *)
  Fixpoint fill (mem : list B) (before fills : list (nat * list B)) : list B :=
    match fills with
    | [] => mem
    | (j, x) :: r => fill (put mem (j * rc_bps c + length (chunks j before)) x) (before ++ [(j, x)]) r
    end.

  (** The slice of shard [i] after reading (rs_decoder.go 75-90): none without a reader or after
      a failure, else the bytes read. *)
  Definition read_slice (i : nat) (r : option (reader B)) (fills : list (nat * list B)) : slice :=
    match r with
    | None => Own []
    | Some r => match rd_ok r with O => Own [] | S _ => Part (i * rc_bps c) (length (chunks i fills)) end
    end.

  (** [Reconstruct] on one shard (rs_decoder.go 95): a shard with bytes is left alone, an empty
      one is restored to [x], in its own place if it has one. *)
  Definition restore (mem : list B) (s : slice) (x : list B) : list B * slice :=
    match s with
    | Part off O => if reuse then (put mem off x, Part off (length x)) else (mem, Own x)
    | Part off n => (mem, Part off n)
    | Own [] => (mem, Own x)
    | Own y => (mem, Own y)
    end.

  (** All shards of a row (rs_decoder.go 95). *)
  Fixpoint restore_all (mem : list B) (ss : list slice) (row : list (list B)) : list B * list slice :=
    match ss, row with
    | s :: ss', x :: row' =>
        let (mem', s') := restore mem s x in
        let (mem'', ss'') := restore_all mem' ss' row' in (mem'', s' :: ss'')
    | _, _ => (mem, [])
    end.

  (** What the library is given (rs_decoder.go 95): an empty shard is a missing one. *)
  Definition as_shard (mem : list B) (s : slice) : option (list B) :=
    match content mem s with [] => None | x => Some x end.

  (** Appending the data shards to the cache, which begins at the start of the buffer
      (rs_decoder.go 121-129); [len] is the length of the cache. *)
  Fixpoint append_all (size : nat) (mem : list B) (ss : list slice) (len total : nat) : list B * nat * nat :=
    match ss with
    | [] => (mem, len, total)
    | s :: r =>
        let x := content mem s in
        let n := if size <? total + length x then size - total else length x in
        append_all size (put mem len (firstn n x)) r (len + n) (total + n)
    end.

  (** [rsDecoder] with its memory (rs_decoder.go 14-24); [m_row] are the slices of the row that
      was read last, which the repair writers hold (103-117). *)
  Record mdecoder := {
    m_readers : list (option (reader B));
    m_size : nat; m_total : nat;
    m_buf : list B; m_len : nat; m_cursor : nat;
    m_row : list slice }.

  (** Results of [getData] (rs_decoder.go 63-69, 95-97). *)
  Inductive mres := MOk (d : mdecoder) | MEof | MOverRead | MBroken.

  (** Slices of a row after reading (rs_decoder.go 72-92). *)
  Definition slices (rs : list (option (reader B))) (fills : list (nat * list B)) : list slice :=
    map (fun p => read_slice (fst p) (snd p) fills) (List.combine (seq 0 (length rs)) rs).

  (** [getData] (rs_decoder.go 63-137) after the cache was reset (46-48); [fills] is what the
      readers do. *)
  Definition m_get_data (fills : list (nat * list B)) (d : mdecoder) : mres :=
    if m_total d =? m_size d then MEof
    else if m_size d <? m_total d then MOverRead
    else
      let mem1 := fill (m_buf d) [] fills in
      let ss := slices (m_readers d) fills in
      match lib_reconstruct lib (map (as_shard mem1) ss) with
      | None => MBroken
      | Some row =>
          let (mem2, ss2) := restore_all mem1 ss row in
          let '(mem3, len, total) := append_all (m_size d) mem2 (firstn (rc_data c) ss2) 0 (m_total d) in
          MOk {| m_readers := map (fun r => snd (read_shard c r)) (m_readers d); m_size := m_size d;
                 m_total := total; m_buf := mem3; m_len := len; m_cursor := 0; m_row := ss2 |}
      end.

  (** [Read] for a buffer of [k] bytes (rs_decoder.go 44-61). *)
  Definition m_read (fills : list (option (reader B)) -> list (nat * list B)) (d : mdecoder) (k : nat) : list B * mres :=
    match (if m_len d - m_cursor d =? 0 then m_get_data (fills (m_readers d)) d else MOk d) with
    | MOk d1 =>
        let n := Nat.min k (m_len d1 - m_cursor d1) in
        (get (m_buf d1) (m_cursor d1) n,
         MOk {| m_readers := m_readers d1; m_size := m_size d1; m_total := m_total d1;
                m_buf := m_buf d1; m_len := m_len d1; m_cursor := m_cursor d1 + n; m_row := m_row d1 |})
    | e => ([], e)
    end.

  (** A client reading with buffers of the given sizes (rs_decoder.go 44-61). *)
  Fixpoint m_read_many (fills : list (option (reader B)) -> list (nat * list B)) (d : mdecoder) (reqs : list nat) (out : list B)
    : list B * mres :=
    match reqs with
    | [] => (out, MOk d)
    | k :: rest =>
        match m_read fills d k with
        | (bt, MOk d') => m_read_many fills d' rest (out ++ bt)
        | (bt, e) => (out ++ bt, e)
        end
    end.

  (** [NewDecoder] (rs_decoder.go 26-38): [buf] is the new buffer of [FullSize] bytes. *)
  Definition m_open (readers : list (option (reader B))) (size : nat) (buf : list B) : mdecoder :=
    {| m_readers := readers; m_size := size; m_total := 0; m_buf := buf; m_len := 0; m_cursor := 0; m_row := [] |}.
End Alias.
Arguments mdecoder B : clear implicits.
Arguments mres B : clear implicits.
Arguments slice B : clear implicits.
