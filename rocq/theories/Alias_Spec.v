(** What the memory of the decoder is held to. *)
From Verif Require Export Alias_Model.

(** What the readers do fits what they are: for a shard that arrives, the chunks are its bytes;
    one that fails may have left anything in its part of the buffer; a shard without reader
    leaves nothing.  No reader writes beyond its part. *)
Definition fits {B} (c : rs_config) (rs : list (option (reader B))) (fills : list (nat * list B)) : Prop :=
  (forall j x, In (j, x) fills -> j < length rs) /\
  forall i, i < length rs ->
    length (chunks i fills) <= rc_bps c /\
    match nth i rs None with
    | None => chunks i fills = []
    | Some r => match rd_ok r with
                | O => True
                | S _ => chunks i fills = firstn (rc_bps c) (rd_rest r)
                end
    end.

(** The library restores rows of shards of one length and leaves those it is given alone. *)
Definition sane {B} (lib : rs_lib B) : Prop :=
  forall xs row, lib_reconstruct lib xs = Some row ->
    length row = length xs /\
    (exists n, 0 < n /\ Forall (fun s => length s = n) row /\ exists i x, nth i xs None = Some x) /\
    forall i x, nth i xs None = Some x -> nth i row [] = x.

(** Both decoders stand the same: the unread part of the cache is what is left in the buffer. *)
Definition same {B} (d : decoder B) (m : mdecoder B) : Prop :=
  d_readers d = m_readers m /\ d_size d = m_size m /\ d_total d = m_total m /\
  m_cursor m <= m_len m /\ m_len m <= length (m_buf m) /\
  d_cache d = get (m_buf m) (m_cursor m) (m_len m - m_cursor m).

(** Same result. *)
Definition same_res {B} (r : dres B) (m : mres B) : Prop :=
  match r, m with
  | Ok d, MOk d' => same d d'
  | Eof, MEof => True
  | OverRead, MOverRead => True
  | Broken, MBroken => True
  | _, _ => False
  end.
