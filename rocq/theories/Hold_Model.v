(** What a download keeps open: the answers of data servers that the API server receives
    (src/apiserver/internal/usecase/service/get_stream.go, copy_get_stream.go 45-69,
    rs_decoder.go 44-137, rs_get_stream.go 27-72, 113-139), the handler
    (src/apiserver/internal/controller/http/objects_api.go 58-94) and a download through the
    admin server (src/adminserver/internal/controller/http/object.go 45-65 with
    webapi/api_server.go 57-72).

    net/http and http2 (trusted): the sender of a body is done when all of it is sent, and it
    can be ahead of the receiver by a window; it is stopped when the receiver closes the body
    or its connection ends; it waits for ever otherwise, as no client here has a time limit
    (webapi/base.go 19-26, adminserver pool/pool.go 40).

    Simplified: bodies have lengths only; what repairs write (Rs_Model, Copy_Model) is left
    out; an answer that breaks off counts as none; the answer of a data server is to the
    length that it was asked for. *)
From Verif Require Export Rs_Model.

(** A body that is received (get_stream.go 42): its length, how much has been read, and
    whether it was closed. *)
Record body := mk_body { b_total : nat; b_read : nat; b_closed : bool }.

(** Is the sender of a body still at it, with [win] bytes it can be ahead (webapi/base.go 19-26)? *)
Definition held (win : nat) (b : body) : bool := negb (b_closed b) && (b_read b + win <? b_total b).

(** Answer to a request (get_stream.go 34-44): none, or a status and the length of the body. *)
Inductive answer := NoAnswer | Answered (status : nat) (len : nat).

(** [GetStream] (get_stream.go 10-16); [g_lost] are bodies that nothing refers to any more. *)
Record gstream := mk_g { g_body : option body; g_lost : list body }.

(** [NewGetStream] (get_stream.go 19-32): the answer to the HEAD request is closed
    (webapi/object_server.go 155-173). *)
Definition g_new : gstream := mk_g None [].

(** [request] (get_stream.go 34-44): with another status than 200 the body is not closed. *)
Definition g_request (a : answer) (g : gstream) : gstream * bool :=
  match a with
  | NoAnswer => (g, false)
  | Answered st n =>
      if st =? 200 then (mk_g (Some (mk_body n 0 false)) (g_lost g), true)
      else (mk_g (g_body g) (mk_body n 0 false :: g_lost g), false)
  end.

(** Reading up to [k] bytes of a body (get_stream.go 75). *)
Definition b_take (k : nat) (b : body) : body :=
  mk_body (b_total b) (Nat.min (b_total b) (b_read b + k)) (b_closed b).

(** [Read] (get_stream.go 69-76), repeated until [k] bytes are there as [io.ReadFull] does
    (rs_decoder.go 84); [a] is the answer if a request is made. *)
Definition g_read (a : answer) (k : nat) (g : gstream) : gstream :=
  match g_body g with
  | Some b => mk_g (Some (b_take k b)) (g_lost g)
  | None =>
      let (g1, ok) := g_request a g in
      if ok then match g_body g1 with
                 | Some b => mk_g (Some (b_take k b)) (g_lost g1)
                 | None => g1
                 end
      else g1
  end.

(** [Seek] (get_stream.go 46-67): asks for the rest from the offset on, or reads up to it. *)
Definition g_seek (a : answer) (off : nat) (g : gstream) : gstream :=
  match g_body g with
  | Some b => if 0 <? off then mk_g (Some (b_take off b)) (g_lost g) else g
  | None => fst (g_request a g)
  end.

(** [Close] (get_stream.go 78-83). *)
Definition g_close (g : gstream) : gstream :=
  match g_body g with
  | None => g
  | Some b => mk_g (Some (mk_body (b_total b) (b_read b) true)) (g_lost g)
  end.

(** All bodies of a stream (get_stream.go 10-16). *)
Definition bodies (g : gstream) : list body :=
  match g_body g with Some b => b :: g_lost g | None => g_lost g end.

(** ** Copies *)

(** What the handler does with the stream (objects_api.go 78-85). *)
Inductive op := Seek (a : answer) (off : nat) | Read (a : answer) (k : nat).

(** [CopyGetStream] passes it on (copy_get_stream.go 45-57). *)
Definition do_op (g : gstream) (o : op) : gstream :=
  match o with Seek a off => g_seek a off g | Read a k => g_read a k g end.

(** A download of a copy (objects_api.go 71-94): the operations, then the deferred close (76),
    which closes the reader (copy_get_stream.go 65). *)
Definition copy_download (ops : list op) : gstream := g_close (fold_left do_op ops g_new).

(** ** Erasure-coded objects *)

(** One row (rs_decoder.go 72-92): every reader there is reads its part of a block;
    [ans i] is the answer if reader [i] makes a request. *)
Definition read_row (bps : nat) (ans : nat -> answer) (rs : list (option gstream)) : list (option gstream) :=
  map (fun p => match snd p with None => None | Some g => Some (g_read (ans (fst p)) bps g) end)
      (List.combine (seq 0 (length rs)) rs).

(** Rows one after another, each with its answers (rs_decoder.go 44-61). *)
Definition read_rows (bps : nat) (rows : list (nat -> answer)) (rs : list (option gstream)) : list (option gstream) :=
  fold_left (fun rs ans => read_row bps ans rs) rows rs.

(** [Close] of [RSGetStream] (rs_get_stream.go 113-139) ends the repair writers; it does nothing
    to the readers. *)
Definition rs_close (rs : list (option gstream)) : list (option gstream) := rs.

(** Readers after [NewRSGetStream] (rs_get_stream.go 51-72): [there i] tells whether the HEAD
    request for shard [i] succeeded. *)
Definition rs_open (there : nat -> bool) (n : nat) : list (option gstream) :=
  map (fun i => if there i then Some g_new else None) (seq 0 n).

(** Rows that are read for [q] bytes of an object (rs_decoder.go 44-61). *)
Definition rows_for (c : rs_config) (q : nat) : nat := (q + block_size c - 1) / block_size c.

(** A download of an erasure-coded object of [size] bytes of which the client takes [q]
    (objects_api.go 71-94): every answer has the length of a shard (rs_get_stream.go 54, 39). *)
Definition rs_download (c : rs_config) (there : nat -> bool) (size q : nat) : list (option gstream) :=
  rs_close (read_rows (rc_bps c) (repeat (fun _ => Answered 200 (shard_size c size)) (rows_for c q))
             (rs_open there (all_shards c))).

(** All bodies of the readers (rs_decoder.go 17). *)
Definition rs_bodies (rs : list (option gstream)) : list body :=
  flat_map (fun o => match o with None => [] | Some g => bodies g end) rs.

(** ** Downloads through the admin server *)

(** How a client's download of [size] bytes ends for the API server (objects_api.go 85-89):
    the receiver takes [room] bytes and then is gone, or stays without reading on. *)
Inductive ending := Done | Failed | Waits.
Definition api_end (size room : nat) (gone : bool) : ending :=
  if size <=? room then Done else if gone then Failed else Waits.

(** The body of the copy that the API server receives meanwhile (objects_api.go 76, 85):
    closed when the handler returns. *)
Definition api_body (size room : nat) (gone : bool) : body :=
  match api_end size room gone with
  | Done => mk_body size size true
  | Failed => mk_body size room true
  | Waits => mk_body size room false
  end.

(** A download through the admin server of which the browser takes [q] bytes and then is gone
    (object.go 56-64): [io.Copy] fails, and the handler returns without closing the answer of
    the API server, which is not gone for it; [buf] is what fits between the servers. *)
Definition admin_body (size q : nat) : body := mk_body size (Nat.min size q) false.

(** What the API server receives meanwhile for it (objects_api.go 85). *)
Definition behind_admin (size q buf : nat) : body := api_body size (q + buf) false.

(** ** Opening the readers *)

(** What [provideGetStream] finds for a shard, in the order of arrival (rs_get_stream.go 27-49,
    56-69): it is there; or lost, with the outcome of beginning a new file for it. *)
Inductive found := There | Lost (begun : bool).

(** The loop of [NewRSGetStream] (rs_get_stream.go 56-69): how many messages are taken, how many
    files are begun, and whether all went well. *)
Fixpoint take (ms : list found) : nat * nat * bool :=
  match ms with
  | [] => (0, 0, true)
  | There :: r => let '(t, f, ok) := take r in (S t, f, ok)
  | Lost true :: r => let '(t, f, ok) := take r in (S t, S f, ok)
  | Lost false :: _ => (1, 0, false)
  end.

(** Goroutines that wait for ever to send (rs_get_stream.go 28, 38-43): the channel holds one
    message that nobody takes. *)
Definition stuck (ms : list found) : nat :=
  let '(t, _, _) := take ms in length ms - t - 1.

(** Files begun at data servers that nobody will commit or delete (rs_get_stream.go 60-63): the
    stream is not returned, so nobody closes it. *)
Definition orphans (ms : list found) : nat :=
  let '(_, f, ok) := take ms in if ok then 0 else f.
