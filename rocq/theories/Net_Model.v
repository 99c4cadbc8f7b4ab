(** Model of an upload through the API server to data servers that fail: every request to a data
    server may be refused, get lost, or be done with its answer lost.

    Source: src/apiserver/internal/usecase/service/object_service.go 196-232 (streamToDataServer),
    rs_put_stream.go 14-68, rs_encoder.go 29-112, copy_put_stream.go 19-113, put_stream.go 21-68,
    src/apiserver/internal/usecase/webapi/object_server.go 31-98,
    src/common/util/done_group.go 50-126, src/common/util/crypto/crypto.go 13-20.

    Simplified: a request happens at a data server at once or not at all, except a body that breaks
    off; the requests that are still running when a group answers an error are taken as finished
    before the next group begins; nothing is stored yet under the names of the pieces; removing the
    entry of an upload removes its file (Piece_Model says when).  Compression is left out. *)
From Coq Require Import List Arith Bool.
Import ListNotations.

(** A request without a body: done and answered; not answered with success, and is it done. *)
Inductive call := Fine | Fails (done : bool).
(** A request with a body: done and answered; not answered with success, and what of the body was
    appended (objectserver temp_rest.go 30-33). *)
Inductive sent B := SFine | SFails (left : option (list B)).
Arguments SFine {B}. Arguments SFails {B}.

Definition call_fails (c : call) : bool := match c with Fine => false | Fails _ => true end.
Definition sent_fails {B} (c : sent B) : bool := match c with SFine => false | SFails _ => true end.

(** The groups of requests waited for: opening (rs_put_stream.go 20-36, copy_put_stream.go 21-37), flush
    number [k] (rs_encoder.go 71-111, copy_put_stream.go 50-61), committing (rs_put_stream.go 53-67,
    copy_put_stream.go 99-112). *)
Inductive group := GOpen | GFlush (k : nat) | GCommit.

(** The files of one upload at a data server: the temporary one, by requests, and the object. *)
Record piece B := Piece { p_temp : option (list (list B)); p_obj : option (list (list B)) }.
Arguments Piece {B}. Arguments p_temp {B}. Arguments p_obj {B}.

(** What happens to the requests: POST to server [i], PATCH of flush [k] to server [i], PUT and DELETE
    to server [i]; [ev_lost]: the group finds all its workers done before it looks for their error
    (done_group.go 119-126 takes any of the two, Upload_Model). *)
Record env B := Env {
  ev_post : nat -> call; ev_patch : nat -> nat -> sent B; ev_put : nat -> call; ev_del : nat -> call;
  ev_lost : group -> bool }.
Arguments Env {B}. Arguments ev_post {B}. Arguments ev_patch {B}. Arguments ev_put {B}. Arguments ev_del {B}.
Arguments ev_lost {B}.

(** What [streamToDataServer] answers: nil, [ErrInvalidFile] (400), [ErrInternalServer] (500),
    [ErrServiceUnavailable] (503), the error of opening the stream (object_service.go 199-201). *)
Inductive told := Stored | Invalid | Internal | Unavailable | NotOpened.

Section Net.
  Context {B : Type}.
  (** The number of writers and the size of a block (rs_put_stream.go 19, config.go 87-89;
      copy_put_stream.go 20, 68); what flush number [k] gives to the writers (rs_encoder.go 65-109,
      copy_put_stream.go 51-60). *)
  Variables (n bs : nat) (row : nat -> list B -> list (list B)).
  (** Does [Commit] pass over a writer that was not opened (copy_put_stream.go 102) or fail at it
      (rs_put_stream.go 59). *)
  Variable skips : bool.
  Variable e : env B.

  Definition writers : list nat := seq 0 n.

  (** [WaitUntilError] (done_group.go 119-126): is an error answered. *)
  Definition wait (g : group) (fails : nat -> bool) : bool := existsb fails writers && negb (ev_lost e g).

  (** [NewPutStream] (put_stream.go 22-29); a writer that fails stays nil. *)
  Definition opened (i : nat) : bool := negb (call_fails (ev_post e i)).
  Definition post (i : nat) : piece B :=
    match ev_post e i with Fails false => Piece None None | _ => Piece (Some []) None end.

  (** The bytes not sent yet (rs_encoder.go 15, copy_put_stream.go 15), the number of flushes so far,
      the files at the servers. *)
  Record stream := Stream { s_cache : list B; s_flushed : nat; s_files : nat -> piece B }.

  (** [PutStream.Write] (put_stream.go 42-50) of block [b] in flush [k]; at a nil writer it panics,
      which the group takes for an error (done_group.go 51-65). *)
  Definition patch_fails (k i : nat) : bool := negb (opened i) || sent_fails (ev_patch e k i).
  Definition append (p : piece B) (b : list B) : piece B :=
    match p_temp p with Some l => Piece (Some (l ++ [b])) (p_obj p) | None => p end.
  Definition patch (k i : nat) (b : list B) (p : piece B) : piece B :=
    if opened i
    then match ev_patch e k i with
         | SFine => append p b
         | SFails (Some b') => append p b'
         | SFails None => p
         end
    else p.

  (** [Flush] (rs_encoder.go 59-112, copy_put_stream.go 45-62): is an error answered. *)
  Definition flush (s : stream) : stream * bool :=
    match s_cache s with
    | [] => (s, false)
    | c =>
        let k := s_flushed s in
        (Stream [] (S k) (fun i => patch k i (nth i (row k c) []) (s_files s i)), wait (GFlush k) (patch_fails k))
    end.

  (** [Write] (rs_encoder.go 39-57, copy_put_stream.go 64-83); [None]: the loop goes on after [fuel]
      rounds. *)
  Fixpoint write (fuel : nat) (s : stream) (bt : list B) : option (stream * bool) :=
    match bt with
    | [] => Some (s, false)
    | _ =>
        match fuel with
        | O => None
        | S f =>
            let next := Nat.min (bs - length (s_cache s)) (length bt) in
            let s1 := Stream (s_cache s ++ firstn next bt) (s_flushed s) (s_files s) in
            let (s2, bad) := if bs <=? length (s_cache s1) then flush s1 else (s1, false) in
            if bad then Some (s2, true) else write f s2 (skipn next bt)
        end
    end.
  Fixpoint writes (fuel : nat) (s : stream) (bts : list (list B)) : option (stream * bool) :=
    match bts with
    | [] => Some (s, false)
    | bt :: rest =>
        match write fuel s bt with
        | Some (s', false) => writes fuel s' rest
        | x => x
        end
    end.

  (** [Commit] of a writer (put_stream.go 53-68, objectserver temp_rest.go 61-81, Piece_Model: there is
      no file before the first PATCH): is an error answered; DELETE (temp_rest.go 36-40). *)
  Definition put (i : nat) (p : piece B) : piece B :=
    if opened i
    then match ev_put e i, p_temp p with
         | Fine, Some (b :: l) | Fails true, Some (b :: l) => Piece None (Some (b :: l))
         | _, _ => p
         end
    else p.
  Definition put_fails (i : nat) (p : piece B) : bool :=
    if opened i
    then match ev_put e i, p_temp p with Fine, Some (_ :: _) => false | _, _ => true end
    else negb skips.
  Definition delete (i : nat) (p : piece B) : piece B :=
    if opened i then match ev_del e i with Fails false => p | _ => Piece None (p_obj p) end else p.

  (** [Commit(true)] and [Commit(false)] of the stream (rs_put_stream.go 48-68, copy_put_stream.go 95-113). *)
  Definition commit (s : stream) : (nat -> piece B) * bool :=
    let (s1, bad) := flush s in
    if bad then (s_files s1, true)
    else (fun i => put i (s_files s1 i), wait GCommit (fun i => put_fails i (s_files s1 i))).
  Definition abort (s : stream) : nat -> piece B :=
    let (s1, bad) := flush s in
    if bad then s_files s1 else fun i => delete i (s_files s1 i).

  (** [streamToDataServer] (object_service.go 196-232) with the body [chunks], which breaks off at its
      end if [broken]; [digest]: are these the bytes of the digest sent along.  [SHA256IO] (crypto.go
      13-20) answers the empty text for a reader that fails, and the digest sent is not empty
      (dto.go 28). *)
  Definition stream_to (checksum : bool) (digest : list B -> bool) (fuel : nat) (chunks : list (list B)) (broken : bool)
      : option (told * (nat -> piece B)) :=
    if wait GOpen (fun i => negb (opened i)) then Some (NotOpened, post)
    else
      match writes fuel (Stream [] 0 post) chunks with
      | None => None
      | Some (s, bad) =>
          if bad || broken then Some (if checksum then Invalid else Internal, abort s)
          else if checksum && negb (digest (concat chunks)) then Some (Invalid, abort s)
          else let (f, bad) := commit s in Some (if bad then Unavailable else Stored, f)
      end.
End Net.

(** What a flush gives to the writers of a replicated object (copy_put_stream.go 51-60). *)
Definition copy_row {B} (n : nat) (k : nat) (data : list B) : list (list B) := repeat data n.
