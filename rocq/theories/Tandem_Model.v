(** Several requests that continue one resumable upload at the same time: [Patch]
    (src/apiserver/internal/controller/http/big_api.go 137-203), the stream it opens from the
    token (src/apiserver/internal/usecase/service/rs_resumable_stream.go 28-39, 64-77;
    rs_encoder.go 39-112; rs_put_stream.go 40-68; put_stream.go 42-68) and the data servers it
    sends to (src/objectserver/internal/controller/http/temp/temp_rest.go 19-106,
    src/objectserver/internal/usecase/service/objects_service.go 286-326).

    Simplified: the object is a list of rows, a row being what one [Flush] sends (one piece to
    each server) and named by a number; a file on a server is the list of rows whose pieces were
    appended to it.  Requests to a data server are carried out or refused, not lost (C28 has
    lost ones); a failed piece is always noticed (C51 has the case where it is not); without
    checksum (with it every resumable upload is refused, C60) and compression; looking up a
    temporary file and appending to it is one step; metadata are only noted (C189 has them). *)
From Coq Require Import List Arith Bool Lia.
Import ListNotations.

(** What the token fixes: the number of servers, the bytes of a full row and of the whole
    object (rs_resumable_stream.go 11-20). *)
Record setup := mk_setup { t_shards : nat; t_row : nat; t_size : nat }.

(** One request (big_api.go 139-159): the offset of its range, the full rows of its body, and
    the last row with its bytes if that is not full and so stays in the cache of the encoder
    (rs_encoder.go 43-52). *)
Record request := mk_request { q_first : nat; q_rows : list nat; q_tail : option (nat * nat) }.

(** What is asked of server [i]: to append a piece of row [c] (temp_rest.go 19-34), to move the
    temporary file to the storage (first half of PUT, 72-80), to forget it (second half, 81, or
    DELETE, 36-40). *)
Inductive cmd := Append (c i : nat) | Commit (i : nat) | Forget (i : nat).

(** Answers (big_api.go 198, 169, 156, 176, 152/163/191/195). *)
Inductive answer := Stored | Partial | Refused | Exceeds | Failed.

(** What a request does when all it asked for is done: [k] of its rows are sent (161); the last
    row is flushed and the files are to be kept or, with an answer, deleted (rs_put_stream.go
    49-51); the files are being kept (53-67). *)
Inductive goal := Row (k : nat) | Flush (a : option answer) | Keep.

(** Where a request stands: not begun, some commands under way, answered (big_api.go 138-203). *)
Inductive phase := Idle | Flight (pend : list cmd) (g : goal) | Done (a : answer).

(** The temporary file of each server ([None]: not known, temp_rest.go 22; a known one may
    still be empty, 94), the stored file, where each request stands, commands of answered
    requests that are still under way, and which requests recorded a version (big_api.go 180). *)
Record state := mk_state {
  s_tmp : nat -> option (list nat); s_kept : nat -> option (list nat);
  s_phase : nat -> phase; s_stray : list cmd; s_saved : list nat }.

(** After POST (temp_rest.go 42-61): files are known and empty. *)
Definition start : state :=
  mk_state (fun _ => Some []) (fun _ => None) (fun _ => Idle) [] [].

(** Replace one entry (temp_rest.go 19-83: a request is for one file). *)
Definition upd {A} (f : nat -> A) (i : nat) (x : A) : nat -> A :=
  fun j => if j =? i then x else f j.

(** Same command (one PATCH, PUT or DELETE, put_stream.go 42-68). *)
Definition cmd_eqb (a b : cmd) : bool :=
  match a, b with
  | Append c i, Append c' i' => (c =? c') && (i =? i')
  | Commit i, Commit i' => i =? i'
  | Forget i, Forget i' => i =? i'
  | _, _ => false
  end.

(** A data server carries out a command or refuses it ([None]).  An append to an unknown file
    is refused (temp_rest.go 21-25), one to a moved file begins a new one
    (AppendFileAligned); a stored file is left alone and the move reported as done
    (objects_service.go 289-291), an empty file cannot be moved (309-312). *)
Definition exec (c : cmd) (s : state) : option state :=
  match c with
  | Append r i =>
      match s_tmp s i with
      | None => None
      | Some l => Some (mk_state (upd (s_tmp s) i (Some (l ++ [r]))) (s_kept s) (s_phase s) (s_stray s) (s_saved s))
      end
  | Commit i =>
      match s_tmp s i, s_kept s i with
      | None, _ => None
      | Some _, Some _ => Some s
      | Some [], None => None
      | Some l, None =>
          Some (mk_state (upd (s_tmp s) i (Some [])) (upd (s_kept s) i (Some l)) (s_phase s) (s_stray s) (s_saved s))
      end
  | Forget i => Some (mk_state (upd (s_tmp s) i None) (s_kept s) (s_phase s) (s_stray s) (s_saved s))
  end.

(** PUT forgets the file after moving it (temp_rest.go 77-81). *)
Definition then_ (c : cmd) : list cmd := match c with Commit i => [Forget i] | _ => [] end.

(** The pieces of one row, one for each server, in parallel (rs_encoder.go 70-111). *)
Definition pieces (t : setup) (c : nat) : list cmd := map (Append c) (seq 0 (t_shards t)).

(** What [Flush] sends at the end (rs_put_stream.go 49). *)
Definition rest (t : setup) (q : request) : list cmd :=
  match q_tail q with None => [] | Some (c, _) => pieces t c end.

(** [CurrentSize] (rs_resumable_stream.go 65-77): asks server 0 only. *)
Definition current (t : setup) (s : state) : option nat :=
  match s_tmp s 0 with None => None | Some l => Some (Nat.min (t_row t * length l) (t_size t)) end.

(** [curSize] after the body (big_api.go 161-166). *)
Definition reached (t : setup) (q : request) : nat :=
  q_first q + t_row t * length (q_rows q) + match q_tail q with None => 0 | Some (_, n) => n end.

(** What may happen next: request [j] begins (144-159); one of its commands is carried out; all
    being done it goes on ([ok]: the metadata can be saved, 180-193); a command left behind is
    carried out; a server forgets a file of itself (the cache of temp_service.go 16-26 drops
    its entry). *)
Inductive event := Begin (j : nat) | Do (j : nat) (c : cmd) | Go (j : nat) (ok : bool) | Late (c : cmd) | Expire (i : nat).

(** Request [j] stands at [p] (big_api.go 138-203). *)
Definition at_ (s : state) (j : nat) (p : phase) : state :=
  mk_state (s_tmp s) (s_kept s) (upd (s_phase s) j p) (s_stray s) (s_saved s).

(** Commands left behind by an answered request (done_group.go 111-126: the wait ends with the
    first error; put_stream.go 56-61: DELETE is not waited for). *)
Definition leave (s : state) (l : list cmd) : state :=
  mk_state (s_tmp s) (s_kept s) (s_phase s) (s_stray s ++ l) (s_saved s).

(** A version is recorded for request [j] (big_api.go 180-188, 205-273). *)
Definition save (s : state) (j : nat) : state :=
  mk_state (s_tmp s) (s_kept s) (s_phase s) (s_stray s) (s_saved s ++ [j]).

(** All commands without this one (rs_encoder.go 98-109: each is there once). *)
Definition without (c : cmd) (l : list cmd) : list cmd := filter (fun x => negb (cmd_eqb c x)) l.

(** The list without one copy of the command, if it is there (put_stream.go 56-61). *)
Fixpoint pick (c : cmd) (l : list cmd) : option (list cmd) :=
  match l with
  | [] => None
  | x :: r => if cmd_eqb c x then Some r
              else match pick c r with None => None | Some r' => Some (x :: r') end
  end.

(** What request [j] does when all its commands are done (big_api.go 161-202; rs_put_stream.go
    48-68). *)
Definition go (t : setup) (q : request) (s : state) (j : nat) (g : goal) (ok : bool) : state :=
  match g with
  | Row k =>
      match nth_error (q_rows q) k with
      | Some c => at_ s j (Flight (pieces t c) (Row (S k)))
      | None =>
          if reached t q <? t_size t then at_ s j (Done Partial)
          else if t_size t <? reached t q then at_ s j (Flight (rest t q) (Flush (Some Exceeds)))
          else if ok then at_ (save s j) j (Flight (rest t q) (Flush None))
          else at_ s j (Flight (rest t q) (Flush (Some Failed)))
      end
  | Flush None => at_ s j (Flight (map Commit (seq 0 (t_shards t))) Keep)
  | Flush (Some a) => leave (at_ s j (Done a)) (map Forget (seq 0 (t_shards t)))
  | Keep => at_ s j (Done Stored)
  end.

(** The answer when a command fails (big_api.go 162-165, 175-177, 189-197). *)
Definition on_error (g : goal) : answer := match g with Flush (Some a) => a | _ => Failed end.

(** One event (big_api.go 137-203); events that do not fit change nothing. *)
Definition step (t : setup) (qs : nat -> request) (s : state) (e : event) : state :=
  match e with
  | Begin j =>
      match s_phase s j with
      | Idle =>
          match current t s with
          | None => at_ s j (Done Failed)
          | Some n => if n =? q_first (qs j) then at_ s j (Flight [] (Row 0)) else at_ s j (Done Refused)
          end
      | _ => s
      end
  | Do j c =>
      match s_phase s j with
      | Flight pend g =>
          if existsb (cmd_eqb c) pend then
            match exec c s with
            | Some s' => at_ s' j (Flight (without c pend ++ then_ c) g)
            | None => leave (at_ s j (Done (on_error g))) (without c pend)
            end
          else s
      | _ => s
      end
  | Go j ok =>
      match s_phase s j with
      | Flight [] g => go t (qs j) s j g ok
      | _ => s
      end
  | Late c =>
      match pick c (s_stray s) with
      | None => s
      | Some r =>
          let s1 := mk_state (s_tmp s) (s_kept s) (s_phase s) r (s_saved s) in
          match exec c s1 with
          | Some s' => leave s' (then_ c)
          | None => s1
          end
      end
  | Expire i => mk_state (upd (s_tmp s) i None) (s_kept s) (s_phase s) (s_stray s) (s_saved s)
  end.

(** Any interleaving of any number of requests. *)
Definition run (t : setup) (qs : nat -> request) (s : state) (es : list event) : state :=
  fold_left (step t qs) es s.
