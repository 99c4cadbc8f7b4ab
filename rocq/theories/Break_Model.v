(** Model of downloads that break off on the way: the answer of a data server whose disk
    fails (src/objectserver/internal/controller/http/objects/objects_rest.go 58-91), the
    stream the API server reads it with
    (src/apiserver/internal/usecase/service/get_stream.go), the decoder over several of
    them (rs_decoder.go), the answer of the API server
    (src/apiserver/internal/controller/http/objects_api.go 58-95) and the download of the
    admin server (src/adminserver/internal/controller/http/object.go 45-65).

    Simplified: repairs that run along with a download (copy_fix_stream.go, the writers of
    rs_decoder.go 99-118) are left out; the content of a piece is what [GetFile] would
    deliver (Copy_Model.fetch_at); requests without a [Range] unless said otherwise; the
    text of an error answer is a parameter.  An answer that was begun is ended by net/http
    like any other when the handler returns, so its reader sees a regular end. *)
From Verif Require Export Rs_Model.

(** How the bytes read from a connection end: with [io.EOF]; with [io.ErrUnexpectedEOF]
    (the connection was closed, http2 transport); with any other error. *)
Inductive ending := Clean | Closed | Lost.

(** How reading a whole object ends. *)
Inductive read_end := RWhole | RFailed | RCrash.

(** A reader of one piece (get_stream.go 10-16): no answer yet, with the outcome of each
    further request ([None]: an error or a status that is not 200); or the rest of one. *)
Inductive feed (B : Type) :=
| Waiting (tries : list (option (list B * ending)))
| Open (rest : list B) (e : ending).
Arguments Waiting {B}. Arguments Open {B}.

(** What a client gets: status and body, or nothing more since the process has ended. *)
Inductive reply (B : Type) := Answer (st : Z) (body : list B) | Down.
Arguments Answer {B}. Arguments Down {B}.

Section Break.
  Context {B : Type}.
  (** The JSON text [FailErr] writes (response.go 109-137). *)
  Variable message : list B.

  (** objects_rest.go 80-83, 90 and response.go 128-135 on a data server: the disk fails
      after [k] bytes ([stop = Some k]).  The status is sent with the first byte; after
      it [FailErr] only adds its text. *)
  Definition data_get (content : list B) (stop : option nat) : Z * list B :=
    match stop with
    | None => (200%Z, content)
    | Some k =>
        match firstn k content with
        | [] => (500%Z, message)
        | got => (200%Z, got ++ message)
        end
    end.

  (** What arrives of a body over a connection that may break after [j] bytes. *)
  Definition over_wire (body : list B) (cut : option (nat * ending)) : list B * ending :=
    match cut with None => (body, Clean) | Some (j, e) => (firstn j body, e) end.

  (** get_stream.go 34-44 [request]: one request, [None] = no answer at all. *)
  Definition request (ans : option (Z * list B)) (cut : option (nat * ending)) : option (list B * ending) :=
    match ans with
    | Some (st, body) => if (st =? 200)%Z then Some (over_wire body cut) else None
    | None => None
    end.

  (** ** A single copy *)

  (** objects_api.go 85 [io.Copy] from a [GetStream] (get_stream.go 69-76): everything
      until the end or an error. *)
  Definition copy_all (s : feed B) : list B * read_end :=
    match s with
    | Waiting (Some (l, Clean) :: _) => (l, RWhole)
    | Waiting (Some (l, _) :: _) => (l, RFailed)
    | Waiting _ => ([], RFailed)
    | Open l Clean => (l, RWhole)
    | Open l _ => (l, RFailed)
    end.

  (** objects_api.go 84-94: an error is logged; the answer is ended as it is, and gin
      sends the status 200 if nothing was written. *)
  Definition api_get (r : list B * read_end) : reply B :=
    match snd r with RCrash => Down | _ => Answer 200 (fst r) end.

  (** objects_api.go 77-83: with a [Range] the stream is moved first, which makes the
      request (get_stream.go 53-58); its error is answered. *)
  Definition api_get_range (s : feed B) : reply B :=
    match s with
    | Waiting (Some (l, e) :: _) => api_get (copy_all (Open l e))
    | Waiting _ => Answer 500 message
    | Open l e => api_get (copy_all s)
    end.

  (** ** Shards *)

  Section Shards.
    Variable lib : rs_lib B.
    Variable c : rs_config.

    (** rs_decoder.go 84-89 [io.ReadFull] of a block and what is made of its error: an
        early end gives a shorter shard, any other error a nil one, which is then sliced
        to the number of bytes read: a panic unless that is 0 ([None]). *)
    Definition take_open (l : list B) (e : ending) : option (option (list B) * feed B) :=
      let got := firstn (rc_bps c) l in
      let next := Open (skipn (rc_bps c) l) e in
      if rc_bps c <=? length l then Some (Some got, next)
      else match got, e with
           | [], _ => Some (None, next)
           | _, Lost => None
           | _, _ => Some (Some got, next)
           end.

    (** As long as there is no answer each [Read] asks anew, from the first byte on
        (get_stream.go 69-75). *)
    Definition take (s : option (feed B)) : option (option (list B) * option (feed B)) :=
      match s with
      | None => Some (None, None)
      | Some (Open l e) => match take_open l e with Some (x, s') => Some (x, Some s') | None => None end
      | Some (Waiting []) => Some (None, s)
      | Some (Waiting (None :: t)) => Some (None, Some (Waiting t))
      | Some (Waiting (Some (l, e) :: _)) =>
          match take_open l e with Some (x, s') => Some (x, Some s') | None => None end
      end.

    (** rs_decoder.go 71-92: one block of every shard; [None]: a goroutine panicked, and
        [graceful.Recover] panics again (recover.go 12-23). *)
    Fixpoint take_all (ss : list (option (feed B))) : option (list (option (list B)) * list (option (feed B))) :=
      match ss with
      | [] => Some ([], [])
      | s :: t =>
          match take s, take_all t with
          | Some (x, s'), Some (xs, t') => Some (x :: xs, s' :: t')
          | _, _ => None
          end
      end.

    (** objects_api.go 85 [io.Copy] from the decoder (rs_decoder.go 44-61 [Read], 63-137
        [getData]): block by block until the size is reached. *)
    Fixpoint rs_read (fuel : nat) (ss : list (option (feed B))) (size total : nat) (out : list B) : list B * read_end :=
      match fuel with
      | O => (out, RFailed)
      | S f =>
          if total =? size then (out, RWhole)
          else match take_all ss with
               | None => (out, RCrash)
               | Some (shards, ss') =>
                   match lib_reconstruct lib shards with
                   | None => (out, RFailed)
                   | Some row =>
                       let '(cache, total') := combine size (firstn (rc_data c) row) [] total in
                       rs_read f ss' size total' (out ++ cache)
                   end
               end
      end.

    (** The download of an object of [size] bytes from its shards. *)
    Definition rs_get (ss : list (option (feed B))) (size : nat) : reply B :=
      api_get (rs_read (S size) ss size 0 []).
  End Shards.

  (** ** The admin server *)

  (** webapi/api_server.go 57-72 [GetObjects] and object.go 55-64: the answer of the API
      server, [None] if there is none.  A status that is not 200 becomes an error
      ([FailErr], response.go 114-135); a broken copy is followed by an error text. *)
  Definition admin_download (ans : option (Z * (list B * ending))) : Z * list B :=
    match ans with
    | None => (500%Z, message)
    | Some (st, (l, e)) =>
        if (st =? 200)%Z
        then (200%Z, l ++ match e with Clean => [] | _ => message end)
        else (st, if (st / 100 =? 2)%Z then [] else message)
    end.
End Break.
