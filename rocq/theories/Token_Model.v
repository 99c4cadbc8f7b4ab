(** Model of continuing a resumable upload with a token: what the token names, who is asked, what is saved, and how
    the request ends.

    Source: src/apiserver/internal/controller/http/big_api.go 41-260, usecase/service/rs_resumable_stream.go 11-82,
    rs_put_stream.go 14-68, rs_encoder.go 19-110, put_stream.go 22-68, usecase/webapi/object_server.go 14-130,
    src/apiserver/config/config.go 83-98, src/common/util/util.go 39-54.

    From the libraries: [gob] decodes every value of the structure from a text anybody can make (it is no
    signature), so a request is given by the token it decodes to; [http.NewRequest] refuses some addresses;
    [reedsolomon.New] refuses some numbers of shards and gives nil then, else [Split] makes as many shards as both
    numbers together; [make] panics for a negative capacity or one above the largest.

    Simplified: the body comes in one piece (of [n] bytes that arrived); what data servers do with the pieces is in
    Piece_Model, what the metadata is in Client_Model; a version is saved or not as the environment says. *)
From Coq Require Import List Bool ZArith.
From Verif Require Import Str_Model.
From Verif Require Panic_Model.
Import ListNotations.
Local Open Scope list_scope.
Local Open Scope Z_scope.

(** [RsConfig] (config.go 76-81) as far as uploads use it. *)
Record rsconf := mk_rsconf { rc_data : Z; rc_parity : Z; rc_block : Z }.

(** [resumeToken] (rs_resumable_stream.go 11-20); the pointer may be nil. *)
Record token := mk_token {
  tk_compress : bool; tk_size : Z; tk_name : str; tk_hash : str; tk_bucket : str;
  tk_servers : list str; tk_ids : list str; tk_config : option rsconf }.

(** int of 64 bits. *)
Definition i64 (z : Z) : Z := (z + 2 ^ 63) mod 2 ^ 64 - 2 ^ 63.

(** config.go 83-89. *)
Definition all_shards (c : rsconf) : Z := i64 (rc_data c + rc_parity c).
Definition block_size (c : rsconf) : Z := i64 (rc_block c * rc_data c).

(** What is outside: [reedsolomon.New], the largest capacity of a slice, [http.NewRequest] for server and id,
    HEAD of a piece (its size, or the status of the error), the PATCH of the k-th block and the end of it,
    goroutines of the k-th block that come
    only after the stream was closed, the digest and the saving of the version. *)
Record env := mk_env {
  ev_rs : Z -> Z -> bool; ev_cap : Z; ev_addr : str -> str -> bool;
  ev_head : str -> str -> Z + Z; ev_patch : nat -> str -> str -> bool; ev_put : str -> str -> bool;
  ev_late : nat -> nat -> bool; ev_digest : bool; ev_save : bool }.

(** What a request did: requests to others, versions saved. *)
Inductive deed :=
| Asked (server id : str)
| Saved (bucket name hash : str) (size : Z) (servers : list str).

(** How it ended. *)
Inductive fate := Answered (status : Z) | Gone | Endless.

(** A panic in the handler, or in a goroutine that defers [Done] of its group. *)
Definition ends (j : Panic_Model.job) : fate :=
  match snd (Panic_Model.finish Panic_Model.server_new (j, Some (Panic_Model.PValue []))) with
  | Panic_Model.Gone => Gone
  | _ => Answered 500
  end.
Definition in_handler : fate := ends (Panic_Model.JHttp []).
Definition in_worker : fate := ends (Panic_Model.JGo [Panic_Model.dg_done]).

(** [newExistedRSPutStream], [NewEncoder] (rs_put_stream.go 40-46, rs_encoder.go 19-27); [None] is a panic. *)
Definition open_stream (e : env) (t : token) : option (rsconf * list (str * str)) :=
  if (List.length (tk_servers t) <? List.length (tk_ids t))%nat then None else
  match tk_config t with
  | None => None
  | Some c => if (block_size c <? 0) || (ev_cap e <? block_size c) then None else Some (c, combine (tk_servers t) (tk_ids t))
  end.

(** [CurrentSize] (rs_resumable_stream.go 65-77): a panic, an error, or the size. *)
Inductive cur := CPanic | CErr (d : list deed) (status : Z) | CSize (d : list deed) (n : Z).
Definition current_size (e : env) (t : token) (c : rsconf) : cur :=
  match tk_servers t, tk_ids t with
  | s :: _, i :: _ =>
      if ev_addr e s i then
        match ev_head e s i with
        | inr st => CErr [Asked s i] st
        | inl n => let m := i64 (n * rc_data c) in CSize [Asked s i] (if tk_size t <? m then tk_size t else m)
        end
      else CErr [] 500
  | _, _ => CPanic
  end.

(** [Flush] of the k-th block that is not empty (rs_encoder.go 59-110) with [PutStream.Write] (put_stream.go 42-50)
    and [PatchTmpObject] (object_server.go 51-71: the error of [NewRequest] is dropped and the request is nil). *)
Inductive flushed := FNil | FErr | FEnd (f : fate).
Definition refused (e : env) (k : nat) (ws : list (str * str)) : bool :=
  existsb (fun w => ev_addr e (fst w) (snd w) && negb (ev_patch e k (fst w) (snd w))) ws.
Definition fatal (e : env) (k : nat) (ws : list (str * str)) (i : nat) : bool :=
  match nth_error ws i with
  | None => true
  | Some (s, d) => negb (ev_addr e s d) && negb (ev_late e k i && refused e k ws)
  end.
Definition flush (e : env) (k : nat) (c : rsconf) (ws : list (str * str)) : list deed * flushed :=
  if ev_rs e (rc_data c) (rc_parity c) then
    let used := firstn (Z.to_nat (all_shards c)) ws in
    let asked := map (fun w => Asked (fst w) (snd w)) (filter (fun w => ev_addr e (fst w) (snd w)) used) in
    if existsb (fatal e k used) (seq 0 (Z.to_nat (all_shards c))) then (asked, FEnd in_worker)
    else if forallb (fun w => ev_addr e (fst w) (snd w) && ev_patch e k (fst w) (snd w)) used then (asked, FNil)
    else (asked, FErr)
  else ([], FEnd in_handler).

(** [left] full blocks from the k-th on ([Write], rs_encoder.go 39-57). *)
Fixpoint blocks (e : env) (k left_ : nat) (c : rsconf) (ws : list (str * str)) : list deed * flushed :=
  match left_ with
  | O => ([], FNil)
  | S m =>
      match flush e k c ws with
      | (d, FNil) => let (d', r) := blocks e (S k) m c ws in (d ++ d', r)
      | r => r
      end
  end.

(** [Commit] (rs_put_stream.go 48-68, put_stream.go 53-68): the rest of the cache, then every piece; an address that is
    refused is an error (object_server.go 14-29, 73-98). *)
Definition commit (e : env) (k : nat) (rest : bool) (c : rsconf) (ws : list (str * str)) : list deed * flushed :=
  match (if rest then flush e k c ws else ([], FNil)) with
  | (d, FNil) =>
      (d ++ map (fun w => Asked (fst w) (snd w)) (filter (fun w => ev_addr e (fst w) (snd w)) ws),
       if forallb (fun w => ev_addr e (fst w) (snd w) && ev_put e (fst w) (snd w)) ws then FNil else FErr)
  | r => r
  end.

(** The answer after a commit: [st] when it went well, or whatever came of it. *)
Definition after (r : list deed * flushed) (ok bad : Z) : list deed * fate :=
  match r with
  | (d, FNil) => (d, Answered ok)
  | (d, FErr) => (d, Answered bad)
  | (d, FEnd f) => (d, f)
  end.
Definition within (d : list deed) (r : list deed * fate) : list deed * fate := (d ++ fst r, snd r).

(** [Patch] (big_api.go 138-202) with a token, a range that begins at [first] and a body of [n] bytes; a token that
    is none, or no range, is refused (139-148). *)
Definition patch (e : env) (t : option token) (first : option Z) (n : Z) : list deed * fate :=
  match first, t with
  | Some first, Some t =>
      match open_stream e t with
      | None => ([], in_handler)
      | Some (c, ws) =>
          match current_size e t c with
          | CPanic => ([], in_handler)
          | CErr d st => (d, Answered st)
          | CSize d0 size =>
              if negb (size =? first) then (d0, Answered 416) else
              if (0 <? n) && (block_size c =? 0) then (d0, Endless) else
              let k := Z.to_nat (n / block_size c) in
              let rest := negb (n mod block_size c =? 0) in
              within d0
              match blocks e 0 k c ws with
              | (d, FErr) => (d, Answered 500)
              | (d, FEnd f) => (d, f)
              | (d, FNil) =>
                  within d
                  (let now := i64 (size + n) in
                   if now <? tk_size t then ([], Answered 206)
                   else if tk_size t <? now then after (commit e k rest c ws) 403 403
                   else if rc_data c =? 0 then ([], in_handler)  (* ShardSize, config.go 95-98 *)
                   else if negb (ev_digest e) then after (commit e k rest c ws) 403 403
                   else if negb (ev_save e) then after (commit e k rest c ws) 500 500
                   else within [Saved (tk_bucket t) (tk_name t) (tk_hash t) (tk_size t) (tk_servers t)]
                               (after (commit e k rest c ws) 200 500))
              end
          end
      end
  | _, _ => ([], Answered 400)
  end.

(** [Head] (big_api.go 117-135). *)
Definition head (e : env) (t : option token) : list deed * fate :=
  match t with
  | None => ([], Answered 400)
  | Some t =>
      match open_stream e t with
      | None => ([], in_handler)
      | Some (c, _) =>
          match current_size e t c with
          | CPanic => ([], in_handler)
          | CErr d st => (d, Answered st)
          | CSize d _ => (d, Answered 200)
          end
      end
  end.

(** The token given out for an upload (big_api.go 87-113, rs_resumable_stream.go 42-62, rs_put_stream.go 14-38):
    the servers selected, the ids they answered with. *)
Definition issue (bucket name hash : str) (size : Z) (compress : bool) (c : rsconf) (servers ids : list str) : option token :=
  if (Z.of_nat (List.length servers) <? all_shards c) || (all_shards c <? 0) then None
  else Some (mk_token compress size name hash bucket servers ids (Some c)).
