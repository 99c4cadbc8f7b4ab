(** Model of how API servers ask data servers for the pieces of objects over etcd.

    Source: src/apiserver/internal/usecase/service/object_service.go 65-109
    ([LocateObject]), src/objectserver/internal/usecase/service/locate.go 23-99
    ([NewLocator], [StartLocate], [handlerLocate]).

    Simplified: a question "hash.idx#key" is the number of the request and the index, an
    answer "ip#idx" is the number of the server and the index (the texts are C34, C92);
    keys of requests are distinct (uuid); a response of a watch carries one event, as C34
    has all batches; etcd gives each event to everyone who watches at that time, in order;
    what a data server stores does not change while it is asked.  The empty text
    [NewLocator] may put at the start (26-33) is dropped by [handlerLocate] (79-82) and
    left out. *)
From Coq Require Import List Bool Arith Lia.
Import ListNotations.

(** "hash.idx#key": one per index (object_service.go 74-80). *)
Record question := mk_q { q_req : nat; q_idx : nat }.

(** A data server: the pieces it stores as object and index ([Exist], locate.go 85), whether
    its watch is open, the events not yet taken from it (locate.go 51), the questions its
    goroutines work on (locate.go 67). *)
Record server := mk_server {
  sv_has : list (nat * nat); sv_watch : bool; sv_queue : list question; sv_busy : list question }.

(** A request in [LocateObject]: waiting, returned (object_service.go 91, 95, 105, 108), or
    with its key deleted (object_service.go 71). *)
Inductive phase := Open | Ended (ok : bool) | Gone (ok : bool).

(** The object, [shardNum], questions put so far, events not yet taken from the watch
    (object_service.go 72), [cnt], [locates] (object_service.go 73, 85). *)
Record request := mk_request {
  rq_obj : nat; rq_shards : nat; rq_asked : nat; rq_events : list (nat * nat); rq_cnt : nat;
  rq_locates : list (option nat); rq_phase : phase }.

(** Everything: the servers, the requests, the keys of requests that are in etcd, and what was
    put so far: questions, and answers with their server (etcd's history). *)
Record state := mk_state {
  st_servers : list server; st_requests : list request; st_keys : list nat;
  st_asked : list question; st_answers : list (nat * question) }.

Inductive event :=
| Begin (obj shards : nat)      (* object_service.go 65-73 *)
| Ask (r : nat) (ok : bool)     (* object_service.go 74-80: an error is logged only *)
| Stopped (s : nat)             (* locate.go 52: the channel of the watch is closed *)
| Again (s : nat)               (* locate.go 53-55 *)
| Notice (s : nat)              (* locate.go 51, 61-68 *)
| Answer (s j : nat) (ok : bool) (* locate.go 76-99 for the [j]-th goroutine; [ok]: Put worked *)
| Hear (r : nat)                (* object_service.go 88, 97-102 *)
| Late (r : nat)                (* object_service.go 103-105 *)
| Broken (r : nat)              (* object_service.go 89-96 *)
| Delete (r : nat) (ok : bool). (* object_service.go 71 *)

Definition piece_eqb (a b : nat * nat) : bool := (fst a =? fst b) && (snd a =? snd b).
(** [Exist(hash)] (locate.go 85). *)
Definition has (sv : server) (obj idx : nat) : bool := existsb (piece_eqb (obj, idx)) (sv_has sv).

Fixpoint update {A} (l : list A) (k : nat) (x : A) : list A :=
  match l, k with
  | [], _ => []
  | _ :: l', 0 => x :: l'
  | y :: l', S k' => y :: update l' k' x
  end.

Fixpoint without {A} (l : list A) (k : nat) : list A :=
  match l, k with
  | [], _ => []
  | _ :: l', 0 => l'
  | y :: l', S k' => y :: without l' k'
  end.

(** A put on the common key: all watches get the event (locate.go 42, 54). *)
Definition deliver (q : question) (sv : server) : server :=
  if sv_watch sv then mk_server (sv_has sv) true (sv_queue sv ++ [q]) (sv_busy sv) else sv.

(** The condition of the loop (object_service.go 86, 108), reached once all questions are
    put. *)
Definition settle (q : request) : request :=
  if (rq_asked q =? rq_shards q) && (rq_shards q <=? rq_cnt q)
  then mk_request (rq_obj q) (rq_shards q) (rq_asked q) (rq_events q) (rq_cnt q) (rq_locates q) (Ended true) else q.

Definition with_phase (q : request) (p : phase) : request :=
  mk_request (rq_obj q) (rq_shards q) (rq_asked q) (rq_events q) (rq_cnt q) (rq_locates q) p.

(** An answer put on the key of a request: its watch gets it while it is open
    (object_service.go 66, 67, 72: cancelled on return). *)
Definition arrive (s idx : nat) (q : request) : request :=
  match rq_phase q with
  | Open => mk_request (rq_obj q) (rq_shards q) (rq_asked q) (rq_events q ++ [(s, idx)]) (rq_cnt q) (rq_locates q) Open
  | _ => q
  end.

Definition is_open (q : request) : bool := match rq_phase q with Open => true | _ => false end.

Definition step (st : state) (e : event) : state :=
  let svs := st_servers st in
  let rqs := st_requests st in
  match e with
  | Begin obj n =>
      mk_state svs (rqs ++ [settle (mk_request obj n 0 [] 0 (repeat None n) Open)]) (st_keys st) (st_asked st) (st_answers st)
  | Ask r ok =>
      match nth_error rqs r with
      | Some q =>
          if is_open q && (rq_asked q <? rq_shards q) then
            let q' := settle (mk_request (rq_obj q) (rq_shards q) (S (rq_asked q)) (rq_events q) (rq_cnt q) (rq_locates q) Open) in
            if ok then
              let m := mk_q r (rq_asked q) in
              mk_state (map (deliver m) svs) (update rqs r q') (st_keys st) (st_asked st ++ [m]) (st_answers st)
            else mk_state svs (update rqs r q') (st_keys st) (st_asked st) (st_answers st)
          else st
      | None => st
      end
  | Stopped s =>
      match nth_error svs s with
      | Some sv => mk_state (update svs s (mk_server (sv_has sv) false [] (sv_busy sv))) rqs (st_keys st) (st_asked st) (st_answers st)
      | None => st
      end
  | Again s =>
      match nth_error svs s with
      | Some sv => mk_state (update svs s (mk_server (sv_has sv) true (sv_queue sv) (sv_busy sv))) rqs (st_keys st) (st_asked st) (st_answers st)
      | None => st
      end
  | Notice s =>
      match nth_error svs s with
      | Some sv =>
          match sv_queue sv with
          | m :: rest => mk_state (update svs s (mk_server (sv_has sv) (sv_watch sv) rest (sv_busy sv ++ [m]))) rqs (st_keys st) (st_asked st) (st_answers st)
          | [] => st
          end
      | None => st
      end
  | Answer s j ok =>
      match nth_error svs s with
      | Some sv =>
          match nth_error (sv_busy sv) j with
          | Some m =>
              let svs' := update svs s (mk_server (sv_has sv) (sv_watch sv) (sv_queue sv) (without (sv_busy sv) j)) in
              match nth_error rqs (q_req m) with
              | Some q =>
                  if has sv (rq_obj q) (q_idx m) && ok
                  then mk_state svs' (update rqs (q_req m) (arrive s (q_idx m) q)) (q_req m :: st_keys st)
                         (st_asked st) (st_answers st ++ [(s, m)])
                  else mk_state svs' rqs (st_keys st) (st_asked st) (st_answers st)
              | None => mk_state svs' rqs (st_keys st) (st_asked st) (st_answers st)
              end
          | None => st
          end
      | None => st
      end
  | Hear r =>
      match nth_error rqs r with
      | Some q =>
          if is_open q && (rq_asked q =? rq_shards q) then
            match rq_events q with
            | (s, i) :: rest =>
                mk_state svs (update rqs r (settle (mk_request (rq_obj q) (rq_shards q) (rq_asked q) rest (S (rq_cnt q))
                  (update (rq_locates q) i (Some s)) Open))) (st_keys st) (st_asked st) (st_answers st)
            | [] => st
            end
          else st
      | None => st
      end
  | Late r | Broken r =>
      match nth_error rqs r with
      | Some q => if is_open q && (rq_asked q =? rq_shards q)
                  then mk_state svs (update rqs r (with_phase q (Ended false))) (st_keys st) (st_asked st) (st_answers st) else st
      | None => st
      end
  | Delete r ok =>
      match nth_error rqs r with
      | Some q =>
          match rq_phase q with
          | Ended res => mk_state svs (update rqs r (with_phase q (Gone res)))
                           (if ok then filter (fun k => negb (k =? r)) (st_keys st) else st_keys st) (st_asked st) (st_answers st)
          | _ => st
          end
      | None => st
      end
  end.

Definition run (st : state) (es : list event) : state := fold_left step es st.

(** Data servers watching, nothing asked yet; each with the pieces it stores. *)
Definition start (holds : list (list (nat * nat))) : state :=
  mk_state (map (fun h => mk_server h true [] []) holds) [] [] [] [].
