(** Model of finishing uploads in the API server: util.DoneGroup
    (src/common/util/done_group.go), PutStream (put_stream.go), the order of commit and
    metadata in the two upload paths (object_service.go:111-232, big_api.go:137-273) and
    resumable uploads (big_api.go, rs_resumable_stream.go, temp_rest.go). *)
From Verif Require Export Rs_Model.

(** ** DoneGroup *)

(** A worker goroutine: its outcome ([Some e] = it calls [Error e]), then [Done]. *)
Inductive worker := Running (out : option nat) | Reported (e : nat) | Finished (out : option nat).
(** The goroutine of [WaitDone] (done_group.go:95-109): in [Wait], offering on the
    channel. *)
Inductive helper := Waiting | Offering.
(** done_group.go:34-38; [dg_ec] is the content of the buffered error channel;
    [dg_result] what [WaitUntilError] returned ([Some None] = nil). *)
Record dgroup := {
  dg_workers : list worker;
  dg_ec : option nat;
  dg_closed : bool;
  dg_helper : helper;
  dg_result : option (option nat) }.

Definition set_nth {A} (l : list A) (i : nat) (x : A) : list A := firstn i l ++ x :: skipn (S i) l.

(** Steps of the group: a worker moves on, [Wait] returns, the select of
    [WaitUntilError] takes one of its ready cases (done_group.go:118-126; Go picks any
    ready case). *)
Inductive dg_step := Work (i : nat) | WaitReturns | TakeDone | TakeErr.

Definition dg_finished (w : worker) : bool := match w with Finished _ => true | _ => false end.

Definition dg_do (st : dgroup) (a : dg_step) : option dgroup :=
  match a with
  | Work i =>
      match nth_error (dg_workers st) i with
      | Some (Running None) =>
          Some {| dg_workers := set_nth (dg_workers st) i (Finished None); dg_ec := dg_ec st;
                  dg_closed := dg_closed st; dg_helper := dg_helper st; dg_result := dg_result st |}
      (* Error: done_group.go:72-78 *)
      | Some (Running (Some e)) =>
          Some {| dg_workers := set_nth (dg_workers st) i (Reported e);
                  dg_ec := if dg_closed st then dg_ec st else Some e;
                  dg_closed := true; dg_helper := dg_helper st; dg_result := dg_result st |}
      | Some (Reported e) =>
          Some {| dg_workers := set_nth (dg_workers st) i (Finished (Some e)); dg_ec := dg_ec st;
                  dg_closed := dg_closed st; dg_helper := dg_helper st; dg_result := dg_result st |}
      | _ => None
      end
  | WaitReturns =>
      match dg_helper st with
      | Waiting => if forallb dg_finished (dg_workers st) then
          Some {| dg_workers := dg_workers st; dg_ec := dg_ec st; dg_closed := dg_closed st;
                  dg_helper := Offering; dg_result := dg_result st |} else None
      | Offering => None
      end
  | TakeDone =>
      match dg_helper st, dg_result st with
      | Offering, None => Some {| dg_workers := dg_workers st; dg_ec := dg_ec st; dg_closed := dg_closed st;
                                  dg_helper := Offering; dg_result := Some None |}
      | _, _ => None
      end
  | TakeErr =>
      match dg_ec st, dg_result st with
      | Some e, None => Some {| dg_workers := dg_workers st; dg_ec := None; dg_closed := dg_closed st;
                                dg_helper := dg_helper st; dg_result := Some (Some e) |}
      | _, _ => None
      end
  end.
(** done_group.go:46-48, workers started with [Todo] and [go] before the wait. *)
Definition dg_init (outs : list (option nat)) : dgroup :=
  {| dg_workers := map Running outs; dg_ec := None; dg_closed := false; dg_helper := Waiting; dg_result := None |}.
Fixpoint dg_run (st : dgroup) (l : list dg_step) : option dgroup :=
  match l with [] => Some st | a :: r => match dg_do st a with Some st' => dg_run st' r | None => None end end.

(** ** PutStream *)
Section PutStream.
  Context {B : Type}.
  Inductive ps_op := OpClose | OpWrite (b : B) | OpCommit (ok : bool).
  Inductive ps_res := ResOk | ResClosed.
  (** A caller: about to start, past the check of [Write], past the swap of [Commit],
      returned. *)
  Inductive ps_thread := Start (op : ps_op) | SendPatch (b : B) | SendFinish (ok : bool) | Returned (r : ps_res).
  Inductive ps_req := Patch (b : B) | Put | Delete.
  (** put_stream.go:13-19 with the requests sent, each tagged with its caller. *)
  Record pstream := { ps_committed : bool; ps_threads : list ps_thread; ps_log : list (nat * ps_req) }.

  (** One atomic step of caller [i]: put_stream.go:37-40 [Close], 42-50 [Write]
      (load, then PATCH), 53-68 [Commit] (swap, then PUT or DELETE). *)
  Definition ps_do (st : pstream) (i : nat) : option pstream :=
    let upd c t l := Some {| ps_committed := c; ps_threads := set_nth (ps_threads st) i t; ps_log := l |} in
    match nth_error (ps_threads st) i with
    | Some (Start OpClose) => upd true (Returned ResOk) (ps_log st)
    | Some (Start (OpWrite b)) =>
        if ps_committed st then upd true (Returned ResClosed) (ps_log st)
        else upd false (SendPatch b) (ps_log st)
    | Some (Start (OpCommit ok)) =>
        if ps_committed st then upd true (Returned ResOk) (ps_log st)
        else upd true (SendFinish ok) (ps_log st)
    | Some (SendPatch b) => upd (ps_committed st) (Returned ResOk) (ps_log st ++ [(i, Patch b)])
    | Some (SendFinish ok) =>
        upd (ps_committed st) (Returned ResOk) (ps_log st ++ [(i, if ok then Put else Delete)])
    | _ => None
    end.
  Fixpoint ps_run (st : pstream) (l : list nat) : option pstream :=
    match l with [] => Some st | i :: r => match ps_do st i with Some st' => ps_run st' r | None => None end end.
  Definition ps_init (ops : list ps_op) : pstream :=
    {| ps_committed := false; ps_threads := map Start ops; ps_log := [] |}.
End PutStream.

(** ** Order of commit and metadata *)
Inductive effect := Committed (shard : nat) | Visible.

(** The commits that took effect, in the order they did (rs_put_stream.go:47-68). *)
Definition commit_effects (order : list nat) (ok : nat -> bool) : list effect :=
  map Committed (filter ok order).

(** object_service.go:158-182 [StoreObject]: upload unless located, then metadata;
    [wait_nil] = what [WaitUntilError] of [Commit] reports; [meta_ok] = the metadata
    server accepted the version. *)
Definition store_effects (located : bool) (order : list nat) (ok : nat -> bool) (wait_nil meta_ok : bool) : list effect :=
  if located then (if meta_ok then [Visible] else [])
  else commit_effects order ok ++ (if wait_nil && meta_ok then [Visible] else []).

(** big_api.go:181-196: [finishUpload] (metadata), then [Commit]; if the metadata was
    refused the upload is discarded. *)
Definition big_effects (order : list nat) (ok : nat -> bool) (meta_ok : bool) : list effect :=
  if meta_ok then Visible :: commit_effects order ok else [].

(** ** Resumable uploads *)
Section Resume.
  Context {B : Type}.
  Variable zero : B.
  Variable rf : bool.
  Variable lib : rs_lib B.
  Variable c : rs_config.
  (** The announced object size (big_api.go:87-97, in the token). *)
  Variable size : nat.

  (** Blocks appended so far to the temp file of each shard. *)
  Definition shard_files := nat -> list (list B).

  (** temp_rest.go:86-106 [Head]: the file size, at most the shard size. *)
  Definition tmp_size (blocks : list (list B)) : nat :=
    match store_blocks zero rf blocks with
    | Some f => Nat.min (length f) (shard_size c size)
    | None => 0
    end.
  (** rs_resumable_stream.go:65-77 [CurrentSize]. *)
  Definition current_size (f : shard_files) : nat := Nat.min size (tmp_size (f 0) * rc_data c).

  (** rs_encoder.go:59-112: one flush; shard [i] is not written if [failing i]. *)
  Definition append_row (f : shard_files) (row : list (list B)) (failing : nat -> bool) : shard_files :=
    fun i => if failing i then f i else f i ++ [nth i row []].
  (** Flushes in sequence; an error stops (rs_encoder.go:48-50). [fails k i]: shard [i]
      fails in flush [k]. *)
  Fixpoint append_rows (f : shard_files) (rows : list (list (list B))) (fails : nat -> nat -> bool) (k : nat)
    : shard_files * bool :=
    match rows with
    | [] => (f, true)
    | row :: rest =>
        let f' := append_row f row (fails k) in
        if existsb (fails k) (seq 0 (all_shards c)) then (f', false) else append_rows f' rest fails (S k)
    end.

  Inductive big_res := BadRange (cur : nat) | BigFailed | Partial (cur : nat) | Exceeded | Complete.

  (** big_api.go:137-203 [Patch] (metadata assumed to be accepted): range check, copy of
      the body (in the given pieces) into a fresh stream, then incomplete, too long or
      finished with [Commit], which flushes the rest. *)
  Definition big_patch (f : shard_files) (off : nat) (bts : list (list B)) (fails : nat -> nat -> bool)
    : shard_files * big_res :=
    let cur := current_size f in
    if negb (cur =? off) then (f, BadRange cur)
    else
      match writes lib c (length (concat bts)) new_encoder bts with
      | None => (f, BigFailed)
      | Some e =>
          let '(f1, ok) := append_rows f (e_sent e) fails 0 in
          if negb ok then (f1, BigFailed)
          else
            let cur' := cur + length (concat bts) in
            if cur' <? size then (f1, Partial cur')
            else if size <? cur' then (f1, Exceeded)
            else
              let '(f2, ok2) := append_rows f1 (skipn (length (e_sent e)) (e_sent (flush lib c e))) fails (length (e_sent e)) in
              if ok2 then (f2, Complete) else (f2, BigFailed)
      end.
  Definition no_fails (k i : nat) : bool := false.
  Definition empty_files : shard_files := fun _ => [].
End Resume.
