From Verif Require Import ListX Upload_Spec Upload_Proofs Rs_Main Resume_Proofs.

(** * C51: waiting for a group of workers reports their errors *)

(** nil is returned only after every worker is done. *)
Theorem C51_nil_means_done : forall outs l st, dg_run (dg_init outs) l = Some st -> dg_result st = Some None ->
  length (dg_workers st) = length outs /\ forall w, In w (dg_workers st) -> exists o, w = Finished o.
Proof. exact dg_nil_done. Qed.
Print Assumptions C51_nil_means_done.

(** An error that is returned was reported by a worker. *)
Theorem C51_error_genuine : forall outs l st e, dg_run (dg_init outs) l = Some st -> dg_result st = Some (Some e) ->
  In (Some e) outs.
Proof. exact dg_error_genuine. Qed.
Print Assumptions C51_error_genuine.

(** The wait never gets stuck. *)
Theorem C51_wait_ends : forall outs l st, dg_run (dg_init outs) l = Some st -> dg_result st = None ->
  exists l' st', dg_run st l' = Some st' /\ dg_result st' <> None.
Proof. exact dg_live. Qed.
Print Assumptions C51_wait_ends.

(** nil with no error waiting in the channel means that no worker failed.  Full
    statement: [dg_result st = Some None -> forall o, In o outs -> o = None]; missing:
    the case where both channels are ready, which Go decides at random. *)
(** Partial.  Full statement: When the wait for a group of workers returns without an error, every
    worker has finished and none has failed; an error that is returned was reported by one of them;
    the wait always returns.  It fails in general: [C51_lost_error_refuted]. *)
Theorem C51_nil_means_success_partial : forall outs l st st', dg_run (dg_init outs) l = Some st -> dg_ec st = None ->
  dg_do st TakeDone = Some st' -> forall o, In o outs -> o = None.
Proof. exact dg_done_clean. Qed.
Print Assumptions C51_nil_means_success_partial.

(** A worker fails and is done before the wait looks: nil is returned. *)
Theorem C51_lost_error_refuted : exists outs l st, dg_run (dg_init outs) l = Some st /\ dg_result st = Some None /\ In (Some 7) outs.
Proof. exists [Some 7], [Work 0; Work 0; WaitReturns; TakeDone]. eexists. repeat split. left. reflexivity. Qed.
Print Assumptions C51_lost_error_refuted.

Example C51_nonvacuous : exists st,
  dg_run (dg_init [None; Some 3; None]) [Work 1; Work 0; Work 1; Work 2; WaitReturns; TakeErr] = Some st /\
  dg_result st = Some (Some 3).
Proof. eexists. split; reflexivity. Qed.
Example C51_nonvacuous_nil : exists st st',
  dg_run (dg_init [None; None]) [Work 1; Work 0; WaitReturns] = Some st /\ dg_ec st = None /\
  dg_do st TakeDone = Some st' /\ dg_result st' = Some None.
Proof. do 2 eexists. repeat split. Qed.

(** * C29: each upload stream is finished exactly once *)

(** Whatever calls run concurrently, at most one request finishes the upload. *)
Theorem C29_finish_once : forall (B : Type) (ops : list (@ps_op B)) l st,
  ps_run (ps_init ops) l = Some st -> length (filter is_finish (ps_log st)) <= 1.
Proof. exact @finish_once. Qed.
Print Assumptions C29_finish_once.

(** A write that starts after the stream was committed or closed sends nothing; it can
    only return "stream closed". *)
Theorem C29_late_write_refused : forall (B : Type) l (st st' : @pstream B) i b,
  ps_committed st = true -> nth_error (ps_threads st) i = Some (Start (OpWrite b)) ->
  (forall r, ~ In (i, r) (ps_log st)) -> ps_run st l = Some st' ->
  (nth_error (ps_threads st') i = Some (Start (OpWrite b)) \/ nth_error (ps_threads st') i = Some (Returned ResClosed)) /\
  forall r, ~ In (i, r) (ps_log st').
Proof. exact @late_write. Qed.
Print Assumptions C29_late_write_refused.

(** Every finished close or commit leaves the stream committed for good. *)
Theorem C29_stays_committed : forall (B : Type) (st : @pstream B) i st',
  ps_do st i = Some st' ->
  (ps_committed st = true -> ps_committed st' = true) /\
  (nth_error (ps_threads st) i = Some (Start OpClose) \/ (exists ok, nth_error (ps_threads st) i = Some (Start (OpCommit ok))) ->
   ps_committed st' = true).
Proof.
  intros B st i st' H. split; [apply (ps_do_committed st i st' H)|]. unfold ps_do in H.
  intros [E|[ok E]]; rewrite E in H; [|destruct (ps_committed st)]; injection H as <-; reflexivity.
Qed.
Print Assumptions C29_stays_committed.

Example C29_nonvacuous : exists st,
  ps_run (ps_init [OpWrite 5; OpCommit true; OpCommit false; OpClose; OpWrite 6]) [0; 0; 1; 2; 3; 4; 1] = Some st /\
  ps_log st = [(0, Patch 5); (1, Put)] /\ nth_error (ps_threads st) 4 = Some (Returned ResClosed).
Proof. eexists. repeat split. Qed.
(** But a write that passed its check before the commit can still arrive after it. *)
Example C29_overtaken_write : exists st,
  ps_run (ps_init [OpWrite 5; OpCommit true]) [0; 1; 1; 0] = Some st /\ ps_log st = [(1, Put); (0, Patch 5)].
Proof. eexists. split; reflexivity. Qed.

(** * C27: an object version becomes visible only after its data is committed *)

(** Single request: at every crash point a visible version has all its shards, provided
    the wait for the commits does not lose an error (C51) and a located object is
    complete (C34).  Missing for the full statement: the two provisos. *)
Theorem C27_store_partial : forall n before located order ok wait_nil meta_ok,
  (located = true -> forall i, i < n -> before i = true) ->
  (forall i, i < n -> In i order) ->
  (located = false -> wait_nil = true -> forall i, i < n -> ok i = true) ->
  data_first n before (store_effects located order ok wait_nil meta_ok).
Proof. exact store_order. Qed.
Print Assumptions C27_store_partial.

(** With the wait taken from the worker group, where no error is left waiting. *)
(** Partial; the full statement is at [C27_store_partial]. *)
Theorem C27_store_group_partial : forall n outs l st st' order meta_ok, length outs = n ->
  dg_run (dg_init outs) l = Some st -> dg_ec st = None -> dg_do st TakeDone = Some st' ->
  (forall i, i < n -> In i order) ->
  data_first n (fun _ => false) (store_effects false order (fun i => match nth i outs None with None => true | _ => false end) true meta_ok).
Proof.
  intros n outs l st st' order meta_ok Hn Hr He Hd Ho. apply store_order; [discriminate|exact Ho|].
  intros _ _ i Hi. rewrite (dg_done_clean outs l st st' Hr He Hd (nth i outs None)); [reflexivity|]. apply nth_In. lia.
Qed.
Print Assumptions C27_store_group_partial.

(** A commit fails, the wait loses the error: the version is visible without shard 1. *)
Theorem C27_store_lost_error_refuted : exists outs l st, dg_run (dg_init outs) l = Some st /\ dg_result st = Some None /\
  ~ data_first 2 (fun _ => false)
      (store_effects false [0; 1] (fun i => match nth i outs None with None => true | _ => false end) true true).
Proof.
  exists [None; Some 7], [Work 0; Work 1; Work 1; WaitReturns; TakeDone]. eexists. split; [reflexivity|]. split; [reflexivity|].
  intros H. destruct (H [Committed 0; Visible] [] eq_refl (or_intror (or_introl eq_refl)) 1 (le_n 2)) as [E|[E|[E|[]]]]; discriminate.
Qed.
Print Assumptions C27_store_lost_error_refuted.

(** Resumable upload: whatever the outcome of the commits, a crash after the metadata
    leaves a visible version with no data. *)
Theorem C27_big_refuted : forall n order ok, 0 < n -> ~ data_first n (fun _ => false) (big_effects order ok true).
Proof.
  intros n order ok Hn H. destruct (H [Visible] (commit_effects order ok) eq_refl (or_introl eq_refl) 0 Hn) as [E|[E|[]]]; discriminate.
Qed.
Print Assumptions C27_big_refuted.

Example C27_nonvacuous : store_effects false [1; 0] (fun _ => true) true true = [Committed 1; Committed 0; Visible] /\
  data_first 2 (fun _ => false) [Committed 1; Committed 0; Visible] /\ ~ data_first 2 (fun _ => false) [Committed 1; Visible; Committed 0].
Proof.
  split; [reflexivity|]. split.
  - apply (store_order 2 (fun _ => false) false [1; 0] (fun _ => true) true true); [discriminate| |auto].
    intros [|[|i]] Hi; cbn; [auto|auto|lia].
  - intros H. destruct (H [Committed 1; Visible] [Committed 0] eq_refl (or_intror (or_introl eq_refl)) 0) as [E|[E|[E|[]]]]; try discriminate. lia.
Qed.

(** * C28: resumable uploads report the exact durable offset *)

(** Blocks per shard that are a multiple of the device block, no failing data server:
    after any requests of a client, the offset reported by HEAD is the number of bytes
    stored: the shards are exactly those of uploading that many bytes.  Missing for the
    full statement: other block sizes, failing servers, the offset of the 206 answer. *)
Theorem C28_offset_exact_partial : forall (B : Type) (zero : B) rf lib c w f,
  0 < rc_data c -> 0 < rc_bps c -> mds lib (rc_data c) (rc_parity c) -> rc_bps c mod block = 0 ->
  resumed zero rf lib c w f ->
  let cur := current_size zero rf c (length w) f in
  cur <= length w /\
  exists sent, upload lib c cur [firstn cur w] = Some sent /\ forall i, i < all_shards c -> f i = shard_blocks sent i.
Proof. intros B zero rf lib c w f H1 H2 H3 H4. exact (resumed_offset zero rf lib c H1 H2 H3 H4 w f). Qed.
Print Assumptions C28_offset_exact_partial.

(** The offset reported is never beyond the size, whatever the data servers hold. *)
Theorem C28_offset_bounded : forall (B : Type) (zero : B) rf c size f, current_size zero rf c size f <= size.
Proof. intros. apply Nat.le_min_l. Qed.
Print Assumptions C28_offset_bounded.

(** Resuming from it with the rest completes the upload. *)
(** Partial; the full statement is at [C28_offset_exact_partial]. *)
Theorem C28_resume_completes_partial : forall (B : Type) (zero : B) rf lib c w f,
  0 < rc_data c -> 0 < rc_bps c -> mds lib (rc_data c) (rc_parity c) -> rc_bps c mod block = 0 ->
  resumed zero rf lib c w f ->
  let cur := current_size zero rf c (length w) f in
  exists f', big_patch zero rf lib c (length w) f cur [skipn cur w] no_fails = (f', Complete).
Proof. intros B zero rf lib c w f H1 H2 H3 H4. exact (resumed_finishes zero rf lib c H1 H2 H3 H4 w f). Qed.
Print Assumptions C28_resume_completes_partial.

(** Whenever a request completes the upload, reading the shard files yields the object. *)
(** Partial; the full statement is at [C28_offset_exact_partial]. *)
Theorem C28_object_intact_partial : forall (B : Type) (zero : B) rf lib c w f off bts f',
  0 < rc_data c -> 0 < rc_bps c -> mds lib (rc_data c) (rc_parity c) -> rc_bps c mod block = 0 ->
  resumed zero rf lib c w f -> honest w off bts ->
  big_patch zero rf lib c (length w) f off bts no_fails = (f', Complete) ->
  exists files, (forall i, i < all_shards c -> store_blocks zero rf (f' i) = Some (files i)) /\
  forall avail reqs bytes st rws,
    read_many lib c (open_shards c (length w) (fun i => fetch (files i) (shard_size c (length w))) avail) reqs [] = (bytes, st, rws) ->
    (exists rest, w = bytes ++ rest) /\
    match st with
    | Ok _ => Forall (fun q => 0 < q) reqs -> length reqs <= length bytes
    | Eof => bytes = w /\ forall k, k * block_size c < length w -> missing (all_shards c) avail k <= rc_parity c
    | OverRead => False
    | Broken => exists k, k * block_size c < length w /\ rc_parity c < missing (all_shards c) avail k
    end.
Proof. intros B zero rf lib c w f off bts f' H1 H2 H3 H4. exact (resumed_reads zero rf lib c H1 H2 H3 H4 w f off bts f'). Qed.
Print Assumptions C28_object_intact_partial.

Definition cfg_page : rs_config := {| rc_data := 2; rc_parity := 1; rc_bps := block |}.
Definition cfg_two : rs_config := {| rc_data := 2; rc_parity := 1; rc_bps := 2 |}.

(** The 206 answer counts bytes that are dropped when the request ends. *)
Local Lemma pair_snd : forall (X Y : Type) (p : X * Y) r, snd p = r -> p = (fst p, r).
Proof. intros X Y [x y] r H. cbn in *. congruence. Qed.
Theorem C28_partial_answer_refuted : forall rf, exists f,
  big_patch 0%N rf xor_lib cfg_page 3 empty_files 0 [[5%N]] no_fails = (f, Partial 1) /\
  current_size 0%N rf cfg_page 3 f = 0.
Proof. intros rf. eexists. split; [apply pair_snd|]; destruct rf; vm_compute; reflexivity. Qed.
Print Assumptions C28_partial_answer_refuted.

(** With 2-byte blocks HEAD counts the padding: 4 of 10 bytes are stored, 10 reported,
    and an empty request then completes the upload. *)
Theorem C28_padding_refuted : exists f f',
  big_patch 0%N true xor_lib cfg_two 10 empty_files 0 [[1%N; 2%N; 3%N; 4%N; 5%N]] no_fails = (f, Partial 5) /\
  (f 0 = [[1%N; 2%N]] /\ f 1 = [[3%N; 4%N]]) /\
  current_size 0%N true cfg_two 10 f = 10 /\
  big_patch 0%N true xor_lib cfg_two 10 f 10 [] no_fails = (f', Complete) /\ f' 0 = [[1%N; 2%N]].
Proof.
  do 2 eexists. split; [apply pair_snd; vm_compute; reflexivity|]. split; [split; vm_compute; reflexivity|].
  split; [vm_compute; reflexivity|]. split; [apply pair_snd|]; vm_compute; reflexivity.
Qed.
Print Assumptions C28_padding_refuted.

(** One data server fails in one flush; the request fails; the client asks for the
    offset, resumes from it and the upload completes, but shard 1 lacks its first block
    and reading returns wrong bytes. *)
Definition fail_once (k i : nat) : bool := (k =? 0) && (i =? 1).
Definition two_blocks : list N := repeat 1%N (2 * block) ++ repeat 2%N (2 * block).
Definition failed (rf : bool) : shard_files :=
  fst (big_patch 0%N rf xor_lib cfg_page (4 * block) empty_files 0 [two_blocks] fail_once).
Definition finished (rf : bool) : shard_files :=
  fst (big_patch 0%N rf xor_lib cfg_page (4 * block) (failed rf) (2 * block) [skipn (2 * block) two_blocks] no_fails).
Definition damaged (i : nat) : list N :=
  match i with 0 => repeat 1%N block ++ repeat 2%N block | 1 => repeat 2%N block | _ => repeat 0%N (2 * block) end.
Definition damaged_read : list N * dres N * list (list (list N)) :=
  read_many xor_lib cfg_page (open_shards cfg_page (4 * block) (fun i => fetch (damaged i) (shard_size cfg_page (4 * block)))
    (fun _ => Some 9)) [2 * block] [].
Theorem C28_server_failure_refuted : forall rf, exists f f' files bytes st,
  big_patch 0%N rf xor_lib cfg_page (4 * block) empty_files 0 [two_blocks] fail_once = (f, BigFailed) /\
  current_size 0%N rf cfg_page (4 * block) f = 2 * block /\
  big_patch 0%N rf xor_lib cfg_page (4 * block) f (2 * block) [skipn (2 * block) two_blocks] no_fails = (f', Complete) /\
  (forall i, i < 3 -> store_blocks 0%N rf (f' i) = Some (files i)) /\
  fst (read_many xor_lib cfg_page (open_shards cfg_page (4 * block) (fun i => fetch (files i) (shard_size cfg_page (4 * block))) (fun _ => Some 9))
    [2 * block] []) = (bytes, st) /\
  nth block bytes 0%N = 2%N /\ nth block two_blocks 0%N = 1%N.
Proof.
  intros rf. exists (failed rf), (finished rf), damaged, (fst (fst damaged_read)), (snd (fst damaged_read)).
  split; [apply pair_snd; destruct rf; vm_compute; reflexivity|].
  split; [destruct rf; vm_compute; reflexivity|].
  split; [apply pair_snd; destruct rf; vm_compute; reflexivity|].
  split; [intros [|[|[|i]]] Hi; [destruct rf; vm_compute; reflexivity..|lia]|].
  split; [apply surjective_pairing|]. split; vm_compute; reflexivity.
Qed.
Print Assumptions C28_server_failure_refuted.

(** A client sends one full block of the object. *)
Definition one_sent : shard_files :=
  fst (big_patch 0%N true xor_lib cfg_page (length two_blocks) empty_files 0 [repeat 1%N (2 * block)] no_fails).
Example C28_nonvacuous : resumed 0%N true xor_lib cfg_page two_blocks one_sent /\
  current_size 0%N true cfg_page (length two_blocks) one_sent = 2 * block /\
  mds xor_lib (rc_data cfg_page) (rc_parity cfg_page) /\ rc_bps cfg_page mod block = 0.
Proof.
  split; [|split; [vm_compute; reflexivity|split; [exact xor_mds|vm_compute; reflexivity]]].
  apply resumed_patch with (f := empty_files) (off := 0) (bts := [repeat 1%N (2 * block)]) (r := Partial (2 * block)).
  - apply resumed_start.
  - vm_compute. reflexivity.
  - apply pair_snd. vm_compute. reflexivity.
  - exact I.
Qed.
