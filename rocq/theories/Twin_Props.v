(** Requests that overlap at a data server. *)
From Verif Require Import Twin_Model Twin_Spec Twin_Proofs.
From Coq Require Import List Arith Bool Lia.
Import ListNotations.

(** C177: what a data server keeps under the name of an object is the object, also when several requests
    store it at once. *)

(** Pieces that are not compressed are renamed: a reader sees nothing or the object, in every order. *)
Theorem C177_rename : forall (B : Type) (c : list B) ks vs,
  Forall (fun k => k = Rename) ks ->
  read (run (arrive c ks) vs) (length c) = None \/ read (run (arrive c ks) vs) (length c) = Some c.
Proof. intros B c ks vs F. exact (proj1 (rinv_read c _ (rinv_run c vs _ (rinv_arrive c ks F)))). Qed.
Print Assumptions C177_rename.

(** Requests that append: if no two do so at the same time and none breaks off, a reader sees nothing or
    the start of the object, and the object when nobody writes. *)
(** Partial.  Full statement: What a data server keeps under the name of an object is that object,
    or nothing, however the requests that store it overlap.  It fails in general:
    [C177_parallel_refuted].  Refuted: two requests that both see no file append to the same file,
    both are told success, and it stays wrong for ever. *)
Theorem C177_append_partial : forall (B : Type) (c : list B) ks vs,
  Forall (brings c) ks -> always exclusive (arrive c ks) vs -> Forall (fun v => ~ breaks v) vs ->
  (forall x, read (run (arrive c ks) vs) (length c) = Some x -> exists y, x ++ y = c) /\
  (nobody_writes (run (arrive c ks) vs) ->
     read (run (arrive c ks) vs) (length c) = None \/ read (run (arrive c ks) vs) (length c) = Some c).
Proof.
  intros B c ks vs F A N. pose proof (inv_run c vs _ (inv_arrive c ks F) A N) as V. split.
  - intros x X. exact (inv_read c _ x V X).
  - intros W. exact (inv_quiet c _ V W).
Qed.
Print Assumptions C177_append_partial.

(** Two requests that append at once leave a file that is not the object; both are told success, nobody
    writes any more, and every later run and request leaves it so. *)
Theorem C177_parallel_refuted : exists (c : list nat) cs vs,
  concat cs = c /\
  let s := run (arrive c [Append cs; Append cs]) vs in
  (forall i, i < 2 -> nth_error (st_threads s) i = Some (Thread (Append cs) (Done TOk))) /\
  (exists x, read s (length c) = Some x /\ x <> c /\ length x = length c) /\
  forall vs', read (run s vs') (length c) = read s (length c).
Proof.
  exists [1; 2], [[1]; [2]], [Go 0; Go 1; Go 0; Go 1; Go 0; Go 1; Go 0; Go 1; Go 0; Go 1]. split; [reflexivity|]. cbv zeta. split; [|split].
  - intros i L. destruct i as [|[|i]]; [reflexivity|reflexivity|lia].
  - exists [1; 1]. split; [reflexivity|]. split; [discriminate|reflexivity].
  - intros vs'. refine (proj1 (stays _ vs' _ 0 (Thread Rename Check) _ _)); [discriminate|].
    intros k t H. destruct k as [|[|k]]; [injection H as <-; right; eexists; reflexivity|injection H as <-; right; eexists; reflexivity|destruct k; discriminate].
Qed.
Print Assumptions C177_parallel_refuted.

(** Several renames and several requests that append, one after the other. *)
Example C177_nonvacuous :
  let ks := [Rename; Append [[1]; [2]]; Rename; Append [[1; 2]]] in
  let vs := [Go 0; Go 1; Go 2; Go 1; Go 1; Go 1; Go 0; Go 1; Go 2; Go 3] in
  Forall (brings [1; 2]) ks /\ always exclusive (arrive [1; 2] ks) vs /\ Forall (fun v => ~ breaks v) vs /\
  nobody_writes (run (arrive [1; 2] ks) vs) /\ read (run (arrive [1; 2] ks) vs) 2 = Some [1; 2] /\
  read (run (arrive [1; 2] ks) (firstn 5 vs)) 2 = Some [1].
Proof.
  cbv zeta. split; [repeat constructor|]. split; [cbn; unfold exclusive; cbn; lia|]. split; [repeat constructor; intros []|].
  split; [|split; reflexivity].
  intros i k j r H. destruct i as [|[|[|[|i]]]]; try discriminate H. destruct i; discriminate H.
Qed.

(** C178: a request to store an object that is told success leaves the whole object stored. *)

Theorem C178_rename : forall (B : Type) (c : list B) ks vs,
  Forall (fun k => k = Rename) ks -> is_told (run (arrive c ks) vs) TOk ->
  read (run (arrive c ks) vs) (length c) = Some c.
Proof. intros B c ks vs F. exact (proj2 (rinv_read c _ (rinv_run c vs _ (rinv_arrive c ks F)))). Qed.
Print Assumptions C178_rename.

(** Partial.  Full statement: A request to store an object at a data server that is told success
    leaves the whole object readable.  It fails in general: [C178_early_refuted],
    [C178_kept_refuted], [C178_broken_refuted].  Refuted: the check only looks for a file, so a
    request during the writing of another or after one that broke off is told success, and no later
    request repairs the file. *)
Theorem C178_append_partial : forall (B : Type) (c : list B) ks vs,
  Forall (brings c) ks -> always exclusive (arrive c ks) vs -> Forall (fun v => ~ breaks v) vs ->
  nobody_writes (run (arrive c ks) vs) -> is_told (run (arrive c ks) vs) TOk ->
  read (run (arrive c ks) vs) (length c) = Some c.
Proof. intros B c ks vs F A N W T. exact (inv_told c _ (inv_run c vs _ (inv_arrive c ks F) A N) W T). Qed.
Print Assumptions C178_append_partial.

(** A request that comes while another one writes is told success while the object is not there yet. *)
Theorem C178_early_refuted : exists (c : list nat) ks vs,
  Forall (brings c) ks /\ always exclusive (arrive c ks) vs /\ Forall (fun v => ~ breaks v) vs /\
  is_told (run (arrive c ks) vs) TOk /\ read (run (arrive c ks) vs) (length c) <> Some c.
Proof.
  exists [1; 2], [Append [[1]; [2]]; Append [[1]; [2]]], [Go 0; Go 0; Go 0; Go 1]. split; [repeat constructor|].
  split; [cbn; unfold exclusive; cbn; lia|]. split; [repeat constructor; intros []|]. split; [exists 1, (Append [[1]; [2]]); reflexivity|discriminate].
Qed.
Print Assumptions C178_early_refuted.

(** A file that is there when no request is at work is never repaired: whatever it holds, every request
    that comes is told success and the file stays as it is. *)
Theorem C178_kept_refuted : forall (B : Type) (s : state B) vs size i t,
  st_entry s <> None -> (forall k t', nth_error (st_threads s) k = Some t' -> t_pc t' = Check \/ exists x, t_pc t' = Done x) ->
  read (run s vs) size = read s size /\
  (nth_error (st_threads s) i = Some t -> t_pc t = Check ->
     forall x k, nth_error (st_threads (run s vs)) i = Some (Thread k (Done x)) -> x = TOk).
Proof. exact @stays. Qed.
Print Assumptions C178_kept_refuted.

(** So it is after a request that broke off: the next one, though nothing else happens, is told success. *)
Theorem C178_broken_refuted : exists (c : list nat) cs vs vs',
  concat cs = c /\
  let s := run (arrive c [Append cs; Append cs]) vs in
  nth_error (st_threads s) 0 = Some (Thread (Append cs) (Done TBroke)) /\
  nth_error (st_threads s) 1 = Some (Thread (Append cs) Check) /\
  nth_error (st_threads (run s vs')) 1 = Some (Thread (Append cs) (Done TOk)) /\
  forall vs'', read (run s vs'') (length c) = Some [1] /\ [1] <> c.
Proof.
  exists [1; 2], [[1]; [2]], [Go 0; Go 0; Go 0; Break 0], [Go 1]. split; [reflexivity|]. cbv zeta.
  split; [reflexivity|]. split; [reflexivity|]. split; [reflexivity|]. intros vs''. split; [|discriminate].
  etransitivity; [exact (proj1 (C178_kept_refuted nat (run (arrive [1; 2] [Append [[1]; [2]]; Append [[1]; [2]]]) [Go 0; Go 0; Go 0; Break 0]) vs'' 2 0 (Thread Rename Check) ltac:(discriminate)
    ltac:(intros k t H; destruct k as [|[|k]]; [injection H as <-; right; eexists; reflexivity|injection H as <-; left; reflexivity|destruct k; discriminate])))|reflexivity].
Qed.
Print Assumptions C178_broken_refuted.

Example C178_nonvacuous :
  let ks := [Rename; Append [[1]; [2]]; Append [[1; 2]]] in
  let vs := [Go 1; Go 1; Go 1; Go 1; Go 1; Go 2; Go 0] in
  Forall (brings [1; 2]) ks /\ always exclusive (arrive [1; 2] ks) vs /\ Forall (fun v => ~ breaks v) vs /\
  nobody_writes (run (arrive [1; 2] ks) vs) /\ is_told (run (arrive [1; 2] ks) vs) TOk /\
  is_told (run (arrive [1; 2] [Rename; Rename]) [Go 0; Go 1; Go 0; Go 1]) TOk.
Proof.
  cbv zeta. split; [repeat constructor|]. split; [cbn; unfold exclusive; cbn; lia|]. split; [repeat constructor; intros []|].
  split; [|split; [exists 0, Rename; reflexivity|exists 1, Rename; reflexivity]].
  intros i k j r H. destruct i as [|[|[|i]]]; try discriminate H. destruct i; discriminate H.
Qed.

(** C179: when the entry of an upload is gone and the cleaner has handled the notifications, the
    temporary file is gone. *)

(** While the entry is never taken away between the check of a PATCH and its opening of the file. *)
(** Partial.  Full statement: When the entry of an upload is gone and its notification is handled,
    the temporary file is gone.  It fails in general: [C179_refuted], [C179_kept_refuted].  Refuted:
    a PATCH in between makes the file again after the cleaner ran, and nothing removes it. *)
Theorem C179_partial : forall f ps vs,
  let u := urun (Upload true f 0 ps) vs in
  apart (Upload true f 0 ps) vs -> u_entry u = false -> u_events u = 0 -> u_file u = false.
Proof.
  intros f ps vs u A E N. assert (uinv (Upload true f 0 ps)) as V by (split; [reflexivity|discriminate]).
  apply (uinv_run vs) in V; [|exact A]. destruct (proj2 V E) as [_ K]. fold u in K. destruct (u_file u); [contradiction (K eq_refl N)|reflexivity].
Qed.
Print Assumptions C179_partial.

(** A PATCH that has seen the entry makes the file again after the cleaner has removed it. *)
Theorem C179_refuted : exists vs,
  let u := urun (Upload true true 0 [PatchCheck; DelCheck]) vs in
  u_entry u = false /\ u_events u = 0 /\ u_file u = true /\ u_reqs u = [REnd; REnd].
Proof. exists [UGo 0; UGo 1; UGo 1; UClean; UGo 0]. repeat split. Qed.
Print Assumptions C179_refuted.

(** No request and no cleaner removes such a file. *)
Theorem C179_kept_refuted : forall ps vs, Forall (fun p => p <> PutRename) ps ->
  u_file (urun (Upload false true 0 ps) vs) = true.
Proof. intros ps vs F. apply (orphan_run vs (Upload false true 0 ps)). split; [reflexivity|]. split; [reflexivity|]. split; [reflexivity|exact F]. Qed.
Print Assumptions C179_kept_refuted.

Example C179_nonvacuous :
  let ps := [PatchCheck; PutCheck; PatchCheck; DelCheck] in
  let vs := [UGo 0; UGo 0; UGo 1; UGo 1; UGo 2; UGo 2; UGo 3; UGo 1; UGo 3; UClean] in
  let u := urun (Upload true false 0 ps) vs in
  apart (Upload true false 0 ps) vs /\ u_entry u = false /\ u_events u = 0 /\
  u_file (urun (Upload true false 0 ps) (firstn 9 vs)) = true /\ u_file u = false /\
  Forall (fun p => p <> PutRename) [PutCheck; PatchCheck; DelCheck].
Proof.
  cbv zeta. split; [cbn; repeat split; discriminate|].
  split; [reflexivity|]. split; [reflexivity|]. split; [reflexivity|]. split; [reflexivity|repeat constructor; discriminate].
Qed.
