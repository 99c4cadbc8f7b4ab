From Coq Require Import List Arith ZArith.
From Verif Require Import Rs_Model Rs_Spec Rs_Main Rs_Props.
Import ListNotations.

(** * C52: an object is read with the layout it was stored with *)

(** Partial: the block size configured when reading is the one configured when storing
    (the version records the shard counts, not the block size).  Then whatever was
    stored is read back. *)
(** Partial.  Full statement: Reading an object cuts its shards into the same blocks that were used
    when it was stored.  It fails in general: [C52_block_change_refuted]. *)
Theorem C52_same_block_partial : forall (B : Type) (lib : rs_lib B) b d p bts fuel avail reqs,
  let n := length (concat bts) in
  let c := object_config b d p n in
  0 < rc_data c -> 0 < rc_bps c -> mds lib (rc_data c) (rc_parity c) ->
  Forall (fun bt => length bt <= fuel) bts ->
  (forall k, k * block_size c < n -> missing (all_shards c) avail k <= rc_parity c) ->
  Forall (fun q => 0 < q) reqs -> n < length reqs ->
  exists sent rws, upload lib c fuel bts = Some sent /\
    read_many lib (object_config b d p n) (open_shards c n (shard_bytes sent) avail) reqs [] = (concat bts, Eof, rws).
Proof.
  intros B lib b d p bts fuel avail reqs n c H1 H2 H3 H4 H5 H6 H7.
  exact (read_complete lib c H1 H2 H3 bts fuel avail reqs H4 H5 H6 H7).
Qed.
Print Assumptions C52_same_block_partial.

(** Missing: after the configured block size changes, the same object is cut with
    another block size (two 64 KB aligned values give two layouts for one object), and
    the bytes come back in another order without any error. *)
Theorem C52_block_change_refuted :
  (object_bps 32768 2 200000 = 32768 /\ object_bps 65536 2 200000 = 65536)%Z /\
  exists bts sent,
  let c1 := {| rc_data := 2; rc_parity := 1; rc_bps := 2 |} in
  let c2 := {| rc_data := 2; rc_parity := 1; rc_bps := 3 |} in
  upload xor_lib c1 20 bts = Some sent /\
  fst (read_many xor_lib c1 (open_shards c1 12 (shard_bytes sent) (fun _ => Some 9)) (repeat 4 4) []) = (concat bts, Eof) /\
  exists bytes, fst (read_many xor_lib c2 (open_shards c2 12 (shard_bytes sent) (fun _ => Some 9)) (repeat 4 9) []) = (bytes, Eof) /\
    length bytes = length (concat bts) /\ bytes <> concat bts.
Proof.
  split; [split; reflexivity|].
  exists [[1%N; 2%N; 3%N; 4%N; 5%N; 6%N; 7%N; 8%N; 9%N; 10%N; 11%N; 12%N]].
  eexists. cbv zeta. split; [vm_compute; reflexivity|]. split; [vm_compute; reflexivity|].
  eexists. split; [vm_compute; reflexivity|]. split; [reflexivity|discriminate].
Qed.
Print Assumptions C52_block_change_refuted.

Example C52_nonvacuous : let c := object_config 16384 2 1 7 in rc_data c = 2 /\ rc_bps c = 3 /\ mds xor_lib (rc_data c) (rc_parity c) /\
  (forall k, missing (all_shards c) (fun _ => Some 9) k <= rc_parity c \/ 9 <= k).
Proof.
  cbv zeta. split; [reflexivity|]. split; [reflexivity|]. split; [exact xor_mds|].
  intros k. do 9 (destruct k as [|k]; [left; vm_compute; repeat constructor|]). right. repeat apply le_n_S. apply Nat.le_0_l.
Qed.
