From Verif Require Import Rs_Main.

(** * C22: erasure-coded objects read back intact with up to P shards missing *)

(** Whatever the writes and reads: what is read is a prefix of the object; at end of
    file it is the whole object, and then no block had more than P shards missing; a
    read fails only if some block has more than P shards missing; reads of positive
    size make progress. *)
Theorem C22_read_back : forall (B : Type) (lib : rs_lib B) c bts fuel avail reqs,
  0 < rc_data c -> 0 < rc_bps c -> mds lib (rc_data c) (rc_parity c) ->
  Forall (fun bt => length bt <= fuel) bts ->
  exists sent, upload lib c fuel bts = Some sent /\
    forall bytes st rws,
      read_many lib c (open_shards c (length (concat bts)) (shard_bytes sent) avail) reqs [] = (bytes, st, rws) ->
      (exists rest, concat bts = bytes ++ rest) /\
      match st with
      | Ok _ => Forall (fun q => 0 < q) reqs -> length reqs <= length bytes
      | Eof => bytes = concat bts /\
               forall k, k * block_size c < length (concat bts) -> missing (all_shards c) avail k <= rc_parity c
      | OverRead => False
      | Broken => exists k, k * block_size c < length (concat bts) /\ rc_parity c < missing (all_shards c) avail k
      end.
Proof. intros B lib c bts fuel avail reqs H1 H2 H3 H4. exact (read_back lib c H1 H2 H3 bts fuel avail reqs H4). Qed.
Print Assumptions C22_read_back.

(** With at most P shards missing throughout, reading on yields exactly the object. *)
Theorem C22_read_complete : forall (B : Type) (lib : rs_lib B) c bts fuel avail reqs,
  0 < rc_data c -> 0 < rc_bps c -> mds lib (rc_data c) (rc_parity c) ->
  Forall (fun bt => length bt <= fuel) bts ->
  (forall k, k * block_size c < length (concat bts) -> missing (all_shards c) avail k <= rc_parity c) ->
  Forall (fun q => 0 < q) reqs -> length (concat bts) < length reqs ->
  exists sent rws, upload lib c fuel bts = Some sent /\
    read_many lib c (open_shards c (length (concat bts)) (shard_bytes sent) avail) reqs [] = (concat bts, Eof, rws).
Proof. intros B lib c bts fuel avail reqs H1 H2 H3. exact (read_complete lib c H1 H2 H3 bts fuel avail reqs). Qed.
Print Assumptions C22_read_complete.

(** Two data shards and an exclusive-or parity shard meet the code law; with
    shard 0 lost the object comes back. *)
Definition cfg21 : rs_config := {| rc_data := 2; rc_parity := 1; rc_bps := 2 |}.
Definition lost0 (i : nat) : option nat := match i with O => None | _ => Some 9 end.
Example C22_code : mds xor_lib 2 1.
Proof. exact xor_mds. Qed.
Example C22_nonvacuous :
  upload xor_lib cfg21 9 [[1%N; 2%N; 3%N]; []; [4%N; 5%N; 6%N; 7%N]] =
    Some [[[1%N; 2%N]; [3%N; 4%N]; [2%N; 6%N]]; [[5%N; 6%N]; [7%N; 77%N]; [2%N; 75%N]]] /\
  fst (read_many xor_lib cfg21
    (open_shards cfg21 7 (shard_bytes [[[1%N; 2%N]; [3%N; 4%N]; [2%N; 6%N]]; [[5%N; 6%N]; [7%N; 77%N]; [2%N; 75%N]]]) lost0)
    [3; 3; 3; 3; 3] []) = ([1%N; 2%N; 3%N; 4%N; 5%N; 6%N; 7%N], Eof) /\
  missing 3 lost0 0 = 1 /\ missing 3 lost0 1 = 1.
Proof. vm_compute. repeat split. Qed.
(** A second shard failing after the first block breaks the read there. *)
Example C22_broken :
  fst (read_many xor_lib cfg21
    (open_shards cfg21 7 (shard_bytes [[[1%N; 2%N]; [3%N; 4%N]; [2%N; 6%N]]; [[5%N; 6%N]; [7%N; 77%N]; [2%N; 75%N]]])
      (fun i => match i with O => None | 1 => Some 1 | _ => Some 9 end))
    [3; 3; 3; 3; 3] []) = ([1%N; 2%N; 3%N; 4%N], Broken).
Proof. vm_compute. reflexivity. Qed.

(** * C23: stored shards survive block padding on the data servers *)

(** Partial: blocks of whole 4 KB pages per shard, or an object of a single block. *)
(** Partial.  Full statement: What a data server returns for a shard equals what was sent to it, for
    every configuration the server accepts, although each appended block is padded to the device
    block size.  It fails in general: [C23_three_shards_refuted], [C23_ten_bytes_refuted]. *)
Theorem C23_shards_intact_partial : forall (B : Type) (zero : B) (lib : rs_lib B) c rf bts fuel,
  0 < rc_data c -> 0 < rc_bps c -> mds lib (rc_data c) (rc_parity c) ->
  Forall (fun bt => length bt <= fuel) bts ->
  rc_bps c mod block = 0 \/ length (concat bts) <= block_size c ->
  exists sent, upload lib c fuel bts = Some sent /\
    forall i, i < all_shards c -> exists file, store_blocks zero rf (shard_blocks sent i) = Some file /\
      fetch file (shard_size c (length (concat bts))) = shard_bytes sent i.
Proof. intros B zero lib c rf bts fuel H1 H2 H3. exact (files_intact zero lib c H1 H2 H3 rf bts fuel). Qed.
Print Assumptions C23_shards_intact_partial.

(** The same through the whole path: upload, shard files, fetch, decode. *)
(** Partial; the full statement is at [C23_shards_intact_partial]. *)
Theorem C23_end_to_end_partial : forall (B : Type) (zero : B) (lib : rs_lib B) c rf bts fuel avail reqs,
  0 < rc_data c -> 0 < rc_bps c -> mds lib (rc_data c) (rc_parity c) ->
  Forall (fun bt => length bt <= fuel) bts ->
  rc_bps c mod block = 0 \/ length (concat bts) <= block_size c ->
  exists sent, upload lib c fuel bts = Some sent /\
    forall files, (forall i, i < all_shards c -> store_blocks zero rf (shard_blocks sent i) = Some (files i)) ->
    forall bytes st rws,
      read_many lib c (open_shards c (length (concat bts))
        (fun i => fetch (files i) (shard_size c (length (concat bts)))) avail) reqs [] = (bytes, st, rws) ->
      (exists rest, concat bts = bytes ++ rest) /\
      match st with
      | Ok _ => Forall (fun q => 0 < q) reqs -> length reqs <= length bytes
      | Eof => bytes = concat bts /\
               forall k, k * block_size c < length (concat bts) -> missing (all_shards c) avail k <= rc_parity c
      | OverRead => False
      | Broken => exists k, k * block_size c < length (concat bts) /\ rc_parity c < missing (all_shards c) avail k
      end.
Proof. intros B zero lib c rf bts fuel avail reqs H1 H2 H3. exact (end_to_end zero lib c H1 H2 H3 rf bts fuel avail reqs). Qed.
Print Assumptions C23_end_to_end_partial.

(** Configurations for which it holds: 1, 2, 4, 8 or 16 data shards, and either the
    configured block is already a multiple of 64 KB or the object is at least one
    aligned block long. *)
(** Partial; the full statement is at [C23_shards_intact_partial]. *)
Theorem C23_config_partial : forall (B : Type) (zero : B) (lib : rs_lib B) b d k p rf bts fuel,
  (0 < b)%Z -> (0 < d)%Z -> (16 = d * k)%Z ->
  let n := length (concat bts) in
  ((b * d) mod net_pkg = 0 \/ (b * d / net_pkg + 1) * net_pkg <= Z.of_nat n)%Z ->
  mds lib (Z.to_nat d) p -> Forall (fun bt => length bt <= fuel) bts ->
  let c := object_config b d p n in
  exists sent, upload lib c fuel bts = Some sent /\
    forall i, i < all_shards c -> exists file, store_blocks zero rf (shard_blocks sent i) = Some file /\
      fetch file (shard_size c n) = shard_bytes sent i.
Proof. exact @config_intact. Qed.
Print Assumptions C23_config_partial.

(** With three data shards and the default 16384 bytes per shard, every object of at
    least 64 KB made of non-zero bytes is read back corrupted from shard 0. *)
Theorem C23_three_shards_refuted : forall (B : Type) (zero one : B) (lib : rs_lib B) p rf n, one <> zero ->
  mds lib 3 p -> (65536 <= Z.of_nat n)%Z ->
  let c := object_config 16384 3 p n in
  exists sent, upload lib c n [repeat one n] = Some sent /\
    forall file, store_blocks zero rf (shard_blocks sent 0) = Some file ->
      fetch file (shard_size c n) <> shard_bytes sent 0.
Proof. exact @three_shards_corrupt. Qed.
Print Assumptions C23_three_shards_refuted.

(** So is an object of ten bytes (blocks of three bytes per shard). *)
Theorem C23_ten_bytes_refuted : forall (B : Type) (zero one : B) (lib : rs_lib B) p, one <> zero -> mds lib 3 p ->
  let c := object_config 16384 3 p 10 in
  exists sent, upload lib c 10 [repeat one 10] = Some sent /\
    forall file, store_blocks zero true (shard_blocks sent 0) = Some file ->
      fetch file (shard_size c 10) <> shard_bytes sent 0.
Proof. exact @ten_bytes_corrupt. Qed.
Print Assumptions C23_ten_bytes_refuted.

(** The default configuration (4 data shards of 16384 bytes) is a good one. *)
Example C23_nonvacuous : (object_bps 16384 4 1000000 = 16384 /\ (16384 * 4) mod net_pkg = 0 /\ 16 = 4 * 4 /\
  object_bps 16384 3 1000000 = 21845 /\ object_bps 10000 8 1000000 = 16384)%Z.
Proof. repeat split. Qed.

(** * C24: uploads always terminate *)

(** Partial: an empty object, an object with at least as many bytes as data shards, or
    a configured block that is a multiple of 64 KB. *)
(** Partial.  Full statement: Uploading an object of finite size terminates for every shard
    configuration and object size.  It fails in general: [C24_small_object_refuted]. *)
Theorem C24_upload_terminates_partial : forall (B : Type) (lib : rs_lib B) b d p bts,
  (0 < b)%Z -> (0 < d)%Z -> let n := length (concat bts) in
  (d <= Z.of_nat n)%Z \/ n = 0 \/ ((b * d) mod net_pkg = 0)%Z ->
  exists sent, upload lib (object_config b d p n) n bts = Some sent.
Proof. exact @terminates. Qed.
Print Assumptions C24_upload_terminates_partial.

(** A non-empty object with fewer bytes than data shards never finishes when the
    configured block is not a multiple of 64 KB. *)
Theorem C24_small_object_refuted : forall (B : Type) (lib : rs_lib B) b d p bt fuel,
  (0 <= b)%Z -> (0 < Z.of_nat (length bt) < d)%Z -> ((b * d) mod net_pkg <> 0)%Z ->
  upload lib (object_config b d p (length bt)) fuel [bt] = None.
Proof. exact @never_ends. Qed.
Print Assumptions C24_small_object_refuted.

Example C24_nonvacuous : (0 < Z.of_nat (length [1; 2]) < 3)%Z /\ ((16384 * 3) mod net_pkg <> 0)%Z /\ (3 <= Z.of_nat 10)%Z.
Proof. repeat split; discriminate. Qed.

(** * C26: repair on read never damages an object (erasure-coded objects) *)

(** Partial: the client reads to the end of the object and the blocks reach the data
    server in order, before the commit; then the repaired shard gets exactly the
    blocks of the original. *)
(** Partial.  Full statement: When a read finds lost shards or copies and repairs them, then however
    much of the object the client reads (all, a range, a prefix), the repaired shard or copy equals
    the original and no surviving copy is forgotten.  It fails in general: [C26_rs_prefix_refuted],
    [C26_rs_order_refuted], [C26_copy_forgets_refuted], [C26_copy_prefix_refuted],
    [C26_copy_range_refuted]. *)
Theorem C26_rs_repair_partial : forall (B : Type) (lib : rs_lib B) c bts fuel avail reqs,
  0 < rc_data c -> 0 < rc_bps c -> mds lib (rc_data c) (rc_parity c) ->
  Forall (fun bt => length bt <= fuel) bts ->
  exists sent, upload lib c fuel bts = Some sent /\
    forall bytes rws,
      read_many lib c (open_shards c (length (concat bts)) (shard_bytes sent) avail) reqs [] = (bytes, Eof, rws) ->
      forall i, repair_blocks rws (seq 0 (length rws)) i = shard_blocks sent i.
Proof. intros B lib c bts fuel avail reqs H1 H2 H3. exact (repair_full lib c H1 H2 H3 bts fuel avail reqs). Qed.
Print Assumptions C26_rs_repair_partial.

Example C26_rs_repair_case : 0 < rc_data cfg21 /\ 0 < rc_bps cfg21 /\ mds xor_lib (rc_data cfg21) (rc_parity cfg21) /\
  exists sent rws, upload xor_lib cfg21 9 [[1%N; 2%N; 3%N; 4%N; 5%N; 6%N; 7%N]] = Some sent /\
    read_many xor_lib cfg21 (open_shards cfg21 7 (shard_bytes sent) lost0) [9; 9; 9] []
      = ([1%N; 2%N; 3%N; 4%N; 5%N; 6%N; 7%N], Eof, rws) /\
    repair_blocks rws (seq 0 (length rws)) 0 = [[1%N; 2%N]; [5%N; 6%N]].
Proof.
  split; [apply Nat.ltb_lt; reflexivity|]. split; [apply Nat.ltb_lt; reflexivity|]. split; [exact C22_code|].
  do 2 eexists. split; [vm_compute; reflexivity|]. split; vm_compute; reflexivity.
Qed.

(** A client that stops after three of seven bytes: closing the stream commits a shard
    with the first block only. *)
Theorem C26_rs_prefix_refuted : exists sent d rws,
  upload xor_lib cfg21 9 [[1%N; 2%N; 3%N; 4%N; 5%N; 6%N; 7%N]] = Some sent /\
  read_many xor_lib cfg21 (open_shards cfg21 7 (shard_bytes sent) lost0) [3] [] = ([1%N; 2%N; 3%N], Ok d, rws) /\
  repair_blocks rws (seq 0 (length rws)) 0 = [[1%N; 2%N]] /\ shard_blocks sent 0 = [[1%N; 2%N]; [5%N; 6%N]].
Proof.
  do 3 eexists. split; [vm_compute; reflexivity|]. split; [vm_compute; reflexivity|].
  split; vm_compute; reflexivity.
Qed.
Print Assumptions C26_rs_prefix_refuted.

(** The repair writes of different blocks run in their own goroutines; if two of them
    overtake each other the repaired shard is wrong although the read is complete. *)
Theorem C26_rs_order_refuted : exists sent rws,
  upload xor_lib cfg21 9 [[1%N; 2%N; 3%N; 4%N; 5%N; 6%N; 7%N]] = Some sent /\
  read_many xor_lib cfg21 (open_shards cfg21 7 (shard_bytes sent) lost0) [9; 9; 9] []
    = ([1%N; 2%N; 3%N; 4%N; 5%N; 6%N; 7%N], Eof, rws) /\
  repair_blocks rws [1; 0] 0 <> shard_blocks sent 0.
Proof. do 2 eexists. split; [vm_compute; reflexivity|]. split; [vm_compute; reflexivity|]. vm_compute. discriminate. Qed.
Print Assumptions C26_rs_order_refuted.
