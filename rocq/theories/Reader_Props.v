From Verif Require Import Reader_Model Reader_Proofs.

(** * C13: direct-I/O readers *)

(** Reading through the limited reader with any sequence of page-multiple buffers and
    any short reads of the file: never a panic, what is received is a prefix of the
    first [limit] bytes, all of them once end of input is seen, and end of input is
    seen after at most [length f + 1] reads. *)
Theorem C13_limited_read_exact : forall (B : Type) reqs limit (f : list B),
  Forall (fun req => let '(_, p, c) := req in 0 < p /\ p <= c /\ p mod block = 0) reqs ->
  exists bt fin, read_all reqs limit f [] = Some (bt, fin) /\
    (exists rest, firstn limit f = bt ++ rest) /\
    (fin = true -> bt = firstn limit f) /\
    (fin = false -> length reqs <= length f).
Proof. intros B reqs limit f H. exact (read_all_spec reqs limit f [] H). Qed.
Print Assumptions C13_limited_read_exact.

(** A padded write with any buffer stores the data followed by fewer than one page of
    zeros (and a whole number of pages when the buffer is); source errors are reported. *)
Theorem C13_padded_write : forall (B : Type) (zero : B) p bt fails, 0 < p ->
  exists pad, pad < block /\
    copy_padded zero p {| src_bytes := bt; src_fails := fails |} = Some (bt ++ repeat zero pad, fails) /\
    (p mod block = 0 -> (length bt + pad) mod block = 0).
Proof. exact @padded_write. Qed.
Print Assumptions C13_padded_write.

(** Padded write then limited read of the data length is the identity. *)
Theorem C13_write_read_identity : forall (B : Type) (zero : B) p data file reqs bt,
  0 < p -> append_aligned zero [] p {| src_bytes := data; src_fails := false |} = Some (file, false) ->
  Forall (fun req => let '(_, q, c) := req in 0 < q /\ q <= c /\ q mod block = 0) reqs ->
  read_all reqs (length data) file [] = Some (bt, true) -> bt = data.
Proof. exact @write_read_identity. Qed.
Print Assumptions C13_write_read_identity.

(** "Whatever buffer sizes the caller uses" fails: a 10-byte buffer (capacity 10) with
    5 bytes left panics. *)
Theorem C13_any_buffer_refuted : exists limit (f : list nat), read_all [(10, 10, 10)] limit f [] = None.
Proof. exists 5, [1; 2; 3; 4; 5; 6]. vm_compute. reflexivity. Qed.
Print Assumptions C13_any_buffer_refuted.

Example C13_nonvacuous : read_all [(2, block, block); (0, block, block); (9, 2 * block, 2 * block); (0, block, block)]
    5 (1 :: 2 :: 3 :: 4 :: 5 :: repeat 0 4091) [] = Some ([1; 2; 3; 4; 5], true).
Proof. vm_compute. reflexivity. Qed.
Example C13_buffers : Forall (fun req => let '(_, p, c) := req in 0 < p /\ p <= c /\ p mod block = 0)
  [(2, block, block); (9, 2 * block, 2 * block)].
Proof.
  pose proof block_pos. assert (block mod block = 0) by (apply Nat.mod_same; lia).
  assert ((2 * block) mod block = 0) by (apply Nat.mod_mul; lia).
  repeat (constructor; [repeat split; try assumption; lia|]). constructor.
Qed.

(** * C43: concatenated readers *)

(** Readers that do not fail: one read returns exactly the first [p] remaining bytes of
    the concatenation (fewer only at the end) and leaves the others. *)
(** Partial.  Full statement: Reading from several sources chained together returns their bytes in
    order, fills every buffer until the end, and reports a read error of a source.  It fails in
    general: [C43_error_reported_refuted]. *)
Theorem C43_multi_read_exact_partial : forall (B : Type) p fuel (readers : list (list (event B))),
  Forall (fun r => ~ In Fail r) readers -> 0 < p ->
  list_sum (map (fun r => S (length r)) readers) <= fuel ->
  exists bt err readers', multi_read fuel p readers [] = Some (bt, err, readers') /\
    bt = firstn p (all_bytes readers) /\ all_bytes readers' = skipn p (all_bytes readers) /\
    err <> Failed /\ (err = EOF -> all_bytes readers' = []) /\ (err = NoErr -> length bt = p).
Proof. exact @multi_read_exact. Qed.
Print Assumptions C43_multi_read_exact_partial.

(** Missing: a reader with a lasting error makes the read loop forever. *)
Theorem C43_error_reported_refuted : forall fuel (p : nat), 0 < p ->
  multi_read fuel p [[@Fail nat]] [] = None.
Proof. intros fuel p H. exact (multi_read_stuck fuel p [] [] [] H). Qed.
Print Assumptions C43_error_reported_refuted.

Example C43_nonvacuous : exists err rd,
  multi_read 100 4 [[Chunk [1; 2]; Chunk [3]]; [Chunk [4; 5]]] [] = Some ([1; 2; 3; 4], err, rd)
  /\ all_bytes rd = [5].
Proof. eexists _, _. split; reflexivity. Qed.

(** * C44: appending to a padded file *)

(** A file holding [cur] plus 1..4095 padding bytes becomes [cur ++ data] plus padding. *)
(** Partial.  Full statement: Writing more data to a stored file of known size leaves the old
    content in place, followed by the new data and less than a page of padding.  It fails in
    general: [C44_append_aligned_refuted]. *)
Theorem C44_append_with_size_partial : forall (B : Type) (zero : B) cur data pad p, 0 < p -> p mod block = 0 ->
  0 < pad < block -> (length cur + pad) mod block = 0 ->
  exists pad', pad' < block /\ (length cur + length data + pad') mod block = 0 /\
  write_file_with_size zero (cur ++ repeat zero pad) (length cur) data p =
    Some (cur ++ data ++ repeat zero pad').
Proof. exact @append_with_size. Qed.
Print Assumptions C44_append_with_size_partial.

(** Missing: without padding (size a multiple of 4096) the start of the file is
    overwritten instead. *)
Theorem C44_append_aligned_refuted : exists (cur data : list nat) file',
  length cur mod block = 0 /\
  write_file_with_size 0 cur (length cur) data block = Some file' /\ firstn (length cur) file' <> cur.
Proof. exact append_aligned_overwrites. Qed.
Print Assumptions C44_append_aligned_refuted.

Example C44_nonvacuous : 0 < block - 3 < block /\ (length [7; 7; 7] + (block - 3)) mod block = 0.
Proof.
  pose proof block_big. split; [lia|]. cbn [length].
  replace (3 + (block - 3)) with block by lia. apply Nat.mod_same. lia.
Qed.
