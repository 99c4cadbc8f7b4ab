(** Compressed pieces and the streams that read them (C113-C116). *)
From Coq Require Import List ZArith Bool Lia.
From Verif Require Import Comp_Model Comp_Spec Comp_Proofs.
Import ListNotations.
Local Open Scope list_scope.

(** A packer for the examples: a block of one repeated byte becomes that byte and a number. *)
Definition ex_pack (b : bytes) : option bytes :=
  match b with
  | x :: _ :: _ :: _ => if forallb (N.eqb x) b then Some [x; N.of_nat (length b)] else None
  | _ => None
  end.
Definition ex_unpack (c : bytes) : option bytes :=
  match c with [x; n] => Some (repeat x (N.to_nat n)) | _ => None end.
Definition ex_crc (b : bytes) : bytes := [fold_right N.add 0%N b; 0; 0; 0]%N.

Lemma all_equal : forall x l, forallb (N.eqb x) l = true -> l = repeat x (length l).
Proof.
  intros x l. induction l as [|y l IH]; intros H; [reflexivity|]. cbn in H. apply andb_true_iff in H.
  destruct H as [H1 H2]. apply N.eqb_eq in H1. subst y. cbn. rewrite <- IH by exact H2. reflexivity.
Qed.

Lemma ex_lawful : lawful ex_pack ex_unpack ex_crc.
Proof.
  split; [reflexivity|]. intros b c H. unfold ex_pack in H.
  destruct b as [|x [|y [|z b]]]; try discriminate.
  destruct (forallb (N.eqb x) (x :: y :: z :: b)) eqn:E; [|discriminate].
  injection H as <-. apply all_equal in E. split; [|cbn; lia].
  change (Some (repeat x (N.to_nat (N.of_nat (length (x :: y :: z :: b))))) = Some (x :: y :: z :: b)).
  rewrite Nnat.Nat2N.id. f_equal. symmetry. exact E.
Qed.

Lemma ex_sane : sane 4.
Proof. split; [lia|]. change (2 ^ 22)%Z with 4194304%Z. lia. Qed.

(** ** C113: a compressed piece reads back *)

(** What was written is read, for every size asked for. *)
Theorem C113_whole_read : forall pack unpack crc message bs l size,
  lawful pack unpack crc -> sane bs -> (0 < size)%Z ->
  get_compressed unpack crc message (encode pack crc bs l) 0 size = (200%Z, part l 0 size).
Proof.
  intros pack unpack crc message bs l size HL HS H.
  exact (get_of_decoded unpack crc message _ size l H (decode_encode pack unpack crc bs l HL HS)).
Qed.
Print Assumptions C113_whole_read.

Example C113_whole_read_case :
  sane 4 /\ lawful ex_pack ex_unpack ex_crc /\
  length (encode ex_pack ex_crc 4 [7; 7; 7; 7; 1; 2; 3; 4; 5]%N) <> 9 /\
  get_compressed ex_unpack ex_crc [] (encode ex_pack ex_crc 4 [7; 7; 7; 7; 1; 2; 3; 4; 5]%N) 0 6 = (200%Z, [7; 7; 7; 7; 1; 2]%N).
Proof. split; [exact ex_sane|]. split; [exact ex_lawful|]. split; [vm_compute; discriminate|vm_compute; reflexivity]. Qed.

(** The padding of the temporary file a piece is committed from (C23) is not read. *)
Theorem C113_padded : forall pack unpack crc message bs l padding,
  lawful pack unpack crc -> sane bs -> l <> [] ->
  get_compressed unpack crc message (encode pack crc bs (l ++ padding)) 0 (Z.of_nat (length l)) = (200%Z, l).
Proof.
  intros pack unpack crc message bs l padding HL HS Hl.
  rewrite C113_whole_read; [|assumption|assumption|destruct l; [congruence|cbn [length]; lia]].
  unfold part. cbn [Z.to_nat skipn]. rewrite Nat2Z.id. f_equal. apply firstn_own.
Qed.
Print Assumptions C113_padded.

Example C113_padded_case :
  get_compressed ex_unpack ex_crc [] (encode ex_pack ex_crc 4 ([7; 1; 2]%N ++ repeat 0%N 5)) 0 3 = (200%Z, [7; 1; 2]%N).
Proof. vm_compute. reflexivity. Qed.

(** Uploads of one piece that follow each other append to the same file, which still reads
    back. *)
Theorem C113_repeated : forall pack unpack crc message l bss,
  lawful pack unpack crc -> Forall sane bss -> bss <> [] -> l <> [] ->
  get_compressed unpack crc message (concat (map (fun bs => encode pack crc bs l) bss)) 0 (Z.of_nat (length l)) = (200%Z, l).
Proof.
  intros pack unpack crc message l bss HL HS Hb Hl.
  assert (decode unpack crc (concat (map (fun bs => encode pack crc bs l) bss)) = (concat (map (fun _ => l) bss), true)) as E.
  { unfold decode.
    destruct (decode_encodes pack unpack crc false (map (fun bs => (bs, l)) bss)
                (S (length (concat (map (fun bs => encode pack crc bs l) bss)))) HL) as [E1 E2].
    - apply Forall_map. eapply Forall_impl; [|exact HS]. intros bs Hs. split; [exact Hs|exact Hl].
    - rewrite map_map. cbn [fst snd]. lia.
    - rewrite !map_map in E1, E2. cbn [fst snd] in E1, E2. rewrite E1, E2. f_equal.
      rewrite map_map. reflexivity. }
  assert (0 < Z.of_nat (length l))%Z as Hz by (destruct l; [congruence|cbn [length]; lia]).
  rewrite (get_of_decoded unpack crc message _ _ _ Hz E).
  rewrite Nat2Z.id. f_equal. destruct bss as [|bs bss]; [congruence|]. cbn [map concat]. apply firstn_own.
Qed.
Print Assumptions C113_repeated.

Example C113_repeated_case :
  get_compressed ex_unpack ex_crc [] (concat (map (fun bs => encode ex_pack ex_crc bs [7; 7; 7; 1; 2]%N) [4; 8])) 0 5 = (200%Z, [7; 7; 7; 1; 2]%N).
Proof. vm_compute. reflexivity. Qed.

(** A request without a size is refused, one with a negative size fails. *)
Theorem C113_no_size : forall unpack crc message file offset size, (size <= 0)%Z ->
  get_compressed unpack crc message file offset size = ((if (size =? 0)%Z then 400 else 500)%Z, message).
Proof.
  intros unpack crc message file offset size H. unfold get_compressed. destruct (size =? 0)%Z eqn:E; [reflexivity|].
  apply Z.eqb_neq in E. replace (size <? 0)%Z with true by (symmetry; apply Z.ltb_lt; lia). reflexivity.
Qed.
Print Assumptions C113_no_size.

Example C113_no_size_case : get_compressed ex_unpack ex_crc [8%N] (encode ex_pack ex_crc 4 [1; 2]%N) 0 0 = (400%Z, [8%N]).
Proof. vm_compute. reflexivity. Qed.

(** The block sizes the data server asks for are taken by the writer. *)
Theorem C113_block_size : forall buf, sane (Z.to_nat (block_size buf)) /\ (4096 <= block_size buf <= 2097152)%Z.
Proof.
  intros buf. unfold sane, block_size. change (2 ^ 22)%Z with 4194304%Z. change (2 * 2 ^ 20)%Z with 2097152%Z.
  change (4 * 2 ^ 10)%Z with 4096%Z. lia.
Qed.
Print Assumptions C113_block_size.

Example C113_block_size_case : block_size 8192 = 8192%Z /\ block_size 1 = 4096%Z /\ block_size 4194304 = 2097152%Z.
Proof. repeat split. Qed.

(** ** C114: a range read of a compressed piece gives the rest of it *)

(** The full statement: for every offset the answer is 200 with the rest from there. *)
Definition range_right (pack unpack : bytes -> option bytes) (crc : bytes -> bytes) (message : bytes)
    (bs : nat) (l : bytes) (offset size : Z) : Prop :=
  get_compressed unpack crc message (encode pack crc bs l) offset size = (200%Z, part l offset size).

(** It holds for offset 0 only; the rest of the statement is refuted below. *)
(** Partial.  Full statement: A request with an offset for a compressed piece is answered with the
    bytes of the piece from that offset on.  It fails in general: [C114_nothing_refuted],
    [C114_error_refuted], [C114_stream_refuted].  Refuted: the data server seeks in the compressed
    file, so an offset within the piece but past the end of the file is answered with 200 and an
    empty body, which the API server's stream takes for success; any other offset is an error unless
    a stream identifier happens to be there. *)
Theorem C114_start_partial : forall pack unpack crc message bs l offset size,
  lawful pack unpack crc -> sane bs -> (0 < size)%Z -> offset = 0%Z ->
  range_right pack unpack crc message bs l offset size.
Proof. intros pack unpack crc message bs l offset size HL HS H ->. exact (C113_whole_read pack unpack crc message bs l size HL HS H). Qed.
Print Assumptions C114_start_partial.

Example C114_start_case : range_right ex_pack ex_unpack ex_crc [] 4 [1; 2; 3]%N 0 2.
Proof. vm_compute. reflexivity. Qed.

(** Violation: the offset counts bytes of the file, not of the piece; one past the end of
    the file, but within the piece, is answered with 200 and nothing. *)
Theorem C114_nothing_refuted : forall pack unpack crc message bs l offset size,
  (0 < size)%Z -> (Z.of_nat (length (encode pack crc bs l)) <= offset < Z.of_nat (length l))%Z ->
  get_compressed unpack crc message (encode pack crc bs l) offset size = (200%Z, []) /\
  ~ range_right pack unpack crc message bs l offset size.
Proof.
  intros pack unpack crc message bs l offset size H Ho.
  assert (get_compressed unpack crc message (encode pack crc bs l) offset size = (200%Z, [])) as E.
  { unfold get_compressed.
    replace (size =? 0)%Z with false by (symmetry; apply Z.eqb_neq; lia).
    replace (size <? 0)%Z with false by (symmetry; apply Z.ltb_ge; lia).
    assert (encode pack crc bs l <> []) as N0.
    { destruct l as [|x l]; [cbn [length] in Ho; lia|]. discriminate. }
    replace (0 <? offset)%Z with true
      by (symmetry; apply Z.ltb_lt; destruct (encode pack crc bs l); [congruence|cbn [length] in Ho; lia]).
    rewrite skipn_all2 by lia. change (decode unpack crc []) with (@nil N, true). cbv iota beta.
    rewrite orb_true_r. rewrite firstn_nil. reflexivity. }
  split; [exact E|]. unfold range_right. rewrite E. intros C. injection C as C. unfold part in C.
  assert (length (firstn (Z.to_nat size) (skipn (Z.to_nat offset) l)) = 0) as L0 by (rewrite <- C; reflexivity).
  rewrite firstn_length, skipn_length in L0. lia.
Qed.
Print Assumptions C114_nothing_refuted.

Example C114_nothing_case :
  (Z.of_nat (length (encode ex_pack ex_crc 64 (repeat 7%N 64))) <= 40 < Z.of_nat (length (repeat 7%N 64)))%Z /\
  get_compressed ex_unpack ex_crc [] (encode ex_pack ex_crc 64 (repeat 7%N 64)) 40 64 = (200%Z, []) /\
  part (repeat 7%N 64) 40 64 = repeat 7%N 24.
Proof. vm_compute. repeat split; discriminate. Qed.

(** Any other offset is answered with an error, unless a stream identifier happens to be
    there. *)
Theorem C114_error_refuted : forall pack unpack crc message bs l offset size ty,
  (0 < size)%Z -> (0 < offset)%Z ->
  nth_error (encode pack crc bs l) (Z.to_nat offset) = Some ty -> (ty <> 255)%N ->
  get_compressed unpack crc message (encode pack crc bs l) offset size = (500%Z, message).
Proof.
  intros pack unpack crc message bs l offset size ty H Ho Hn Ht.
  apply get_nothing_decoded; [exact H|exact Ho|].
  apply nth_error_split in Hn. destruct Hn as (a & r & E & La).
  apply (decode_no_magic unpack crc _ ty r); [|exact Ht].
  rewrite E, <- La. apply skipn_own.
Qed.
Print Assumptions C114_error_refuted.

Example C114_error_case :
  nth_error (encode ex_pack ex_crc 4 [7; 7; 7; 7; 1; 2; 3; 4]%N) (Z.to_nat 4) = Some 83%N /\
  get_compressed ex_unpack ex_crc [9%N] (encode ex_pack ex_crc 4 [7; 7; 7; 7; 1; 2; 3; 4]%N) 4 4 = (500%Z, [9%N]) /\
  part [7; 7; 7; 7; 1; 2; 3; 4]%N 4 4 = [1; 2; 3; 4]%N.
Proof. vm_compute. repeat split. Qed.

(** The API server takes the first of these answers for a success: its stream seeks to the
    offset and ends there. *)
Theorem C114_stream_refuted : forall pack unpack crc message bs l offset size w,
  (0 < size)%Z -> (Z.of_nat (length (encode pack crc bs l)) <= offset < Z.of_nat (length l))%Z -> w <> SeekEnd ->
  let server o := Some (get_compressed unpack crc message (encode pack crc bs l) o size) in
  let r := seek server offset w None in
  fst r = Some offset /\ read_all server (snd r) = Some [] /\ part l offset size <> [].
Proof.
  intros pack unpack crc message bs l offset size w H Ho Hw server r.
  destruct (C114_nothing_refuted pack unpack crc message bs l offset size H Ho) as [E C].
  assert (seek server offset w None = (Some offset, Some [])) as R.
  { unfold seek, request, server. rewrite E. replace (offset <? 0)%Z with false by (symmetry; apply Z.ltb_ge; lia).
    destruct w; [reflexivity|reflexivity|congruence]. }
  unfold r. rewrite R. split; [reflexivity|]. split; [reflexivity|].
  intros P. apply C. unfold range_right. rewrite E, P. reflexivity.
Qed.
Print Assumptions C114_stream_refuted.

(** ** C115: an answer with status 200 carries what was asked for *)

(** What a file answers with when a chunk in it is damaged: the blocks before it, then the
    end. *)
Definition damaged (unpack : bytes -> option bytes) (crc : bytes -> bytes) (bad : bytes) : Prop :=
  forall f, length bad < f -> decode_from unpack crc f true bad = ([], false).

(** A chunk whose checksum does not fit is damaged, whatever follows. *)
Theorem C115_checksum : forall unpack crc b sum rest,
  length sum = 4 -> crc b <> sum -> (Z.of_nat (length b) <= 2 ^ 22)%Z ->
  damaged unpack crc (chunk 1 (sum ++ b) ++ rest).
Proof.
  intros unpack crc b sum rest L4 N0 Lb f Hf. destruct f as [|f]; [lia|].
  assert (length (sum ++ b) = 4 + length b) as Lp by (rewrite app_length, L4; reflexivity).
  destruct (le3_value (N.of_nat (length (sum ++ b)))) as (x & y & z & E & V).
  { change (2 ^ 24)%N with 16777216%N. change (2 ^ 22)%Z with 4194304%Z in Lb. lia. }
  unfold chunk. rewrite E. cbn [app decode_from]. rewrite V, Nnat.Nat2N.id.
  rewrite firstn_own. cbn [negb andb].
  replace (length ((sum ++ b) ++ rest) <? length (sum ++ b)) with false
    by (symmetry; apply Nat.ltb_ge; rewrite (app_length (sum ++ b) rest); lia).
  change (1 =? 0)%N with false. change (1 =? 1)%N with true. cbv iota.
  replace (length (sum ++ b) <? 4) with false by (symmetry; apply Nat.ltb_ge; lia).
  assert (skipn 4 (sum ++ b) = b) as -> by (rewrite <- L4; apply skipn_own).
  assert (firstn 4 (sum ++ b) = sum) as -> by (rewrite <- L4; apply firstn_own).
  unfold eqb_bytes. destruct (list_eq_dec N.eq_dec (crc b) sum); [congruence|reflexivity].
Qed.
Print Assumptions C115_checksum.

Example C115_checksum_case :
  damaged ex_unpack ex_crc (chunk 1 ([9; 0; 0; 0] ++ [1; 2])%N ++ [5%N]) /\ ex_crc [1; 2]%N <> [9; 0; 0; 0]%N.
Proof.
  split; [|discriminate]. apply C115_checksum; [reflexivity|discriminate|].
  change (2 ^ 22)%Z with 4194304%Z. cbn. lia.
Qed.

(** A chunk that breaks off is damaged, wherever it breaks off. *)
Theorem C115_truncated : forall unpack crc ty b k,
  0 < k < length (chunk ty b) -> (Z.of_nat (length b) <= 2 ^ 22)%Z -> damaged unpack crc (firstn k (chunk ty b)).
Proof.
  intros unpack crc ty b k Hk Lb f Hf. destruct f as [|f]; [lia|].
  destruct (le3_value (N.of_nat (length b))) as (x & y & z & E & V).
  { change (2 ^ 24)%N with 16777216%N. change (2 ^ 22)%Z with 4194304%Z in Lb. lia. }
  unfold chunk in *. rewrite E in *. cbn [app] in *.
  destruct k as [|[|[|[|k]]]]; [lia|reflexivity|reflexivity|reflexivity|].
  cbn [firstn decode_from]. rewrite V, Nnat.Nat2N.id. cbn [negb andb]. cbn [length] in Hk.
  replace (length (firstn k b) <? length b) with true by (symmetry; apply Nat.ltb_lt; rewrite firstn_length; lia). reflexivity.
Qed.
Print Assumptions C115_truncated.

Example C115_truncated_case : damaged ex_unpack ex_crc (firstn 7 (chunk 1 (ex_crc [1; 2]%N ++ [1; 2]%N))) /\ length (chunk 1 (ex_crc [1; 2]%N ++ [1; 2]%N)) = 10.
Proof. split; [|reflexivity]. apply C115_truncated; [vm_compute; lia|]. change (2 ^ 22)%Z with 4194304%Z. cbn. lia. Qed.

(** So is a chunk of a kind the reader must not pass over. *)
Theorem C115_unknown : forall unpack crc ty b rest,
  (1 < ty < 128)%N -> (Z.of_nat (length b) <= 2 ^ 22)%Z -> damaged unpack crc (chunk ty b ++ rest).
Proof.
  intros unpack crc ty b rest T Lb f Hf. destruct f as [|f]; [lia|].
  destruct (le3_value (N.of_nat (length b))) as (x & y & z & E & V).
  { change (2 ^ 24)%N with 16777216%N. change (2 ^ 22)%Z with 4194304%Z in Lb. lia. }
  unfold chunk. rewrite E. cbn [app decode_from]. rewrite V, Nnat.Nat2N.id. cbn [negb andb].
  replace (length (b ++ rest) <? length b) with false by (symmetry; apply Nat.ltb_ge; rewrite app_length; lia).
  replace (ty =? 0)%N with false by (symmetry; apply N.eqb_neq; lia). replace (ty =? 1)%N with false by (symmetry; apply N.eqb_neq; lia).
  replace (ty =? 255)%N with false by (symmetry; apply N.eqb_neq; lia). replace (ty <? 128)%N with true by (symmetry; apply N.ltb_lt; lia). reflexivity.
Qed.
Print Assumptions C115_unknown.

Example C115_unknown_case : damaged ex_unpack ex_crc (chunk 5 [1]%N ++ [2]%N).
Proof. apply C115_unknown; [lia|]. change (2 ^ 22)%Z with 4194304%Z. cbn. lia. Qed.

(** How a file answers whose chunks are sound up to a damaged one. *)
Lemma damaged_decode : forall pack unpack crc bl bad,
  lawful pack unpack crc -> Forall (fun b => (Z.of_nat (length b) <= 2 ^ 22)%Z) bl -> damaged unpack crc bad ->
  decode unpack crc (magic ++ concat (map (block_chunk pack crc) bl) ++ bad) = (concat bl, false).
Proof.
  intros pack unpack crc bl bad HL HF HD. unfold decode. rewrite decode_magic.
  assert (length (concat (map (block_chunk pack crc) bl) ++ bad) <
          length (magic ++ concat (map (block_chunk pack crc) bl) ++ bad)) as L
    by (rewrite (app_length magic); change (length magic) with 10; lia).
  rewrite (decode_blocks pack unpack crc bl bad _ HL HF L).
  rewrite HD by (rewrite !app_length in *; lia). cbn [fst snd]. rewrite app_nil_r. reflexivity.
Qed.

(** A file damaged in its first block is answered with an error, and what lies before the
    damage is read right.  Missing: sizes that reach into the damage behind the first
    block (refuted below), and the states of a file during writes (refuted below). *)
Theorem C115_damage_partial : forall pack unpack crc message bl bad size,
  lawful pack unpack crc -> Forall (fun b => (Z.of_nat (length b) <= 2 ^ 22)%Z) bl -> damaged unpack crc bad ->
  (0 < size)%Z ->
  let file := magic ++ concat (map (block_chunk pack crc) bl) ++ bad in
  ((size <= Z.of_nat (length (concat bl)))%Z ->
   get_compressed unpack crc message file 0 size = (200%Z, part (concat bl) 0 size)) /\
  (concat bl = [] -> get_compressed unpack crc message file 0 size = (500%Z, message)).
Proof.
  intros pack unpack crc message bl bad size HL HF HD H file.
  pose proof (damaged_decode pack unpack crc bl bad HL HF HD) as E. fold file in E.
  unfold get_compressed.
  replace (size =? 0)%Z with false by (symmetry; apply Z.eqb_neq; lia).
  replace (size <? 0)%Z with false by (symmetry; apply Z.ltb_ge; lia).
  change (0 <? 0)%Z with false. cbv iota. rewrite E. split.
  - intros L. replace (size <=? Z.of_nat (length (concat bl)))%Z with true by (symmetry; apply Z.leb_le; exact L). reflexivity.
  - intros ->. cbn [length]. change (Z.of_nat 0) with 0%Z.
    replace (size <=? 0)%Z with false by (symmetry; apply Z.leb_gt; lia). rewrite firstn_nil. reflexivity.
Qed.
Print Assumptions C115_damage_partial.

Example C115_damage_case :
  get_compressed ex_unpack ex_crc [8%N]
    (magic ++ concat (map (block_chunk ex_pack ex_crc) [[1; 2]%N]) ++ chunk 1 ([9; 0; 0; 0] ++ [1; 2])%N) 0 2 = (200%Z, [1; 2]%N) /\
  get_compressed ex_unpack ex_crc [8%N]
    (magic ++ concat (map (block_chunk ex_pack ex_crc) []) ++ chunk 1 ([9; 0; 0; 0] ++ [1; 2])%N) 0 2 = (500%Z, [8%N]).
Proof. vm_compute. split; reflexivity. Qed.

(** Violation: damage found after the first block is answered with 200, the blocks before
    it and the text of the error. *)
Theorem C115_message_refuted : forall pack unpack crc message bl bad size,
  lawful pack unpack crc -> Forall (fun b => (Z.of_nat (length b) <= 2 ^ 22)%Z) bl -> damaged unpack crc bad ->
  concat bl <> [] -> (Z.of_nat (length (concat bl)) < size)%Z ->
  get_compressed unpack crc message (magic ++ concat (map (block_chunk pack crc) bl) ++ bad) 0 size =
  (200%Z, concat bl ++ message).
Proof.
  intros pack unpack crc message bl bad size HL HF HD N0 H.
  pose proof (damaged_decode pack unpack crc bl bad HL HF HD) as E.
  assert (0 < size)%Z as Hs by lia. unfold get_compressed.
  replace (size =? 0)%Z with false by (symmetry; apply Z.eqb_neq; lia).
  replace (size <? 0)%Z with false by (symmetry; apply Z.ltb_ge; lia).
  change (0 <? 0)%Z with false. cbv iota. rewrite E.
  replace (size <=? Z.of_nat (length (concat bl)))%Z with false by (symmetry; apply Z.leb_gt; exact H).
  cbn [orb]. rewrite firstn_all2 by lia. destruct (concat bl); [congruence|reflexivity].
Qed.
Print Assumptions C115_message_refuted.

Example C115_message_case :
  get_compressed ex_unpack ex_crc [8; 8]%N
    (magic ++ concat (map (block_chunk ex_pack ex_crc) [[1; 2]%N]) ++ chunk 1 ([9; 0; 0; 0] ++ [1; 2])%N) 0 4 = (200%Z, [1; 2; 8; 8]%N).
Proof. vm_compute. reflexivity. Qed.

(** Violation: while a piece is being written (or after its upload broke off), the blocks
    written so far are the whole answer. *)
Theorem C115_unfinished_refuted : forall pack unpack crc message bs l k size,
  lawful pack unpack crc -> sane bs -> l <> [] -> (0 < size)%Z ->
  let file := concat (firstn (S k) (writes pack crc bs l)) in
  get_compressed unpack crc message file 0 size = (200%Z, firstn (Z.to_nat size) (concat (firstn k (blocks bs l)))).
Proof.
  intros pack unpack crc message bs l k size HL HS Hl H file.
  apply get_of_decoded; [exact H|]. unfold decode, file, writes. destruct l as [|x l]; [congruence|].
  cbn [firstn concat]. rewrite decode_magic. rewrite firstn_map.
  assert (Forall (fun b => (Z.of_nat (length b) <= 2 ^ 22)%Z) (firstn k (blocks bs (x :: l)))) as HF.
  { pose proof (sane_blocks bs (x :: l) HS) as G. rewrite <- (firstn_skipn k (blocks bs (x :: l))) in G.
    apply Forall_app in G. exact (proj1 G). }
  rewrite <- (app_nil_r (concat (map (block_chunk pack crc) (firstn k (blocks bs (x :: l)))))).
  rewrite (decode_blocks pack unpack crc _ [] _ HL HF) by (rewrite !app_nil_r, (app_length magic); change (length magic) with 10; lia).
  set (n := length _). destruct n; cbn [Comp_Model.decode_from fst snd]; rewrite app_nil_r; reflexivity.
Qed.
Print Assumptions C115_unfinished_refuted.

Example C115_unfinished_case :
  get_compressed ex_unpack ex_crc [] (concat (firstn 2 (writes ex_pack ex_crc 4 [7; 7; 7; 7; 1; 2; 3; 4]%N))) 0 8 =
  (200%Z, [7; 7; 7; 7]%N).
Proof. vm_compute. reflexivity. Qed.

(** Violation: two uploads of one piece at the same time, both past the check of
    [Exist], put their chunks into one file. *)
Theorem C115_parallel_refuted : exists l w file b,
  w = writes ex_pack ex_crc 4 l /\
  file = concat (map (fun i => nth i w []) [0; 1; 0; 1; 2; 2]) /\
  get_compressed ex_unpack ex_crc [] file 0 (Z.of_nat (length l)) = (200%Z, b) /\ b <> l.
Proof.
  exists [7; 7; 7; 7; 1; 2; 3; 4]%N. eexists. eexists. exists [7; 7; 7; 7; 7; 7; 7; 7]%N.
  split; [reflexivity|]. split; [reflexivity|]. split; [vm_compute; reflexivity|discriminate].
Qed.
Print Assumptions C115_parallel_refuted.

(** ** C116: seeking in the stream of a piece *)

(** The full statement: after any call that succeeds the position is the one of
    [io.Seeker]. *)
Definition seek_right (content : bytes) (server : Z -> option (Z * bytes)) (pos offset : Z) (w : whence) (g : gstream) : Prop :=
  let r := seek server offset w g in
  let new := moved pos (Z.of_nat (length content)) offset w in
  fst r = Some new /\ read_all server (snd r) = Some (skipn (Z.to_nat new) content).

(** It holds for a stream not yet read from. *)
(** Partial.  Full statement: After a successful Seek the stream of a piece delivers the piece from
    the position named by offset and whence, and that position is the number returned.  It fails in
    general: [C116_start_refuted], [C116_told_refuted].  Refuted: SeekStart on a stream already read
    from moves on from where it is; the number returned then is the distance, not the position. *)
Theorem C116_fresh_partial : forall content server offset w,
  serves content server -> (0 <= offset)%Z -> w <> SeekEnd ->
  seek_right content server 0 offset w None.
Proof.
  intros content server offset w HS Ho Hw. unfold seek_right, seek, moved.
  replace (offset <? 0)%Z with false by (symmetry; apply Z.ltb_ge; lia).
  rewrite (request_serves content server offset HS Ho).
  destruct w; [split; reflexivity|split; reflexivity|congruence].
Qed.
Print Assumptions C116_fresh_partial.

(** In a stream that has been read from, seeking from the current position reads on from the
    right place; the number told is not the position (refuted below). *)
(** Partial; the full statement is at [C116_fresh_partial]. *)
Theorem C116_current_partial : forall content server pos offset,
  serves content server -> (0 <= offset)%Z -> pos <= length content ->
  read_all server (snd (seek server offset SeekCurrent (Some (skipn pos content)))) =
  Some (skipn (Z.to_nat (moved (Z.of_nat pos) (Z.of_nat (length content)) offset SeekCurrent)) content).
Proof.
  intros content server pos offset HS Ho Hp. unfold seek, moved.
  replace (offset <? 0)%Z with false by (symmetry; apply Z.ltb_ge; lia).
  destruct (0 <? offset)%Z eqn:E.
  - cbn [snd read_all]. rewrite skipn_plus. do 2 f_equal. lia.
  - apply Z.ltb_ge in E. cbn [snd read_all]. do 2 f_equal. lia.
Qed.
Print Assumptions C116_current_partial.

(** Reading and seeking forward never repeats or skips a byte unasked. *)
Theorem C116_read_seek_read : forall content server n offset,
  serves content server -> (0 <= offset)%Z -> n <= length content ->
  let r := read server n None in
  fst r = Some (firstn n content) /\
  read_all server (snd (seek server offset SeekCurrent (snd r))) = Some (skipn (n + Z.to_nat offset) content).
Proof.
  intros content server n offset HS Ho Hn r.
  assert (r = (Some (firstn n content), Some (skipn n content))) as ->.
  { unfold r, read. rewrite (request_serves content server 0 HS ltac:(lia)). reflexivity. }
  split; [reflexivity|]. cbn [snd].
  rewrite (C116_current_partial content server n offset HS Ho Hn). unfold moved. do 2 f_equal. lia.
Qed.
Print Assumptions C116_read_seek_read.

(** Reads of any sizes bring the content in turn. *)
Theorem C116_in_turn : forall content server ns, serves content server ->
  exists parts, reads server ns None = map Some parts /\ concat parts = firstn (list_sum ns) content /\
    Forall2 (fun n p => length p <= n) ns parts.
Proof.
  assert (G : forall server ns (b : bytes), exists parts, reads server ns (Some b) = map Some parts /\
    concat parts = firstn (list_sum ns) b /\ Forall2 (fun n p => length p <= n) ns parts).
  { intros server ns. induction ns as [|n ns IH]; intros b; [exists []; repeat split; constructor|].
    destruct (IH (skipn n b)) as (parts & E & C & F). exists (firstn n b :: parts).
    split; [exact (f_equal (cons (Some (firstn n b))) E)|].
    cbn [concat]. rewrite C. split.
    - change (list_sum (n :: ns)) with (n + list_sum ns). rewrite <- (firstn_skipn n (firstn (n + list_sum ns) b)).
      rewrite firstn_firstn, skipn_firstn_comm. do 2 f_equal; lia.
    - constructor; [apply firstn_le_length|exact F]. }
  intros content server ns HS. destruct ns as [|n ns]; [exists []; repeat split; constructor|].
  destruct (G server (n :: ns) content) as (parts & E & C & F). exists parts. split; [|split; assumption].
  rewrite <- E. cbn [reads]. unfold read. rewrite (request_serves content server 0 HS ltac:(lia)). reflexivity.
Qed.
Print Assumptions C116_in_turn.

(** A failed request is told, and the stream stays unread. *)
Theorem C116_failure : forall server offset w,
  (forall b, server offset <> Some (200%Z, b)) -> seek server offset w None = (None, None).
Proof.
  intros server offset w H. unfold seek. destruct (offset <? 0)%Z; [reflexivity|].
  assert (request server offset = None) as ->.
  { unfold request. destruct (server offset) as [[st b]|] eqn:E; [|reflexivity].
    destruct (Z.eq_dec st 200) as [->|N0]; [destruct (H b eq_refl)|].
    destruct st as [|p|p]; try reflexivity. repeat (destruct p as [p|p|]; try reflexivity). congruence. }
  destruct w; reflexivity.
Qed.
Print Assumptions C116_failure.

(** Seeking backwards and from the end is refused and moves nothing. *)
Theorem C116_refused : forall server offset w g, (offset < 0)%Z \/ w = SeekEnd -> seek server offset w g = (None, g).
Proof.
  intros server offset w g [H|H]; unfold seek.
  - replace (offset <? 0)%Z with true by (symmetry; apply Z.ltb_lt; exact H). reflexivity.
  - subst w. destruct (offset <? 0)%Z; reflexivity.
Qed.
Print Assumptions C116_refused.

Example C116_refused_case : seek (fun _ => Some (200%Z, [1]%N)) 0 SeekEnd (Some [2%N]) = (None, Some [2%N]).
Proof. reflexivity. Qed.

(** Violation: seeking from the start, in a stream that has been read from, moves on from
    the current position. *)
Theorem C116_start_refuted : forall content server pos offset,
  serves content server -> (0 <= offset)%Z -> 0 < pos -> (Z.of_nat pos + offset < Z.of_nat (length content))%Z ->
  let r := seek server offset SeekStart (Some (skipn pos content)) in
  read_all server (snd r) = Some (skipn (pos + Z.to_nat offset) content) /\
  ~ seek_right content server (Z.of_nat pos) offset SeekStart (Some (skipn pos content)).
Proof.
  intros content server pos offset HS Ho Hp Hb r.
  assert (read_all server (snd r) = Some (skipn (pos + Z.to_nat offset) content)) as E.
  { unfold r, seek. replace (offset <? 0)%Z with false by (symmetry; apply Z.ltb_ge; lia).
    destruct (0 <? offset)%Z eqn:E0.
    - cbn [snd read_all]. rewrite skipn_plus. reflexivity.
    - apply Z.ltb_ge in E0. cbn [snd read_all]. do 2 f_equal. lia. }
  split; [exact E|]. intros [_ C]. fold r in C. rewrite E in C. unfold moved in C. injection C as C.
  apply (f_equal (@length N)) in C. rewrite !skipn_length in C. lia.
Qed.
Print Assumptions C116_start_refuted.

(** Violation: the position told for a stream that has been read from is the distance. *)
Theorem C116_told_refuted : forall content server pos offset,
  serves content server -> (0 <= offset)%Z -> 0 < pos -> (Z.of_nat pos + offset <= Z.of_nat (length content))%Z ->
  fst (seek server offset SeekCurrent (Some (skipn pos content))) = Some offset /\
  offset <> moved (Z.of_nat pos) (Z.of_nat (length content)) offset SeekCurrent.
Proof.
  intros content server pos offset HS Ho Hp Hb. unfold seek, moved.
  replace (offset <? 0)%Z with false by (symmetry; apply Z.ltb_ge; lia).
  split; [|lia]. destruct (0 <? offset)%Z eqn:E.
  - cbn [fst]. rewrite skipn_length. f_equal. lia.
  - apply Z.ltb_ge in E. cbn [fst]. f_equal. lia.
Qed.
Print Assumptions C116_told_refuted.

Definition ex_server (o : Z) : option (Z * bytes) := Some (200%Z, skipn (Z.to_nat o) [1; 2; 3; 4; 5; 6]%N).

Example C116_case :
  serves [1; 2; 3; 4; 5; 6]%N ex_server /\
  read_all ex_server (snd (seek ex_server 2 SeekStart None)) = Some [3; 4; 5; 6]%N /\
  read_all ex_server (snd (seek ex_server 2 SeekStart (Some [3; 4; 5; 6]%N))) = Some [5; 6]%N /\
  read_all ex_server (snd (seek ex_server 1 SeekCurrent (snd (read ex_server 3 None)))) = Some [5; 6]%N /\
  fst (seek ex_server 1 SeekCurrent (Some [3; 4; 5; 6]%N)) = Some 1%Z /\
  reads ex_server [2; 3; 4] None = [Some [1; 2]%N; Some [3; 4; 5]%N; Some [6%N]] /\
  seek (fun _ => Some (404%Z, [])) 1 SeekStart None = (None, None).
Proof. split; [intros o _; reflexivity|]. vm_compute. repeat split. Qed.
