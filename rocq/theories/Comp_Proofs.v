(** Proofs about compressed pieces. *)
From Coq Require Import List ZArith Bool Lia Arith.
From Verif Require Import Comp_Model Comp_Spec.
Import ListNotations.
Local Open Scope list_scope.

Lemma eqb_bytes_refl : forall a, eqb_bytes a a = true.
Proof. intros a. unfold eqb_bytes. destruct (list_eq_dec N.eq_dec a a); congruence. Qed.

Lemma le3_value : forall n, (n < 2 ^ 24)%N ->
  exists a b c, le3 n = [a; b; c] /\ (a + 256 * b + 65536 * c = n)%N.
Proof.
  intros n H. unfold le3. eexists _, _, _. split; [reflexivity|].
  pose proof (N.div_mod n 256 ltac:(lia)) as E1.
  pose proof (N.div_mod (n / 256) 256 ltac:(lia)) as E2.
  assert (n / 65536 = n / 256 / 256)%N as E3 by (rewrite N.div_div by lia; reflexivity).
  assert (n / 65536 < 256)%N as E4 by (apply N.div_lt_upper_bound; [lia|]; exact H).
  rewrite (N.mod_small (n / 65536) 256) by exact E4. rewrite E3. lia.
Qed.

Lemma le3_length : forall n, length (le3 n) = 3.
Proof. reflexivity. Qed.

Lemma chunk_length : forall ty p, length (chunk ty p) = 4 + length p.
Proof. intros ty p. unfold chunk. cbn [length]. rewrite app_length, le3_length. reflexivity. Qed.

Lemma blocks_from_concat : forall fuel bs l, 0 < bs -> length l <= fuel -> concat (blocks_from fuel bs l) = l.
Proof.
  induction fuel as [|f IH]; intros bs l H L.
  - destruct l; [reflexivity|cbn in L; lia].
  - destruct l as [|x l]; [reflexivity|]. cbn [blocks_from concat].
    rewrite IH; [apply firstn_skipn|exact H|].
    rewrite skipn_length. cbn [length] in *. lia.
Qed.

Lemma blocks_concat : forall bs l, 0 < bs -> concat (blocks bs l) = l.
Proof. intros bs l H. apply blocks_from_concat; [exact H|lia]. Qed.

Lemma blocks_from_length : forall fuel bs l b, In b (blocks_from fuel bs l) -> length b <= bs.
Proof.
  induction fuel as [|f IH]; intros bs l b H; [destruct H|].
  destruct l as [|x l]; [destruct H|]. cbn [blocks_from] in H. destruct H as [<-|H]; [|exact (IH _ _ _ H)].
  rewrite firstn_length. lia.
Qed.

Lemma blocks_length : forall bs l b, In b (blocks bs l) -> length b <= bs.
Proof. intros bs l b. apply blocks_from_length. Qed.

Lemma firstn_own : forall {A} (p r : list A), firstn (length p) (p ++ r) = p.
Proof. intros A p r. induction p as [|x p IH]; cbn; [destruct r; reflexivity|rewrite IH; reflexivity]. Qed.
Lemma skipn_own : forall {A} (p r : list A), skipn (length p) (p ++ r) = r.
Proof. intros A p r. induction p as [|x p IH]; cbn; [reflexivity|exact IH]. Qed.

Section Proofs.
  Variable pack unpack : bytes -> option bytes.
  Variable crc : bytes -> bytes.
  Variable message : bytes.
  Notation decode_from := (decode_from unpack crc).
  Notation block_chunk := (block_chunk pack crc).
  Notation encode := (encode pack crc).
  Notation writes := (writes pack crc).
  Notation decode := (decode unpack crc).

  Lemma decode_fuel : forall f1 f2 s l, length l < f1 -> length l < f2 -> decode_from f1 s l = decode_from f2 s l.
  Proof.
    induction f1 as [|f1 IH]; intros f2 s l H1 H2; [lia|].
    destruct f2 as [|f2]; [lia|].
    destruct l as [|ty [|a [|b [|c r]]]]; try reflexivity.
    cbn [Comp_Model.decode_from].
    assert (forall n, decode_from f1 true (skipn n r) = decode_from f2 true (skipn n r)) as E.
    { intros n. apply IH; rewrite skipn_length; cbn [length] in *; lia. }
    rewrite E. reflexivity.
  Qed.

  (** Decoding a chunk that holds a block. *)
  Lemma decode_block : forall b rest f, lawful pack unpack crc -> (Z.of_nat (length b) <= 2 ^ 22)%Z ->
    decode_from (S f) true (block_chunk b ++ rest) =
    (b :: fst (decode_from f true rest), snd (decode_from f true rest)).
  Proof.
    intros b rest f [HC HP] L.
    assert (forall p, length p = length (crc b) + (length p - 4) -> length p <= 4 + length b -> forall ty,
      exists x y z, chunk ty p ++ rest = ty :: x :: y :: z :: p ++ rest /\ N.to_nat (x + 256 * y + 65536 * z) = length p) as Frame.
    { intros p _ Lp ty. destruct (le3_value (N.of_nat (length p))) as (x & y & z & E & V).
      { change (2 ^ 24)%N with 16777216%N. change (2 ^ 22)%Z with 4194304%Z in L. lia. }
      exists x, y, z. split; [unfold chunk; rewrite E; reflexivity|]. rewrite V. lia. }
    unfold Comp_Model.block_chunk. destruct (pack b) as [c|] eqn:E.
    - destruct (HP b c E) as [U Lc].
      assert (length (crc b ++ c) = 4 + length c) as Lp by (rewrite app_length, HC; reflexivity).
      destruct (Frame (crc b ++ c) ltac:(rewrite HC; lia) ltac:(lia) 0%N) as (x & y & z & -> & V).
      cbn [Comp_Model.decode_from]. rewrite V.
      rewrite firstn_own, skipn_own.
      cbn [negb andb]. replace (length ((crc b ++ c) ++ rest) <? length (crc b ++ c)) with false
        by (symmetry; apply Nat.ltb_ge; rewrite (app_length (crc b ++ c) rest); lia).
      change (0 =? 0)%N with true. cbv iota.
      replace (length (crc b ++ c) <? 4) with false by (symmetry; apply Nat.ltb_ge; lia).
      assert (skipn 4 (crc b ++ c) = c) as ->.
      { rewrite <- (HC b). apply skipn_own. }
      assert (firstn 4 (crc b ++ c) = crc b) as ->.
      { rewrite <- (HC b). apply firstn_own. }
      rewrite U, eqb_bytes_refl. reflexivity.
    - assert (length (crc b ++ b) = 4 + length b) as Lp by (rewrite app_length, HC; reflexivity).
      destruct (Frame (crc b ++ b) ltac:(rewrite HC; lia) ltac:(lia) 1%N) as (x & y & z & -> & V).
      cbn [Comp_Model.decode_from]. rewrite V.
      rewrite firstn_own, skipn_own.
      cbn [negb andb]. replace (length ((crc b ++ b) ++ rest) <? length (crc b ++ b)) with false
        by (symmetry; apply Nat.ltb_ge; rewrite (app_length (crc b ++ b) rest); lia).
      change (1 =? 0)%N with false. change (1 =? 1)%N with true. cbv iota.
      replace (length (crc b ++ b) <? 4) with false by (symmetry; apply Nat.ltb_ge; lia).
      assert (skipn 4 (crc b ++ b) = b) as ->.
      { rewrite <- (HC b). apply skipn_own. }
      assert (firstn 4 (crc b ++ b) = crc b) as ->.
      { rewrite <- (HC b). apply firstn_own. }
      rewrite eqb_bytes_refl. reflexivity.
  Qed.

  Lemma block_chunk_length : forall b, 4 <= length (block_chunk b).
  Proof. intros b. unfold Comp_Model.block_chunk. destruct (pack b); rewrite chunk_length; lia. Qed.

  Lemma decode_blocks : forall bl rest f, lawful pack unpack crc ->
    Forall (fun b => (Z.of_nat (length b) <= 2 ^ 22)%Z) bl ->
    length (concat (map block_chunk bl) ++ rest) < f ->
    decode_from f true (concat (map block_chunk bl) ++ rest) =
    (bl ++ fst (decode_from f true rest), snd (decode_from f true rest)).
  Proof.
    induction bl as [|b bl IH]; intros rest f HL HF Hf.
    - cbn. destruct (decode_from f true rest); reflexivity.
    - apply Forall_cons_iff in HF. destruct HF as [Hb HF].
      cbn [map concat] in *. rewrite <- app_assoc in *.
      pose proof (block_chunk_length b) as Lb. rewrite app_length in Hf.
      destruct f as [|f]; [lia|].
      rewrite decode_block by assumption.
      rewrite IH; [|assumption|assumption|lia]. cbn [fst snd app].
      rewrite (decode_fuel f (S f)); [reflexivity| |]; rewrite app_length in Hf; lia.
  Qed.

  Lemma decode_magic : forall s rest f, decode_from (S f) s (magic ++ rest) = decode_from f true rest.
  Proof. intros s rest f. destruct s; reflexivity. Qed.

  Lemma sane_blocks : forall bs l, sane bs -> Forall (fun b => (Z.of_nat (length b) <= 2 ^ 22)%Z) (blocks bs l).
  Proof.
    intros bs l [H1 H2]. apply Forall_forall. intros b Hb. apply blocks_length in Hb. lia.
  Qed.

  (** Decoding what an upload appended, whatever follows. *)
  Lemma decode_encode_from : forall s bs l rest f, lawful pack unpack crc -> sane bs -> l <> [] ->
    length (encode bs l ++ rest) < f ->
    concat (fst (decode_from f s (encode bs l ++ rest))) = l ++ concat (fst (decode_from f true rest)) /\
    snd (decode_from f s (encode bs l ++ rest)) = snd (decode_from f true rest).
  Proof.
    intros s bs l rest f HL HS Hl Hf.
    unfold Comp_Model.encode, Comp_Model.writes in *. destruct l as [|x l]; [congruence|].
    cbn [concat] in *. rewrite <- app_assoc in *.
    destruct f as [|f]; [lia|].
    assert (10 <= length (magic ++ concat (map block_chunk (blocks bs (x :: l))) ++ rest)) as L10 by (rewrite app_length; cbn; lia).
    assert (length (concat (map block_chunk (blocks bs (x :: l))) ++ rest) < f) as Hf'.
    { rewrite app_length in Hf. change (length magic) with 10 in Hf. lia. }
    rewrite decode_magic, decode_blocks; [|assumption|apply sane_blocks; assumption|assumption].
    cbn [fst snd]. rewrite concat_app, blocks_concat by apply HS.
    rewrite (decode_fuel f (S f) true rest); [split; reflexivity| |]; rewrite app_length in Hf'; lia.
  Qed.

  Lemma decode_started_irrelevant : forall f rest, rest = [] -> decode_from f true rest = decode_from f false rest.
  Proof. intros f rest ->. destruct f; reflexivity. Qed.

  Lemma decode_encode : forall bs l, lawful pack unpack crc -> sane bs -> decode (encode bs l) = (l, true).
  Proof.
    intros bs l HL HS. unfold Comp_Model.decode. destruct l as [|x l]; [reflexivity|].
    destruct (decode_encode_from false bs (x :: l) [] (S (length (encode bs (x :: l)))) HL HS) as [E1 E2].
    - discriminate.
    - rewrite app_nil_r. lia.
    - rewrite app_nil_r in *. rewrite E1, E2. cbn. rewrite app_nil_r. reflexivity.
  Qed.

  (** Several uploads one after the other. *)
  Lemma decode_encodes : forall s (us : list (nat * bytes)) f, lawful pack unpack crc ->
    Forall (fun u => sane (fst u) /\ snd u <> []) us ->
    length (concat (map (fun u => encode (fst u) (snd u)) us)) < f ->
    concat (fst (decode_from f s (concat (map (fun u => encode (fst u) (snd u)) us)))) = concat (map snd us) /\
    snd (decode_from f s (concat (map (fun u => encode (fst u) (snd u)) us))) = true.
  Proof.
    intros s us f HL. revert s. induction us as [|u us IH]; intros s HF Hf.
    - cbn. destruct f; split; reflexivity.
    - apply Forall_cons_iff in HF. destruct HF as [[Hs Hn] HF]. cbn [map concat] in *.
      destruct (decode_encode_from s (fst u) (snd u) (concat (map (fun u => encode (fst u) (snd u)) us)) f HL Hs Hn Hf) as [E1 E2].
      rewrite app_length in Hf. destruct (IH true HF ltac:(lia)) as [I1 I2].
      split; [etransitivity; [exact E1|]; cbn [map concat]; f_equal; exact I1|etransitivity; [exact E2|exact I2]].
  Qed.

  Lemma get_of_decoded : forall file size out, (0 < size)%Z -> decode file = (out, true) ->
    get_compressed unpack crc message file 0 size = (200%Z, firstn (Z.to_nat size) out).
  Proof.
    intros file size out H E. unfold get_compressed.
    replace (size =? 0)%Z with false by (symmetry; apply Z.eqb_neq; lia).
    replace (size <? 0)%Z with false by (symmetry; apply Z.ltb_ge; lia).
    cbn [Z.ltb]. change (0 <? 0)%Z with false. cbv iota. rewrite E. rewrite orb_true_r. reflexivity.
  Qed.

  Lemma get_nothing_decoded : forall file offset size, (0 < size)%Z -> (0 < offset)%Z ->
    decode (skipn (Z.to_nat offset) file) = ([], false) ->
    get_compressed unpack crc message file offset size = (500%Z, message).
  Proof.
    intros file offset size H Ho E. unfold get_compressed.
    replace (size =? 0)%Z with false by (symmetry; apply Z.eqb_neq; lia).
    replace (size <? 0)%Z with false by (symmetry; apply Z.ltb_ge; lia).
    replace (0 <? offset)%Z with true by (symmetry; apply Z.ltb_lt; lia).
    rewrite E. rewrite firstn_nil. cbn [length]. change (Z.of_nat 0) with 0%Z.
    replace (size <=? 0)%Z with false by (symmetry; apply Z.leb_gt; lia). reflexivity.
  Qed.

  (** Without a stream identifier nothing is delivered. *)
  Lemma decode_no_magic : forall l ty r, l = ty :: r -> (ty <> 255)%N -> decode l = ([], false).
  Proof.
    intros l ty r -> H. unfold Comp_Model.decode.
    assert (decode_from (S (length (ty :: r))) false (ty :: r) = ([], false)) as ->; [|reflexivity].
    destruct r as [|a [|b [|c r]]]; try reflexivity. cbn [Comp_Model.decode_from negb andb].
    replace (ty =? 255)%N with false by (symmetry; apply N.eqb_neq; exact H). reflexivity.
  Qed.
End Proofs.

Lemma request_serves : forall content server o, serves content server -> (0 <= o)%Z ->
  request server o = Some (skipn (Z.to_nat o) content).
Proof. intros content server o H Ho. unfold request. rewrite (H o Ho). reflexivity. Qed.

Lemma skipn_plus : forall {A} (n m : nat) (l : list A), skipn n (skipn m l) = skipn (m + n) l.
Proof.
  intros A n m. induction m as [|m IH]; intros l; [reflexivity|].
  destruct l as [|x l]; [rewrite !skipn_nil; reflexivity|]. cbn [skipn plus]. apply IH.
Qed.
