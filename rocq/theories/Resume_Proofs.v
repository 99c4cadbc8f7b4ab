(** Resumable uploads. *)
From Verif Require Import ListX Upload_Model Upload_Spec Rs_Proofs Rs_Main.

Lemma skipn_skipn' : forall (A : Type) (l : list A) a b, skipn a (skipn b l) = skipn (a + b) l.
Proof.
  intros A l a b. revert l. induction b as [|b IH]; intros l; [rewrite Nat.add_0_r; reflexivity|].
  rewrite Nat.add_succ_r. destruct l as [|x l]; [cbn; apply skipn_nil|]. cbn [skipn]. apply IH.
Qed.

Section Resume.
  Context {B : Type}.
  Variable zero : B.
  Variable rf : bool.
  Variable lib : rs_lib B.
  Variable c : rs_config.
  Hypothesis HD : 0 < rc_data c.
  Hypothesis Hb : 0 < rc_bps c.
  Hypothesis Hmds : mds lib (rc_data c) (rc_parity c).
  Hypothesis Hal : rc_bps c mod block = 0.
  Variable w : list B.
  Let size := length w.
  Let bs := block_size c.
  Let N := all_shards c.

  (** A full block is encoded the same way whatever its number. *)
  Lemma encode_full : forall (l1 l2 : rs_lib B) j k data, lib_encode l1 = lib_encode l2 -> length data = bs ->
    encode_row l1 c j data = encode_row l2 c k data.
  Proof.
    intros l1 l2 j k data Hl Hd. unfold encode_row, split_shards. rewrite Hd, Hl.
    change ((bs + rc_data c - 1) / rc_data c) with (per c bs). unfold bs. rewrite (per_bs c HD Hb). unfold block_size.
    rewrite Nat.sub_diag. reflexivity.
  Qed.

  (** Without failures every shard gets its blocks. *)
  Lemma append_rows_all : forall rws (f : @shard_files B) k,
    exists f', append_rows c f rws no_fails k = (f', true) /\ forall i, f' i = f i ++ shard_blocks rws i.
  Proof.
    induction rws as [|row rest IH]; intros f k; cbn [append_rows].
    - exists f. split; [reflexivity|]. intros i. cbn. rewrite app_nil_r. reflexivity.
    - replace (existsb (no_fails k) (seq 0 (all_shards c))) with false.
      2:{ symmetry. induction (seq 0 (all_shards c)); [reflexivity|assumption]. }
      destruct (IH (append_row f row (no_fails k)) (S k)) as (f' & H1 & H2). exists f'. split; [exact H1|].
      intros i. rewrite H2. unfold append_row, no_fails. cbn [shard_blocks map]. rewrite <- app_assoc. reflexivity.
  Qed.

  (** The first [k] blocks of the object are stored. *)
  Definition stored (k : nat) (f : @shard_files B) : Prop :=
    k * bs <= size /\ forall i, i < N -> f i = shard_blocks (rows lib c w k) i.

  Lemma blk_full : forall j k, j < k -> k * bs <= size -> length (blk bs w j) = bs.
  Proof. intros j k Hj Hk. rewrite blk_length. fold size. rewrite Nat.min_l; [reflexivity|]. nia. Qed.

  Lemma store_full : forall k i, i < N -> k * bs <= size -> 
    exists file, store_blocks zero rf (shard_blocks (rows lib c w k) i) = Some file /\ length file = k * rc_bps c.
  Proof.
    intros k i Hi Hk. unfold store_blocks. 
    assert (H : forall j, j <= k -> exists file, patches zero rf [] (shard_blocks (rows lib c w j) i) = Some file /\ length file = j * rc_bps c).
    2:{ apply (H k). lia. }
    assert (Hp : forall (bl : list (list B)) file b, patches zero rf file (bl ++ [b]) = 
      match patches zero rf file bl with Some f => patch zero rf f b | None => None end).
    { induction bl as [|x xs IH]; intros file b; cbn [app patches]; [destruct (patch zero rf file b); reflexivity|].
      destruct (patch zero rf file x); [apply IH|reflexivity]. }
    induction j as [|j IH]; intros Hj; [exists []; split; reflexivity|].
    destruct (IH ltac:(lia)) as (file & H1 & H2). rewrite rows_S. unfold shard_blocks in *. rewrite map_app. cbn [map].
    rewrite Hp, H1. pose proof (blk_full j k ltac:(lia) Hk) as Hlen. pose proof (bs_pos c HD Hb) as Hbs. fold bs in Hbs.
    assert (Hrow : length (nth i (encode_row lib c j (blk (block_size c) w j)) []) = rc_bps c).
    { rewrite (row_nth lib c HD Hb _ eq_refl Hmds) by (try exact Hi; fold bs; lia). fold bs. rewrite Hlen. apply (per_bs c HD Hb). }
    rewrite patch_spec by lia. rewrite Hrow. rewrite pad_zero by assumption. eexists. split; [reflexivity|].
    rewrite !app_length, Hrow, H2. cbn. lia.
  Qed.

  Lemma stored_size : forall k f, stored k f -> current_size zero rf c size f = k * bs.
  Proof.
    intros k f [Hk Hf]. unfold current_size, tmp_size. rewrite (Hf 0) by (unfold N, all_shards; lia).
    destruct (store_full k 0 ltac:(unfold N, all_shards; lia) Hk) as (file & -> & ->).
    destruct (per_spec c HD size) as [H1 _]. unfold per in H1. change ((size + rc_data c - 1) / rc_data c) with (shard_size c size) in H1.
    unfold bs, block_size in *. assert (k * rc_bps c <= shard_size c size) by nia. rewrite (Nat.min_l (k * rc_bps c)) by assumption. nia.
  Qed.

  Lemma stored_init : stored 0 empty_files.
  Proof. split; [lia|]. intros i _. reflexivity. Qed.

  (** Rows of the part after the first [k] blocks. *)
  Lemma rows_shift : forall k q body, k * bs <= size -> body = firstn (length body) (skipn (k * bs) w) -> q * bs <= length body ->
    (k + q) * bs <= size /\ rows lib c w (k + q) = rows lib c w k ++ rows lib c body q.
  Proof.
    intros k q body Hk Hbody Hq.
    assert (Hle : length body <= size - k * bs).
    { rewrite Hbody, firstn_length, skipn_length. fold size. lia. }
    split; [nia|]. unfold rows. rewrite seq_app, map_app. f_equal. rewrite Nat.add_0_l, map_seq_shift.
    apply map_ext_in. intros j Hj. apply in_seq in Hj.
    assert (E : blk (block_size c) w (k + j) = blk (block_size c) body j).
    { fold bs. rewrite Hbody. unfold blk. rewrite skipn_firstn_comm, firstn_firstn, skipn_skipn'. 
      f_equal; [nia|]. f_equal. lia. }
    rewrite E. apply encode_full; [reflexivity|]. rewrite blk_length. fold bs. nia.
  Qed.

  Lemma pieces_le : forall bts : list (list B), Forall (fun bt => length bt <= length (concat bts)) bts.
  Proof.
    intros bts. apply Forall_forall. intros bt Hin. induction bts as [|x xs IH]; [destruct Hin|].
    cbn [concat]. rewrite app_length. destruct Hin as [->|Hin]; [lia|]. specialize (IH Hin). lia.
  Qed.

  Definition shift_lib (k : nat) : rs_lib B :=
    {| lib_encode := lib_encode lib; lib_reconstruct := lib_reconstruct lib; lib_fill := fun j => lib_fill lib (j - k) |}.

  Lemma big_patch_spec : forall k f off bts f' r, stored k f -> honest w off bts ->
    big_patch zero rf lib c size f off bts no_fails = (f', r) ->
    match r with
    | BadRange cur => off <> k * bs /\ cur = k * bs /\ f' = f
    | Partial cur => off = k * bs /\ cur = off + length (concat bts) /\ cur < size /\
        stored (k + length (concat bts) / bs) f'
    | Complete => off = k * bs /\ concat bts = skipn off w /\
        forall i, i < N -> f' i = shard_blocks (rows (shift_lib k) c w (nblocks bs size)) i
    | Exceeded | BigFailed => False
    end.
  Proof.
    intros k f off bts f' r Hs Hh Hp. unfold honest in Hh. unfold big_patch in Hp. rewrite (stored_size k f Hs) in Hp.
    destruct Hs as [Hk Hf]. pose proof (bs_pos c HD Hb) as Hbs. fold bs in Hbs.
    destruct (Nat.eqb_spec (k * bs) off) as [Eo|Eo]; cbn [negb] in Hp.
    2:{ injection Hp as <- <-. repeat split. lia. }
    destruct (writes_spec lib c HD Hb (length (concat bts)) bts [] new_encoder (pieces_le bts) (enc_init lib c HD Hb)) as (e & Hw & q & H1 & H2 & H3 & H4).
    fold bs in H1, H2, H3. rewrite Hw in Hp. cbn [app] in *. set (body := concat bts) in *.
    assert (Hbl : length body <= size - k * bs).
    { rewrite Hh, firstn_length, skipn_length. fold size. lia. }
    assert (Hh' : body = firstn (length body) (skipn (k * bs) w)) by (rewrite Eo; exact Hh).
    destruct (rows_shift k q body Hk Hh' ltac:(lia)) as [Hkq Hrw].
    destruct (append_rows_all (e_sent e) f 0) as (f1 & Ha & Hf1). rewrite Ha in Hp. cbn [negb] in Hp.
    assert (Hs1 : forall i, i < N -> f1 i = shard_blocks (rows lib c w (k + q)) i).
    { intros i Hi. rewrite Hf1, Hf, H4, Hrw by exact Hi. unfold shard_blocks. rewrite map_app. reflexivity. }
    assert (Hq : length body / bs = q).
    { rewrite H2. rewrite Nat.div_add_l by lia. rewrite Nat.div_small by lia. lia. }
    destruct (Nat.ltb_spec (k * bs + length body) size) as [Hlt|Hge].
    { injection Hp as <- <-. split; [auto|]. split; [lia|]. split; [exact Hlt|]. rewrite Hq. split; assumption. }
    destruct (Nat.ltb_spec size (k * bs + length body)) as [Hgt|Hle]; [lia|].
    destruct (append_rows_all (skipn (length (e_sent e)) (e_sent (flush lib c e))) f1 (length (e_sent e))) as (f2 & Ha2 & Hf2).
    rewrite Ha2 in Hp. injection Hp as <- <-. 
    assert (Hbody : body = skipn (k * bs) w).
    { rewrite Hh'. apply firstn_all2. rewrite skipn_length. fold size. lia. }
    split; [auto|]. split; [rewrite <- Eo; exact Hbody|]. intros i Hi. rewrite Hf2, Hs1 by exact Hi.
    assert (Hsame : rows (shift_lib k) c w (k + q) = rows lib c w (k + q)).
    { unfold rows. apply map_ext_in. intros j Hj. apply in_seq in Hj. apply encode_full; [reflexivity|]. fold bs.
      apply (blk_full j (k + q)); [lia|exact Hkq]. }
    unfold flush. destruct (e_cache e) as [|x xs] eqn:Ex.
    - rewrite skipn_all. unfold shard_blocks at 2. cbn [map]. rewrite app_nil_r. rewrite <- Hsame. f_equal. f_equal.
      symmetry. apply ceil_unique; cbn [length] in H2; nia.
    - cbn [e_sent length] in *. rewrite skipn_app_exact.
      replace (nblocks bs size) with (S (k + q)) by (symmetry; apply ceil_unique; nia).
      rewrite rows_S, Hsame. unfold shard_blocks. rewrite map_app. cbn [map]. f_equal. f_equal. f_equal.
      rewrite H4, rows_length. unfold encode_row. cbn [shift_lib lib_encode lib_fill]. replace (k + q - k) with q by lia.
      replace (blk (block_size c) w (k + q)) with (x :: xs); [reflexivity|].
      rewrite H3, Hbody. unfold blk. rewrite skipn_skipn'. fold bs. 
      replace ((k + q) * bs) with (k * bs + q * bs) by lia. symmetry. rewrite firstn_all2; [f_equal; lia|].
      rewrite skipn_length. fold size. lia.
  Qed.

  Lemma resumed_stored : forall f, resumed zero rf lib c w f -> exists k, stored k f.
  Proof.
    induction 1 as [|f off bts f' r H [k Hk] Hh Hp Hr]; [exists 0; apply stored_init|].
    pose proof (big_patch_spec k f off bts f' r Hk Hh Hp) as Hs. destruct r; try contradiction.
    - destruct Hs as (_ & _ & ->). exists k. exact Hk.
    - destruct Hs as (_ & _ & _ & Hs). eexists. exact Hs.
  Qed.

  (** The reported offset is what is stored. *)
  Lemma resumed_offset : forall f, resumed zero rf lib c w f ->
    let cur := current_size zero rf c size f in
    cur <= size /\
    exists sent, upload lib c cur [firstn cur w] = Some sent /\ forall i, i < N -> f i = shard_blocks sent i.
  Proof.
    intros f Hr cur. destruct (resumed_stored f Hr) as (k & Hs). unfold cur. rewrite (stored_size k f Hs).
    destruct Hs as [Hk Hf]. split; [exact Hk|]. eexists. split.
    - apply (upload_spec lib c HD Hb). repeat constructor. rewrite firstn_length. lia.
    - intros i Hi. rewrite Hf by exact Hi. cbn [concat]. rewrite app_nil_r, firstn_length, Nat.min_l by (fold size; lia).
      pose proof (bs_pos c HD Hb) as Hbs. fold bs in Hbs.
      replace (nblocks (block_size c) (k * bs)) with k by (symmetry; unfold nblocks; fold bs; apply ceil_unique; lia).
      rewrite <- (firstn_skipn (k * bs) w) at 1. rewrite rows_app by (first [assumption | rewrite firstn_length; fold bs size; lia]). reflexivity.
  Qed.

  (** Resuming with the rest finishes, and then the object reads back. *)
  Lemma resumed_finishes : forall f, resumed zero rf lib c w f ->
    let cur := current_size zero rf c size f in
    exists f', big_patch zero rf lib c size f cur [skipn cur w] no_fails = (f', Complete).
  Proof.
    intros f Hr cur. destruct (resumed_stored f Hr) as (k & Hs).
    assert (Hh : honest w cur [skipn cur w]).
    { unfold honest. cbn [concat]. rewrite app_nil_r. symmetry. apply firstn_all. }
    destruct (big_patch zero rf lib c size f cur [skipn cur w] no_fails) as [f' r] eqn:E. exists f'.
    pose proof (big_patch_spec k f cur _ f' r Hs Hh E) as H. pose proof (stored_size k f Hs) as Hc. fold cur in Hc.
    destruct r; try contradiction.
    - destruct H as (H & _). congruence.
    - destruct H as (_ & -> & Hlt & _). exfalso. cbn [concat] in Hlt. rewrite app_nil_r, skipn_length in Hlt. fold size in Hlt. lia.
    - reflexivity.
  Qed.

  Lemma resumed_reads : forall f off bts f', resumed zero rf lib c w f -> honest w off bts ->
    big_patch zero rf lib c size f off bts no_fails = (f', Complete) ->
    exists files, (forall i, i < N -> store_blocks zero rf (f' i) = Some (files i)) /\
    forall avail reqs bytes st rws,
      read_many lib c (open_shards c size (fun i => fetch (files i) (shard_size c size)) avail) reqs [] = (bytes, st, rws) ->
      read_result c w avail reqs bytes st.
  Proof.
    intros f off bts f' Hr Hh Hp. destruct (resumed_stored f Hr) as (k & Hs).
    destruct (big_patch_spec k f off bts f' _ Hs Hh Hp) as (_ & _ & Hf).
    assert (Hm' : mds (shift_lib k) (rc_data c) (rc_parity c)) by exact Hmds.
    pose proof (fun i Hi => store_shard zero (shift_lib k) c HD Hb Hm' rf w i Hi (or_introl Hal)) as Hst.
    assert (exists files, forall i, i < N -> store_blocks zero rf (f' i) = Some (files i) /\
      fetch (files i) (shard_size c size) = shard_bytes (rows (shift_lib k) c w (nblocks bs size)) i) as (files & Hfiles).
    { exists (fun i => match store_blocks zero rf (f' i) with Some x => x | None => [] end). intros i Hi.
      destruct (Hst i Hi) as (file & H1 & H2). rewrite (Hf i Hi). fold bs size in H1, H2. rewrite H1. split; [reflexivity|exact H2]. }
    exists files. split; [intros i Hi; apply Hfiles; exact Hi|]. intros avail reqs bytes st rws Hrd.
    apply (read_rows (shift_lib k) c HD Hb Hm' w avail reqs bytes st rws).
    change (read_many lib c) with (read_many (shift_lib k) c) in Hrd. rewrite <- Hrd. f_equal. unfold open_shards. f_equal.
    apply map_ext_in. intros i Hi. apply in_seq in Hi. destruct (Hfiles i ltac:(unfold N; lia)) as [_ ->]. reflexivity.
  Qed.
End Resume.
