From Verif Require Import ListX Reader_Proofs.
From Verif Require Export Rs_Spec.

(** ** Arithmetic *)
Lemma ceil_spec : forall n d, 0 < d -> let q := (n + d - 1) / d in n <= q * d /\ q * d < n + d.
Proof.
  intros n d Hd. cbv zeta. pose proof (Nat.div_mod (n + d - 1) d ltac:(lia)) as E.
  pose proof (Nat.mod_upper_bound (n + d - 1) d ltac:(lia)) as Hm.
  set (q := (n + d - 1) / d) in *. set (r := (n + d - 1) mod d) in *. clearbody q r. nia.
Qed.

Lemma ceil_unique : forall n d q, 0 < d -> n <= q * d -> q * d < n + d -> (n + d - 1) / d = q.
Proof.
  intros n d q Hd H1 H2. destruct (ceil_spec n d Hd) as [H3 H4]. cbv zeta in *.
  set (q' := (n + d - 1) / d) in *. clearbody q'. nia.
Qed.

Lemma map_seq_shift : forall (A : Type) (f : nat -> A) n k, map f (seq k n) = map (fun i => f (k + i)) (seq 0 n).
Proof.
  intros A f n. induction n as [|n IH]; intros k; [reflexivity|].
  cbn [seq map]. rewrite Nat.add_0_r. f_equal. rewrite IH. symmetry. rewrite <- seq_shift, map_map.
  apply map_ext. intros. f_equal. lia.
Qed.

Lemma nth_map_seq : forall (A : Type) (f : nat -> A) n i d, i < n -> nth i (map f (seq 0 n)) d = f i.
Proof.
  intros A f n i d Hi. rewrite (nth_indep _ d (f 0)) by (rewrite map_length, seq_length; exact Hi).
  rewrite map_nth, seq_nth by exact Hi. reflexivity.
Qed.

Lemma nth_nth_error : forall (A : Type) (l : list A) i d, i < length l -> nth_error l i = Some (nth i l d).
Proof. intros. apply nth_error_nth'. exact H. Qed.

(** [d] consecutive pieces of [per] elements rebuild the list. *)
Lemma concat_pieces : forall (A : Type) per d (l : list A), length l = per * d ->
  concat (map (fun i => firstn per (skipn (i * per) l)) (seq 0 d)) = l.
Proof.
  intros A per d. induction d as [|d IH]; intros l Hl.
  - rewrite Nat.mul_0_r in Hl. apply length_zero_iff_nil in Hl. subst. reflexivity.
  - cbn [seq map]. rewrite <- seq_shift, map_map. cbn [concat].
    rewrite Nat.mul_0_l. cbn [skipn].
    transitivity (firstn per l ++ skipn per l); [|apply firstn_skipn]. f_equal.
    rewrite <- (IH (skipn per l)) by (rewrite skipn_length; lia). f_equal.
    apply map_ext. intros i. rewrite skipn_add. reflexivity.
Qed.

Section Rs.
  Context {B : Type}.

  (** Block [k] of a content. *)
  Definition blk (bs : nat) (s : list B) (k : nat) : list B := firstn bs (skipn (k * bs) s).

  Lemma blk_app : forall bs s t k, (k + 1) * bs <= length s -> blk bs (s ++ t) k = blk bs s k.
  Proof.
    intros bs s t k H. unfold blk. rewrite skipn_app_le by nia. apply firstn_app_le. rewrite skipn_length. nia.
  Qed.

  Lemma blk_length : forall bs s k, length (blk bs s k) = Nat.min bs (length s - k * bs).
  Proof. intros. unfold blk. rewrite firstn_length, skipn_length. reflexivity. Qed.

  Definition nblocks (bs n : nat) : nat := (n + bs - 1) / bs.

  Section Lib.
    Variable lib : rs_lib B.
    Variable c : rs_config.
    Hypothesis HD : 0 < rc_data c.
    Hypothesis Hb : 0 < rc_bps c.

    Let bs := block_size c.
    Lemma bs_pos : 0 < bs.
    Proof. unfold bs, block_size. nia. Qed.

    Definition rows (s : list B) (n : nat) : list (list (list B)) :=
      map (fun k => encode_row lib c k (blk bs s k)) (seq 0 n).

    Lemma rows_S : forall s n, rows s (S n) = rows s n ++ [encode_row lib c n (blk bs s n)].
    Proof. intros. unfold rows. rewrite seq_S, map_app. reflexivity. Qed.

    Lemma rows_app : forall s t n, n * bs <= length s -> rows (s ++ t) n = rows s n.
    Proof.
      intros s t n H. unfold rows. apply map_ext_in. intros k Hk. apply in_seq in Hk.
      rewrite blk_app; [reflexivity|]. nia.
    Qed.

    Lemma rows_length : forall s n, length (rows s n) = n.
    Proof. intros. unfold rows. rewrite map_length, seq_length. reflexivity. Qed.

    (** ** Encoder *)
    Definition enc_inv (s : list B) (e : encoder B) : Prop :=
      exists q, length (e_cache e) < bs /\ length s = q * bs + length (e_cache e) /\
        e_cache e = skipn (q * bs) s /\ e_sent e = rows s q.

    Lemma enc_init : enc_inv [] new_encoder.
    Proof. exists 0. cbn. pose proof bs_pos. repeat split; lia. Qed.

    Lemma enc_step : forall s e bt, enc_inv s e -> length (e_cache e) + length bt <= bs ->
      let e1 := {| e_cache := e_cache e ++ bt; e_sent := e_sent e |} in
      enc_inv (s ++ bt) (if bs <=? length (e_cache e1) then flush lib c e1 else e1).
    Proof.
      intros s e bt (q & H1 & H2 & H3 & H4) Hn e1. subst e1. cbn [e_cache e_sent].
      assert (Hc : skipn (q * bs) (s ++ bt) = e_cache e ++ bt).
      { rewrite H3. apply skipn_app_le. lia. }
      destruct (Nat.leb_spec bs (length (e_cache e ++ bt))) as [Hf|Hf]; rewrite app_length in Hf.
      - pose proof bs_pos as Hbs. unfold flush. cbn [e_cache e_sent].
        destruct (e_cache e ++ bt) as [|x xs] eqn:Ex.
        { apply (f_equal (@length B)) in Ex. rewrite app_length in Ex. cbn in Ex. lia. }
        exists (S q). cbn [e_cache e_sent length]. rewrite app_length.
        assert (Hlen : length (s ++ bt) = S q * bs) by (rewrite app_length; nia).
        split; [lia|]. split; [nia|]. split.
        + symmetry. apply length_zero_iff_nil. rewrite skipn_length. lia.
        + rewrite rows_S, H4. rewrite rows_app by lia. rewrite rows_length. f_equal. f_equal. f_equal.
          unfold blk. rewrite Hc. symmetry. apply firstn_all2.
          rewrite <- Ex, app_length. lia.
      - exists q. cbn [e_cache e_sent]. rewrite !app_length. split; [lia|]. split; [lia|]. split; [now rewrite Hc|].
        rewrite rows_app by lia. exact H4.
    Qed.

    Lemma write_spec : forall fuel bt s e, length bt <= fuel -> enc_inv s e ->
      exists e', write lib c fuel e bt = Some e' /\ enc_inv (s ++ bt) e'.
    Proof.
      induction fuel as [|f IH]; intros bt s e Hf Hi.
      - destruct bt; [|cbn in Hf; lia]. exists e. rewrite app_nil_r. split; [reflexivity|exact Hi].
      - destruct bt as [|x xs]; [exists e; rewrite app_nil_r; split; [reflexivity|exact Hi]|].
        set (bt := x :: xs) in *. cbn [write]. fold bs.
        set (next := Nat.min (bs - length (e_cache e)) (length bt)).
        assert (Hn : 0 < next <= length bt).
        { destruct Hi as (q & H1 & _). subst next bt. cbn [length]. lia. }
        destruct (IH (skipn next bt) (s ++ firstn next bt)
          (if bs <=? length (e_cache {| e_cache := e_cache e ++ firstn next bt; e_sent := e_sent e |})
           then flush lib c {| e_cache := e_cache e ++ firstn next bt; e_sent := e_sent e |}
           else {| e_cache := e_cache e ++ firstn next bt; e_sent := e_sent e |})) as (e' & Hw & Hi').
        + rewrite skipn_length. subst bt. cbn [length] in *. lia.
        + apply enc_step; [exact Hi|]. rewrite firstn_length. destruct Hi as (q & H1 & _). lia.
        + exists e'. split; [exact Hw|]. rewrite <- app_assoc, firstn_skipn in Hi'. exact Hi'.
    Qed.

    Lemma writes_spec : forall fuel bts s e, Forall (fun bt => length bt <= fuel) bts -> enc_inv s e ->
      exists e', writes lib c fuel e bts = Some e' /\ enc_inv (s ++ concat bts) e'.
    Proof.
      intros fuel bts. induction bts as [|bt rest IH]; intros s e Hf Hi.
      - exists e. cbn. rewrite app_nil_r. split; [reflexivity|exact Hi].
      - inversion Hf; subst. destruct (write_spec fuel bt s e H1 Hi) as (e1 & Hw & Hi1).
        destruct (IH _ e1 H2 Hi1) as (e' & Hw' & Hi'). exists e'. cbn [writes concat]. rewrite Hw.
        split; [exact Hw'|]. rewrite app_assoc. exact Hi'.
    Qed.

    Lemma upload_spec : forall fuel bts, Forall (fun bt => length bt <= fuel) bts ->
      upload lib c fuel bts = Some (rows (concat bts) (nblocks bs (length (concat bts)))).
    Proof.
      intros fuel bts Hf. unfold upload.
      destruct (writes_spec fuel bts [] new_encoder Hf enc_init) as (e & Hw & q & H1 & H2 & H3 & H4).
      rewrite Hw. cbn [app] in *. set (s := concat bts) in *. clearbody s. f_equal. pose proof bs_pos as Hbs.
      unfold flush. destruct (e_cache e) as [|x xs] eqn:Ex.
      - rewrite H4. f_equal. symmetry. apply ceil_unique; cbn [length] in *; lia.
      - cbn [e_sent]. rewrite H4, rows_length. cbn [length] in *.
        replace (nblocks bs (length s)) with (S q) by (symmetry; apply ceil_unique; nia).
        rewrite rows_S. f_equal. f_equal. f_equal. unfold blk. rewrite <- H3. symmetry.
        apply firstn_all2. cbn [length]. lia.
    Qed.

    (** ** Rows *)
    Definition per (n : nat) : nat := (n + rc_data c - 1) / rc_data c.
    Lemma per_spec : forall n, n <= per n * rc_data c /\ per n * rc_data c < n + rc_data c.
    Proof. intros n. apply (ceil_spec n (rc_data c) HD). Qed.

    Lemma per_bs : per bs = rc_bps c.
    Proof. apply ceil_unique; unfold bs, block_size; lia. Qed.
    Lemma per_le : forall n, n <= bs -> per n <= rc_bps c.
    Proof. intros n H. destruct (per_spec n) as [_ H2]. unfold bs, block_size in H. nia. Qed.
    Lemma per_pos : forall n, 0 < n -> 0 < per n.
    Proof. intros n H. destruct (per_spec n) as [H1 _]. nia. Qed.

    Lemma split_length : forall fill (data : list B), length (split_shards (rc_data c) fill data) = rc_data c.
    Proof. intros. unfold split_shards. rewrite map_length, seq_length. reflexivity. Qed.

    Lemma padded_length : forall fill (data : list B),
      length (data ++ map fill (seq 0 (per (length data) * rc_data c - length data))) = per (length data) * rc_data c.
    Proof. intros. rewrite app_length, map_length, seq_length. destruct (per_spec (length data)). lia. Qed.

    Lemma split_each : forall fill (data : list B),
      Forall (fun s => length s = per (length data)) (split_shards (rc_data c) fill data).
    Proof.
      intros fill data. unfold split_shards. fold (per (length data)). apply Forall_forall. intros s Hs.
      apply in_map_iff in Hs as (i & <- & Hi). apply in_seq in Hi.
      rewrite firstn_length, skipn_length, padded_length. nia.
    Qed.

    Lemma split_concat : forall fill (data : list B),
      concat (split_shards (rc_data c) fill data) =
      data ++ map fill (seq 0 (per (length data) * rc_data c - length data)).
    Proof. intros. unfold split_shards. fold (per (length data)). apply concat_pieces. apply padded_length. Qed.

    Variable P : nat.
    Hypothesis HP : rc_parity c = P.
    Hypothesis Hmds : mds lib (rc_data c) P.

    Lemma row_facts : forall k data, 0 < length data ->
      length (encode_row lib c k data) = all_shards c /\
      Forall (fun s => length s = per (length data)) (encode_row lib c k data) /\
      forall ok, lib_reconstruct lib (map (fun i => if ok i : bool then Some (nth i (encode_row lib c k data) []) else None)
                                          (seq 0 (all_shards c)))
        = if length (filter (fun i => negb (ok i)) (seq 0 (all_shards c))) <=? P
          then Some (encode_row lib c k data) else None.
    Proof.
      intros k data Hd. set (ds := split_shards (rc_data c) (lib_fill lib k) data).
      destruct (Hmds (per (length data)) ds) as (H1 & H2 & H3).
      - destruct (per_spec (length data)). nia.
      - apply split_length.
      - apply split_each.
      - unfold all_shards. rewrite HP. split; [|split].
        + unfold encode_row. fold ds. rewrite app_length, H1. unfold ds. rewrite split_length. reflexivity.
        + unfold encode_row. fold ds. apply Forall_app. split; [apply split_each|exact H2].
        + intros ok. exact (H3 ok).
    Qed.

    Lemma row_nth : forall k data i, 0 < length data -> i < all_shards c ->
      length (nth i (encode_row lib c k data) []) = per (length data).
    Proof.
      intros k data i Hd Hi. destruct (row_facts k data Hd) as (H1 & H2 & _).
      rewrite Forall_forall in H2. apply H2. apply nth_In. lia.
    Qed.

    (** ** Decoder *)
    Section Dec.
      Variable s : list B.
      Let n := length s.
      Let nb := nblocks bs n.
      Let N := all_shards c.

      Lemma nb_spec : n <= nb * bs /\ nb * bs < n + bs.
      Proof. apply (ceil_spec n bs). apply bs_pos. Qed.

      Lemma lt_nb : forall k, k < nb -> k * bs < n.
      Proof. intros k Hk. destruct nb_spec. pose proof bs_pos. nia. Qed.
      Lemma lt_nb_inv : forall k, k * bs < n -> k < nb.
      Proof. intros k Hk. destruct nb_spec. pose proof bs_pos. nia. Qed.

      Definition row (k : nat) : list (list B) := encode_row lib c k (blk bs s k).

      Lemma blk_pos : forall k, k < nb -> 0 < length (blk bs s k).
      Proof. intros k Hk. rewrite blk_length. fold n. pose proof (lt_nb k Hk). pose proof bs_pos. lia. Qed.

      (** What is left of shard [i] from block [k] on. *)
      Definition rest (k i : nat) : list B := concat (shard_blocks (skipn k (rows s nb)) i).

      Lemma skipn_rows : forall k, k < nb -> skipn k (rows s nb) = row k :: skipn (S k) (rows s nb).
      Proof.
        intros k Hk. unfold rows. rewrite !skipn_map.
        assert (E : skipn k (seq 0 nb) = k :: skipn (S k) (seq 0 nb)).
        { apply list_ext. intros i. rewrite nth_error_skipn. destruct i as [|i].
          - rewrite Nat.add_0_r. cbn. rewrite (nth_error_nth' _ 0) by (rewrite seq_length; exact Hk). rewrite seq_nth by exact Hk. reflexivity.
          - cbn [nth_error]. rewrite nth_error_skipn. f_equal. lia. }
        rewrite E. reflexivity.
      Qed.

      Lemma rest_step : forall k i, k < nb -> rest k i = nth i (row k) [] ++ rest (S k) i.
      Proof. intros k i Hk. unfold rest. rewrite skipn_rows by exact Hk. reflexivity. Qed.

      Lemma rest_end : forall i, rest nb i = [].
      Proof. intros i. unfold rest. rewrite skipn_all2 by (rewrite rows_length; lia). reflexivity. Qed.

      Lemma take_block : forall k i, k < nb -> i < N ->
        firstn (rc_bps c) (rest k i) = nth i (row k) [] /\ skipn (rc_bps c) (rest k i) = rest (S k) i.
      Proof.
        intros k i Hk Hi. rewrite rest_step by exact Hk.
        assert (Hl : length (nth i (row k) []) = per (length (blk bs s k))) by (apply row_nth; [apply blk_pos; exact Hk|exact Hi]).
        destruct (Nat.lt_ge_cases (S k) nb) as [Hl2|Hl2].
        - assert (E : length (nth i (row k) []) = rc_bps c).
          { rewrite Hl, blk_length. fold n. pose proof (lt_nb _ Hl2). rewrite Nat.min_l by lia. apply per_bs. }
          rewrite <- E. split; [apply firstn_app_exact|apply skipn_app_exact].
        - replace (S k) with nb by lia. rewrite rest_end, app_nil_r.
          assert (E : length (nth i (row k) []) <= rc_bps c).
          { rewrite Hl. apply per_le. rewrite blk_length. lia. }
          split; [apply firstn_all2; exact E|apply skipn_all2; exact E].
      Qed.

      Variable avail : nat -> option nat.
      Definition reader_at (k i : nat) : option (reader B) :=
        match avail i with
        | None => None
        | Some m => Some {| rd_rest := rest (Nat.min k m) i; rd_ok := m - k |}
        end.

      Lemma read_shard_spec : forall k i, k < nb -> i < N ->
        read_shard c (reader_at k i) = (if up avail k i then Some (nth i (row k) []) else None, reader_at (S k) i).
      Proof.
        intros k i Hk Hi. unfold reader_at, up. destruct (avail i) as [m|]; [|reflexivity].
        unfold read_shard. cbn [rd_ok rd_rest]. destruct (Nat.ltb_spec k m) as [Hm|Hm].
        - destruct (m - k) as [|x] eqn:E; [lia|]. rewrite Nat.min_l by lia.
          destruct (take_block k i Hk Hi) as [-> ->].
          assert (Hl : length (nth i (row k) []) = per (length (blk bs s k))) by (apply row_nth; [apply blk_pos; exact Hk|exact Hi]).
          pose proof (per_pos _ (blk_pos k Hk)) as Hp.
          destruct (nth i (row k) []) as [|y ys]; [cbn in Hl; lia|].
          rewrite Nat.min_l by lia. repeat f_equal. lia.
        - replace (m - k) with 0 by lia. rewrite !Nat.min_r by lia. repeat f_equal. lia.
      Qed.

      Lemma combine_spec : forall size shards cache total, total <= size ->
        combine size shards cache total =
          (cache ++ firstn (size - total) (@concat B shards), Nat.min size (total + length (concat shards))).
      Proof.
        intros size shards. induction shards as [|x xs IH]; intros cache total Ht.
        - cbn. rewrite firstn_nil, app_nil_r. f_equal. lia.
        - cbn [combine concat]. destruct (Nat.ltb_spec size (total + length x)) as [H|H].
          + rewrite IH by lia. replace (size - (total + (size - total))) with 0 by lia. cbn [firstn].
            rewrite app_nil_r, app_length. f_equal; [|lia].
            rewrite firstn_app_le by lia. reflexivity.
          + rewrite firstn_all, IH by lia. rewrite app_length. f_equal; [|lia].
            rewrite firstn_app. replace (size - total - length x) with (size - (total + length x)) by lia.
            rewrite (firstn_all2 x) by lia. rewrite app_assoc. reflexivity.
      Qed.

      Definition dec_inv (k : nat) (out : list B) (d : decoder B) : Prop :=
        d_readers d = map (reader_at k) (seq 0 N) /\ d_size d = n /\ d_total d = Nat.min n (k * bs) /\
        out ++ d_cache d = firstn (k * bs) s /\ d_rows d = rows s k /\ k <= nb /\
        (forall j, j < k -> missing N avail j <= P).

      Lemma get_data_spec : forall k out d, dec_inv k out d -> d_cache d = [] ->
        match get_data lib c d with
        | Ok d' => dec_inv (S k) out d' /\ d_cache d' <> [] /\ k < nb
        | Eof => out = s /\ k = nb
        | OverRead => False
        | Broken => k < nb /\ P < missing N avail k
        end.
      Proof.
        intros k out d (H1 & H2 & H3 & H4 & H5 & H6 & H7) Hc. unfold get_data. rewrite H2, H3.
        destruct (Nat.eqb_spec (Nat.min n (k * bs)) n) as [E|E].
        - rewrite Hc, app_nil_r in H4. split; [rewrite H4; apply firstn_all2; fold n; lia|].
          destruct (Nat.lt_ge_cases k nb) as [Hk|Hk]; [|lia]. pose proof (lt_nb k Hk). lia.
        - destruct (Nat.ltb_spec n (Nat.min n (k * bs))) as [Hl|Hl]; [lia|].
          assert (Hk : k < nb) by (apply lt_nb_inv; lia).
          rewrite H1, !map_map.
          assert (Em : map (fun x => fst (read_shard c (reader_at k x))) (seq 0 N) =
                       map (fun i => if up avail k i then Some (nth i (row k) []) else None) (seq 0 N)).
          { apply map_ext_in. intros i Hi. apply in_seq in Hi. rewrite read_shard_spec by (try exact Hk; lia). reflexivity. }
          assert (Es : map (fun x => snd (read_shard c (reader_at k x))) (seq 0 N) = map (reader_at (S k)) (seq 0 N)).
          { apply map_ext_in. intros i Hi. apply in_seq in Hi. rewrite read_shard_spec by (try exact Hk; lia). reflexivity. }
          rewrite Em, Es. destruct (row_facts k (blk bs s k) (blk_pos k Hk)) as (_ & _ & Hr).
          unfold N, row. rewrite (Hr (up avail k)). fold N. fold (row k).
          change (length (filter (fun i => negb (up avail k i)) (seq 0 N))) with (missing N avail k).
          destruct (Nat.leb_spec (missing N avail k) P) as [Hm|Hm]; [|split; assumption].
          rewrite combine_spec by lia. cbn [d_cache].
          assert (Ef : firstn (rc_data c) (row k) = split_shards (rc_data c) (lib_fill lib k) (blk bs s k)).
          { unfold row, encode_row. rewrite <- (split_length (lib_fill lib k) (blk bs s k)) at 1. apply firstn_app_exact. }
          rewrite Ef, split_concat. set (b := blk bs s k) in *.
          pose proof (lt_nb k Hk) as Hkn. pose proof bs_pos as Hbs.
          assert (Hbl : length b = Nat.min bs (n - k * bs)) by apply blk_length.
          replace (Nat.min n (k * bs)) with (k * bs) by lia.
          assert (Eb : firstn (n - k * bs) (b ++ map (lib_fill lib k) (seq 0 (per (length b) * rc_data c - length b))) = b).
          { destruct (Nat.le_ge_cases bs (n - k * bs)) as [Hf|Hf].
            - rewrite Nat.min_l in Hbl by exact Hf. rewrite Hbl, per_bs.
              replace (rc_bps c * rc_data c - bs) with 0 by (unfold bs, block_size; lia). cbn. rewrite app_nil_r.
              apply firstn_all2. lia.
            - rewrite Nat.min_r in Hbl by exact Hf. rewrite <- Hbl at 1. apply firstn_app_exact. }
          rewrite Eb, Hc. cbn [app].
          assert (Hb0 : b <> []) by (intros E0; rewrite E0 in Hbl; cbn in Hbl; lia).
          split; [|split; [exact Hb0|exact Hk]]. unfold dec_inv. cbn [d_readers d_size d_total d_cache d_rows].
          split; [reflexivity|]. split; [reflexivity|]. split.
          { rewrite app_length, map_length, seq_length. destruct (per_spec (length b)) as [Hp1 Hp2].
            destruct (Nat.le_ge_cases bs (n - k * bs)) as [Hf|Hf].
            - rewrite Nat.min_l in Hbl by exact Hf. rewrite Hbl, per_bs.
              replace (rc_bps c * rc_data c) with bs by reflexivity. lia.
            - rewrite Nat.min_r in Hbl by exact Hf. lia. }
          rewrite Hc, app_nil_r in H4. split.
          { rewrite H4. replace (S k * bs) with (k * bs + bs) by lia. rewrite firstn_add. reflexivity. }
          split; [rewrite H5, rows_S; reflexivity|]. split; [lia|].
          intros j Hj. destruct (Nat.eq_dec j k) as [->|]; [exact Hm|apply H7; lia].
      Qed.

      Lemma read_spec : forall k out d q, dec_inv k out d ->
        match read lib c d q with
        | (bt, Ok d') => exists k', dec_inv k' (out ++ bt) d' /\ (0 < q -> 0 < length bt)
        | (bt, Eof) => bt = [] /\ out = s /\ k = nb
        | (bt, OverRead) => False
        | (bt, Broken) => bt = [] /\ k < nb /\ P < missing N avail k
        end.
      Proof.
        intros k out d q Hi. unfold read.
        assert (Hstep : forall k1 d1, dec_inv k1 out d1 -> d_cache d1 <> [] ->
          exists k', dec_inv k' (out ++ firstn (Nat.min q (length (d_cache d1))) (d_cache d1))
            {| d_readers := d_readers d1; d_size := d_size d1; d_total := d_total d1;
               d_cache := skipn (Nat.min q (length (d_cache d1))) (d_cache d1); d_rows := d_rows d1 |} /\
            (0 < q -> 0 < length (firstn (Nat.min q (length (d_cache d1))) (d_cache d1)))).
        { intros k1 d1 (A1 & A2 & A3 & A4 & A5 & A6) Hne. exists k1. split.
          - unfold dec_inv. cbn [d_readers d_size d_total d_cache d_rows]. split; [exact A1|]. split; [exact A2|].
            split; [exact A3|]. split; [rewrite <- app_assoc, firstn_skipn; exact A4|]. split; [exact A5|exact A6].
          - intros Hq. rewrite firstn_length. destruct (d_cache d1); [contradiction|cbn [length]; lia]. }
        destruct (d_cache d) as [|x xs] eqn:Ex.
        - pose proof (get_data_spec k out d Hi Ex) as Hg. destruct (get_data lib c d) as [d1| | |].
          + destruct Hg as (Hi1 & Hne & _). apply (Hstep _ d1 Hi1 Hne).
          + destruct Hg. split; [reflexivity|]. split; assumption.
          + exact Hg.
          + destruct Hg. split; [reflexivity|]. split; assumption.
        - apply (Hstep k d Hi). rewrite Ex. discriminate.
      Qed.

      Lemma read_many_spec : forall reqs k out d bytes st rws, dec_inv k out d ->
        read_many lib c d reqs out = (bytes, st, rws) ->
        exists k', k' <= nb /\ rws = rows s k' /\ (forall j, j < k' -> missing N avail j <= P) /\
          match st with
          | Ok d' => dec_inv k' bytes d' /\ (Forall (fun q => 0 < q) reqs -> length out + length reqs <= length bytes)
          | Eof => bytes = s /\ k' = nb
          | OverRead => False
          | Broken => k' < nb /\ P < missing N avail k' /\ bytes = firstn (k' * bs) s
          end.
      Proof.
        intros reqs. induction reqs as [|q reqs IH]; intros k out d bytes st rws Hi Hr.
        - cbn in Hr. injection Hr as <- <- <-. exists k. pose proof Hi as (_ & _ & _ & _ & H5 & H6 & H7).
          split; [exact H6|]. split; [exact H5|]. split; [exact H7|]. split; [exact Hi|]. intros _. cbn. lia.
        - cbn [read_many] in Hr. pose proof (read_spec k out d q Hi) as Hs.
          destruct (read lib c d q) as [bt [d'| | |]] eqn:Eread.
          + destruct Hs as (k1 & Hi1 & Hq). destruct (IH k1 _ d' _ _ _ Hi1 Hr) as (k' & A1 & A2 & A3 & A4).
            exists k'. split; [exact A1|]. split; [exact A2|]. split; [exact A3|].
            destruct st; try exact A4. destruct A4 as [A4 A5]. split; [exact A4|].
            intros HF. inversion HF; subst. specialize (A5 H2). specialize (Hq H1). rewrite app_length in A5. cbn [length]. lia.
          + destruct Hs as (-> & -> & ->). injection Hr as <- <- <-. pose proof Hi as (_ & _ & _ & _ & H5 & H6 & H7).
            exists nb. rewrite app_nil_r. repeat split; try assumption; lia.
          + destruct Hs.
          + destruct Hs as (-> & Hk & Hm). injection Hr as <- <- <-. pose proof Hi as (_ & _ & _ & H4 & H5 & H6 & H7).
            exists k. rewrite app_nil_r. split; [exact H6|]. split; [exact H5|]. split; [exact H7|].
            split; [exact Hk|]. split; [exact Hm|].
            assert (Hc : d_cache d = []).
            { unfold read in Eread. destruct (d_cache d); [reflexivity|]. discriminate. }
            rewrite Hc, app_nil_r in H4. exact H4.
      Qed.

      Lemma open_inv : dec_inv 0 [] (open_shards c n (shard_bytes (rows s nb)) avail).
      Proof.
        unfold dec_inv, open_shards. cbn [d_readers d_size d_total d_cache d_rows]. fold N.
        repeat split; try reflexivity; try lia.
        apply map_ext. intros i. unfold reader_at. destruct (avail i) as [m|]; [|reflexivity].
        rewrite Nat.min_0_l, Nat.sub_0_r. reflexivity.
      Qed.
    End Dec.

    (** ** Shard lengths *)
    Lemma per_add_bs : forall m, per (m + bs) = per m + rc_bps c.
    Proof. intros m. destruct (per_spec m). apply ceil_unique; unfold bs, block_size; nia. Qed.

    Lemma rest_length : forall (s : list B) i j k, i < all_shards c -> j + k = nblocks bs (length s) ->
      length (rest s k i) = per (length s - k * bs).
    Proof.
      intros s i j. pose proof bs_pos as Hbs. induction j as [|j IH]; intros k Hi Hk.
      - cbn in Hk. subst k. rewrite rest_end. destruct (nb_spec s). replace (_ - _) with 0 by lia. cbn.
        symmetry. apply Nat.div_small. lia.
      - assert (Hlt : k < nblocks bs (length s)) by lia. rewrite rest_step, app_length by exact Hlt.
        rewrite (IH (S k)) by (try exact Hi; lia). unfold row. rewrite row_nth by (try exact Hi; apply blk_pos; exact Hlt).
        rewrite blk_length. pose proof (lt_nb s k Hlt) as Hkn.
        destruct (Nat.le_ge_cases bs (length s - k * bs)) as [Hf|Hf].
        + rewrite Nat.min_l, per_bs by exact Hf.
          replace (length s - k * bs) with (length s - S k * bs + bs) by nia. rewrite per_add_bs. lia.
        + rewrite Nat.min_r by exact Hf. replace (length s - S k * bs) with 0 by nia.
          replace (per 0) with 0 by (symmetry; apply Nat.div_small; lia). lia.
    Qed.

    Lemma shard_length : forall (s : list B) i, i < all_shards c ->
      length (shard_bytes (rows s (nblocks bs (length s))) i) = shard_size c (length s).
    Proof.
      intros s i Hi. pose proof (rest_length s i (nblocks bs (length s)) 0 Hi ltac:(lia)) as H.
      rewrite Nat.mul_0_l, Nat.sub_0_r in H. exact H.
    Qed.
  End Lib.

  (** ** Shard files *)
  Variable zero : B.

  Lemma patch_buffer_pos : forall rf n, 0 < n -> 0 < patch_buffer rf n.
  Proof. intros [] n H; unfold patch_buffer; pose proof block_pos; lia. Qed.

  Lemma patch_spec : forall rf file data, 0 < length data ->
    patch zero rf file data =
      Some (file ++ data ++ repeat zero (pad_len (patch_buffer rf (length data)) (length data))).
  Proof.
    intros rf file data H. unfold patch, append_aligned. rewrite copy_padded_spec by (apply patch_buffer_pos; exact H).
    reflexivity.
  Qed.

  Lemma mult_mod_block : forall k, (k * block) mod block = 0.
  Proof. intros k. pose proof block_pos. apply Nat.mod_mul. lia. Qed.

  Lemma pad_zero : forall rf n, 0 < n -> n mod block = 0 -> pad_len (patch_buffer rf n) n = 0.
  Proof.
    intros rf n H Hm. pose proof block_pos as Hb. destruct rf; unfold patch_buffer.
    - rewrite pad_len_block, aligned_size_id by (try exact Hm; try apply mult_mod_block; lia). lia.
    - destruct (Nat.le_ge_cases n (2 * block)) as [Hl|Hl].
      + rewrite Nat.min_l by exact Hl. unfold pad_len. rewrite Nat.mod_same by lia.
        rewrite aligned_size_id by (apply Nat.mod_small; lia). lia.
      + rewrite Nat.min_r by exact Hl. rewrite pad_len_block, aligned_size_id by (try exact Hm; try apply mult_mod_block; lia). lia.
  Qed.

  (** Blocks of whole pages, except the last one, are stored with padding at the end only. *)
  Lemma patches_spec : forall rf blocks file last,
    Forall (fun b : list B => 0 < length b /\ length b mod block = 0) blocks -> 0 < length last ->
    exists pad, patches zero rf file (blocks ++ [last]) = Some (file ++ concat (blocks ++ [last]) ++ repeat zero pad).
  Proof.
    intros rf blocks. induction blocks as [|b rest IH]; intros file last HF Hl.
    - eexists. cbn [app patches]. rewrite patch_spec by exact Hl. cbn [concat]. rewrite app_nil_r. reflexivity.
    - inversion HF as [|? ? [Hb1 Hb2] HF']; subst. cbn [app patches]. rewrite patch_spec by exact Hb1.
      rewrite pad_zero by assumption. cbn [repeat]. rewrite app_nil_r.
      destruct (IH (file ++ b) last HF' Hl) as (pad & ->). exists pad. f_equal. cbn [app concat].
      rewrite <- !app_assoc. reflexivity.
  Qed.

  Section Files.
    Variable lib : rs_lib B.
    Variable c : rs_config.
    Hypothesis HD : 0 < rc_data c.
    Hypothesis Hb : 0 < rc_bps c.
    Hypothesis Hmds : mds lib (rc_data c) (rc_parity c).
    Let bs := block_size c.

    Lemma rows_last : forall s : list B, 0 < length s -> exists k, nblocks bs (length s) = S k.
    Proof.
      intros s Hs. destruct (nb_spec c HD Hb s) as [H _]. fold bs in H. destruct (nblocks bs (length s)); [lia|eauto].
    Qed.

    Lemma store_shard : forall rf (s : list B) i, i < all_shards c ->
      rc_bps c mod block = 0 \/ length s <= bs ->
      exists file, store_blocks zero rf (shard_blocks (rows lib c s (nblocks bs (length s))) i) = Some file /\
        fetch file (shard_size c (length s)) = shard_bytes (rows lib c s (nblocks bs (length s))) i.
    Proof.
      intros rf s i Hi Hal. pose proof (shard_length lib c HD Hb _ eq_refl Hmds s i Hi) as Hlen.
      fold bs in Hlen. unfold store_blocks, fetch.
      destruct (Nat.eq_dec (length s) 0) as [E|E].
      - replace (nblocks bs (length s)) with 0 in *.
        2:{ symmetry. unfold nblocks. apply Nat.div_small. pose proof (bs_pos c HD Hb). fold bs in H. lia. }
        exists []. split; [reflexivity|]. cbn. apply firstn_nil.
      - destruct (rows_last s ltac:(lia)) as (k & Ek). rewrite Ek in *.
        pose proof (nb_spec c HD Hb s) as [Hnb1 Hnb2]. fold bs in Hnb1, Hnb2. rewrite Ek in *.
        pose proof (bs_pos c HD Hb) as Hbs. fold bs in Hbs.
        rewrite rows_S in *. unfold shard_bytes, shard_blocks in *. rewrite !map_app in *. cbn [map] in *.
        destruct (patches_spec rf (map (fun row => nth i row []) (rows lib c s k)) []
          (nth i (encode_row lib c k (blk (block_size c) s k)) [])) as (pad & Hp).
        + apply Forall_map. unfold rows. apply Forall_map. apply Forall_forall. intros j Hj. apply in_seq in Hj.
          assert (Hk : 0 < k) by lia.
          assert (Hjb : length (blk (block_size c) s j) = bs).
          { rewrite blk_length. fold bs. rewrite Nat.min_l; [reflexivity|]. nia. }
          rewrite (row_nth lib c HD Hb _ eq_refl Hmds) by (try exact Hi; lia).
          rewrite Hjb. fold bs. change bs with (block_size c). rewrite (per_bs c HD Hb).
          split; [exact Hb|]. destruct Hal as [Hal|Hal]; [exact Hal|nia].
        + rewrite (row_nth lib c HD Hb _ eq_refl Hmds) by (try exact Hi; rewrite blk_length; fold bs; nia).
          apply (per_pos c HD Hb). rewrite blk_length. fold bs. nia.
        + rewrite Hp. eexists. split; [reflexivity|]. cbn [app]. rewrite <- Hlen. apply firstn_app_exact.
    Qed.

    (** Misaligned blocks: the padding of the first block shows up inside the shard. *)
    Lemma store_corrupt : forall rf (one : B) n, one <> zero -> rf = true \/ 2 * block < rc_bps c ->
      rc_bps c mod block <> 0 -> bs < n ->
      let sent := rows lib c (repeat one n) (nblocks bs n) in
      forall file, store_blocks zero rf (shard_blocks sent 0) = Some file ->
      fetch file (shard_size c n) <> shard_bytes sent 0.
    Proof.
      intros rf one n Hne Hrf Hmis Hn sent file Hst Heq. pose proof (bs_pos c HD Hb) as Hbs. fold bs in Hbs.
      set (s := repeat one n) in *.
      assert (Hs : length s = n) by apply repeat_length.
      assert (HN : 0 < all_shards c) by (unfold all_shards; lia).
      pose proof (nb_spec c HD Hb s) as [Hnb1 Hnb2]. fold bs in Hnb1, Hnb2. rewrite Hs in *.
      assert (Hnb : 1 < nblocks bs n) by nia.
      assert (H0 : length (nth 0 (encode_row lib c 0 (blk bs s 0)) []) = rc_bps c).
      { rewrite (row_nth lib c HD Hb _ eq_refl Hmds) by (try exact HN; rewrite blk_length; nia).
        rewrite blk_length, Hs. rewrite Nat.min_l by lia. apply (per_bs c HD Hb). }
      assert (Hsent : sent = encode_row lib c 0 (blk bs s 0) :: encode_row lib c 1 (blk bs s 1) :: skipn 2 sent).
      { unfold sent. rewrite <- Hs. pose proof (skipn_rows lib c HD Hb _ eq_refl s 0) as E0. pose proof (skipn_rows lib c HD Hb _ eq_refl s 1) as E1.
        fold bs in E0, E1. rewrite Hs in E0, E1. rewrite Hs. cbn [skipn] in E0. rewrite E0 by lia.
        unfold row. fold bs. f_equal. cbn [skipn].
        rewrite E0 in E1 by lia. unfold row in E1. fold bs in E1. cbn [skipn] in E1. rewrite E1 by lia. reflexivity. }
      (* the byte after the first block *)
      assert (H1 : exists t, nth 0 (encode_row lib c 1 (blk bs s 1)) [] = one :: t).
      { unfold encode_row. set (ds := split_shards _ _ _). rewrite app_nth1 by (unfold ds; rewrite split_length; lia).
        assert (Hl : 0 < length (nth 0 ds [])).
        { pose proof (row_nth lib c HD Hb _ eq_refl Hmds 1 (blk bs s 1) 0) as Hr. unfold encode_row in Hr. fold ds in Hr.
          rewrite app_nth1 in Hr by (unfold ds; rewrite split_length; lia). rewrite Hr by (try exact HN; rewrite blk_length; nia).
          apply (per_pos c HD Hb). rewrite blk_length. nia. }
        assert (Hhd : hd_error (nth 0 ds []) = hd_error (blk bs s 1)).
        { pose proof (split_concat c HD Hb (lib_fill lib 1) (blk bs s 1)) as Hc. fold ds in Hc.
          assert (Hb1 : 0 < length (blk bs s 1)) by (rewrite blk_length; nia).
          destruct ds as [|d0 dr]; [cbn in Hl; lia|]. cbn [nth concat] in *. destruct d0 as [|x d0]; [cbn in Hl; lia|].
          destruct (blk bs s 1) as [|y b1]; [cbn in Hb1; lia|]. cbn in Hc. injection Hc as -> _. reflexivity. }
        assert (Hone : hd_error (blk bs s 1) = Some one).
        { unfold blk, s. assert (E : skipn (1 * bs) (repeat one n) = repeat one (n - bs)).
          { apply list_ext. intros i. rewrite nth_error_skipn. destruct (Nat.lt_ge_cases i (n - bs)) as [Hi|Hi].
            - rewrite !nth_error_repeat by lia. reflexivity.
            - rewrite (proj2 (nth_error_None _ _)) by (rewrite repeat_length; lia).
              symmetry. apply nth_error_None. rewrite repeat_length. lia. }
          rewrite E. destruct bs as [|b']; [lia|]. destruct (n - S b') as [|m] eqn:Em; [lia|]. reflexivity. }
        rewrite Hone in Hhd. destruct (nth 0 ds []) as [|x t]; [discriminate|]. cbn in Hhd. injection Hhd as ->. eauto. }
      destruct H1 as (t & H1).
      set (b0 := nth 0 (encode_row lib c 0 (blk bs s 0)) []) in *.
      assert (Hpad : exists pad file', 0 < pad /\ file = b0 ++ repeat zero pad ++ file').
      { rewrite Hsent in Hst. unfold store_blocks, shard_blocks in Hst. cbn [map] in Hst. match type of Hst with patches _ _ _ (_ :: ?m) = _ => set (more := m) in Hst; clearbody more end. cbn [patches] in Hst. fold b0 in Hst.
        rewrite patch_spec in Hst by lia. cbn [app] in Hst.
        set (pad := pad_len (patch_buffer rf (length b0)) (length b0)) in *.
        exists pad. assert (Hpos : 0 < pad).
        { unfold pad. rewrite H0. pose proof block_pos as Hbl.
          assert (Hp : 0 < patch_buffer rf (rc_bps c)) by (apply patch_buffer_pos; exact Hb).
          assert (Hpb : patch_buffer rf (rc_bps c) mod block = 0).
          { unfold patch_buffer. destruct Hrf as [->|Hrf]; [apply mult_mod_block|]. destruct rf; [apply mult_mod_block|].
            rewrite Nat.min_r by lia. apply mult_mod_block. }
          rewrite pad_len_block by assumption. destruct (aligned_size_spec (rc_bps c)) as (A1 & _ & A3).
          assert (aligned_size (rc_bps c) <> rc_bps c); [|lia]. intros Ea. rewrite Ea in A3. contradiction. }
        assert (Hpref : forall blocks f f', patches zero rf f blocks = Some f' -> exists x, f' = f ++ x).
        { intros blocks. induction blocks as [|b rest IH]; intros f f' Hf; cbn in Hf.
          - injection Hf as <-. exists []. rewrite app_nil_r. reflexivity.
          - destruct (patch zero rf f b) as [g|] eqn:Eg; [|discriminate]. destruct (IH _ _ Hf) as (x & ->).
            unfold patch, append_aligned in Eg. destruct (copy_padded _ _ _) as [[bt []]|]; try discriminate.
            injection Eg as <-. exists (bt ++ x). rewrite app_assoc. reflexivity. }
        match type of Hst with patches _ _ ?f ?bl = _ => destruct (Hpref bl f file Hst) as (x & ->) end.
        exists x. split; [exact Hpos|]. rewrite <- !app_assoc. reflexivity. }
      destruct Hpad as (pad & file' & Hpp & ->).
      (* compare byte [rc_bps c] *)
      assert (Hlen : length (shard_bytes sent 0) = shard_size c n).
      { unfold sent. rewrite <- Hs. apply (shard_length lib c HD Hb _ eq_refl Hmds s 0 HN). }
      assert (Esb : nth_error (shard_bytes sent 0) (rc_bps c) = Some one).
      { rewrite Hsent. unfold shard_bytes, shard_blocks. cbn [map concat]. fold b0. rewrite H1.
        rewrite nth_error_app2 by lia. rewrite H0, Nat.sub_diag. reflexivity. }
      assert (Hlt : rc_bps c < shard_size c n).
      { rewrite <- Hlen. apply nth_error_Some. rewrite Esb. discriminate. }
      rewrite <- Heq in Esb. unfold fetch in Esb. rewrite nth_error_firstn in Esb by exact Hlt.
      rewrite nth_error_app2 in Esb by lia. rewrite H0, Nat.sub_diag in Esb.
      rewrite nth_error_app1 in Esb by (rewrite repeat_length; lia). rewrite nth_error_repeat in Esb by exact Hpp.
      injection Esb as E. congruence.
    Qed.
  End Files.

  (** ** Endless writes *)
  Lemma write_loops : forall (lib : rs_lib B) c fuel e bt, block_size c = 0 -> e_cache e = [] -> bt <> [] ->
    write lib c fuel e bt = None.
  Proof.
    intros lib c fuel. induction fuel as [|f IH]; intros e bt H0 Hc Hbt; destruct bt as [|x xs]; try contradiction; [reflexivity|].
    cbn [write]. rewrite H0, Hc. cbn [length Nat.min app firstn Nat.sub Nat.leb skipn e_cache].
    apply IH; [exact H0|reflexivity|discriminate].
  Qed.
End Rs.
