(** C22-C24, C26 from the lemmas of Rs_Proofs; a code satisfying [mds]. *)
From Verif Require Import ListX Reader_Proofs.
From Verif Require Export Rs_Proofs.

Section Main.
  Context {B : Type}.
  Variable zero : B.
  Variable lib : rs_lib B.
  Variable c : rs_config.
  Hypothesis HD : 0 < rc_data c.
  Hypothesis Hb : 0 < rc_bps c.
  Hypothesis Hmds : mds lib (rc_data c) (rc_parity c).

  Definition read_result (s : list B) (avail : nat -> option nat) (reqs : list nat)
    (bytes : list B) (st : dres B) : Prop :=
    (exists rest, s = bytes ++ rest) /\
    match st with
    | Ok _ => Forall (fun q => 0 < q) reqs -> length reqs <= length bytes
    | Eof => bytes = s /\ forall k, k * block_size c < length s -> missing (all_shards c) avail k <= rc_parity c
    | OverRead => False
    | Broken => exists k, k * block_size c < length s /\ rc_parity c < missing (all_shards c) avail k
    end.

  Lemma read_rows : forall s avail reqs bytes st rws,
    read_many lib c (open_shards c (length s) (shard_bytes (rows lib c s (nblocks (block_size c) (length s)))) avail) reqs []
      = (bytes, st, rws) ->
    read_result s avail reqs bytes st /\
    exists k, k <= nblocks (block_size c) (length s) /\ rws = rows lib c s k /\
      (st = Eof -> k = nblocks (block_size c) (length s)).
  Proof.
    intros s avail reqs bytes st rws Hr.
    pose proof (open_inv lib c HD Hb (rc_parity c) eq_refl s avail) as Hi.
    destruct (read_many_spec lib c HD Hb (rc_parity c) eq_refl Hmds s avail reqs 0 [] _ _ _ _ Hi Hr) as (k & H1 & H2 & H3 & H4).
    split.
    - destruct st as [d| | |]; unfold read_result.
      + destruct H4 as [(_ & _ & _ & H4 & _) H5]. split.
        * exists (d_cache d ++ skipn (k * block_size c) s). rewrite app_assoc, H4. symmetry. apply firstn_skipn.
        * exact H5.
      + destruct H4 as [-> Hk]. split; [exists []; rewrite app_nil_r; reflexivity|]. split; [reflexivity|].
        intros j Hj. apply H3. rewrite Hk. apply (lt_nb_inv c HD Hb _ eq_refl). exact Hj.
      + destruct H4.
      + destruct H4 as (H4 & H5 & H6). split.
        * exists (skipn (k * block_size c) s). rewrite H6. symmetry. apply firstn_skipn.
        * exists k. split; [apply (lt_nb c HD Hb _ eq_refl); exact H4|exact H5].
    - exists k. split; [exact H1|]. split; [exact H2|]. intros ->. apply H4.
  Qed.

  Lemma read_back : forall bts fuel avail reqs, Forall (fun bt => length bt <= fuel) bts ->
    exists sent, upload lib c fuel bts = Some sent /\
      forall bytes st rws,
        read_many lib c (open_shards c (length (concat bts)) (shard_bytes sent) avail) reqs [] = (bytes, st, rws) ->
        read_result (concat bts) avail reqs bytes st.
  Proof.
    intros bts fuel avail reqs Hf. eexists. split; [apply (upload_spec lib c HD Hb); exact Hf|].
    intros bytes st rws Hr. apply (read_rows _ _ _ _ _ _ Hr).
  Qed.

  Lemma read_complete : forall bts fuel avail reqs, Forall (fun bt => length bt <= fuel) bts ->
    (forall k, k * block_size c < length (concat bts) -> missing (all_shards c) avail k <= rc_parity c) ->
    Forall (fun q => 0 < q) reqs -> length (concat bts) < length reqs ->
    exists sent rws, upload lib c fuel bts = Some sent /\
      read_many lib c (open_shards c (length (concat bts)) (shard_bytes sent) avail) reqs [] = (concat bts, Eof, rws).
  Proof.
    intros bts fuel avail reqs Hf Hm Hq Hl. destruct (read_back bts fuel avail reqs Hf) as (sent & Hu & H).
    exists sent. destruct (read_many _ _ _ _ _) as [[bytes st] rws] eqn:E. exists rws. split; [exact Hu|].
    destruct (H _ _ _ eq_refl) as [[rest Hp] Hs]. destruct st as [d| | |].
    - specialize (Hs Hq). rewrite Hp, app_length in Hl. lia.
    - destruct Hs as [-> _]. reflexivity.
    - destruct Hs.
    - destruct Hs as (k & H1 & H2). specialize (Hm k H1). lia.
  Qed.

  (** The shard files on the data servers. *)
  Lemma files_intact : forall rf bts fuel, Forall (fun bt => length bt <= fuel) bts ->
    rc_bps c mod block = 0 \/ length (concat bts) <= block_size c ->
    exists sent, upload lib c fuel bts = Some sent /\
      forall i, i < all_shards c -> exists file, store_blocks zero rf (shard_blocks sent i) = Some file /\
        fetch file (shard_size c (length (concat bts))) = shard_bytes sent i.
  Proof.
    intros rf bts fuel Hf Hal. eexists. split; [apply (upload_spec lib c HD Hb); exact Hf|].
    intros i Hi. apply (store_shard zero lib c HD Hb Hmds); assumption.
  Qed.

  (** Upload, shard files, fetch, decode. *)
  Lemma end_to_end : forall rf bts fuel avail reqs, Forall (fun bt => length bt <= fuel) bts ->
    rc_bps c mod block = 0 \/ length (concat bts) <= block_size c ->
    exists sent, upload lib c fuel bts = Some sent /\
      forall files, (forall i, i < all_shards c -> store_blocks zero rf (shard_blocks sent i) = Some (files i)) ->
      forall bytes st rws,
        read_many lib c (open_shards c (length (concat bts))
          (fun i => fetch (files i) (shard_size c (length (concat bts)))) avail) reqs [] = (bytes, st, rws) ->
        read_result (concat bts) avail reqs bytes st.
  Proof.
    intros rf bts fuel avail reqs Hf Hal. destruct (files_intact rf bts fuel Hf Hal) as (sent & Hu & Hs).
    exists sent. split; [exact Hu|]. intros files Hfiles bytes st rws Hr.
    destruct (read_back bts fuel avail reqs Hf) as (sent' & Hu' & H). rewrite Hu in Hu'. injection Hu' as <-.
    apply (H bytes st rws). rewrite <- Hr. f_equal. unfold open_shards. f_equal.
    apply map_ext_in. intros i Hi. apply in_seq in Hi. destruct (avail i); [|reflexivity]. f_equal. f_equal.
    destruct (Hs i ltac:(lia)) as (file & E1 & E2). rewrite (Hfiles i ltac:(lia)) in E1. injection E1 as <-.
    symmetry. exact E2.
  Qed.

  Lemma files_corrupt : forall rf (one : B) n, one <> zero -> rf = true \/ 2 * block < rc_bps c ->
    rc_bps c mod block <> 0 -> block_size c < n ->
    exists sent, upload lib c n [repeat one n] = Some sent /\
      forall file, store_blocks zero rf (shard_blocks sent 0) = Some file ->
        fetch file (shard_size c n) <> shard_bytes sent 0.
  Proof.
    intros rf one n H1 H2 H3 H4. eexists. split.
    - apply (upload_spec lib c HD Hb). repeat constructor. rewrite repeat_length. lia.
    - cbn [concat]. rewrite app_nil_r, repeat_length. apply (store_corrupt zero lib c HD Hb Hmds rf one n); assumption.
  Qed.

  (** A shard repaired by a complete read, its blocks arriving in order. *)
  Lemma repair_full : forall bts fuel avail reqs, Forall (fun bt => length bt <= fuel) bts ->
    exists sent, upload lib c fuel bts = Some sent /\
      forall bytes rws,
        read_many lib c (open_shards c (length (concat bts)) (shard_bytes sent) avail) reqs [] = (bytes, Eof, rws) ->
        forall i, repair_blocks rws (seq 0 (length rws)) i = shard_blocks sent i.
  Proof.
    intros bts fuel avail reqs Hf. eexists. split; [apply (upload_spec lib c HD Hb); exact Hf|].
    intros bytes rws Hr i. destruct (read_rows _ _ _ _ _ _ Hr) as (_ & k & _ & -> & Hk). rewrite (Hk eq_refl).
    unfold repair_blocks, shard_blocks, rows. rewrite map_length, seq_length, map_map.
    apply map_ext_in. intros j Hj. apply in_seq in Hj. rewrite nth_map_seq by lia. reflexivity.
  Qed.
End Main.

(** ** Configuration *)
Local Open Scope Z_scope.

Lemma object_bps_pos : forall b d n, 0 < b -> 0 < d <= n -> 0 < object_bps b d n.
Proof.
  intros b d n Hb Hd. unfold object_bps. destruct (Z.gtb_spec ((b * d) mod net_pkg) 0) as [H|H]; [|lia].
  pose proof (Z.mod_pos_bound (b * d) net_pkg eq_refl) as Hm. apply Z.div_str_pos. nia.
Qed.

Lemma object_bps_small : forall b d n, 0 < d -> 0 <= n < d -> (b * d) mod net_pkg <> 0 -> 0 <= b ->
  object_bps b d n = 0.
Proof.
  intros b d n Hd Hn Hm Hb. unfold object_bps.
  pose proof (Z.mod_pos_bound (b * d) net_pkg eq_refl) as Hp.
  destruct (Z.gtb_spec ((b * d) mod net_pkg) 0) as [H|H]; [|lia]. apply Z.div_small.
  pose proof (Z.mod_le (b * d) net_pkg ltac:(nia) eq_refl). lia.
Qed.

Lemma object_bps_aligned : forall b d n k, 0 < b -> 0 < d -> 16 = d * k ->
  (b * d) mod net_pkg = 0 \/ (b * d / net_pkg + 1) * net_pkg <= n ->
  object_bps b d n mod 4096 = 0 /\ 0 < object_bps b d n.
Proof.
  intros b d n k Hb Hd Hk H. unfold object_bps.
  pose proof (Z.div_mod (b * d) net_pkg ltac:(discriminate)) as E.
  pose proof (Z.mod_pos_bound (b * d) net_pkg eq_refl) as Hm.
  set (q := b * d / net_pkg) in *. set (r := (b * d) mod net_pkg) in *. clearbody q r.
  destruct (Z.gtb_spec r 0) as [Hr|Hr].
  - destruct H as [H|H]; [lia|]. rewrite Z.min_l by lia.
    replace (b * d - r + net_pkg) with (d * (k * 4096 * (q + 1))).
    2:{ unfold net_pkg in *. replace (b * d) with (65536 * q + r) by lia. replace 65536 with (16 * 4096) by reflexivity. rewrite Hk. ring. }
    rewrite Z.mul_comm, Z.div_mul by lia. split.
    + replace (k * 4096 * (q + 1)) with (k * (q + 1) * 4096) by ring. apply Z.mod_mul. lia.
    + unfold net_pkg in *. assert (0 < k) by nia. assert (0 <= q) by nia. nia.
  - assert (r = 0) by lia. subst r. split; [|exact Hb].
    assert (Eb : b = k * q * 4096).
    { unfold net_pkg in *. assert (d * b = d * (k * q * 4096)); [|nia].
      replace (d * (k * q * 4096)) with (d * k * 4096 * q) by ring. rewrite <- Hk. lia. }
    rewrite Eb. apply Z.mod_mul. lia.
Qed.
Local Close Scope Z_scope.

(** ** A code for two data shards and one parity shard: exclusive or *)
Definition xor_lists (a b : list N) : list N := map (fun p => N.lxor (fst p) (snd p)) (List.combine a b).
Definition xor_lib : rs_lib N := {|
  lib_encode ds := match ds with [a; b] => [xor_lists a b] | _ => [] end;
  lib_reconstruct m :=
    match m with
    | [Some a; Some b; Some p] => Some [a; b; p]
    | [None; Some b; Some p] => Some [xor_lists b p; b; p]
    | [Some a; None; Some p] => Some [a; xor_lists a p; p]
    | [Some a; Some b; None] => Some [a; b; xor_lists a b]
    | _ => None
    end;
  lib_fill k j := 77%N |}.

Lemma xor_length : forall a b, length a = length b -> length (xor_lists a b) = length a.
Proof. intros a b H. unfold xor_lists. rewrite map_length, combine_length, H. lia. Qed.

Lemma xor_left : forall a b, length a = length b -> xor_lists a (xor_lists a b) = b.
Proof.
  induction a as [|x a IH]; intros [|y b] H; try discriminate; [reflexivity|].
  unfold xor_lists in *. cbn [List.combine map fst snd]. f_equal.
  - rewrite <- N.lxor_assoc, N.lxor_nilpotent, N.lxor_0_l. reflexivity.
  - apply IH. injection H as H. exact H.
Qed.

Lemma xor_comm : forall a b, xor_lists a b = xor_lists b a.
Proof.
  induction a as [|x a IH]; intros [|y b]; try reflexivity.
  unfold xor_lists in *. cbn [List.combine map fst snd]. f_equal; [apply N.lxor_comm|apply IH].
Qed.

Lemma xor_mds : mds xor_lib 2 1.
Proof.
  intros len ds Hl Hd HF. destruct ds as [|a [|b [|]]]; try discriminate.
  inversion HF as [|? ? Ha HF1]; subst. inversion HF1 as [|? ? Hb _]; subst.
  cbn [lib_encode xor_lib length]. split; [reflexivity|]. split.
  - repeat constructor. apply xor_length. lia.
  - intros ok. cbn [app Nat.add seq map nth filter].
    destruct (ok 0), (ok 1), (ok 2); cbn; try reflexivity.
    + rewrite xor_left by lia. reflexivity.
    + rewrite (xor_comm a b), xor_left by lia. reflexivity.
Qed.

(** ** Objects as configured *)
Definition object_config (b d : Z) (p : nat) (n : nat) : rs_config :=
  {| rc_data := Z.to_nat d; rc_parity := p; rc_bps := Z.to_nat (object_bps b d (Z.of_nat n)) |}.

Lemma mod_block_Z : forall z, (0 <= z)%Z -> Z.to_nat z mod block = 0 <-> (z mod 4096 = 0)%Z.
Proof.
  intros z Hz. rewrite <- block_Z. rewrite <- (Z2Nat.id z Hz) at 2. rewrite <- Nat2Z.inj_mod. lia.
Qed.

Lemma config_intact : forall (B : Type) (zero : B) (lib : rs_lib B) b d k p rf bts fuel,
  (0 < b)%Z -> (0 < d)%Z -> (16 = d * k)%Z ->
  let n := length (concat bts) in
  ((b * d) mod net_pkg = 0 \/ (b * d / net_pkg + 1) * net_pkg <= Z.of_nat n)%Z ->
  mds lib (Z.to_nat d) p -> Forall (fun bt => length bt <= fuel) bts ->
  let c := object_config b d p n in
  exists sent, upload lib c fuel bts = Some sent /\
    forall i, i < all_shards c -> exists file, store_blocks zero rf (shard_blocks sent i) = Some file /\
      fetch file (shard_size c n) = shard_bytes sent i.
Proof.
  intros B zero lib b d k p rf bts fuel Hb Hd Hk n Hn Hm Hf c.
  destruct (object_bps_aligned b d (Z.of_nat n) k Hb Hd Hk Hn) as [Ha Hp].
  apply files_intact; cbn [c object_config rc_data rc_bps rc_parity]; try assumption; try lia.
  left. apply mod_block_Z; [lia|exact Ha].
Qed.

Lemma terminates : forall (B : Type) (lib : rs_lib B) b d p bts,
  (0 < b)%Z -> (0 < d)%Z -> let n := length (concat bts) in
  (d <= Z.of_nat n)%Z \/ n = 0 \/ ((b * d) mod net_pkg = 0)%Z ->
  exists sent, upload lib (object_config b d p n) n bts = Some sent.
Proof.
  intros B lib b d p bts Hb Hd n Hn.
  assert (Hf : Forall (fun bt => length bt <= n) bts).
  { apply Forall_forall. intros bt Hin. unfold n. clear -Hin. induction bts as [|x xs IH]; [destruct Hin|].
    cbn [concat]. rewrite app_length. destruct Hin as [->|Hin]; [lia|]. specialize (IH Hin). lia. }
  assert (Hcase : n = 0 \/ (0 < object_bps b d (Z.of_nat n))%Z).
  { destruct Hn as [Hn|[Hn|Hn]]; [right; apply object_bps_pos; lia|left; exact Hn|right].
    unfold object_bps. rewrite Hn. exact Hb. }
  destruct Hcase as [E|Hp].
  - exists []. unfold upload. assert (Hw : writes lib (object_config b d p n) n new_encoder bts = Some new_encoder).
    { rewrite E in Hf. clear -Hf. induction bts as [|x xs IH]; [reflexivity|]. inversion Hf; subst.
      destruct x; [|cbn in *; lia]. cbn [writes]. replace (write lib (object_config b d p n) n new_encoder []) with (Some (@new_encoder B)) by (destruct n; reflexivity).
      apply IH. assumption. }
    rewrite Hw. reflexivity.
  - eexists. apply upload_spec; cbn; try lia. exact Hf.
Qed.

Lemma never_ends : forall (B : Type) (lib : rs_lib B) b d p bt fuel,
  (0 <= b)%Z -> (0 < Z.of_nat (length bt) < d)%Z -> ((b * d) mod net_pkg <> 0)%Z ->
  upload lib (object_config b d p (length bt)) fuel [bt] = None.
Proof.
  intros B lib b d p bt fuel Hb Hn Hm. unfold upload. cbn [writes].
  rewrite write_loops; [reflexivity| |reflexivity|].
  - unfold block_size, object_config. cbn [rc_bps rc_data]. rewrite object_bps_small by lia. reflexivity.
  - intros ->. cbn in Hn. lia.
Qed.

Lemma three_shards_corrupt : forall (B : Type) (zero one : B) (lib : rs_lib B) p rf n, one <> zero ->
  mds lib 3 p -> (65536 <= Z.of_nat n)%Z ->
  let c := object_config 16384 3 p n in
  exists sent, upload lib c n [repeat one n] = Some sent /\
    forall file, store_blocks zero rf (shard_blocks sent 0) = Some file ->
      fetch file (shard_size c n) <> shard_bytes sent 0.
Proof.
  intros B zero one lib p rf n Hne Hm Hn c.
  assert (Eb : object_bps 16384 3 (Z.of_nat n) = 21845%Z).
  { unfold object_bps. change ((16384 * 3) mod net_pkg >? 0)%Z with true. cbv iota.
    rewrite Z.min_l by (unfold net_pkg; cbn; lia). reflexivity. }
  apply files_corrupt; unfold c, object_config, block_size; cbn [rc_data rc_bps rc_parity]; rewrite ?Eb; try assumption; try lia.
  - right. pose proof block_Z. lia.
  - rewrite mod_block_Z by lia. intros E. discriminate E.
Qed.

Lemma ten_bytes_corrupt : forall (B : Type) (zero one : B) (lib : rs_lib B) p, one <> zero -> mds lib 3 p ->
  let c := object_config 16384 3 p 10 in
  exists sent, upload lib c 10 [repeat one 10] = Some sent /\
    forall file, store_blocks zero true (shard_blocks sent 0) = Some file ->
      fetch file (shard_size c 10) <> shard_bytes sent 0.
Proof.
  intros B zero one lib p Hne Hm c.
  assert (Eb : object_bps 16384 3 (Z.of_nat 10) = 3%Z) by reflexivity.
  apply files_corrupt; unfold c, object_config, block_size; cbn [rc_data rc_bps rc_parity]; rewrite ?Eb; try assumption; try lia.
rewrite mod_block_Z by lia. intros E. discriminate E.
Qed.
