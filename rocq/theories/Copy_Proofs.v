From Verif Require Import ListX Reader_Proofs Rs_Main.
From Verif Require Export Copy_Model.

Section Copy.
  Context {B : Type}.
  Variable zero : B.

  (** Copies are the code with one data shard and no parity. *)
  Definition one_lib : rs_lib B := {|
    lib_encode _ := [];
    lib_reconstruct m := match m with [Some x] => Some [x] | _ => None end;
    lib_fill _ _ := zero |}.
  Definition one_cfg (bs : nat) : rs_config := {| rc_data := 1; rc_parity := 0; rc_bps := bs |}.

  Lemma one_mds : mds one_lib 1 0.
  Proof.
    intros len ds Hl Hd HF. destruct ds as [|a [|]]; try discriminate. cbn. repeat split; try constructor.
    intros ok. destruct (ok 0); reflexivity.
  Qed.

  Lemma one_row : forall bs k data, encode_row one_lib (one_cfg bs) k data = [data].
  Proof.
    intros bs k data. unfold encode_row, split_shards. cbn [rc_data one_cfg lib_encode one_lib seq map app].
    rewrite Nat.add_sub, Nat.div_1_r, Nat.mul_1_r, Nat.sub_diag. cbn [map seq Nat.mul skipn]. rewrite !app_nil_r, firstn_all. reflexivity.
  Qed.

  Definition sim (e : encoder B) (cp : copier B) : Prop :=
    e_cache e = c_cache cp /\ e_sent e = map (fun b => [b]) (c_sent cp).

  Lemma flush_sim : forall bs e cp, sim e cp -> sim (flush one_lib (one_cfg bs) e) (c_flush cp).
  Proof.
    intros bs e cp [H1 H2]. unfold flush, c_flush. rewrite H1. destruct (c_cache cp) as [|x xs] eqn:E; [split; [congruence|exact H2]|].
    split; [reflexivity|]. cbn [e_sent c_sent]. rewrite one_row, H2, map_app. reflexivity.
  Qed.

  Lemma write_sim : forall bs fuel bt e cp, sim e cp ->
    match write one_lib (one_cfg bs) fuel e bt, c_write bs fuel cp bt with
    | Some e', Some cp' => sim e' cp'
    | None, None => True
    | _, _ => False
    end.
  Proof.
    intros bs fuel. induction fuel as [|f IH]; intros bt e cp Hs; destruct bt as [|x xs]; try exact Hs; [exact I|].
    cbn [write c_write].
    replace (block_size (one_cfg bs)) with bs by (unfold block_size, one_cfg; cbn; lia).
    destruct Hs as [H1 H2]. cbn [e_cache c_cache]. rewrite H1.
    set (next := Nat.min _ _). apply IH. destruct (_ <=? _).
    - apply flush_sim. split; [reflexivity|exact H2].
    - split; [reflexivity|exact H2].
  Qed.

  Lemma writes_sim : forall bs fuel bts e cp, sim e cp ->
    match writes one_lib (one_cfg bs) fuel e bts, c_writes bs fuel cp bts with
    | Some e', Some cp' => sim e' cp'
    | None, None => True
    | _, _ => False
    end.
  Proof.
    intros bs fuel bts. induction bts as [|bt rest IH]; intros e cp Hs; [exact Hs|]. cbn [writes c_writes].
    pose proof (write_sim bs fuel bt e cp Hs) as Hw.
    destruct (write _ _ _ _ _) as [e'|], (c_write _ _ _ _) as [cp'|]; try contradiction; [|exact I]. apply IH. exact Hw.
  Qed.

  Lemma upload_sim : forall bs fuel bts,
    upload one_lib (one_cfg bs) fuel bts = option_map (map (fun b => [b])) (c_upload bs fuel bts).
  Proof.
    intros bs fuel bts. unfold upload, c_upload.
    pose proof (writes_sim bs fuel bts new_encoder new_copier (conj eq_refl eq_refl)) as Hw.
    destruct (writes _ _ _ _ _) as [e'|], (c_writes _ _ _ _) as [cp'|]; try contradiction; [|reflexivity].
    cbn. f_equal. apply flush_sim. exact Hw.
  Qed.

  Lemma shard_blocks_one : forall (l : list (list B)), shard_blocks (map (fun b => [b]) l) 0 = l.
  Proof. intros l. unfold shard_blocks. rewrite map_map. cbn. apply map_id. Qed.

  Lemma shard_size_one : forall bs n, shard_size (one_cfg bs) n = n.
  Proof. intros. unfold shard_size, one_cfg. cbn [rc_data]. rewrite Nat.add_sub, Nat.div_1_r. reflexivity. Qed.

  (** Each copy holds the object (C25). *)
  Lemma copy_stored : forall rf bs bts fuel, 0 < bs -> bs mod block = 0 \/ length (concat bts) <= bs ->
    Forall (fun bt => length bt <= fuel) bts ->
    exists sent file, c_upload bs fuel bts = Some sent /\ store_blocks zero rf sent = Some file /\
      fetch file (length (concat bts)) = concat bts.
  Proof.
    intros rf bs bts fuel Hbs Hal Hf.
    destruct (files_intact zero one_lib (one_cfg bs) Nat.lt_0_1 Hbs one_mds rf bts fuel Hf) as (rows0 & Hu & Hs).
    { destruct Hal as [Hal|Hal]; [left; exact Hal|right]. unfold block_size, one_cfg. cbn. lia. }
    destruct (Hs 0) as (file & Hst & Hfe); [cbn; lia|].
    rewrite upload_sim in Hu. destruct (c_upload bs fuel bts) as [sent|] eqn:Ec; [|discriminate]. cbn in Hu. injection Hu as <-.
    rewrite shard_blocks_one in Hst. rewrite shard_size_one in Hfe. unfold shard_bytes in Hfe. rewrite shard_blocks_one in Hfe.
    exists sent, file. split; [reflexivity|]. split; [exact Hst|]. rewrite Hfe.
    (* what was sent is the content *)
    pose proof (upload_spec one_lib (one_cfg bs) Nat.lt_0_1 Hbs fuel bts Hf) as Hup.
    rewrite upload_sim, Ec in Hup. cbn [option_map] in Hup. injection Hup as Hup.
    replace (block_size (one_cfg bs)) with bs in Hup by (unfold block_size, one_cfg; cbn; lia).
    assert (Hsent : sent = map (fun k => blk bs (concat bts) k) (seq 0 (nblocks bs (length (concat bts))))).
    { rewrite <- (shard_blocks_one sent), Hup. unfold shard_blocks, rows. rewrite map_map.
      replace (block_size (one_cfg bs)) with bs by (unfold block_size, one_cfg; cbn; lia).
      apply map_ext. intros k. rewrite one_row. reflexivity. }
    rewrite Hsent. clear -Hbs. set (s := concat bts). clearbody s.
    pose proof (ceil_spec (length s) bs Hbs) as [H _]. cbv zeta in H. fold (nblocks bs (length s)) in H.
    assert (E : forall n, concat (map (fun k => blk bs s k) (seq 0 n)) = firstn (n * bs) s).
    { induction n as [|n IH]; [reflexivity|]. rewrite seq_S, map_app, concat_app, IH. cbn [map concat Nat.add]. rewrite app_nil_r.
      replace (S n * bs) with (n * bs + bs) by lia. rewrite firstn_add. reflexivity. }
    rewrite E. apply firstn_all2. exact H.
  Qed.

  Lemma some_eq : forall (T : Type) (x y : T), Some x = Some y -> x = y.
  Proof. intros T x y H. injection H as H. exact H. Qed.

  (** One PUT of the whole content (repair): padding only at the end. *)
  Lemma put_stored : forall rf data f, store_blocks zero rf [data] = Some f ->
    exists pad, pad < block /\ f = data ++ repeat zero pad.
  Proof.
    intros rf data f H. unfold store_blocks in H. cbn [patches] in H.
    destruct (Nat.eq_dec (length data) 0) as [E|E].
    - apply length_zero_iff_nil in E. subst data. unfold patch in H. cbn [length] in H. unfold append_aligned in H.
      destruct rf.
      + assert (Hp : 0 < patch_buffer true 0) by (unfold patch_buffer; pose proof block_pos; lia).
        rewrite copy_padded_spec in H by exact Hp. apply some_eq in H. rewrite <- H. clear H. cbn [app length]. eexists. split; [apply pad_len_lt; exact Hp|reflexivity].
      + cbn in H. discriminate.
    - rewrite patch_spec in H by lia. injection H as <-. cbn [app]. eexists. split; [|reflexivity].
      apply pad_len_lt. apply patch_buffer_pos. lia.
  Qed.

  (** ** Reading *)
  Lemma copy_open_spec : forall (sv : servers B) sel locs idx found nl, copy_open sv sel idx locs = (found, nl) ->
    match found with
    | Some j => exists k, j = idx + k /\ k < length locs /\ (exists f, sv (nth k locs 0) j = Some f) /\
                  length nl = k /\ (forall i, i < k -> sv (nth i locs 0) (idx + i) = None /\ nth i nl 0 = sel (idx + i))
    | None => length nl = length locs /\ forall i, i < length locs -> sv (nth i locs 0) (idx + i) = None
    end.
  Proof.
    intros sv sel locs. induction locs as [|l rest IH]; intros idx found nl H; cbn [copy_open] in H.
    - injection H as <- <-. split; [reflexivity|]. intros i Hi. cbn in Hi. lia.
    - destruct (sv l idx) as [f|] eqn:E.
      + injection H as <- <-. exists 0. rewrite Nat.add_0_r. split; [reflexivity|]. split; [cbn; lia|].
        split; [exists f; exact E|]. split; [reflexivity|]. intros i Hi. lia.
      + destruct (copy_open sv sel (S idx) rest) as [fd nl'] eqn:Er. injection H as <- <-.
        specialize (IH (S idx) fd nl' Er). destruct fd as [j|].
        * destruct IH as (k & H1 & H2 & H3 & H4 & H5). exists (S k). split; [lia|]. split; [cbn; lia|].
          split; [exact H3|]. split; [cbn; lia|]. intros [|i] Hi; cbn [nth].
          -- rewrite Nat.add_0_r. split; [exact E|reflexivity].
          -- replace (idx + S i) with (S idx + i) by lia. apply H5. lia.
        * destruct IH as [H1 H2]. split; [cbn; lia|]. intros [|i] Hi; cbn [nth].
          -- rewrite Nat.add_0_r. exact E.
          -- replace (idx + S i) with (S idx + i) by lia. apply H2. cbn in Hi. lia.
  Qed.

  (** Every reachable copy is a file from which [s] can be fetched. *)
  Definition good_copies (s : list B) (sv : servers B) (locs : list nat) : Prop :=
    forall i f, i < length locs -> sv (nth i locs 0) i = Some f -> fetch f (length s) = s.

  Lemma copy_read_good : forall (sv : servers B) sel locs s k, good_copies s sv locs ->
    (exists i f, i < length locs /\ sv (nth i locs 0) i = Some f) ->
    exists nl, copy_read sv sel locs (length s) None k = Some (firstn k s, nl).
  Proof.
    intros sv sel locs s k Hg (i & f & Hi & Hf). unfold copy_read.
    destruct (copy_open sv sel 0 locs) as [found nl] eqn:E. pose proof (copy_open_spec _ _ _ _ _ _ E) as Hs.
    destruct found as [j|].
    - destruct Hs as (m & H1 & H2 & (f' & H3) & _). cbn in H1. subst m. rewrite H3. exists nl.
      do 3 f_equal. apply (Hg j f' H2 H3).
    - destruct Hs as [_ Hs]. specialize (Hs i Hi). cbn in Hs. congruence.
  Qed.

  Lemma put_all_other : forall rf nl (sv : servers B) idx data s i, i < idx \/ idx + length nl <= i ->
    put_all zero rf sv idx nl data s i = sv s i.
  Proof.
    intros rf nl. induction nl as [|l nl IH]; intros sv idx data s i H; [reflexivity|]. cbn [put_all length] in *.
    rewrite IH by lia. unfold put_object. destruct (sv l idx); [reflexivity|]. destruct (store_blocks _ _ _); [|reflexivity].
    destruct (Nat.eqb_spec i idx); [lia|]. rewrite andb_false_r. reflexivity.
  Qed.

  Lemma put_all_spec : forall rf nl (sv : servers B) idx data k, k < length nl -> 0 < length data ->
    exists f, put_all zero rf sv idx nl data (nth k nl 0) (idx + k) = Some f /\
      (sv (nth k nl 0) (idx + k) = None -> store_blocks zero rf [data] = Some f) /\
      (forall f0, sv (nth k nl 0) (idx + k) = Some f0 -> f = f0).
  Proof.
    intros rf nl. induction nl as [|l nl IH]; intros sv idx data k Hk Hd; [cbn in Hk; lia|]. cbn [put_all].
    destruct k as [|k]; cbn [nth].
    - rewrite Nat.add_0_r, put_all_other by lia. unfold put_object.
      assert (Hst : exists f, store_blocks zero rf [data] = Some f).
      { unfold store_blocks. cbn [patches]. rewrite patch_spec by exact Hd. eauto. }
      destruct Hst as (f & Hst). destruct (sv l idx) as [f0|] eqn:E.
      + exists f0. split; [exact E|]. split; [intros H; discriminate|]. intros f1 H. congruence.
      + rewrite Hst, !Nat.eqb_refl. exists f. repeat split. intros f0 H. discriminate.
    - destruct (IH (put_object zero rf sv l idx data) (S idx) data k) as (f & H1 & H2 & H3); [cbn in Hk; lia|exact Hd|].
      replace (idx + S k) with (S idx + k) by lia. exists f. split; [exact H1|].
      assert (E : put_object zero rf sv l idx data (nth k nl 0) (S idx + k) = sv (nth k nl 0) (S idx + k)).
      { unfold put_object. destruct (sv l idx); [reflexivity|]. destruct (store_blocks _ _ _); [|reflexivity].
        destruct (Nat.eqb_spec (S idx + k) idx); [lia|]. rewrite andb_false_r. reflexivity. }
      rewrite E in H2, H3. split; assumption.
  Qed.

  (** A complete read without seeking, then closing: every recorded copy is good, and a
      further read succeeds. *)
  Lemma repair_good : forall rf (sv : servers B) sel locs s tol bytes sv' locs', 0 < length s ->
    good_copies s sv locs ->
    (forall i f, sv (sel i) i = Some f -> fetch f (length s) = s) ->
    read_close zero rf sv sel locs (length s) tol None (length s) = Some (bytes, sv', locs') ->
    bytes = s /\ good_copies s sv' locs' /\ exists i f, i < length locs' /\ sv' (nth i locs' 0) i = Some f.
  Proof.
    intros rf sv sel locs s tol bytes sv' locs' Hs Hg Hsel H. unfold read_close in H.
    destruct (copy_read sv sel locs (length s) None (length s)) as [[b nl]|] eqn:Er; [|discriminate].
    unfold copy_read in Er. destruct (copy_open sv sel 0 locs) as [found nl'] eqn:Eo.
    pose proof (copy_open_spec _ _ _ _ _ _ Eo) as Hspec. destruct found as [j|]; [|discriminate].
    destruct Hspec as (k & Hj & Hk & (f & Hf) & Hl & Hpre). cbn in Hj. subst j. rewrite Hf in Er. injection Er as <- <-.
    assert (Eb : firstn (length s) (fetch_at f 0 (length s)) = s).
    { unfold fetch_at. cbn [skipn]. change (firstn (length s) f) with (fetch f (length s)).
      rewrite (Hg k f Hk Hf). apply firstn_all. }
    rewrite Eb in H. destruct (Nat.ltb_spec tol (length nl')) as [Ht|Ht]; injection H as <- <- <-.
    - split; [reflexivity|]. split.
      + intros i f' Hi Hf'. destruct (put_all_spec rf nl' sv 0 s i Hi Hs) as (f1 & H1 & H2 & H3).
        cbn [Nat.add] in *. rewrite H1 in Hf'. injection Hf' as <-.
        destruct (sv (nth i nl' 0) i) as [f0|] eqn:E0.
        * rewrite (H3 f0 eq_refl). apply (Hsel i). destruct (Hpre i ltac:(lia)) as [_ Hn]. cbn in Hn. rewrite <- Hn. exact E0.
        * destruct (put_stored rf s f1 (H2 eq_refl)) as (pad & _ & ->). apply firstn_app_exact.
      + destruct (put_all_spec rf nl' sv 0 s 0 ltac:(lia) Hs) as (f1 & H1 & _). exists 0, f1. split; [lia|exact H1].
    - split; [reflexivity|]. split; [exact Hg|]. exists k, f. split; [exact Hk|exact Hf].
  Qed.

  (** A repair always forgets the surviving copies. *)
  Lemma repair_forgets : forall rf (sv : servers B) sel locs size tol off k bytes sv' locs',
    read_close zero rf sv sel locs size tol off k = Some (bytes, sv', locs') ->
    (tol < length locs' /\ length locs' < length locs) \/ locs' = locs.
  Proof.
    intros rf sv sel locs size tol off k bytes sv' locs' H. unfold read_close in H.
    destruct (copy_read sv sel locs size off k) as [[b nl]|] eqn:Er; [|discriminate].
    unfold copy_read in Er. destruct (copy_open sv sel 0 locs) as [found nl'] eqn:Eo.
    pose proof (copy_open_spec _ _ _ _ _ _ Eo) as Hspec. destruct found as [j|]; [|discriminate].
    destruct Hspec as (m & Hj & Hk & (f & Hf) & Hl & Hpre). cbn in Hj. subst m. rewrite Hf in Er. injection Er as <- <-.
    destruct (Nat.ltb_spec tol (length nl')) as [Ht|Ht]; injection H as <- <- <-; [left|right; reflexivity]. lia.
  Qed.
End Copy.

Local Open Scope Z_scope.
Lemma init_copy_block_ok : forall b, 0 < b -> 0 < init_copy_block b /\ init_copy_block b mod 4096 = 0.
Proof.
  intros b Hb. unfold init_copy_block. pose proof (Z.div_mod b net_pkg ltac:(discriminate)) as E.
  pose proof (Z.mod_pos_bound b net_pkg eq_refl) as Hm. set (r := b mod net_pkg) in *. set (q := b / net_pkg) in *. clearbody q r.
  unfold net_pkg in *. destruct (Z.gtb_spec r 0) as [Hr|Hr].
  - split; [lia|]. replace (b - r + 65536) with (16 * (q + 1) * 4096) by lia. apply Z.mod_mul. lia.
  - split; [lia|]. replace b with (16 * q * 4096) by lia. apply Z.mod_mul. lia.
Qed.
