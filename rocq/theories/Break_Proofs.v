From Verif Require Import ListX Rs_Main.
From Verif Require Export Break_Spec.

Section Break.
  Context {B : Type}.
  Variable lib : rs_lib B.
  Variable c : rs_config.

  Lemma take_all_map : forall (f : nat -> option (feed B)) g h l,
    (forall i, In i l -> take c (f i) = Some (g i, h i)) ->
    take_all c (map f l) = Some (map g l, map h l).
  Proof.
    intros f g h l. induction l as [|i l IH]; intros H; [reflexivity|].
    cbn [map take_all]. rewrite (H i (or_introl eq_refl)), IH by (intros j Hj; apply H; right; exact Hj). reflexivity.
  Qed.

  Lemma take_all_crash : forall (ss : list (option (feed B))) s, In s ss -> take c s = None -> take_all c ss = None.
  Proof.
    intros ss s. induction ss as [|x t IH]; intros Hi H; [destruct Hi|].
    cbn [take_all]. destruct Hi as [ -> |Hi]; [rewrite H; reflexivity|].
    rewrite (IH Hi H). destruct (take c x) as [[? ?]|]; reflexivity.
  Qed.

  Lemma take_all_in : forall (ss : list (option (feed B))) xs ss', take_all c ss = Some (xs, ss') ->
    forall s x s', In s ss -> take c s = Some (x, s') -> In x xs.
  Proof.
    induction ss as [|y t IH]; intros xs ss' H s x s' Hi E; [destruct Hi|].
    cbn [take_all] in H. destruct (take c y) as [[z y']|] eqn:Ey; [|discriminate].
    destruct (take_all c t) as [[zs t']|] eqn:Et; [|discriminate]. injection H as <- _.
    destruct Hi as [ -> |Hi]; [left; congruence|right; apply (IH _ _ eq_refl s x s' Hi E)].
  Qed.

  Lemma take_torn_lost : forall s : option (feed B), torn (rc_bps c) Lost s -> take c s = None.
  Proof.
    intros s (l & t & -> & Hl). cbn [take]. unfold take_open.
    destruct (Nat.leb_spec (rc_bps c) (length l)); [lia|].
    rewrite firstn_all2 by lia. destruct l; [cbn in Hl; lia|reflexivity].
  Qed.

  Lemma take_torn_closed : forall s : option (feed B), torn (rc_bps c) Closed s ->
    exists x s', take c s = Some (Some x, s') /\ 0 < length x < rc_bps c.
  Proof.
    intros s (l & t & -> & Hl). cbn [take]. unfold take_open.
    destruct (Nat.leb_spec (rc_bps c) (length l)); [lia|].
    rewrite firstn_all2 by lia. destruct l as [|y ys] eqn:E; [cbn in Hl; lia|].
    eexists _, _. split; [reflexivity|exact Hl].
  Qed.

  Lemma take_ready : forall s : option (feed B), ready (rc_bps c) s ->
    exists s', take c s = Some (Some (first_block (rc_bps c) s), s') /\ length (first_block (rc_bps c) s) = rc_bps c.
  Proof.
    intros s (l & e & t & -> & Hl). cbn [take first_block]. unfold take_open.
    destruct (Nat.leb_spec (rc_bps c) (length l)); [|lia].
    eexists. split; [reflexivity|]. rewrite firstn_length. lia.
  Qed.

  Lemma crash : forall ss size s, In s ss -> torn (rc_bps c) Lost s -> 0 < size ->
    rs_get lib c ss size = Down.
  Proof.
    intros ss size s Hi Ht Hs. unfold rs_get. cbn [rs_read].
    destruct (Nat.eqb_spec 0 size); [lia|].
    rewrite (take_all_crash ss s Hi (take_torn_lost s Ht)). reflexivity.
  Qed.

  Lemma closed : forall ss size s r, refuses lib -> In s ss -> In r ss ->
    torn (rc_bps c) Closed s -> ready (rc_bps c) r -> 0 < size ->
    rs_get lib c ss size = Answer 200 [] \/ rs_get lib c ss size = Down.
  Proof.
    intros ss size s r HR Is Ir Ts Rr Hs. unfold rs_get. cbn [rs_read].
    destruct (Nat.eqb_spec 0 size); [lia|].
    destruct (take_all c ss) as [[xs ss']|] eqn:E; [|right; reflexivity]. left.
    destruct (take_torn_closed s Ts) as (x & s' & Ex & Hx).
    destruct (take_ready r Rr) as (r' & Er & Hr).
    rewrite HR; [reflexivity|]. exists x, (first_block (rc_bps c) r).
    split; [exact (take_all_in _ _ _ E _ _ _ Is Ex)|]. split; [exact (take_all_in _ _ _ E _ _ _ Ir Er)|lia].
  Qed.

  Lemma take_all_ready : forall ss : list (option (feed B)), Forall (ready (rc_bps c)) ss ->
    exists ss', take_all c ss = Some (map Some (map (first_block (rc_bps c)) ss), ss').
  Proof.
    induction ss as [|s t IH]; intros H; [exists []; reflexivity|].
    inversion H as [|? ? H1 H2]; subst. destruct (IH H2) as (t' & Et). destruct (take_ready s H1) as (s' & Es & _).
    cbn [take_all map]. rewrite Es, Et. eexists. reflexivity.
  Qed.

  Lemma unchecked : forall ss, keeps lib (all_shards c) -> 0 < rc_bps c -> 0 < rc_data c ->
    length ss = all_shards c -> Forall (ready (rc_bps c)) ss ->
    rs_get lib c ss (block_size c) = Answer 200 (concat (map (first_block (rc_bps c)) (firstn (rc_data c) ss))).
  Proof.
    intros ss HK Hb HD Hl HF. unfold rs_get. cbn [rs_read].
    assert (0 < block_size c) as Hs by (unfold block_size; nia).
    destruct (Nat.eqb_spec 0 (block_size c)); [lia|].
    destruct (take_all_ready ss HF) as (ss' & ->).
    assert (HL : Forall (fun s => length s = rc_bps c) (map (first_block (rc_bps c)) ss)).
    { apply Forall_forall. intros x Hx. apply in_map_iff in Hx as (s & <- & Is).
      rewrite Forall_forall in HF. destruct (take_ready s (HF s Is)) as (_ & _ & E). exact E. }
    rewrite (HK (rc_bps c)) by (try assumption; rewrite map_length; exact Hl).
    rewrite (combine_spec c HD Hb (rc_parity c) eq_refl [] (fun _ => None)) by lia. cbn [app]. rewrite Nat.sub_0_r, Nat.add_0_l.
    rewrite firstn_map. set (d := map _ _).
    assert (Hd : length (concat d) = block_size c).
    { unfold d.
      assert (G : forall l : list (option (feed B)), Forall (ready (rc_bps c)) l ->
        length (concat (map (first_block (rc_bps c)) l)) = rc_bps c * length l).
      { induction l as [|s t IH]; intros Hf; [cbn; lia|]. inversion Hf as [|? ? H1 H2]; subst.
        cbn [map concat length]. rewrite app_length, (IH H2). destruct (take_ready s H1) as (_ & _ & ->). lia. }
      rewrite G.
      - rewrite firstn_length, Hl. unfold all_shards, block_size. rewrite Nat.min_l by lia. reflexivity.
      - apply Forall_forall. intros s Is. rewrite Forall_forall in HF. apply HF. rewrite <- (firstn_skipn (rc_data c) ss). apply in_or_app. left. exact Is. }
    rewrite firstn_all2 by lia. rewrite Hd, Nat.min_id.
    destruct (block_size c) as [|k] eqn:Ek; [lia|]. cbn [rs_read]. rewrite Nat.eqb_refl. reflexivity.
  Qed.

  (** ** Breaks between blocks *)
  Hypothesis HD : 0 < rc_data c.
  Hypothesis Hb : 0 < rc_bps c.
  Hypothesis Hmds : mds lib (rc_data c) (rc_parity c).

  Variable s : list B.
  Let nb := nblocks (block_size c) (length s).
  Let sent := rows lib c s nb.
  Variable avail : nat -> option nat.
  Variable src : nat -> option (feed B).
  Hypothesis Hsrc : forall i, i < all_shards c -> gives (rc_bps c) (shard_bytes sent i) (avail i) (src i).

  Lemma rest_skip : forall i k, i < all_shards c -> k <= nb -> skipn (k * rc_bps c) (shard_bytes sent i) = rest lib c s k i.
  Proof.
    intros i k Hi. induction k as [|k IH]; intros Hk; [reflexivity|].
    rewrite <- (proj2 (take_block lib c HD Hb (rc_parity c) eq_refl Hmds s k i ltac:(unfold nb in *; lia) Hi)).
    rewrite <- IH by lia. rewrite skipn_add. f_equal. lia.
  Qed.

  Definition part_of (i m : nat) (l : list B) (e : ending) : Prop :=
    (m * rc_bps c <= length (shard_bytes sent i) /\ l = firstn (m * rc_bps c) (shard_bytes sent i)) \/
    (length (shard_bytes sent i) <= m * rc_bps c /\ l = shard_bytes sent i /\ e <> Lost).

  (** Source [i] before block [k]. *)
  Definition state (k i : nat) (x : option (feed B)) : Prop :=
    match avail i with
    | None => x = None \/ exists t, x = Some (Waiting (repeat None t))
    | Some m => exists l e, part_of i m l e /\
        (x = Some (Open (skipn (k * rc_bps c) l) e) \/ (k = 0 /\ exists t, x = Some (Waiting (Some (l, e) :: t))))
    end.

  Lemma state_start : forall i, i < all_shards c -> state 0 i (src i).
  Proof.
    intros i Hi. unfold state. destruct (Hsrc i Hi) as [|t|m e t H|m e t H HE].
    - left. reflexivity.
    - right. eexists. reflexivity.
    - exists (firstn (m * rc_bps c) (shard_bytes sent i)), e. split; [left; split; [exact H|reflexivity]|].
      right. split; [reflexivity|]. eexists. reflexivity.
    - exists (shard_bytes sent i), e. split; [right; repeat split; assumption|].
      right. split; [reflexivity|]. eexists. reflexivity.
  Qed.

  Lemma take_open_state : forall k i m l e, k < nb -> i < all_shards c -> avail i = Some m -> part_of i m l e ->
    take_open c (skipn (k * rc_bps c) l) e =
      Some (if up avail k i then Some (nth i (row lib c s k) []) else None, Open (skipn (S k * rc_bps c) l) e).
  Proof.
    intros k i m l e Hk Hi Ea HP. unfold take_open. rewrite skipn_add.
    replace (k * rc_bps c + rc_bps c) with (S k * rc_bps c) by lia.
    destruct (take_block lib c HD Hb (rc_parity c) eq_refl Hmds s k i Hk Hi) as [T1 _].
    rewrite <- (rest_skip i k Hi ltac:(unfold nb in *; lia)) in T1.
    unfold up. rewrite Ea. destruct HP as [[HL ->]|(HL & -> & HE)].
    - rewrite skipn_length, firstn_length. rewrite (Nat.min_l (m * rc_bps c)) by exact HL.
      destruct (Nat.ltb_spec k m) as [Hm|Hm].
      + destruct (Nat.leb_spec (rc_bps c) (m * rc_bps c - k * rc_bps c)); [|nia].
        rewrite skipn_firstn_comm, firstn_firstn, Nat.min_l by nia. rewrite T1. reflexivity.
      + destruct (Nat.leb_spec (rc_bps c) (m * rc_bps c - k * rc_bps c)); [nia|].
        rewrite (skipn_all2 (firstn _ _)) by (rewrite firstn_length; nia). rewrite firstn_nil. reflexivity.
    - rewrite T1.
      assert (Hp : 0 < length (nth i (row lib c s k) [])).
      { unfold row. rewrite (row_nth lib c HD Hb (rc_parity c) eq_refl Hmds) by (try exact Hi; apply (blk_pos c HD Hb (rc_parity c) eq_refl); exact Hk).
        apply per_pos; [exact HD|exact Hb|]. apply (blk_pos c HD Hb (rc_parity c) eq_refl). exact Hk. }
      assert (Hn : length (nth i (row lib c s k) []) <= length (shard_bytes sent i) - k * rc_bps c).
      { rewrite <- T1, firstn_length, skipn_length. lia. }
      destruct (Nat.ltb_spec k m) as [Hm|Hm]; [|nia].
      destruct (rc_bps c <=? _); [reflexivity|].
      destruct (nth i (row lib c s k) []) as [|y ys]; [cbn in Hp; lia|]. destruct e; [reflexivity|reflexivity|congruence].
  Qed.

  Lemma take_state : forall k i x, k < nb -> i < all_shards c -> state k i x ->
    exists x', take c x = Some (if up avail k i then Some (nth i (row lib c s k) []) else None, x') /\ state (S k) i x'.
  Proof.
    intros k i x Hk Hi Hx. unfold state in *. destruct (avail i) as [m|] eqn:Ea.
    - destruct Hx as (l & e & HP & Hx).
      pose proof (take_open_state k i m l e Hk Hi Ea HP) as HT.
      destruct Hx as [ -> |(-> & t & ->)]; cbn [take].
      + rewrite HT. eexists. split; [reflexivity|]. exists l, e. split; [exact HP|]. left. reflexivity.
      + cbn [Nat.mul skipn] in HT. rewrite HT. eexists. split; [reflexivity|].
        exists l, e. split; [exact HP|]. left. reflexivity.
    - unfold up. rewrite Ea. destruct Hx as [ -> |(t & ->)].
      + exists None. split; [reflexivity|left; reflexivity].
      + destruct t as [|t]; cbn [repeat take].
        * eexists. split; [reflexivity|]. right. exists 0. reflexivity.
        * eexists. split; [reflexivity|]. right. exists t. reflexivity.
  Qed.

  Lemma take_all_state : forall k ss, k < nb -> length ss = all_shards c ->
    (forall i, i < all_shards c -> state k i (nth i ss None)) ->
    exists ss', take_all c ss = Some (map (fun i => if up avail k i then Some (nth i (row lib c s k) []) else None) (seq 0 (all_shards c)), ss') /\
      length ss' = all_shards c /\ (forall i, i < all_shards c -> state (S k) i (nth i ss' None)).
  Proof.
    intros k ss Hk Hl Hs.
    set (h := fun i => match take c (nth i ss None) with Some (_, y) => y | None => None end).
    assert (E : ss = map (fun i => nth i ss None) (seq 0 (all_shards c))).
    { apply list_ext. intros i. destruct (Nat.lt_ge_cases i (all_shards c)) as [Hi|Hi].
      - rewrite (nth_error_nth' ss None) by lia. rewrite nth_error_map.
        rewrite (nth_error_nth' _ 0) by (rewrite seq_length; exact Hi). rewrite seq_nth by exact Hi. reflexivity.
      - rewrite (proj2 (nth_error_None _ _)) by lia. symmetry. apply nth_error_None. rewrite map_length, seq_length. exact Hi. }
    exists (map h (seq 0 (all_shards c))). split; [|split].
    - rewrite E at 1. apply take_all_map. intros i Hi. apply in_seq in Hi.
      destruct (take_state k i _ Hk ltac:(lia) (Hs i ltac:(lia))) as (x' & Et & _). unfold h. rewrite Et. reflexivity.
    - rewrite map_length, seq_length. reflexivity.
    - intros i Hi. rewrite nth_map_seq by exact Hi.
      destruct (take_state k i _ Hk Hi (Hs i Hi)) as (x' & Et & Sx). unfold h. rewrite Et. exact Sx.
  Qed.

  Lemma rs_read_whole : (forall k, k * block_size c < length s -> missing (all_shards c) avail k <= rc_parity c) ->
    forall fuel k out ss d, nb - k < fuel -> dec_inv lib c (rc_parity c) s avail k out d -> d_cache d = [] ->
    length ss = all_shards c -> (forall i, i < all_shards c -> state k i (nth i ss None)) ->
    rs_read lib c fuel ss (length s) (d_total d) out = (s, RWhole).
  Proof.
    intros HM. induction fuel as [|f IH]; intros k out ss d Hf Hi Hc Hl Hs; [lia|].
    cbn [rs_read]. pose proof (get_data_spec lib c HD Hb (rc_parity c) eq_refl Hmds s avail k out d Hi Hc) as G.
    pose proof Hi as (I1 & I2 & I3 & I4 & I5 & I6 & I7).
    unfold get_data in G. rewrite I2 in G. destruct (Nat.eqb_spec (d_total d) (length s)) as [E|E].
    - destruct G as [ -> _]. reflexivity.
    - destruct (Nat.ltb_spec (length s) (d_total d)) as [Hlt|Hlt]; [destruct G|].
      assert (Hk : k < nb). { apply (lt_nb_inv c HD Hb (rc_parity c) eq_refl s). lia. }
      destruct (take_all_state k ss Hk Hl Hs) as (ss' & -> & Hl' & Hs').
      rewrite I1, !map_map in G.
      assert (Em : map (fun x => fst (read_shard c (reader_at lib c s avail k x))) (seq 0 (all_shards c)) =
                   map (fun i => if up avail k i then Some (nth i (row lib c s k) []) else None) (seq 0 (all_shards c))).
      { apply map_ext_in. intros i Hx. apply in_seq in Hx.
        rewrite (read_shard_spec lib c HD Hb (rc_parity c) eq_refl Hmds) by (try exact Hk; lia). reflexivity. }
      rewrite Em in G. destruct (lib_reconstruct lib _) as [rw|].
      + rewrite Hc in G. destruct (combine (length s) (firstn (rc_data c) rw) [] (d_total d)) as [cache total] eqn:EC.
        destruct G as (Hi' & _ & _). cbn [d_cache d_total d_readers] in *.
        set (d2 := {| d_readers := map (fun x => snd (read_shard c (reader_at lib c s avail k x))) (seq 0 (all_shards c));
                      d_size := length s; d_total := total; d_cache := []; d_rows := d_rows d ++ [rw] |}).
        change total with (d_total d2). apply (IH (S k)); [lia| |reflexivity|exact Hl'|exact Hs'].
        destruct Hi' as (J1 & J2 & J3 & J4 & J5 & J6 & J7). cbn [d_readers d_size d_total d_cache d_rows] in *.
        unfold dec_inv, d2. cbn [d_readers d_size d_total d_cache d_rows]. rewrite app_nil_r. repeat split; assumption.
      + destruct G as [_ G]. specialize (HM k (lt_nb c HD Hb (rc_parity c) eq_refl s k Hk)). lia.
  Qed.

  Lemma boundary : (forall k, k * block_size c < length s -> missing (all_shards c) avail k <= rc_parity c) ->
    rs_get lib c (map src (seq 0 (all_shards c))) (length s) = Answer 200 s.
  Proof.
    intros HM. unfold rs_get.
    rewrite (rs_read_whole HM (S (length s)) 0 [] _ (open_shards c (length s) (shard_bytes sent) avail)).
    - reflexivity.
    - assert (nb <= length s); [|lia]. unfold nb. destruct (nb_spec c HD Hb s) as [H1 H2].
      pose proof (bs_pos c HD Hb). destruct (Nat.eq_dec (nblocks (block_size c) (length s)) 0); [lia|]. nia.
    - apply (open_inv lib c HD Hb (rc_parity c) eq_refl).
    - reflexivity.
    - rewrite map_length, seq_length. reflexivity.
    - intros i Hi. rewrite nth_map_seq by exact Hi. apply state_start. exact Hi.
  Qed.
End Break.

(** A code that compares the lengths of the shards first. *)
Definition same_length {B} (x y : option (list B)) : bool :=
  match x, y with Some a, Some b => length a =? length b | _, _ => true end.
Definition even {B} (row : list (option (list B))) : bool := forallb (fun x => forallb (same_length x) row) row.
Definition strict {B} (lib : rs_lib B) : rs_lib B := {|
  lib_encode := lib_encode lib;
  lib_reconstruct row := if even row then lib_reconstruct lib row else None;
  lib_fill := lib_fill lib |}.

Lemma strict_refuses : forall B (lib : rs_lib B), refuses (strict lib).
Proof.
  intros B lib row (a & b & Ha & Hb & H). cbn [strict lib_reconstruct]. destruct (even row) eqn:E; [|reflexivity].
  exfalso. apply H. unfold even in E. rewrite forallb_forall in E. specialize (E _ Ha).
  rewrite forallb_forall in E. specialize (E _ Hb). apply Nat.eqb_eq. exact E.
Qed.

Lemma strict_mds : forall B (lib : rs_lib B) D P, mds lib D P -> mds (strict lib) D P.
Proof.
  intros B lib D P H len ds Hl Hd HF. cbn [strict lib_encode lib_reconstruct].
  destruct (H len ds Hl Hd HF) as (H1 & H2 & H3). split; [exact H1|]. split; [exact H2|].
  intros ok. rewrite <- (H3 ok).
  assert (E : even (map (fun i => if ok i then Some (nth i (ds ++ lib_encode lib ds) []) else None) (seq 0 (D + P))) = true).
  { unfold even. apply forallb_forall. intros x Hx. apply forallb_forall. intros y Hy.
    apply in_map_iff in Hx as (i & <- & Hi). apply in_map_iff in Hy as (j & <- & Hj).
    apply in_seq in Hi. apply in_seq in Hj.
    assert (L : forall k, k < D + P -> length (nth k (ds ++ lib_encode lib ds) []) = len).
    { intros k Hk. assert (F : Forall (fun s => length s = len) (ds ++ lib_encode lib ds)) by (apply Forall_app; split; assumption).
      rewrite Forall_forall in F. apply F. apply nth_In. rewrite app_length. lia. }
    destruct (ok i), (ok j); cbn [same_length]; try reflexivity. rewrite !L by lia. apply Nat.eqb_refl. }
  rewrite E. reflexivity.
Qed.

Lemma xor_keeps : keeps xor_lib 3.
Proof. intros len row _ Hl _. destruct row as [|a [|b [|p [|]]]]; try discriminate. reflexivity. Qed.
