(** Proofs about the memory of the decoder. *)
From Verif Require Import Alias_Spec.

Lemma skipn_skipn {A} (l : list A) a b : skipn a (skipn b l) = skipn (a + b) l.
Proof.
  revert l. induction b as [|b IH]; intros l; [rewrite Nat.add_0_r; reflexivity|].
  rewrite Nat.add_succ_r. destruct l as [|x l]; [rewrite !skipn_nil; reflexivity|]. cbn [skipn]. apply IH.
Qed.

Section P.
Context {B : Type}.
Implicit Types mem x : list B.

Lemma put_length mem off x : off + length x <= length mem -> length (put mem off x) = length mem.
Proof.
  intros H. unfold put. rewrite firstn_length, !app_length, firstn_length, skipn_length. lia.
Qed.

Lemma put_eq mem off x : off + length x <= length mem ->
  put mem off x = firstn off mem ++ x ++ skipn (off + length x) mem.
Proof.
  intros H. unfold put. apply firstn_all2. rewrite !app_length, firstn_length, skipn_length. lia.
Qed.

Lemma get_put_low mem off x a n : off + length x <= length mem -> a + n <= off ->
  get (put mem off x) a n = get mem a n.
Proof.
  intros H L. rewrite put_eq by exact H. unfold get.
  rewrite skipn_app, firstn_app, !skipn_length, !firstn_length, Nat.min_l by lia.
  replace (n - (off - a)) with 0 by lia. rewrite firstn_O, app_nil_r, skipn_firstn_comm, firstn_firstn.
  f_equal. lia.
Qed.

Lemma get_put_high mem off x a n : off + length x <= length mem -> off + length x <= a ->
  get (put mem off x) a n = get mem a n.
Proof.
  intros H L. rewrite put_eq by exact H. unfold get. f_equal.
  rewrite skipn_app, skipn_app, firstn_length, Nat.min_l by lia.
  rewrite (@skipn_all2 B a (firstn off mem)) by (rewrite firstn_length; lia).
  rewrite (@skipn_all2 B (a - off) x) by lia. cbn [app].
  rewrite skipn_skipn. f_equal. lia.
Qed.

Lemma get_put_same mem off x : off + length x <= length mem -> get (put mem off x) off (length x) = x.
Proof.
  intros H. rewrite put_eq by exact H. unfold get.
  rewrite skipn_app, firstn_length, Nat.min_l by lia. rewrite skipn_all2 by (rewrite firstn_length; lia).
  rewrite Nat.sub_diag. cbn [skipn app]. rewrite firstn_app, Nat.sub_diag, firstn_O, app_nil_r. apply firstn_all.
Qed.

Lemma get_split mem a n k : get mem a (n + k) = get mem a n ++ get mem (a + n) k.
Proof.
  unfold get. rewrite <- (firstn_skipn n (firstn (n + k) (skipn a mem))). f_equal.
  - rewrite firstn_firstn. f_equal. lia.
  - rewrite skipn_firstn_comm, skipn_skipn. f_equal; [lia|]. f_equal. lia.
Qed.

Lemma get_grow mem off x a : a <= off -> off + length x <= length mem ->
  get (put mem off x) a (off - a + length x) = get mem a (off - a) ++ x.
Proof.
  intros H L. rewrite get_split. f_equal.
  - apply get_put_low; lia.
  - replace (a + (off - a)) with off by lia. apply get_put_same. exact L.
Qed.

Lemma get_length mem a n : a + n <= length mem -> length (get mem a n) = n.
Proof. intros H. unfold get. rewrite firstn_length, skipn_length. lia. Qed.

Lemma get_nil mem a : get mem a 0 = [].
Proof. reflexivity. Qed.

(** ** Reading *)

Lemma chunks_app i (a b : list (nat * list B)) : chunks i (a ++ b) = chunks i a ++ chunks i b.
Proof.
  induction a as [|[j x] a IH]; [reflexivity|]. cbn [app chunks]. destruct (j =? i); rewrite IH; [apply app_assoc|reflexivity].
Qed.

Variable c : rs_config.

Lemma fill_spec N fills : forall mem before,
  length mem = N * rc_bps c ->
  (forall j x, In (j, x) fills -> j < N) ->
  (forall i, i < N -> length (chunks i (before ++ fills)) <= rc_bps c) ->
  (forall i, i < N -> get mem (i * rc_bps c) (length (chunks i before)) = chunks i before) ->
  length (fill c mem before fills) = N * rc_bps c /\
  forall i, i < N -> get (fill c mem before fills) (i * rc_bps c) (length (chunks i (before ++ fills))) = chunks i (before ++ fills).
Proof.
  induction fills as [|[j x] fills IH]; intros mem before Hm Hj Hl Hg.
  - cbn [fill]. split; [exact Hm|]. intros i Hi. rewrite app_nil_r. exact (Hg i Hi).
  - cbn [fill]. assert (J : j < N) by (apply (Hj j x); left; reflexivity).
    assert (Lx : length (chunks j before) + length x <= rc_bps c).
    { pose proof (Hl j J) as L. rewrite chunks_app in L. cbn [chunks] in L. rewrite Nat.eqb_refl, !app_length in L. lia. }
    assert (Bd : j * rc_bps c + length (chunks j before) + length x <= length mem).
    { rewrite Hm. assert ((j + 1) * rc_bps c <= N * rc_bps c) by (apply Nat.mul_le_mono_r; lia). lia. }
    replace (before ++ (j, x) :: fills) with ((before ++ [(j, x)]) ++ fills) by (rewrite <- app_assoc; reflexivity).
    apply IH.
    + rewrite put_length by exact Bd. exact Hm.
    + intros j' x' I. apply (Hj j' x'). right. exact I.
    + intros i Hi. rewrite <- app_assoc. exact (Hl i Hi).
    + intros i Hi. rewrite chunks_app. cbn [chunks]. destruct (j =? i) eqn:E.
      * apply Nat.eqb_eq in E. subst i. rewrite app_nil_r, app_length.
        pose proof (get_grow mem (j * rc_bps c + length (chunks j before)) x (j * rc_bps c)) as G.
        replace (j * rc_bps c + length (chunks j before) - j * rc_bps c) with (length (chunks j before)) in G by lia.
        rewrite G by lia. rewrite Hg by exact Hi. reflexivity.
      * apply Nat.eqb_neq in E. rewrite app_nil_r.
        assert (L : length (chunks i before) <= rc_bps c).
        { pose proof (Hl i Hi) as L. rewrite chunks_app, app_length in L. lia. }
        destruct (lt_dec i j) as [Lt|Ge].
        -- rewrite get_put_low; [exact (Hg i Hi)|exact Bd|].
           assert ((i + 1) * rc_bps c <= j * rc_bps c) by (apply Nat.mul_le_mono_r; lia). lia.
        -- rewrite get_put_high; [exact (Hg i Hi)|exact Bd|].
           assert ((j + 1) * rc_bps c <= i * rc_bps c) by (apply Nat.mul_le_mono_r; lia). lia.
Qed.

(** ** Restoring *)

(** Slice number [i] lies in its own part or has memory of its own. *)
Definition placed (i : nat) (s : slice B) : Prop :=
  match s with Part off n => off = i * rc_bps c /\ n <= rc_bps c | Own _ => True end.

Lemma content_put_other mem off x i s N : length mem = N * rc_bps c -> off + length x <= length mem ->
  placed i s -> (off + length x <= i * rc_bps c \/ (i + 1) * rc_bps c <= off) ->
  content (put mem off x) s = content mem s.
Proof.
  intros Hm Hb Hp D. destruct s as [o n|y]; [|reflexivity]. destruct Hp as [-> Hn]. cbn [content].
  destruct D as [D|D]; [apply get_put_high; assumption|apply get_put_low; [exact Hb|lia]].
Qed.

Lemma restore_all_spec reuse N n row : forall ss mem k mem' ss',
  length mem = N * rc_bps c -> length ss = length row -> k + length ss <= N ->
  n <= rc_bps c -> 0 < n ->
  (forall i, i < length row -> length (nth i row []) = n) ->
  (forall i, i < length ss -> placed (k + i) (nth i ss (Own []))) ->
  (forall i, i < length ss -> content mem (nth i ss (Own [])) <> [] -> content mem (nth i ss (Own [])) = nth i row []) ->
  (forall i, i < length ss -> match nth i ss (Own []) with Part off m => length (get mem off m) = m | _ => True end) ->
  restore_all reuse mem ss row = (mem', ss') ->
  length mem' = N * rc_bps c /\ length ss' = length ss /\
  (forall i s, placed i s -> i < k \/ k + length ss <= i -> content mem' s = content mem s) /\
  (forall i, i < length ss -> placed (k + i) (nth i ss' (Own [])) /\ content mem' (nth i ss' (Own [])) = nth i row []) /\
  (forall i, i < length ss -> nth i ss (Own []) = Own [] -> nth i ss' (Own []) = Own (nth i row [])).
Proof.
  induction row as [|x row IH]; intros ss mem k mem' ss' Hm Hl Hk Hn Hn0 Hr Hp Hc Hz E.
  - destruct ss as [|s ss]; [|discriminate]. cbn [restore_all] in E. injection E as <- <-.
    split; [exact Hm|]. split; [reflexivity|]. split; [reflexivity|]. split; intros i Hi; cbn in Hi; lia.
  - destruct ss as [|s ss]; [discriminate|]. cbn [restore_all] in E. cbn [length] in *.
    destruct (restore reuse mem s x) as [mem1 s1] eqn:R.
    destruct (restore_all reuse mem1 ss row) as [mem2 ss2] eqn:A. injection E as <- <-.
    assert (Lx : length x = n) by (apply (Hr 0); lia).
    assert (P0 : placed k s) by (replace k with (k + 0) by lia; apply (Hp 0); lia).
    assert (Bd : k * rc_bps c + length x <= length mem).
    { rewrite Hm. assert ((k + 1) * rc_bps c <= N * rc_bps c) by (apply Nat.mul_le_mono_r; lia). lia. }
    (* what one restoring does *)
    assert (One : length mem1 = N * rc_bps c /\ placed k s1 /\ content mem1 s1 = x /\
              (forall i s', placed i s' -> i <> k -> content mem1 s' = content mem s') /\
              (s = Own [] -> s1 = Own x)).
    { pose proof (Hc 0 ltac:(lia)) as C0. pose proof (Hz 0 ltac:(lia)) as Z0. cbn [nth] in C0, Z0.
      destruct s as [off [|m]|[|b y]]; cbn [restore] in R.
      - destruct P0 as [-> _]. destruct reuse; injection R as <- <-.
        + split; [rewrite put_length by exact Bd; exact Hm|]. split; [cbn; lia|]. split; [cbn [content]; apply get_put_same; exact Bd|].
          split; [|discriminate]. intros i s' Hs' Hi. apply (content_put_other mem _ x i s' N); try assumption.
          destruct (lt_dec i k) as [Lt|Ge].
          * right. assert ((i + 1) * rc_bps c <= k * rc_bps c) by (apply Nat.mul_le_mono_r; lia). lia.
          * left. assert ((k + 1) * rc_bps c <= i * rc_bps c) by (apply Nat.mul_le_mono_r; lia). lia.
        + repeat split; exact Hm.
      - injection R as <- <-. split; [exact Hm|]. split; [exact P0|]. split; [|split; [reflexivity|discriminate]].
        cbn [content] in *. apply C0. intros Q. rewrite Q in Z0. discriminate.
      - injection R as <- <-. repeat split; auto.
      - injection R as <- <-. split; [exact Hm|]. split; [exact Logic.I|]. split; [|split; [reflexivity|discriminate]].
        cbn [content] in *. apply C0. discriminate. }
    destruct One as (M1 & Ps1 & C1 & O1 & Own1).
    destruct (IH ss mem1 (S k) mem2 ss2) as (M2 & L2 & O2 & N2 & W2); try assumption.
    + lia.
    + lia.
    + intros i Hi. apply (Hr (S i)). lia.
    + intros i Hi. replace (S k + i) with (k + S i) by lia. apply (Hp (S i)). lia.
    + intros i Hi. rewrite (O1 (k + S i)); [apply (Hc (S i)); lia| |lia]. apply (Hp (S i)). lia.
    + intros i Hi. pose proof (Hz (S i) ltac:(lia)) as Z. pose proof (Hp (S i) ltac:(lia)) as Pi. cbn [nth] in Z, Pi.
      destruct (nth i ss (Own [])) as [off m|] eqn:Ni; [|exact Logic.I].
      pose proof (O1 (k + S i) (Part off m) Pi ltac:(lia)) as Q. cbn [content] in Q. rewrite Q. exact Z.
    + split; [exact M2|]. split; [cbn [length]; lia|]. split; [|split].
      * intros i s' Hs' D. rewrite (O2 i s' Hs') by lia. apply (O1 i s' Hs'). lia.
      * intros [|i] Hi; cbn [nth].
        -- rewrite Nat.add_0_r. split; [exact Ps1|]. rewrite (O2 k s1 Ps1) by lia. exact C1.
        -- destruct (N2 i ltac:(lia)) as [Q1 Q2]. split; [|exact Q2]. replace (k + S i) with (S k + i) by lia. exact Q1.
      * intros [|i] Hi; cbn [nth]; [intros Q; exact (Own1 Q)|]. apply W2. lia.
Qed.

(** ** Appending *)

Lemma append_all_spec size N n ss : forall mem k len total row,
  length mem = N * rc_bps c -> k + length ss <= N -> n <= rc_bps c -> len <= k * n ->
  length row = length ss ->
  (forall i, i < length ss -> length (nth i row []) = n) ->
  (forall i, i < length ss -> placed (k + i) (nth i ss (Own [])) /\ content mem (nth i ss (Own [])) = nth i row []) ->
  exists mem' len' total', append_all size mem ss len total = (mem', len', total') /\
    length mem' = N * rc_bps c /\ len <= len' /\ len' <= (k + length ss) * n /\
    (get mem' 0 len', total') = combine size row (get mem 0 len) total.
Proof.
  induction ss as [|s ss IH]; intros mem k len total row Hm Hk Hn Hlen Hl Hr Hs.
  - destruct row; [|discriminate]. exists mem, len, total. cbn [append_all combine length]. repeat split; try assumption; lia.
  - destruct row as [|x row]; [discriminate|]. cbn [length] in *. cbn [append_all combine].
    destruct (Hs 0 ltac:(lia)) as [P0 C0]. cbn [nth] in P0, C0. rewrite C0.
    assert (Lx : length x = n) by (apply (Hr 0); lia).
    set (n' := if size <? total + length x then size - total else length x).
    assert (Hn' : n' <= n).
    { unfold n'. destruct (size <? total + length x) eqn:L; [|lia]. apply Nat.ltb_lt in L. lia. }
    assert (Lf : length (firstn n' x) = n') by (rewrite firstn_length; lia).
    assert (Kn : k * n <= k * rc_bps c) by (apply Nat.mul_le_mono_l; exact Hn).
    assert (KN : (k + 1) * rc_bps c <= N * rc_bps c) by (apply Nat.mul_le_mono_r; lia).
    assert (Bd : len + length (firstn n' x) <= length mem) by (rewrite Lf, Hm; lia).
    destruct (IH (put mem len (firstn n' x)) (S k) (len + n') (total + n') row) as (mem' & len' & total' & E & Q1 & Q2 & Q3 & Q4).
    + rewrite put_length by exact Bd. exact Hm.
    + lia.
    + exact Hn.
    + lia.
    + lia.
    + intros i Hi. apply (Hr (S i)). lia.
    + intros i Hi. destruct (Hs (S i) ltac:(lia)) as [Pi Ci]. cbn [nth] in Pi, Ci.
      replace (S k + i) with (k + S i) by lia. split; [exact Pi|].
      rewrite (content_put_other mem len (firstn n' x) (k + S i) _ N); try assumption.
      left. rewrite Lf. assert ((k + 1) * rc_bps c <= (k + S i) * rc_bps c) by (apply Nat.mul_le_mono_r; lia). lia.
    + exists mem', len', total'. split; [exact E|]. split; [exact Q1|]. split; [lia|]. split; [lia|].
      rewrite Q4. f_equal. pose proof (get_grow mem len (firstn n' x) 0 ltac:(lia) Bd) as G.
      rewrite Nat.sub_0_r, Lf in G. exact G.
Qed.

(** ** A whole row *)

Lemma slices_length (rs : list (option (reader B))) fills : length (slices c rs fills) = length rs.
Proof. unfold slices. rewrite map_length, combine_length, seq_length. lia. Qed.

Lemma nth_map_combine {A C} (f : nat * A -> C) (d : A) (e : C) (l : list A) k i : i < length l ->
  nth i (map f (List.combine (seq k (length l)) l)) e = f (k + i, nth i l d).
Proof.
  revert k i. induction l as [|y l IH]; intros k i H; cbn [length] in H; [lia|].
  cbn [length seq List.combine map]. destruct i as [|i]; cbn [nth]; [rewrite Nat.add_0_r; reflexivity|].
  rewrite IH by lia. f_equal. f_equal. lia.
Qed.

Lemma slices_nth (rs : list (option (reader B))) fills i : i < length rs ->
  nth i (slices c rs fills) (Own []) = read_slice c i (nth i rs None) fills.
Proof. intros H. unfold slices. rewrite (nth_map_combine _ None) by exact H. reflexivity. Qed.

Lemma list_ext {A} (d : A) (l k : list A) : length l = length k -> (forall i, i < length l -> nth i l d = nth i k d) -> l = k.
Proof. intros H1 H2. apply (nth_ext l k d d H1 H2). Qed.

Lemma slices_read (rs : list (option (reader B))) fills mem : length mem = length rs * rc_bps c -> fits c rs fills ->
  let mem1 := fill c mem [] fills in
  length mem1 = length rs * rc_bps c /\
  map (as_shard mem1) (slices c rs fills) = map fst (map (read_shard c) rs) /\
  forall i, i < length rs -> placed i (nth i (slices c rs fills) (Own [])) /\
    match nth i (slices c rs fills) (Own []) with Part off m => length (get mem1 off m) = m | _ => True end.
Proof.
  intros Hm [F1 F2] mem1.
  destruct (fill_spec (length rs) fills mem [] Hm F1) as [L G].
  - intros i Hi. cbn [app]. apply F2. exact Hi.
  - intros i Hi. reflexivity.
  - fold mem1 in L, G. cbn [app] in G. split; [exact L|].
    assert (Each : forall i, i < length rs ->
              as_shard mem1 (nth i (slices c rs fills) (Own [])) = fst (read_shard c (nth i rs None)) /\
              placed i (nth i (slices c rs fills) (Own [])) /\
              match nth i (slices c rs fills) (Own []) with Part off m => length (get mem1 off m) = m | _ => True end).
    { intros i Hi. rewrite slices_nth by exact Hi. destruct (F2 i Hi) as [F3 F4].
      destruct (nth i rs None) as [r|]; cbn [read_slice read_shard]; [|repeat split].
      destruct (rd_ok r) as [|m]; [repeat split|]. unfold as_shard. cbn [content fst placed]. rewrite (G i Hi).
      split; [rewrite F4; destruct (firstn (rc_bps c) (rd_rest r)); reflexivity|]. repeat split. exact F3. }
    split.
    + rewrite map_map. apply (list_ext None).
      * rewrite !map_length, slices_length. reflexivity.
      * intros i Hi. rewrite map_length, slices_length in Hi.
        rewrite (nth_indep _ None (as_shard mem1 (Own []))) by (rewrite map_length, slices_length; exact Hi).
        rewrite (nth_indep (map _ rs) None (fst (read_shard c None))) by (rewrite map_length; exact Hi).
        rewrite map_nth, (map_nth (fun r => fst (read_shard c r))). apply Each. exact Hi.
    + intros i Hi. apply Each. exact Hi.
Qed.

Lemma firstn_nth {A} (d : A) n i (l : list A) : i < n -> nth i (firstn n l) d = nth i l d.
Proof.
  revert i l. induction n as [|n IH]; intros i l H; [lia|]. destruct l as [|y l]; [destruct i; reflexivity|].
  destruct i as [|i]; cbn [firstn nth]; [reflexivity|]. apply IH. lia.
Qed.

Variable lib : rs_lib B.
Variable reuse : bool.
Hypothesis Sane : sane lib.

(** The shards that had no reader, or whose reader failed, are in memory of their own. *)
Definition apart_row (rs : list (option (reader B))) (ss : list (slice B)) (row : list (list B)) : Prop :=
  forall i, i < length rs -> match nth i rs None with Some r => rd_ok r = 0 | None => True end ->
  nth i ss (Own []) = Own (nth i row []).

Lemma get_data_same fills d m : same d m -> d_cache d = [] ->
  length (m_readers m) = all_shards c -> length (m_buf m) = all_shards c * rc_bps c ->
  fits c (m_readers m) fills ->
  same_res (get_data lib c d) (m_get_data lib c reuse fills m) /\
  forall m', m_get_data lib c reuse fills m = MOk m' ->
    length (m_buf m') = all_shards c * rc_bps c /\ length (m_readers m') = all_shards c /\
    m_cursor m' = 0 /\
    exists d' row, get_data lib c d = Ok d' /\ d_rows d' = d_rows d ++ [row] /\ apart_row (m_readers m) (m_row m') row.
Proof.
  intros (S1 & S2 & S3 & S4 & S5 & S6) C Hr Hb F. unfold get_data, m_get_data. rewrite S2, S3.
  destruct (m_total m =? m_size m); [split; [exact Logic.I|discriminate]|].
  destruct (m_size m <? m_total m); [split; [exact Logic.I|discriminate]|].
  assert (Hb' : length (m_buf m) = length (m_readers m) * rc_bps c) by (rewrite Hr; exact Hb).
  destruct (slices_read (m_readers m) fills (m_buf m) Hb' F) as (L1 & E & P). cbv zeta.
  rewrite S1, E. set (mem1 := fill c (m_buf m) [] fills) in *. set (ss := slices c (m_readers m) fills) in *.
  destruct (lib_reconstruct lib (map fst (map (read_shard c) (m_readers m)))) as [row|] eqn:R; [|split; [exact Logic.I|discriminate]].
  destruct (Sane _ _ R) as (R1 & (n & Rn & Rf & (i0 & x0 & R0)) & R3).
  rewrite <- E in R1, R0, R3. rewrite map_length in R1.
  assert (Lss : length ss = all_shards c) by (unfold ss; rewrite slices_length; exact Hr).
  assert (Lrow : length row = all_shards c) by lia.
  assert (Shard : forall i, i < all_shards c -> nth i (map (as_shard mem1) ss) None = as_shard mem1 (nth i ss (Own []))).
  { intros i Hi. rewrite (nth_indep _ None (as_shard mem1 (Own []))) by (rewrite map_length; lia). apply map_nth. }
  assert (Given : forall i, i < all_shards c -> content mem1 (nth i ss (Own [])) <> [] -> content mem1 (nth i ss (Own [])) = nth i row []).
  { intros i Hi Ne. symmetry. apply R3. rewrite Shard by exact Hi. unfold as_shard.
    destruct (content mem1 (nth i ss (Own []))) eqn:Q; [congruence|reflexivity]. }
  assert (Rl : forall i, i < all_shards c -> length (nth i row []) = n).
  { intros i Hi. rewrite Forall_forall in Rf. apply Rf, nth_In. lia. }
  assert (Hn : n <= rc_bps c).
  { assert (I0 : i0 < all_shards c).
    { destruct (lt_dec i0 (all_shards c)) as [|Ge]; [assumption|]. rewrite nth_overflow in R0; [discriminate|]. rewrite map_length. lia. }
    rewrite <- (Rl i0 I0), (R3 i0 x0 R0). rewrite Shard in R0 by exact I0. unfold as_shard in R0.
    destruct (content mem1 (nth i0 ss (Own []))) as [|b y] eqn:Q; [discriminate|]. injection R0 as <-.
    destruct (P i0 ltac:(lia)) as [Pp Pl]. destruct (nth i0 ss (Own [])) as [off m0|y'] eqn:Z.
    - cbn [content] in Q. rewrite Q in Pl. rewrite Pl. apply Pp.
    - unfold ss in Z. rewrite slices_nth in Z by lia. unfold read_slice in Z.
      destruct (nth i0 (m_readers m) None) as [r|]; [destruct (rd_ok r)|]; try discriminate; injection Z as <-; discriminate Q. }
  destruct (restore_all reuse mem1 ss row) as [mem2 ss2] eqn:A.
  destruct (restore_all_spec reuse (all_shards c) n row ss mem1 0 mem2 ss2) as (L2 & Ls2 & O2 & N2 & W2); try assumption.
  { rewrite <- Hr. exact L1. }
  { lia. }
  { lia. }
  { intros i Hi. apply Rl. lia. }
  { intros i Hi. apply P. lia. }
  { intros i Hi. apply Given. lia. }
  { intros i Hi. apply P. lia. }
  assert (Ld : length (firstn (rc_data c) ss2) = rc_data c) by (rewrite firstn_length; unfold all_shards in *; lia).
  destruct (append_all_spec (m_size m) (all_shards c) n (firstn (rc_data c) ss2) mem2 0 0 (m_total m) (firstn (rc_data c) row))
    as (mem3 & len & total & Ea & Q1 & Q2 & Q3 & Q4); try assumption.
  { unfold all_shards in *. lia. }
  { lia. }
  { rewrite Ld, firstn_length. unfold all_shards in *. lia. }
  { intros i Hi. rewrite Ld in Hi. rewrite firstn_nth by exact Hi. apply Rl. unfold all_shards. lia. }
  { intros i Hi. rewrite Ld in Hi. rewrite !firstn_nth by exact Hi. apply N2. unfold all_shards in *. lia. }
  rewrite C. rewrite get_nil in Q4. rewrite <- Q4, Ea.
  assert (Ap : apart_row (m_readers m) ss2 row).
  { intros i Hi Z. apply W2; [lia|]. unfold ss. rewrite slices_nth by exact Hi. unfold read_slice.
    destruct (nth i (m_readers m) None) as [r|]; [rewrite Z|]; reflexivity. }
  split.
  - cbn [same_res]. unfold same. cbn. rewrite map_map, Nat.sub_0_r. repeat split; try reflexivity; [lia|].
    rewrite Q1. rewrite Ld in Q3. cbn [Nat.add] in Q3.
    assert (rc_data c * n <= all_shards c * rc_bps c) by (apply Nat.mul_le_mono; [unfold all_shards; lia|exact Hn]). lia.
  - intros m' M. injection M as <-. cbn. split; [exact Q1|]. split; [rewrite map_length; exact Hr|]. split; [reflexivity|].
    eexists _, row. split; [reflexivity|]. split; [reflexivity|exact Ap].
Qed.

(** ** Reading the object *)

Lemma get_firstn mem a n k : n <= k -> firstn n (get mem a k) = get mem a n.
Proof. intros H. unfold get. rewrite firstn_firstn. f_equal. lia. Qed.

Lemma get_skipn mem a n k : n <= k -> skipn n (get mem a k) = get mem (a + n) (k - n).
Proof. intros H. unfold get. rewrite skipn_firstn_comm, skipn_skipn. f_equal. f_equal. lia. Qed.

Lemma same_cache (d : decoder B) m : same d m -> length (d_cache d) = m_len m - m_cursor m.
Proof. intros (_ & _ & _ & S4 & S5 & ->). apply get_length. lia. Qed.

Variable fills : list (option (reader B)) -> list (nat * list B).
Hypothesis Fits : forall rs, length rs = all_shards c -> fits c rs (fills rs).

Definition ready (m : mdecoder B) : Prop :=
  length (m_readers m) = all_shards c /\ length (m_buf m) = all_shards c * rc_bps c.

Lemma read_same d m k : same d m -> ready m ->
  fst (read lib c d k) = fst (m_read lib c reuse fills m k) /\
  same_res (snd (read lib c d k)) (snd (m_read lib c reuse fills m k)) /\
  forall m', snd (m_read lib c reuse fills m k) = MOk m' -> ready m'.
Proof.
  intros Hs [Rd Rb]. pose proof (same_cache d m Hs) as L. unfold read, m_read.
  assert (Next : forall d1 m1, same d1 m1 -> ready m1 ->
    let n1 := Nat.min k (length (d_cache d1)) in let n2 := Nat.min k (m_len m1 - m_cursor m1) in
    n1 = n2 /\ firstn n1 (d_cache d1) = get (m_buf m1) (m_cursor m1) n2 /\
    same {| d_readers := d_readers d1; d_size := d_size d1; d_total := d_total d1; d_cache := skipn n1 (d_cache d1); d_rows := d_rows d1 |}
         {| m_readers := m_readers m1; m_size := m_size m1; m_total := m_total m1;
            m_buf := m_buf m1; m_len := m_len m1; m_cursor := m_cursor m1 + n2; m_row := m_row m1 |}).
  { intros d1 m1 H1 _ n1 n2. pose proof (same_cache d1 m1 H1) as L1.
    assert (N : n1 = n2) by (unfold n1, n2; rewrite L1; reflexivity). split; [exact N|].
    destruct H1 as (A1 & A2 & A3 & A4 & A5 & A6). rewrite N. split.
    - rewrite A6. apply get_firstn. unfold n2. lia.
    - assert (n2 <= m_len m1 - m_cursor m1) by (unfold n2; lia). clearbody n1 n2.
      unfold same. cbn [d_readers d_size d_total d_cache m_readers m_size m_total m_cursor m_len m_buf].
      split; [exact A1|]. split; [exact A2|]. split; [exact A3|]. split; [lia|]. split; [exact A5|].
      rewrite A6, get_skipn by lia. f_equal. lia. }
  destruct (d_cache d) as [|b bs] eqn:C; cbn [length] in L.
  - rewrite <- L. cbn [Nat.eqb].
    destruct (get_data_same (fills (m_readers m)) d m Hs C Rd Rb (Fits _ Rd)) as [G1 G2].
    destruct (get_data lib c d) as [d1| | |], (m_get_data lib c reuse (fills (m_readers m)) m) as [m1| | |];
      cbn [same_res] in G1; try contradiction;
      try (split; [reflexivity|split; [exact Logic.I|discriminate]]).
    destruct (G2 m1 eq_refl) as (B1 & B2 & _). destruct (Next d1 m1 G1 (conj B2 B1)) as (N1 & N2 & N3).
    split; [exact N2|]. split; [exact N3|]. intros m' E. injection E as <-. split; [exact B2|exact B1].
  - assert (Z : m_len m - m_cursor m =? 0 = false) by (apply Nat.eqb_neq; lia). rewrite Z.
    destruct (Next d m Hs (conj Rd Rb)) as (N1 & N2 & N3). rewrite C in N1, N2, N3. rewrite C.
    split; [exact N2|]. split; [exact N3|]. intros m' E. injection E as <-. split; [exact Rd|exact Rb].
Qed.

Lemma reads_same reqs : forall d m out, same d m -> ready m ->
  fst (fst (read_many lib c d reqs out)) = fst (m_read_many lib c reuse fills m reqs out) /\
  same_res (snd (fst (read_many lib c d reqs out))) (snd (m_read_many lib c reuse fills m reqs out)).
Proof.
  induction reqs as [|k reqs IH]; intros d m out Hs Hr; cbn [read_many m_read_many]; [split; [reflexivity|exact Hs]|].
  destruct (read_same d m k Hs Hr) as (R1 & R2 & R3).
  destruct (read lib c d k) as [bt r], (m_read lib c reuse fills m k) as [bt' r']. cbn [fst snd] in *. subst bt'.
  destruct r as [d1| | |], r' as [m1| | |]; cbn [same_res] in R2; try contradiction; cbn [fst snd]; try (split; [reflexivity|exact Logic.I]).
  apply IH; [exact R2|apply R3; reflexivity].
Qed.

Lemma open_same rs size buf : length rs = all_shards c -> length buf = all_shards c * rc_bps c ->
  same {| d_readers := rs; d_size := size; d_total := 0; d_cache := []; d_rows := [] |} (m_open rs size buf) /\
  ready (m_open rs size buf).
Proof.
  intros H1 H2. split; [|split; assumption]. unfold same. cbn. repeat split; lia.
Qed.
End P.
