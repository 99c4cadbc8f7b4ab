(** C191: cache and shards share one buffer, and the bytes are not mixed up. *)
From Verif Require Import Rs_Main Rs_Props Alias_Spec Alias_Proofs.

(** Whatever was in the buffer, however the bytes of the shards arrive and wherever the library
    puts restored shards: the reader gets the bytes and the outcome of a decoder whose shards and
    cache are apart. *)
Theorem C191_reads : forall (B : Type) (c : rs_config) (lib : rs_lib B) (reuse : bool) fills rs size buf reqs,
  sane lib -> (forall rs, length rs = all_shards c -> fits c rs (fills rs)) ->
  length rs = all_shards c -> length buf = all_shards c * rc_bps c ->
  let d := {| d_readers := rs; d_size := size; d_total := 0; d_cache := []; d_rows := [] |} in
  let '(bytes, st, _) := read_many lib c d reqs [] in
  let '(bytes', st') := m_read_many lib c reuse fills (m_open rs size buf) reqs [] in
  bytes' = bytes /\ same_res st st'.
Proof.
  intros B c lib reuse fills rs size buf reqs Hs Hf Hr Hb d.
  destruct (open_same c rs size buf Hr Hb) as [O1 O2]. fold d in O1.
  pose proof (reads_same c lib reuse Hs fills Hf reqs d _ [] O1 O2) as [E1 E2].
  destruct (read_many lib c d reqs []) as [[bytes st] rows], (m_read_many lib c reuse fills (m_open rs size buf) reqs []) as [bytes' st'].
  cbn [fst snd] in *. split; [symmetry; exact E1|exact E2].
Qed.
Print Assumptions C191_reads.

(** So with at most as many shards lost as the code can restore, the object is read back whole
    through the shared buffer. *)
Theorem C191_object : forall (B : Type) (c : rs_config) (lib : rs_lib B) (reuse : bool) fills bts fuel avail reqs buf,
  0 < rc_data c -> 0 < rc_bps c -> mds lib (rc_data c) (rc_parity c) -> sane lib ->
  (forall rs, length rs = all_shards c -> fits c rs (fills rs)) ->
  Forall (fun bt => length bt <= fuel) bts ->
  (forall k, k * block_size c < length (concat bts) -> missing (all_shards c) avail k <= rc_parity c) ->
  Forall (fun q => 0 < q) reqs -> length (concat bts) < length reqs ->
  length buf = all_shards c * rc_bps c ->
  exists sent, upload lib c fuel bts = Some sent /\
    m_read_many lib c reuse fills
      (m_open (d_readers (open_shards c (length (concat bts)) (shard_bytes sent) avail)) (length (concat bts)) buf) reqs []
    = (concat bts, MEof).
Proof.
  intros B c lib reuse fills bts fuel avail reqs buf H1 H2 H3 Hs Hf H4 H5 H6 H7 Hb.
  destruct (C22_read_complete B lib c bts fuel avail reqs H1 H2 H3 H4 H5 H6 H7) as (sent & rws & U & R).
  exists sent. split; [exact U|].
  set (rs := d_readers (open_shards c (length (concat bts)) (shard_bytes sent) avail)).
  assert (Hr : length rs = all_shards c) by (unfold rs, open_shards; cbn [d_readers]; rewrite map_length, seq_length; reflexivity).
  pose proof (C191_reads B c lib reuse fills rs (length (concat bts)) buf reqs Hs Hf Hr Hb) as P. cbv zeta in P.
  change {| d_readers := rs; d_size := length (concat bts); d_total := 0; d_cache := []; d_rows := [] |}
    with (open_shards c (length (concat bts)) (shard_bytes sent) avail) in P.
  rewrite R in P.
  destruct (m_read_many lib c reuse fills (m_open rs (length (concat bts)) buf) reqs []) as [bytes st].
  destruct P as [-> P]. destruct st; cbn [same_res] in P; try contradiction. reflexivity.
Qed.
Print Assumptions C191_object.

(** What the repair writers hold of a row is the restored shard whatever is written to the buffer
    afterwards, so that a writer that is slower than the reader still writes the right bytes. *)
Theorem C191_repair : forall (B : Type) (c : rs_config) (lib : rs_lib B) (reuse : bool) fills d m m',
  sane lib -> same d m -> d_cache d = [] -> length (m_readers m) = all_shards c ->
  length (m_buf m) = all_shards c * rc_bps c -> fits c (m_readers m) fills ->
  m_get_data lib c reuse fills m = MOk m' ->
  exists d' row, get_data lib c d = Ok d' /\ d_rows d' = d_rows d ++ [row] /\
    forall i later, i < all_shards c -> nth i (m_readers m) None = None ->
      content later (nth i (m_row m') (Own [])) = nth i row [].
Proof.
  intros B c lib reuse fills d m m' Hs Sd C Hr Hb Hf G.
  destruct (get_data_same c lib reuse Hs fills d m Sd C Hr Hb Hf) as [_ P].
  destruct (P m' G) as (_ & _ & _ & d' & row & G' & R & A).
  exists d', row. split; [exact G'|]. split; [exact R|].
  intros i later Hi Hn. rewrite (A i); [reflexivity|lia|rewrite Hn; exact Logic.I].
Qed.
Print Assumptions C191_repair.

(** Shards that were read, by contrast, lie in the buffer: the writers are only given the slots
    without reader. *)
Theorem C191_read_shards : forall (B : Type) (c : rs_config) fills (rs : list (option (reader B))) i r n,
  i < length rs -> nth i rs None = Some r -> rd_ok r = S n ->
  nth i (slices c rs fills) (Own []) = Part (i * rc_bps c) (length (chunks i fills)).
Proof.
  intros B c fills rs i r n Hi Hn Ho. rewrite slices_nth by exact Hi. unfold read_slice. rewrite Hn, Ho. reflexivity.
Qed.
Print Assumptions C191_read_shards.

(** ** Two data shards of two bytes and a parity shard *)

(** The code of Rs_Main that, like the library, refuses rows of unequal or empty shards. *)
Definition even (n : nat) (xs : list (option (list N))) : bool :=
  (0 <? n) && forallb (fun o => match o with Some x => length x =? n | None => true end) xs.

Definition strict_lib : rs_lib N := {|
  lib_encode := lib_encode xor_lib;
  lib_reconstruct xs :=
    match flat_map (fun o => match o with Some x => [length x] | None => [] end) xs with
    | n :: _ => if even n xs then lib_reconstruct xor_lib xs else None
    | [] => None
    end;
  lib_fill := lib_fill xor_lib |}.

Lemma strict_sane : sane strict_lib.
Proof.
  intros xs row H. cbn [lib_reconstruct strict_lib] in H.
  destruct (flat_map _ xs) as [|n l]; [discriminate|]. destruct (even n xs) eqn:V; [|discriminate].
  unfold even in V. apply andb_prop in V as [V1 V2]. apply Nat.ltb_lt in V1.
  cbn [lib_reconstruct xor_lib] in H.
  destruct xs as [|[a|] [|[b|] [|[p|] [|]]]]; try discriminate H; injection H as <-; cbn [forallb] in V2;
    rewrite ?andb_true_r, ?andb_true_iff, ?Nat.eqb_eq in V2;
    (split; [reflexivity|]); (split; [exists n; split; [exact V1|]; split; [|]|]).
  all: try (match goal with |- Forall _ _ => repeat constructor; rewrite ?xor_length by lia; lia end).
  all: try (match goal with |- exists i x, _ => first [exists 0; eexists; reflexivity | exists 1; eexists; reflexivity] end).
  all: intros [|[|[|[|i]]]] x E; cbn [nth] in E; try discriminate E; injection E as <-; reflexivity.
Qed.

Lemma strict_mds : mds strict_lib 2 1.
Proof.
  intros len ds Hl Hd HF. destruct (xor_mds len ds Hl Hd HF) as (M1 & M2 & M3).
  split; [exact M1|]. split; [exact M2|]. intros ok. specialize (M3 ok). cbv zeta in *.
  refine (eq_trans _ M3). clear M3.
  destruct ds as [|a [|b [|]]]; try discriminate Hd.
  assert (La : length a = len) by (inversion HF; assumption).
  assert (Lb : length b = len) by (inversion HF as [|? ? ? HG]; inversion HG; assumption).
  assert (Lp : length (xor_lists a b) = len) by (rewrite xor_length; lia).
  assert (Z : (0 <? len) = true) by (apply Nat.ltb_lt; exact Hl).
  change (lib_encode strict_lib [a; b]) with [xor_lists a b]. change (lib_encode xor_lib [a; b]) with [xor_lists a b].
  cbn [app Nat.add seq map nth]. clear M1 M2. generalize dependent (xor_lists a b). intros p Lp.
  destruct (ok 0), (ok 1), (ok 2); cbn [lib_reconstruct strict_lib xor_lib flat_map app even forallb andb];
    unfold even; cbn [forallb]; rewrite ?La, ?Lb, ?Lp, ?Z, ?Nat.eqb_refl; reflexivity.
Qed.

(** How the bytes arrive: shard 2 first in part, shard 0 at once, then shard 1 and the rest of
    shard 2 in turns; a shard that fails leaves a byte behind. *)
Definition arrived (rs : list (option (reader N))) (i : nat) : list N :=
  match nth i rs None with
  | Some r => match rd_ok r with O => [9%N] | S _ => firstn 2 (rd_rest r) end
  | None => []
  end.
Definition turns (rs : list (option (reader N))) : list (nat * list N) :=
  [(2, firstn 1 (arrived rs 2)); (0, arrived rs 0); (1, firstn 1 (arrived rs 1));
   (2, skipn 1 (arrived rs 2)); (1, skipn 1 (arrived rs 1))].

Example C191_fits : forall rs, length rs = all_shards cfg21 -> fits cfg21 rs (turns rs).
Proof.
  intros [|r0 [|r1 [|r2 [|]]]] H; try discriminate H. split.
  - intros j x Hj. cbn in Hj. intuition; repeat match goal with E : (_, _) = _ |- _ => injection E as <- <- end; cbn; lia.
  - assert (A : forall i, length (arrived [r0; r1; r2] i) <= 2).
    { intros i. unfold arrived. destruct (nth i _ None) as [r|]; [|cbn; lia]. destruct (rd_ok r); [cbn; lia|].
      rewrite firstn_length. lia. }
    assert (C : forall i, i < 3 -> chunks i (turns [r0; r1; r2]) = arrived [r0; r1; r2] i).
    { intros [|[|[|i]]] Hi; try lia; unfold turns; cbn [chunks Nat.eqb]; rewrite ?app_nil_r, ?firstn_skipn; reflexivity. }
    intros i Hi. cbn [length] in Hi. rewrite (C i Hi). split; [apply A|]. unfold arrived.
    destruct (nth i [r0; r1; r2] None) as [r|]; [|reflexivity]. destruct (rd_ok r); [exact Logic.I|reflexivity].
Qed.

Definition shards7 : list (list (list N)) := [[[1%N; 2%N]; [3%N; 4%N]; [2%N; 6%N]]; [[5%N; 6%N]; [7%N; 77%N]; [2%N; 75%N]]].
Definition junk : list N := [90%N; 91%N; 92%N; 93%N; 94%N; 95%N].

(** Shard 0 is lost: every row is restored, appended over the shards and read in pieces of three. *)
Example C191_nonvacuous :
  sane strict_lib /\ mds strict_lib 2 1 /\
  upload strict_lib cfg21 9 [[1%N; 2%N; 3%N]; []; [4%N; 5%N; 6%N; 7%N]] = Some shards7 /\
  m_read_many strict_lib cfg21 true turns
    (m_open (d_readers (open_shards cfg21 7 (shard_bytes shards7) lost0)) 7 junk) [3; 3; 3; 3; 3; 3; 3; 3] []
  = ([1%N; 2%N; 3%N; 4%N; 5%N; 6%N; 7%N], MEof).
Proof. split; [exact strict_sane|]. split; [exact strict_mds|]. vm_compute. split; reflexivity. Qed.

(** A shard that fails after the first row, having written a byte. *)
Example C191_failing :
  m_read_many strict_lib cfg21 false turns
    (m_open (d_readers (open_shards cfg21 7 (shard_bytes shards7) (fun i => match i with 1 => Some 1 | _ => Some 9 end))) 7 junk)
    [3; 3; 3; 3; 3; 3; 3; 3] []
  = ([1%N; 2%N; 3%N; 4%N; 5%N; 6%N; 7%N], MEof).
Proof. vm_compute. reflexivity. Qed.

(** The cache lies over the shards: after the first row the buffer begins with the data, and the
    restored shard is apart. *)
Example C191_overlaid :
  match m_get_data strict_lib cfg21 true (turns (d_readers (open_shards cfg21 7 (shard_bytes shards7) lost0)))
          (m_open (d_readers (open_shards cfg21 7 (shard_bytes shards7) lost0)) 7 junk) with
  | MOk m => m_buf m = [1%N; 2%N; 3%N; 4%N; 2%N; 6%N] /\ m_row m = [Own [1%N; 2%N]; Part 2 2; Part 4 2] /\ m_len m = 4
  | _ => False
  end.
Proof. vm_compute. repeat split. Qed.

(** A truncated shard in the middle: its empty slice is restored in place. *)
Example C191_in_place :
  let rs := [Some {| rd_rest := [1%N; 2%N]; rd_ok := 9 |}; Some {| rd_rest := []; rd_ok := 9 |}; Some {| rd_rest := [2%N; 6%N]; rd_ok := 9 |}] in
  match m_get_data strict_lib cfg21 true (turns rs) (m_open rs 4 junk) with
  | MOk m => m_row m = [Part 0 2; Part 2 2; Part 4 2] /\ m_buf m = [1%N; 2%N; 3%N; 4%N; 2%N; 6%N]
  | _ => False
  end.
Proof. vm_compute. split; reflexivity. Qed.
