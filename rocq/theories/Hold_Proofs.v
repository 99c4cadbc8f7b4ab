(** Proofs about what downloads keep open. *)
From Verif Require Import Hold_Spec Rs_Proofs.

Lemma held_false win b : held win b = false <-> b_closed b = true \/ b_total b <= b_read b + win.
Proof.
  unfold held. destruct (b_closed b); cbn [negb andb]; [split; auto|].
  rewrite Nat.ltb_ge. split; [auto|intros [H|H]; [discriminate|exact H]].
Qed.

Lemma held_true win b : held win b = true <-> b_closed b = false /\ b_read b + win < b_total b.
Proof.
  unfold held. destruct (b_closed b); cbn [negb andb]; [split; [discriminate|intros [H _]; discriminate]|].
  rewrite Nat.ltb_lt. split; [auto|intros [_ H]; exact H].
Qed.

(** ** Copies *)

Definition short (win : nat) (g : gstream) : Prop := forall b, In b (g_lost g) -> b_total b <= win.

Lemma request_short win a g : brief win a -> short win g -> short win (fst (g_request a g)).
Proof.
  intros Ha H. destruct a as [|st n]; cbn [g_request fst]; [exact H|].
  destruct (st =? 200) eqn:E; cbn [fst]; [exact H|]. intros b [<-|Hb]; [|exact (H b Hb)].
  apply Nat.eqb_neq in E. destruct Ha as [->|Ha]; [congruence|exact Ha].
Qed.

Lemma op_short win o g : brief win (answer_of o) -> short win g -> short win (do_op g o).
Proof.
  intros Ha H. destruct o as [a off|a k]; cbn [do_op answer_of] in *.
  - unfold g_seek. destruct (g_body g); [destruct (0 <? off); exact H|]. apply request_short; assumption.
  - unfold g_read. destruct (g_body g); [exact H|].
    pose proof (request_short win a g Ha H) as R. destruct (g_request a g) as [g1 ok]. cbn [fst] in R.
    destruct ok; [|exact R]. destruct (g_body g1); exact R.
Qed.

Lemma ops_short win ops : forall g, (forall o, In o ops -> brief win (answer_of o)) -> short win g -> short win (fold_left do_op ops g).
Proof.
  induction ops as [|o ops IH]; intros g Ha H; [exact H|]. cbn [fold_left]. apply IH.
  - intros o' Ho. apply Ha. right. exact Ho.
  - apply op_short; [apply Ha; left; reflexivity|exact H].
Qed.

Lemma copies_quiet win ops : (forall o, In o ops -> brief win (answer_of o)) -> quiet win (bodies (copy_download ops)).
Proof.
  intros Ha b Hb. pose proof (ops_short win ops g_new Ha (fun b H => match H with end)) as H.
  unfold copy_download, g_close in Hb. set (g := fold_left do_op ops g_new) in *.
  apply held_false. unfold bodies in Hb. destruct (g_body g) as [b0|] eqn:E; cbn [g_body g_lost] in Hb.
  - destruct Hb as [<-|Hb]; [left; reflexivity|]. right. specialize (H b Hb). lia.
  - rewrite E in Hb. right. specialize (H b Hb). lia.
Qed.

(** ** Erasure-coded objects *)

Lemma row_length bps ans rs : length (read_row bps ans rs) = length rs.
Proof. unfold read_row. rewrite map_length, combine_length, seq_length. lia. Qed.

Lemma combine_seq_nth {A} (l : list A) i k d : i < length l -> nth i (List.combine (seq k (length l)) l) (0, d) = (k + i, nth i l d).
Proof.
  intros H. rewrite combine_nth by (rewrite seq_length; reflexivity). rewrite seq_nth by exact H. reflexivity.
Qed.

Lemma row_nth bps ans rs i : i < length rs ->
  nth i (read_row bps ans rs) None = match nth i rs None with None => None | Some g => Some (g_read (ans i) bps g) end.
Proof.
  intros H. unfold read_row.
  set (f := fun p : nat * option gstream => match snd p with None => None | Some g => Some (g_read (ans (fst p)) bps g) end).
  change (@None gstream) with (f (0, None)) at 1. rewrite map_nth, combine_seq_nth by exact H. reflexivity.
Qed.

Lemma rows_length bps rows : forall rs, length (read_rows bps rows rs) = length rs.
Proof.
  induction rows as [|a rows IH]; intros rs; [reflexivity|].
  unfold read_rows. cbn [fold_left]. fold (read_rows bps rows (read_row bps a rs)). rewrite IH. apply row_length.
Qed.

Lemma rows_nth bps rows i : forall rs, i < length rs ->
  nth i (read_rows bps rows rs) None =
  match nth i rs None with None => None | Some g => Some (fold_left (fun g ans => g_read (ans i) bps g) rows g) end.
Proof.
  induction rows as [|a rows IH]; intros rs H; [cbn; destruct (nth i rs None); reflexivity|].
  unfold read_rows. cbn [fold_left]. fold (read_rows bps rows (read_row bps a rs)).
  rewrite IH by (rewrite row_length; exact H). rewrite row_nth by exact H. destruct (nth i rs None); reflexivity.
Qed.

(** A reader that has its answer reads on, whatever further answers would be. *)
Lemma reads_on bps i rows : forall n r lost, r <= n ->
  fold_left (fun g (ans : nat -> answer) => g_read (ans i) bps g) rows (mk_g (Some (mk_body n r false)) lost)
  = mk_g (Some (mk_body n (Nat.min n (r + length rows * bps)) false)) lost.
Proof.
  induction rows as [|a rows IH]; intros n r lost H; cbn [fold_left length].
  - do 3 f_equal. lia.
  - unfold g_read at 2. cbn [g_body g_lost]. unfold b_take. cbn [b_total b_read b_closed].
    rewrite IH by lia. do 3 f_equal. rewrite Nat.mul_succ_l. lia.
Qed.

(** A server that does not answer for some rows and then does. *)
Lemma reads_late bps i n late rows :
  (forall a, In a late -> a i = NoAnswer) -> (forall a, In a rows -> a i = Answered 200 n) ->
  fold_left (fun g (ans : nat -> answer) => g_read (ans i) bps g) (late ++ rows) g_new
  = match rows with [] => g_new | _ => mk_g (Some (mk_body n (Nat.min n (length rows * bps)) false)) [] end.
Proof.
  intros Hl Hr. rewrite fold_left_app.
  assert (L : fold_left (fun g (ans : nat -> answer) => g_read (ans i) bps g) late g_new = g_new).
  { clear Hr rows. induction late as [|a late IH]; [reflexivity|]. cbn [fold_left].
    unfold g_read at 2. cbn [g_body g_new]. rewrite (Hl a (or_introl eq_refl)). cbn [g_request].
    apply IH. intros b Hb. apply Hl. right. exact Hb. }
  rewrite L. destruct rows as [|a rows]; [reflexivity|]. cbn [fold_left].
  unfold g_read at 2. cbn [g_body g_new]. rewrite (Hr a (or_introl eq_refl)). cbn [g_request Nat.eqb g_body g_lost g_new].
  unfold b_take. cbn [b_total b_read b_closed]. rewrite reads_on by lia. cbn [length].
  do 3 f_equal. rewrite Nat.mul_succ_l. lia.
Qed.

Lemma open_nth there n i : i < n -> nth i (rs_open there n) None = if there i then Some g_new else None.
Proof. intros H. unfold rs_open. rewrite (nth_map_seq _ (fun i => if there i then Some g_new else None)) by exact H. reflexivity. Qed.

Lemma open_length there n : length (rs_open there n) = n.
Proof. unfold rs_open. rewrite map_length, seq_length. reflexivity. Qed.

Lemma download_shard c there size q i : i < all_shards c -> there i = true -> 0 < rows_for c q ->
  nth i (rs_download c there size q) None =
  Some (mk_g (Some (mk_body (shard_size c size) (Nat.min (shard_size c size) (rows_for c q * rc_bps c)) false)) []).
Proof.
  intros Hi Ht Hk. unfold rs_download, rs_close. rewrite rows_nth by (rewrite open_length; exact Hi).
  rewrite open_nth, Ht by exact Hi.
  pose proof (reads_late (rc_bps c) i (shard_size c size) [] (repeat (fun _ => Answered 200 (shard_size c size)) (rows_for c q))) as R.
  cbn [app] in R. rewrite R.
  - rewrite repeat_length. destruct (rows_for c q); [lia|]. reflexivity.
  - intros a [].
  - intros a Ha. apply repeat_spec in Ha. subst a. reflexivity.
Qed.

Lemma bodies_in rs b : In b (rs_bodies rs) -> exists i g, i < length rs /\ nth i rs None = Some g /\ In b (bodies g).
Proof.
  unfold rs_bodies. rewrite in_flat_map. intros ([g|] & Ho & Hb); [|destruct Hb].
  apply (In_nth _ _ None) in Ho as (i & Hi & E). exists i, g. auto.
Qed.

Lemma in_bodies rs i g b : i < length rs -> nth i rs None = Some g -> In b (bodies g) -> In b (rs_bodies rs).
Proof.
  intros Hi E Hb. unfold rs_bodies. apply in_flat_map. exists (Some g). split; [|exact Hb].
  rewrite <- E. apply nth_In. exact Hi.
Qed.

Lemma download_length c there size q : length (rs_download c there size q) = all_shards c.
Proof. unfold rs_download, rs_close. rewrite rows_length, open_length. reflexivity. Qed.

Lemma download_none c there size q i : i < all_shards c -> there i = false -> nth i (rs_download c there size q) None = None.
Proof.
  intros Hi Ht. unfold rs_download, rs_close. rewrite rows_nth by (rewrite open_length; exact Hi).
  rewrite open_nth, Ht by exact Hi. reflexivity.
Qed.

(** Exactly when something is held after a download. *)
Lemma download_quiet c there size q win : (exists i, i < all_shards c /\ there i = true) ->
  quiet win (rs_bodies (rs_download c there size q)) <-> rows_for c q = 0 \/ shard_size c size <= rows_for c q * rc_bps c + win.
Proof.
  intros (i & Hi & Ht). destruct (Nat.eq_dec (rows_for c q) 0) as [Z|Z].
  - split; [left; exact Z|]. intros _ b Hb. exfalso. apply bodies_in in Hb as (j & g & Hj & E & Hb).
    rewrite download_length in Hj. unfold rs_download, rs_close, read_rows in E. rewrite Z in E. cbn [repeat fold_left] in E.
    rewrite open_nth in E by exact Hj. destruct (there j); [|discriminate]. injection E as <-. destruct Hb.
  - split.
    + intros Q. right. specialize (Q (mk_body (shard_size c size) (Nat.min (shard_size c size) (rows_for c q * rc_bps c)) false)).
      rewrite held_false in Q. cbn [b_closed b_total b_read] in Q.
      destruct Q as [Q|Q]; [|discriminate|lia].
      eapply in_bodies; [rewrite download_length; exact Hi|apply download_shard; [exact Hi|exact Ht|lia]|left; reflexivity].
    + intros [H|H] b Hb; [lia|]. apply bodies_in in Hb as (j & g & Hj & E & Hb). rewrite download_length in Hj.
      destruct (there j) eqn:Tj; [|rewrite download_none in E by assumption; discriminate].
      rewrite download_shard in E by (try assumption; lia). injection E as <-.
      destruct Hb as [<-|[]]. apply held_false. right. cbn [b_total b_read]. lia.
Qed.

Lemma whole_rows c size : 0 < rc_data c -> 0 < rc_bps c -> shard_size c size <= rows_for c size * rc_bps c.
Proof.
  intros Hd Hb. unfold shard_size, rows_for, block_size.
  destruct (ceil_spec size (rc_data c) Hd) as [A1 A2]. destruct (ceil_spec size (rc_bps c * rc_data c) ltac:(nia)) as [B1 B2].
  set (x := (size + rc_data c - 1) / rc_data c) in *. set (y := (size + rc_bps c * rc_data c - 1) / (rc_bps c * rc_data c)) in *.
  clearbody x y. destruct (Nat.le_gt_cases x (y * rc_bps c)) as [H|H]; [exact H|]. exfalso.
  assert ((y * rc_bps c + 1) * rc_data c <= x * rc_data c) by (apply Nat.mul_le_mono_r; lia). nia.
Qed.

(** Shards within the window: nothing is held whatever happens. *)
Lemma small_quiet win bps rows rs :
  (forall a i, In a rows -> match a i with Answered _ n => n <= win | NoAnswer => True end) ->
  (forall i g b, nth i rs None = Some g -> In b (bodies g) -> b_total b <= win) ->
  quiet win (rs_bodies (rs_close (read_rows bps rows rs))).
Proof.
  intros Ha Hs b Hb. unfold rs_close in Hb. apply bodies_in in Hb as (i & g & Hi & E & Hb).
  rewrite rows_length in Hi. rewrite rows_nth in E by exact Hi.
  destruct (nth i rs None) as [g0|] eqn:G; [|discriminate]. injection E as E.
  assert (K : forall rows g0, (forall a, In a rows -> match a i with Answered _ n => n <= win | NoAnswer => True end) ->
    (forall b, In b (bodies g0) -> b_total b <= win) ->
    forall b, In b (bodies (fold_left (fun g (ans : nat -> answer) => g_read (ans i) bps g) rows g0)) -> b_total b <= win).
  { clear. induction rows as [|a rows IH]; intros g0 Ha H; [exact H|]. cbn [fold_left]. apply IH; [intros; apply Ha; right; assumption|].
    specialize (Ha a (or_introl eq_refl)). intros b. unfold g_read. destruct (g_body g0) as [b0|] eqn:B.
    - unfold bodies in *. rewrite B in H. cbn [g_body g_lost]. intros [<-|Hb]; [exact (H b0 (or_introl eq_refl))|exact (H b (or_intror Hb))].
    - unfold bodies in H. rewrite B in H. destruct (a i) as [|st n]; cbn [g_request].
      + unfold bodies. rewrite B. exact (H b).
      + destruct (st =? 200); cbn [g_body g_lost].
        * unfold bodies, b_take. cbn [g_body g_lost b_total]. intros [<-|Hb]; [exact Ha|exact (H b Hb)].
        * unfold bodies. cbn [g_body g_lost]. rewrite B. intros [<-|Hb]; [exact Ha|exact (H b Hb)]. }
  apply held_false. right. subst g. specialize (K rows g0 (fun a H => Ha a i H) (fun b H => Hs i g0 b G H) b Hb). lia.
Qed.

(** ** Opening *)

Lemma take_all ms : ~ In (Lost false) ms -> take ms = (length ms, length (filter (fun m => match m with There => false | Lost _ => true end) ms), true).
Proof.
  induction ms as [|m ms IH]; intros H; [reflexivity|].
  assert (H' : ~ In (Lost false) ms) by (intros K; apply H; right; exact K).
  cbn [take]. rewrite (IH H'). destruct m as [|[|]]; [reflexivity|reflexivity|]. destruct H. left. reflexivity.
Qed.

Lemma take_fail pre post : ~ In (Lost false) pre ->
  take (pre ++ Lost false :: post) = (S (length pre), length (filter (fun m => match m with There => false | Lost _ => true end) pre), false).
Proof.
  induction pre as [|m pre IH]; intros H; [reflexivity|].
  assert (H' : ~ In (Lost false) pre) by (intros K; apply H; right; exact K).
  cbn [app take]. rewrite (IH H'). destruct m as [|[|]]; [reflexivity|reflexivity|]. destruct H. left. reflexivity.
Qed.
