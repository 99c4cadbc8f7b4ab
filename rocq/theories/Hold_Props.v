(** C192: when a download has ended, no server is still sending for it. *)
From Verif Require Import Hold_Spec Hold_Proofs.

(** Copies: whatever is sought and read, and wherever it stops, the deferred close ends it. *)
Theorem C192_copies : forall win ops, (forall o, In o ops -> brief win (answer_of o)) ->
  quiet win (bodies (copy_download ops)).
Proof. exact copies_quiet. Qed.
Print Assumptions C192_copies.

(** A range, one block, and then the client is gone. *)
Example C192_copies_nonvacuous :
  copy_download [Seek (Answered 200 100) 50; Read NoAnswer 10] = mk_g (Some (mk_body 100 10 true)) [] /\
  held 20 (mk_body 100 10 false) = true /\
  (forall o, In o [Seek (Answered 200 100) 50; Read NoAnswer 10] -> brief 20 (answer_of o)).
Proof.
  split; [reflexivity|]. split; [reflexivity|]. intros o [<-|[<-|[]]]; cbn; auto.
Qed.

(** Erasure-coded objects, exactly: something is held unless the rows read and the window cover
    a shard. *)
Theorem C192_exact : forall c there size q win, (exists i, i < all_shards c /\ there i = true) ->
  quiet win (rs_bodies (rs_download c there size q)) <-> rows_for c q = 0 \/ shard_size c size <= rows_for c q * rc_bps c + win.
Proof. exact download_quiet. Qed.
Print Assumptions C192_exact.

(** So one that is read to its end leaves nothing behind, whatever shards are missing. *)
(** Partial.  Full statement: When a download has ended, whether at the end of the object, by an
    error or because the client went away, no data server and no API server is still sending for it,
    and no goroutine or file is left over from opening it.  It fails in general:
    [C192_abandoned_refuted], [C192_late_refuted], [C192_admin_refuted], [C192_stuck_refuted].
    Refuted: closing the stream of an erasure-coded object does not close its readers, so that a
    client that stops early leaves a sender at every data server; a browser that leaves a download
    through the admin server leaves all three servers waiting; a repair that cannot begin leaves
    goroutines and files. *)
Theorem C192_whole_partial : forall c there size win, 0 < rc_data c -> 0 < rc_bps c ->
  quiet win (rs_bodies (rs_download c there size size)).
Proof.
  intros c there size win Hd Hb b Hin. pose proof Hin as Hin'.
  apply bodies_in in Hin' as (i & g & Hi & E & _). rewrite download_length in Hi.
  destruct (there i) eqn:T; [|rewrite download_none in E by assumption; discriminate].
  apply (proj2 (download_quiet c there size size win (ex_intro _ i (conj Hi T)))); [|exact Hin].
  right. pose proof (whole_rows c size Hd Hb). lia.
Qed.
Print Assumptions C192_whole_partial.

(** Nor does one whose shards fit into the window, whatever the servers answer. *)
Theorem C192_small : forall win bps rows there n,
  (forall a i, In a rows -> match a i with Answered _ len => len <= win | NoAnswer => True end) ->
  quiet win (rs_bodies (rs_close (read_rows bps rows (rs_open there n)))).
Proof.
  intros win bps rows there n H. apply small_quiet; [exact H|].
  intros i g b E Hb. destruct (Nat.lt_ge_cases i n) as [Hi|Hi].
  - rewrite open_nth in E by exact Hi. destruct (there i); [|discriminate]. injection E as <-. destruct Hb.
  - rewrite nth_overflow in E by (rewrite open_length; exact Hi). discriminate.
Qed.
Print Assumptions C192_small.

Definition cfg : rs_config := {| rc_data := 2; rc_parity := 1; rc_bps := 4 |}.
Definition all (i : nat) : bool := true.

Example C192_exact_nonvacuous :
  rs_download cfg all 100 9 = repeat (Some (mk_g (Some (mk_body 50 8 false)) [])) 3 /\
  rows_for cfg 9 = 2 /\ rows_for cfg 100 = 13 /\
  rs_download cfg all 100 100 = repeat (Some (mk_g (Some (mk_body 50 50 false)) [])) 3.
Proof. repeat split. Qed.

(** Clients that stop before the end: for every configuration, window and number of bytes taken
    there are objects for which every shard's server goes on waiting with its file open. *)
Theorem C192_abandoned_refuted : forall c there win q i, 0 < rc_data c -> 0 < rc_bps c -> 0 < q ->
  i < all_shards c -> there i = true ->
  exists size, q <= size /\ forall size', size <= size' ->
    exists g b, nth i (rs_download c there size' q) None = Some g /\ In b (bodies g) /\ held win b = true.
Proof.
  intros c there win q i Hd Hb Hq Hi Ht.
  exists (q + (rows_for c q * rc_bps c + win + 1) * rc_data c). split; [lia|]. intros size' Hs.
  assert (Hk : 0 < rows_for c q).
  { unfold rows_for. apply Nat.div_str_pos. unfold block_size. nia. }
  eexists. exists (mk_body (shard_size c size') (Nat.min (shard_size c size') (rows_for c q * rc_bps c)) false).
  split; [apply download_shard; assumption|]. split; [left; reflexivity|].
  apply held_true. cbn [b_closed b_read b_total]. split; [reflexivity|].
  assert (rows_for c q * rc_bps c + win + 1 <= shard_size c size').
  { unfold shard_size. apply Nat.div_le_lower_bound; [lia|]. rewrite Nat.mul_comm. lia. }
  lia.
Qed.
Print Assumptions C192_abandoned_refuted.

(** An object of 100 bytes of which nine were taken. *)
Example C192_abandoned_nonvacuous :
  exists b, In b (rs_bodies (rs_download cfg all 100 9)) /\ held 10 b = true.
Proof. exists (mk_body 50 8 false). split; [left; reflexivity|reflexivity]. Qed.

(** A server that answers only from a later row on is asked for the whole shard and is still
    sending when the object is complete. *)
Theorem C192_late : forall bps win i n there shards late rows,
  i < shards -> there i = true -> rows <> [] ->
  (forall a, In a late -> a i = NoAnswer) -> (forall a, In a rows -> a i = Answered 200 n) ->
  exists b, nth i (rs_close (read_rows bps (late ++ rows) (rs_open there shards))) None = Some (mk_g (Some b) []) /\
    (held win b = true <-> length rows * bps + win < n).
Proof.
  intros bps win i n there shards late rows Hi Ht Hr Hl Ha. unfold rs_close.
  rewrite rows_nth by (rewrite open_length; exact Hi). rewrite open_nth, Ht by exact Hi.
  rewrite (reads_late bps i n late rows Hl Ha). destruct rows as [|a rows]; [congruence|].
  eexists. split; [reflexivity|]. rewrite held_true. cbn [b_closed b_read b_total]. split; [intros [_ H]; lia|intros H; split; [reflexivity|lia]].
Qed.
Print Assumptions C192_late.

Theorem C192_late_refuted :
  let none : nat -> answer := fun i => match i with 0 => NoAnswer | _ => Answered 200 12 end in
  let some : nat -> answer := fun _ => Answered 200 12 in
  map (option_map g_body) (rs_close (read_rows 4 [none; some; some] (rs_open all 3)))
    = [Some (Some (mk_body 12 8 false)); Some (Some (mk_body 12 12 false)); Some (Some (mk_body 12 12 false))] /\
  held 3 (mk_body 12 8 false) = true /\ held 3 (mk_body 12 12 false) = false.
Proof. repeat split. Qed.
Print Assumptions C192_late_refuted.

(** ** Through the admin server *)

(** A client of the API server that is gone ends the download. *)
Theorem C192_direct : forall size room win, held win (api_body size room true) = false.
Proof.
  intros size room win. apply held_false. unfold api_body, api_end. destruct (size <=? room); left; reflexivity.
Qed.
Print Assumptions C192_direct.

(** A browser that is gone does not: admin server, API server and data server wait for one
    another for ever unless the rest of the object fits between them. *)
Theorem C192_admin_refuted : forall size q buf win, q + buf + win < size ->
  held buf (admin_body size q) = true /\ api_end size (q + buf) false = Waits /\
  held win (behind_admin size q buf) = true.
Proof.
  intros size q buf win H. rewrite !held_true. unfold admin_body, behind_admin, api_body, api_end.
  destruct (Nat.leb_spec size (q + buf)); [lia|]. cbn [b_closed b_read b_total]. repeat split; lia.
Qed.
Print Assumptions C192_admin_refuted.

(** Partial; the full statement is at [C192_whole_partial]. *)
Theorem C192_admin_partial : forall size q buf win, size <= q + buf ->
  held buf (admin_body size q) = false /\ held win (behind_admin size q buf) = false.
Proof.
  intros size q buf win H. rewrite !held_false. unfold admin_body, behind_admin, api_body, api_end.
  destruct (Nat.leb_spec size (q + buf)); [|lia]. cbn [b_closed b_read b_total]. split; [right; lia|left; reflexivity].
Qed.
Print Assumptions C192_admin_partial.

Example C192_admin_nonvacuous :
  behind_admin 100 10 20 = mk_body 100 30 false /\ held 40 (behind_admin 100 10 20) = true /\
  behind_admin 100 80 20 = mk_body 100 100 true /\ api_body 100 30 true = mk_body 100 30 true.
Proof. repeat split. Qed.

(** ** Opening *)

(** When every lost shard finds a server to be written to, nothing is left over. *)
Theorem C192_opened : forall ms, ~ In (Lost false) ms -> stuck ms = 0 /\ orphans ms = 0.
Proof.
  intros ms H. unfold stuck, orphans. rewrite (take_all ms H). split; [lia|reflexivity].
Qed.
Print Assumptions C192_opened.

(** When one does not, the goroutines of all messages after the next wait for ever, and the files
    begun for other shards stay at the data servers. *)
Theorem C192_stuck_refuted : forall pre post, ~ In (Lost false) pre ->
  stuck (pre ++ Lost false :: post) = length post - 1 /\
  orphans (pre ++ Lost false :: post) = length (filter (fun m => match m with There => false | Lost _ => true end) pre).
Proof.
  intros pre post H. unfold stuck, orphans. rewrite (take_fail pre post H), app_length. cbn [length]. split; [lia|reflexivity].
Qed.
Print Assumptions C192_stuck_refuted.

Example C192_stuck_nonvacuous :
  stuck [There; Lost true; Lost false; There; There; There] = 2 /\ orphans [There; Lost true; Lost false; There; There; There] = 1 /\
  stuck [There; Lost true; There] = 0.
Proof. repeat split. Qed.
