(** C37, C38, C55: moving objects between data servers. *)
From Coq Require Import Lia.
From Verif Require Export Migrate_Proofs.
Local Notation length := List.length.
Local Open Scope list_scope.

(** ** C37 *)

(** Leaving: the quotas of the remaining servers add up to at least what the
    leaving server holds (capacities whose sum a float64 holds exactly, 8 PiB). *)
(** Partial.  Full statement: When a data server leaves, the planned quotas of the remaining servers
    add up to at least the data it holds; when it joins, no server is asked to send more than its
    excess over the average.  It fails in general: [C37_leave_rounding_refuted],
    [C37_join_sends_more_refuted]. *)
Theorem C37_leave_covers_partial : forall self peers,
  peers <> [] -> Forall (fun kv => (0 <= snd kv)%Z) peers -> (0 < self)%Z -> (self + sum_of peers < 2 ^ 53)%Z ->
  exists plan, deviation_values self peers false = Some plan /\ (self <= sum_of plan)%Z
    /\ (forall k q, In (k, q) plan -> (0 < q)%Z /\ exists v, In (k, v) peers).
Proof. exact leave_plan. Qed.
Print Assumptions C37_leave_covers_partial.

(** Joining: [q] is at most the excess of [v] over the average. *)
(** Partial; the full statement is at [C37_leave_covers_partial]. *)
Theorem C37_join_excess_partial : forall self peers plan,
  Forall (fun kv => (0 <= snd kv)%Z) peers -> (0 <= self)%Z -> (self + sum_of peers < 2 ^ 53)%Z ->
  deviation_values self peers true = Some plan ->
  forall k q, In (k, q) plan ->
  exists v, In (k, v) peers /\ (0 < q)%Z /\
    (Z.of_nat (S (length peers)) * q <= Z.of_nat (S (length peers)) * v - (self + sum_of peers))%Z.
Proof. exact join_plan. Qed.
Print Assumptions C37_join_excess_partial.

(** The average is the ceiling of the exact quotient, although computed in float64. *)
Theorem C37_average_exact : forall total size,
  (0 <= total < 2 ^ 53)%Z -> (0 < size)%Z -> is_ceiling (ceil_div64 total size) total size.
Proof. exact ceil_div64_exact. Qed.
Print Assumptions C37_average_exact.

(** Beyond 2^53 bytes the rounding loses bytes: the quota is below what is held. *)
Theorem C37_leave_rounding_refuted : exists self peers plan,
  peers <> [] /\ Forall (fun kv => (0 <= snd kv)%Z) peers /\ (0 < self < 2 ^ 63)%Z /\
  deviation_values self peers false = Some plan /\ (sum_of plan < self)%Z.
Proof.
  exists (2 ^ 53 + 1)%Z, [([], 0%Z)], [([], 2 ^ 53)%Z].
  split; [discriminate|]. split; [apply Forall_cons; [cbn [snd]; lia|apply Forall_nil]|]. split; [lia|].
  split; [vm_compute; reflexivity|vm_compute; reflexivity].
Qed.
Print Assumptions C37_leave_rounding_refuted.

(** Following a plan that covers the files, every file is sent somewhere (each
    exactly once, in order, with its size). *)
Theorem C37_every_file_sent : forall targets files,
  targets <> [] ->
  Forall (fun f => (0 < snd f)%Z) files -> Forall (fun t => (0 < snd t)%Z) targets ->
  (sum_of files <= sum_of targets)%Z ->
  map (fun x => (fst (fst x), snd x)) (sending_plan targets files) = files.
Proof. exact plan_covers. Qed.
Print Assumptions C37_every_file_sent.

(** Leaving, from the plan to the files. *)
(** Partial; the full statement is at [C37_leave_covers_partial]. *)
Theorem C37_leave_moves_all_partial : forall self peers files,
  peers <> [] -> Forall (fun kv => (0 <= snd kv)%Z) peers -> (0 < self)%Z -> (self + sum_of peers < 2 ^ 53)%Z ->
  Forall (fun f => (0 < snd f)%Z) files -> (sum_of files <= self)%Z ->
  exists plan, deviation_values self peers false = Some plan
    /\ map (fun x => (fst (fst x), snd x)) (sending_plan plan files) = files
    /\ (forall x, In x (sending_plan plan files) -> In (snd (fst x)) (map fst peers)).
Proof.
  intros self peers files Hne Hp Hs Hlt Hf Hsum.
  destruct (leave_plan self peers Hne Hp Hs Hlt) as (plan & Hd & Hsp & Hin).
  assert (Hpl : plan <> []) by (intros ->; unfold sum_of in Hsp; cbn [fold_right] in Hsp; lia).
  exists plan. split; [exact Hd|]. split.
  - apply plan_covers; [exact Hpl|exact Hf| |lia].
    apply Forall_forall. intros [k q] H. exact (proj1 (Hin k q H)).
  - intros x Hx. destruct plan as [|[c q] ts]; [easy|]. cbn [sending_plan] in Hx.
    assert (Hk : forall k, In k (map fst ((c, q) :: ts)) -> In k (map fst peers)).
    { intros k Hk. apply in_map_iff in Hk as ([k' q'] & <- & Hk).
      destruct (Hin _ _ Hk) as (_ & v & Hv). apply in_map_iff. exists (k', v). split; [reflexivity|exact Hv]. }
    apply Hk. destruct (plan_targets _ _ _ _ _ Hx) as [->|H]; [left; reflexivity|right; exact H].
Qed.
Print Assumptions C37_leave_moves_all_partial.

(** Joining: a server asked for [q] bytes stops at the first file reaching the
    quota; without its last file it stays below. *)
Theorem C37_join_overshoot_one_file : forall c q files,
  (0 < q)%Z -> sending_plan [(c, q)] files <> [] ->
  (fold_right (fun x a => (snd x + a)%Z) 0%Z (removelast (sending_plan [(c, q)] files)) < q)%Z.
Proof. intros c q files Hq Hne. exact (single_overshoot files c q Hq Hne). Qed.
Print Assumptions C37_join_overshoot_one_file.

(** So a server can be made to send more than its excess. *)
Theorem C37_join_sends_more_refuted : exists c q files,
  (0 < q)%Z /\ (q < fold_right (fun x a => (snd x + a)%Z) 0%Z (sending_plan [(c, q)] files))%Z.
Proof. exists [], 1%Z, [([], 5%Z); ([], 7%Z)]. split; vm_compute; reflexivity. Qed.
Print Assumptions C37_join_sends_more_refuted.

Definition sA : str := list_ascii_of_string "a".
Definition sB : str := list_ascii_of_string "b".
Definition sC : str := list_ascii_of_string "c".

Example C37_witness :
  deviation_values 100 [(sA, 10%Z); (sB, 90%Z); (sC, 25%Z)] false = Some [(sA, 65%Z); (sC, 50%Z)]
  /\ sending_plan [(sA, 65%Z); (sC, 50%Z)] [(sA, 40%Z); (sB, 40%Z); (sC, 20%Z)]
     = [(sA, sA, 40%Z); (sB, sA, 40%Z); (sC, sC, 20%Z)]
  /\ deviation_values 0 [(sA, 10%Z); (sB, 90%Z); (sC, 25%Z)] true = Some [(sB, 58%Z)].
Proof. split; [vm_compute; reflexivity|]. split; vm_compute; reflexivity. Qed.

Example C37_hypotheses : let peers := [(sA, 10%Z); (sB, 90%Z); (sC, 25%Z)] in
  peers <> [] /\ Forall (fun kv => (0 <= snd kv)%Z) peers /\ (0 < 100)%Z /\ (100 + sum_of peers < 2 ^ 53)%Z
  /\ Forall (fun f => (0 < snd f)%Z) [(sA, 40%Z); (sB, 40%Z); (sC, 20%Z)]
  /\ (sum_of [(sA, 40%Z); (sB, 40%Z); (sC, 20%Z)] <= 100)%Z.
Proof.
  cbv zeta. split; [discriminate|]. split; [repeat (apply Forall_cons; [cbn [snd]; lia|]); apply Forall_nil|]. split; [lia|]. split; [vm_compute; reflexivity|].
  split; [repeat (apply Forall_cons; [cbn [snd]; lia|]); apply Forall_nil|vm_compute; discriminate].
Qed.

(** ** C38 *)

(** No object is lost at any point, for all failures and crash points, if uploads
    are finished, the receiver's leftovers are beginnings of the objects, and no
    second transfer of an object runs while one is between looking for the file
    and opening it. *)
(** Partial.  Full statement: At every point of a migration between data servers, each object is
    present on the sender or on the receiver in full.  It fails in general:
    [C38_empty_file_never_ends_refuted], [C38_same_size_leftover_refuted],
    [C38_overlapping_transfers_refuted], [C38_overlapping_creation_refuted],
    [C38_running_upload_refuted]. *)
Theorem C38_no_loss_partial : forall {B} (w : world B) (es : list event) n c,
  ready w -> calm_run w es -> Forall no_upload es ->
  s_dir w n = Some c -> present (run w es) n c.
Proof. intros B. exact no_loss. Qed.
Print Assumptions C38_no_loss_partial.

(** If the receiver looks and opens at once, any number of transfers of an object may overlap. *)
(** Partial; the full statement is at [C38_no_loss_partial]. *)
Theorem C38_no_loss_atomic_open_partial : forall {B} (w : world B) (es : list event) n c,
  ready w -> Forall no_look es -> Forall no_upload es ->
  s_dir w n = Some c -> present (run w es) n c.
Proof. intros B. exact no_loss_atomic_open. Qed.
Print Assumptions C38_no_loss_atomic_open_partial.

(** The messages sent for a file that is not empty are its bytes in order. *)
Theorem C38_stream_is_file : forall {B} (file : list B) maxbuf,
  file <> [] -> 0 < maxbuf ->
  exists fuel, forall fuel', fuel <= fuel' ->
  exists msgs, write_stream fuel' (length file) maxbuf file = Some msgs /\ List.concat msgs = file.
Proof.
  intros B file maxbuf Hne Hm. exists (S (length file)). intros fuel' Hf.
  unfold write_stream.
  destruct (send_loop_done (Nat.min (length file) maxbuf) fuel' file []) as (res & Hr & Hc).
  - destruct file; [easy|]. cbn [length]. lia.
  - lia.
  - exists res. split; [exact Hr|exact Hc].
Qed.
Print Assumptions C38_stream_is_file.

(** Sending an empty file never ends. *)
Theorem C38_empty_file_never_ends_refuted : forall {B} maxbuf fuel, write_stream fuel 0 maxbuf ([] : list B) = None.
Proof. intros B maxbuf fuel. apply send_loop_empty. Qed.
Print Assumptions C38_empty_file_never_ends_refuted.

Definition world1 (f : list nat) (r : option (list nat)) : world nat :=
  {| s_dir := fun n => if str_eq_dec n sA then Some f else None;
     r_dir := fun n => if str_eq_dec n sA then match r with Some _ => Some 0 | None => None end else None;
     r_data := fun _ => match r with Some d => d | None => [] end;
     r_next := 1; trs := [] |}.

(** The receiver holds a leftover of the same size with other bytes (an
    interrupted upload is padded to the block like a complete one): taken for the
    object, whose good copy is then deleted. *)
Theorem C38_same_size_leftover_refuted : exists (w : world nat) es n c,
  calm_run w es /\ Forall no_look es /\ Forall no_upload es /\ trs w = [] /\
  s_dir w n = Some c /\ ~ present (run w es) n c.
Proof.
  exists (world1 [1;2;0] (Some [1;0;0])), [MStart sA; MSend 0 9; MFinish 0 true; MDelete 0], sA, [1;2;0].
  split. { apply no_look_calm; [intros [|i] t b H; discriminate|repeat constructor]. }
  split; [repeat constructor|]. split; [repeat constructor|]. split; [reflexivity|]. split; [reflexivity|].
  intros [H|H]; vm_compute in H; discriminate.
Qed.
Print Assumptions C38_same_size_leftover_refuted.

(** Two transfers of one object: the second looks while the first has written a
    part, and removes the file after the first was acknowledged. *)
Theorem C38_overlapping_transfers_refuted : exists (w : world nat) es n c,
  ready w /\ Forall no_upload es /\ s_dir w n = Some c /\ ~ present (run w es) n c.
Proof.
  exists (world1 [1;2] None),
    [MStart sA; MStart sA; MSend 0 0; MLook 1; MSend 0 0; MSend 0 0; MFinish 0 true; MDelete 0; MSend 1 0; MBreak 1],
    sA, [1;2].
  split.
  { split; cbn [world1 trs r_dir s_dir].
    - reflexivity.
    - intros n ino H. destruct (str_eq_dec n sA); discriminate.
    - intros n m ino H. destruct (str_eq_dec n sA); discriminate.
    - intros n c f _ H. unfold r_file in H. cbn [world1 r_dir] in H. destruct (str_eq_dec n sA); discriminate. }
  split; [repeat constructor|]. split; [reflexivity|].
  intros [H|H]; vm_compute in H; discriminate.
Qed.
Print Assumptions C38_overlapping_transfers_refuted.

(** Both open the same new file: the acknowledged copy grows afterwards. *)
Theorem C38_overlapping_creation_refuted : exists (w : world nat) es n c f,
  ready w /\ Forall no_upload es /\ s_dir w n = Some c /\
  s_dir (run w es) n = None /\ r_file (run w es) n = Some f /\ length c < length f.
Proof.
  exists (world1 [1;2] None),
    [MStart sA; MStart sA; MLook 0; MLook 1; MSend 0 5; MSend 0 5; MFinish 0 true; MDelete 0; MSend 1 5],
    sA, [1;2], [1;2;1;2].
  split.
  { split; cbn [world1 trs r_dir s_dir].
    - reflexivity.
    - intros n ino H. destruct (str_eq_dec n sA); discriminate.
    - intros n m ino H. destruct (str_eq_dec n sA); discriminate.
    - intros n c f _ H. unfold r_file in H. cbn [world1 r_dir] in H. destruct (str_eq_dec n sA); discriminate. }
  split; [repeat constructor|]. split; [reflexivity|]. split; [vm_compute; reflexivity|]. split; [vm_compute; reflexivity|].
  cbn [length]. lia.
Qed.
Print Assumptions C38_overlapping_creation_refuted.

(** An upload to the sender still running is moved half and deleted; its rest goes nowhere. *)
Theorem C38_running_upload_refuted : exists (w : world nat) es n part rest,
  ready w /\ In (MUpload n rest) es /\ Forall no_look es /\
  s_dir w n = Some part /\ ~ present (run w es) n (part ++ rest) /\ s_dir (run w es) n = None.
Proof.
  exists (world1 [1;2] None), [MStart sA; MSend 0 5; MSend 0 5; MFinish 0 true; MDelete 0; MUpload sA [3]], sA, [1;2], [3].
  split.
  { split; cbn [world1 trs r_dir s_dir].
    - reflexivity.
    - intros n ino H. destruct (str_eq_dec n sA); discriminate.
    - intros n m ino H. destruct (str_eq_dec n sA); discriminate.
    - intros n c f _ H. unfold r_file in H. cbn [world1 r_dir] in H. destruct (str_eq_dec n sA); discriminate. }
  split; [do 5 right; left; reflexivity|]. split; [repeat constructor|]. split; [reflexivity|].
  split; [intros [H|H]; vm_compute in H; discriminate|vm_compute; reflexivity].
Qed.
Print Assumptions C38_running_upload_refuted.

(** A transfer over a half-received leftover, with the receiver stopping between
    looking and opening, a first attempt cut, and the sender's copy deleted at the end. *)
Definition wit_es : list (@event nat) :=
  [MStart sA; MSend 0 1; MBreak 0; MStart sA; MLook 1; MSend 1 0; MSend 1 5; MSend 1 5; MFinish 1 true; MDelete 1].

Example C38_witness : let w := world1 [1;2;3] (Some [1]) in
  ready w /\ Forall no_upload wit_es /\ calm_run w wit_es /\ s_dir w sA = Some [1;2;3]
  /\ s_dir (run w wit_es) sA = None /\ r_file (run w wit_es) sA = Some [1;2;3].
Proof.
  cbv zeta. split.
  { split; cbn [world1 trs r_dir s_dir r_next].
    - reflexivity.
    - intros n ino H. destruct (str_eq_dec n sA); [injection H as <-; lia|discriminate].
    - intros n m ino H H'. destruct (str_eq_dec n sA), (str_eq_dec m sA); try discriminate. congruence.
    - intros n c f Hc H. unfold r_file in H. cbn [world1 r_dir r_data] in H.
      destruct (str_eq_dec n sA); [|discriminate]. injection Hc as <-. injection H as <-.
      exists [2;3]. reflexivity. }
  split; [repeat constructor|]. split.
  { unfold wit_es. cbn [calm_run].
    assert (Hsmall : forall w : world nat,
      match trs w with
      | [] => True | [_] => True
      | [t0; t1] => t_stage t0 = Over \/ (match t_stage t0, t_stage t1 with Stated _, _ => False | _, Stated _ => False | _, _ => True end)
      | _ => False end -> calm w).
    { intros w H i j ti tj b Hi Hj Hij Hn Hs.
      destruct (trs w) as [|t0 [|t1 [|]]]; [destruct i; discriminate| | |destruct H].
      - destruct i as [|[|i]], j as [|[|j]]; try discriminate; try contradiction.
      - destruct i as [|[|[|i]]], j as [|[|[|j]]]; try discriminate; try contradiction; cbn in Hi, Hj;
          injection Hi as ->; injection Hj as ->.
        + destruct H as [H|H]; [congruence|]. rewrite Hs in H. destruct H.
        + destruct H as [H|H]; [intros Hl; apply Hl; exact H|]. rewrite Hs in H. destruct (t_stage tj); destruct H. }
    repeat (split; [apply Hsmall; vm_compute; try exact I; left; reflexivity|]).
    exact I. }
  split; [reflexivity|]. split; vm_compute; reflexivity.
Qed.

Example C38_witness_overlap : let w := world1 [1;2;3] None in
  let es := [MStart sA; MStart sA; MSend 0 1; MSend 1 0; MSend 0 5; MSend 1 5; MSend 1 0; MFinish 1 true; MDelete 1; MSend 0 0; MFinish 0 true] in
  Forall no_look es /\ Forall no_upload es /\ s_dir (run w es) sA = None /\ r_file (run w es) sA = Some [1;2;3].
Proof. cbv zeta. split; [repeat constructor|]. split; [repeat constructor|]. split; vm_compute; reflexivity. Qed.

(** ** C55: metadata after a move *)

(** Without failing groups, or with one group, an accepted move has no metadata
    group left with the old location. *)
(** Partial.  Full statement: When the move of an object between data servers is acknowledged, every
    metadata group that knows the object records the new server.  It fails in general:
    [C55_locations_updated_refuted]. *)
Theorem C55_locations_updated_partial : forall answers,
  meta_accepts answers = true ->
  length answers <= 2 \/ ~ In MetaFailed answers ->
  answers <> [] /\ Forall (fun a => a <> MetaFailed) answers.
Proof.
  intros answers Hacc Hc.
  assert (Hne : answers <> []) by (intros ->; discriminate).
  split; [exact Hne|].
  apply Forall_forall. intros a Hin ->.
  destruct Hc as [Hlen|Hno]; [|contradiction].
  destruct answers as [|a0 [|a1 [|a2 r]]]; [destruct Hin| | |cbn [length] in Hlen; lia].
  - destruct Hin as [->|[]]. discriminate.
  - destruct Hin as [->|[->|[]]]; [destruct a1|destruct a0]; discriminate.
Qed.
Print Assumptions C55_locations_updated_partial.

(** In general fewer than half of the groups may keep the old location. *)
Theorem C55_failures_below_half : forall answers,
  meta_accepts answers = true ->
  2 * length (filter (fun a => match a with MetaFailed => true | _ => false end) answers) < length answers.
Proof.
  intros answers H. unfold meta_accepts in H. destruct answers as [|a r] eqn:E; [discriminate|].
  rewrite <- E in *. set (f := length (filter _ answers)) in *.
  assert (Hl : f < (length answers + 1) / 2).
  { destruct (Nat.leb_spec ((length answers + 1) / 2) f); [discriminate|assumption]. }
  pose proof (Nat.div_mod (length answers + 1) 2 ltac:(lia)) as Hd.
  pose proof (Nat.mod_upper_bound (length answers + 1) 2 ltac:(lia)) as Hm. lia.
Qed.
Print Assumptions C55_failures_below_half.

(** The move is accepted, the sender deletes its copy, and the only group that
    knows the object still names the old server; also when no group knows it. *)
Theorem C55_locations_updated_refuted : exists answers,
  meta_accepts answers = true /\ In MetaFailed answers /\ ~ In Updated answers.
Proof. exists [Unknown; MetaFailed; Unknown]. split; [reflexivity|]. split; [right; left; reflexivity|]. intros [H|[H|[H|[]]]]; discriminate. Qed.
Print Assumptions C55_locations_updated_refuted.

Example C55_witness : meta_accepts [Unknown; Updated; Unknown] = true /\ meta_accepts [Updated; MetaFailed] = false.
Proof. split; reflexivity. Qed.
