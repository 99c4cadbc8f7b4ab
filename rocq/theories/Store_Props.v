(** C35: objects stored on a data server are read back unchanged. *)
From Verif Require Import Str_Model Str_Proofs Path_Model Path_Spec Path_Proofs Reader_Model Reader_Proofs Store_Model Store_Spec Store_Proofs.
Local Notation length := List.length.
Local Open Scope list_scope.

(** Full statement of C35: for every history of events, a read of [size] bytes
    from [off] of an object that was acknowledged as stored and not deleted
    since answers exactly these bytes.  It is false in the ways refuted below
    (range reads poison the cache and ignore the range, failed uploads are taken
    for complete ones, parallel uploads interleave, reads see unfinished
    uploads, late goroutines bring back deleted state).  Proved for all
    histories of complete uploads (PUT and commit) of the bytes a name stands
    for, reads of the whole object (or of more than the cache takes), deletes,
    cache evictions, restarts, changing drivers and goroutines running at any
    time and in any order. *)
Theorem C35_whole_read_right_partial :
  forall (B : Type) (zero : B) storage max_item mounts (content : str -> list B) drivers ops n b,
  good_mounts storage mounts -> incl drivers mounts ->
  Forall (safe max_item mounts content) ops -> good_name n ->
  answer zero storage max_item (empty_store drivers) ops (Get n 0 (length (content n))) = RBytes b ->
  b = content n.
Proof. intros B zero storage max_item mounts content drivers ops n b HM. exact (reads_right zero storage max_item mounts content HM drivers ops n b). Qed.
Print Assumptions C35_whole_read_right_partial.

(** In every state: HEAD answers "there" for a marked or cached name, and otherwise exactly
    when there is a file where the index, or without an entry a drive, has it. *)
Theorem C35_head : forall (B : Type) storage (s : store B) n,
  (cch s (locate_prefix ++ n) <> None \/ cch s n <> None -> fst (head storage s n) = ROk) /\
  (cch s (locate_prefix ++ n) = None -> cch s n = None ->
   (fst (head storage s n) = ROk <->
    exists p f, fs s p = Some f /\
      (path_last (idx s n) = Some p \/
       path_last (idx s n) = None /\ exists mp, In mp (drv s) /\ p = path_of storage mp n)) /\
   (fst (head storage s n) <> ROk -> fst (head storage s n) = RNotFound)).
Proof.
  intros B storage s n. unfold head, exist. split.
  - intros H. destruct (cch s (locate_prefix ++ n)); [reflexivity|]. destruct (cch s n); [reflexivity|]. destruct H; congruence.
  - intros -> ->. unfold find_path. destruct (path_last (idx s n)) as [p|].
    + destruct (fs s p) as [f|] eqn:F; cbn [fst]; (split; [|congruence]); split; intros H; try reflexivity; try discriminate H.
      * exists p, f. auto.
      * destruct H as (q & f & E & [H|[H _]]); congruence.
    + assert (M : forall l, match find_mount storage s l n with
                            | Some p => fs s p <> None /\ exists mp, In mp l /\ p = path_of storage mp n
                            | None => forall mp, In mp l -> fs s (path_of storage mp n) = None
                            end).
      { induction l as [|mp l IH]; cbn [find_mount]; [intros mp []|].
        destruct (fs s (path_of storage mp n)) as [f|] eqn:F.
        - split; [congruence|]. exists mp. split; [left; reflexivity|reflexivity].
        - destruct (find_mount storage s l n) as [p|].
          + destruct IH as [A (m & I & E)]. split; [exact A|]. exists m. split; [right; exact I|exact E].
          + intros m [<-|I]; [exact F|exact (IH m I)]. }
      specialize (M (drv s)). destruct (find_mount storage s (drv s) n) as [p|].
      * destruct M as [A (mp & I & ->)]. cbn [spawn with_tasks fs]. destruct (fs s (path_of storage mp n)) as [f|] eqn:F; [|congruence].
        cbn [fst]. split; [|congruence]. split; [|reflexivity]. intros _. exists (path_of storage mp n), f. split; [exact F|].
        right. split; [reflexivity|]. exists mp. auto.
      * cbn [fst]. split; [|congruence]. split; [discriminate|]. intros (p & f & F & [H|[_ (mp & I & ->)]]); [discriminate|].
        rewrite (M mp I) in F. discriminate.
Qed.
Print Assumptions C35_head.

(** ... and an object that was stored once stays readable as long as it is not
    deleted and its mount point stays. *)
(** Partial; the full statement is at [C35_whole_read_right_partial]. *)
Theorem C35_stored_stays_readable_partial :
  forall (B : Type) (zero : B) storage max_item mounts (content : str -> list B) drivers h1 h2 n m,
  good_mounts storage mounts -> good_name n -> In m mounts -> incl drivers mounts ->
  Forall (safe max_item mounts content) h1 -> Forall (fun o => ~ about n o) h1 ->
  In m (drv (run zero storage max_item (empty_store drivers) h1)) -> content n <> [] ->
  Forall (safe max_item mounts content) h2 -> Forall (keeps n m) h2 ->
  answer zero storage max_item (empty_store drivers) h1 (Put n m (content n)) = ROk /\
  answer zero storage max_item (empty_store drivers) (h1 ++ Put n m (content n) :: h2)
    (Get n 0 (length (content n))) = RBytes (content n).
Proof.
  intros B zero storage max_item mounts content drivers h1 h2 n m HM Hn Hm.
  exact (stored_found zero storage max_item mounts content HM n m Hn Hm drivers h1 h2).
Qed.
Print Assumptions C35_stored_stays_readable_partial.

Definition st : str := s2l "/objects/".
Definition ma : str := s2l "/mnt/a".
Definition mb : str := s2l "/mnt/b".
Definition o1 : str := s2l "8f14e45f.0".
Definition o2 : str := s2l "c9f0f895.1".
Definition bytes_of (n : str) : list nat :=
  if str_eq_dec n o1 then [1; 2; 3; 4; 5] else if str_eq_dec n o2 then [9; 8] else [7].

Lemma good_names : good_name o1 /\ good_name o2.
Proof.
  split; (split; [|split]);
    first [intros r H; discriminate H
          | intros H; vm_compute in H; repeat (destruct H as [H|H]; [discriminate H|]); exact H].
Qed.

Lemma good_ab : good_mounts st [ma; mb].
Proof.
  apply (same_length_good st [ma; mb] (s2l "/objects")).
  - reflexivity.
  - intros c H. vm_compute in H. repeat (destruct H as [<-|H]; [split; discriminate|]). destruct H.
  - intros m c [<-|[<-|[]]] H; vm_compute in H; repeat (destruct H as [<-|H]; [split; discriminate|]); destruct H.
  - intros m m' [<-|[<-|[]]] [<-|[<-|[]]]; reflexivity.
Qed.

(** A history with every kind of event allowed. *)
Definition h1 : list (op nat) :=
  [Put o2 ma [9; 8]; Run 0; Head o2; Run 0; Get o2 0 2; Run 1; Delete o2; Evict o2; Drivers [mb; ma]; Run 2; Run 2].
Definition h2 : list (op nat) :=
  [Run 3; Get o1 0 5; Evict (locate_prefix ++ o1); Restart; Head o1; Run 0; Put o1 mb [1; 2; 3; 4; 5];
   Commit ma o2 [9; 8; 0; 0]; Get o1 0 5; Delete o2; Run 0; Drivers [ma]; Evict o1].

Example C35_witness :
  good_mounts st [ma; mb] /\ good_name o1 /\
  Forall (safe 100 [ma; mb] bytes_of) (h1 ++ [Put o1 ma (bytes_of o1)] ++ h2) /\
  Forall (fun o => ~ about o1 o) h1 /\ Forall (keeps o1 ma) h2 /\
  In ma (drv (run 0 st 100 (empty_store [ma]) h1)) /\ bytes_of o1 <> [] /\
  answer 0 st 100 (empty_store [ma]) (h1 ++ Put o1 ma (bytes_of o1) :: h2) (Get o1 0 5) = RBytes [1; 2; 3; 4; 5].
Proof.
  destruct good_names as [G1 G2].
  split; [exact good_ab|]. split; [exact G1|]. split.
  { apply Forall_forall. intros o H. cbn [h1 h2 app In] in H.
    repeat (destruct H as [<-|H];
      [cbn [safe];
       first [exact I | assumption
             | split; [assumption|]; split; [cbn; tauto|reflexivity]
             | split; [assumption|]; left; split; reflexivity
             | split; [assumption|]; split; [cbn; tauto|]; exists [0; 0]; reflexivity
             | intros x Hx; cbn in Hx |- *; tauto]|]).
    destruct H. }
  split.
  { apply Forall_forall. intros o H. cbn [h1 In] in H.
    repeat (destruct H as [<-|H]; [cbn [about]; first [intros X; vm_compute in X; discriminate X | tauto]|]). destruct H. }
  split.
  { apply Forall_forall. intros o H. cbn [h2 In] in H.
    repeat (destruct H as [<-|H]; [cbn [keeps]; first [exact I | intros X; vm_compute in X; discriminate X | cbn; tauto]|]). destruct H. }
  split; [vm_compute; tauto|]. split; [discriminate|]. vm_compute. reflexivity.
Qed.

(** Violation: a range read leaves its bytes in the cache under the object's
    name; the next read of the whole object gets them. *)
Theorem C35_range_poisons_cache_refuted : exists ops b,
  ops = [Put o1 ma (bytes_of o1); Get o1 2 3; Run 4] /\
  answer 0 st 100 (empty_store [ma]) ops (Get o1 0 5) = RBytes b /\ b <> bytes_of o1.
Proof. eexists. exists [3; 4; 5]. split; [reflexivity|]. split; [vm_compute; reflexivity|discriminate]. Qed.
Print Assumptions C35_range_poisons_cache_refuted.

Example C35_head_case :
  let s := run 0 st 100 (empty_store [ma]) [Put o1 ma (bytes_of o1); Evict o1; Restart] in
  cch s (locate_prefix ++ o1) = None /\ cch s o1 = None /\ fst (head st s o1) = ROk /\
  fst (head st (run 0 st 100 (empty_store [ma]) [Put o1 ma (bytes_of o1); Run 0; Delete o1; Evict (locate_prefix ++ o1)]) o1) = RNotFound.
Proof. vm_compute. auto. Qed.

(** Violation: once the whole object is cached, a range read gets the object
    from its start. *)
Theorem C35_range_ignored_refuted : exists b,
  answer 0 st 100 (empty_store [ma]) [Put o1 ma (bytes_of o1); Run 1] (Get o1 2 3) = RBytes b /\
  b <> firstn 3 (skipn 2 (bytes_of o1)).
Proof. exists [1; 2; 3; 4; 5]. split; [vm_compute; reflexivity|discriminate]. Qed.
Print Assumptions C35_range_ignored_refuted.

(** Violation: an upload that broke off leaves its part of the file; a retry is
    acknowledged without storing anything, and reads get the part and zeros. *)
Theorem C35_failed_upload_kept_refuted : exists b,
  answer 0 st 100 (empty_store [ma]) [] (PutFails o1 ma [1; 2]) = RFail /\
  answer 0 st 100 (empty_store [ma]) [PutFails o1 ma [1; 2]] (Put o1 ma (bytes_of o1)) = ROk /\
  answer 0 st 100 (empty_store [ma]) [PutFails o1 ma [1; 2]; Put o1 ma (bytes_of o1)] (Get o1 0 5) = RBytes b /\
  b <> bytes_of o1.
Proof. exists [1; 2; 0; 0; 0]. split; [vm_compute; reflexivity|]. split; [vm_compute; reflexivity|]. split; [vm_compute; reflexivity|discriminate]. Qed.
Print Assumptions C35_failed_upload_kept_refuted.

(** Violation: a read during an upload answers the bytes written so far. *)
Theorem C35_read_during_upload_refuted : exists (data : list nat) b,
  data = repeat 5 (3 * block) /\
  answer 0 st 0 (empty_store [ma]) [PutBegin o1 ma data; PutWrite 0] (Get o1 0 (length data)) = RBytes b /\
  length b < length data.
Proof.
  exists (repeat 5 (3 * block)), (repeat 5 (2 * block)). split; [reflexivity|].
  split; [vm_compute; reflexivity|]. rewrite !repeat_length. pose proof block_pos. lia.
Qed.
Print Assumptions C35_read_during_upload_refuted.

(** Violation: two uploads of the same object at once both append to the file;
    both are acknowledged and the object has the pieces of both. *)
Theorem C35_parallel_uploads_refuted : exists (data : list nat) ops b,
  data = repeat 5 (2 * block) ++ repeat 6 block /\
  ops = [PutBegin o1 ma data; PutBegin o1 ma data; PutWrite 0; PutWrite 1; PutWrite 0; PutWrite 1] /\
  answer 0 st 0 (empty_store [ma]) ops (PutEnd 0) = ROk /\
  answer 0 st 0 (empty_store [ma]) (ops ++ [PutEnd 0]) (PutEnd 0) = ROk /\
  answer 0 st 0 (empty_store [ma]) (ops ++ [PutEnd 0; PutEnd 0]) (Get o1 0 (length data)) = RBytes b /\
  b = repeat 5 (3 * block) /\ b <> data.
Proof.
  exists (repeat 5 (2 * block) ++ repeat 6 block). eexists. exists (repeat 5 (3 * block)).
  split; [reflexivity|]. split; [reflexivity|].
  split; [vm_compute; reflexivity|]. split; [vm_compute; reflexivity|]. split; [vm_compute; reflexivity|].
  split; [reflexivity|].
  intros E. apply (f_equal (fun l => nth (2 * block) l 0)) in E. vm_compute in E. discriminate.
Qed.
Print Assumptions C35_parallel_uploads_refuted.

(** Violation: the goroutine that fills the cache may run after a delete; the
    deleted object is then still served. *)
Theorem C35_deleted_served_refuted : exists b,
  answer 0 st 100 (empty_store [ma]) [Put o1 ma (bytes_of o1); Delete o1; Run 1] (Get o1 0 5) = RBytes b.
Proof. exists [1; 2; 3; 4; 5]. vm_compute. reflexivity. Qed.
Print Assumptions C35_deleted_served_refuted.

(** Violation: an index goroutine of a look-up before the delete runs after the
    object was stored again on another mount point; the object, acknowledged
    and never deleted since, is not found. *)
Theorem C35_late_index_refuted : exists ops,
  ops = [Put o1 ma (bytes_of o1); Run 0; Run 0; Get o1 0 5; Delete o1; Run 3; Run 3; Drivers [mb; ma];
         Put o1 mb (bytes_of o1); Run 4; Run 2; Restart] /\
  answer 0 st 0 (empty_store [ma])
    [Put o1 ma (bytes_of o1); Run 0; Run 0; Get o1 0 5; Delete o1; Run 3; Run 3; Drivers [mb; ma]]
    (Put o1 mb (bytes_of o1)) = ROk /\
  answer 0 st 0 (empty_store [ma]) ops (Get o1 0 5) = RNotFound.
Proof.
  eexists. split; [reflexivity|]. split; vm_compute; reflexivity.
Qed.
Print Assumptions C35_late_index_refuted.
