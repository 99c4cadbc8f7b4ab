(** Theorems about the database file of a metadata server. *)
From Coq Require Import List Arith Bool.
From Verif Require Import Storage_Model Storage_Spec Storage_Proofs.
Import ListNotations.

(** * C58: what was acknowledged is found after a restart *)

(** Wanted: whatever happens, a process started later finds the last installed
    snapshot followed by the acknowledged writes, and the running one reads it. *)

(** As long as no snapshot was installed this holds at every moment, whenever the
    process ends and however the calls interleave. *)
(** Partial.  Full statement: A metadata server process started at any time finds in its database
    file the last installed snapshot followed by every write acknowledged since, and the running
    process reads exactly that; reads do not fail while the server is up.  It fails in general:
    [C58_late_cleanup_refuted], [C58_crash_refuted], [C58_old_data_refuted],
    [C58_write_lost_refuted], [C58_read_failed_refuted].  Refuted otherwise: a late clean-up removes
    the live file, a killed process leaves the data under another name (the next start finds nothing
    or the data from before the snapshot), a write acknowledged during a switch is lost, a read
    fails. *)
Theorem C58_no_restore_partial : forall acts, ~ In ARestoreSwap acts ->
  let '(w, es) := run acts in found w = wanted es.
Proof. exact never_restored. Qed.
Print Assumptions C58_no_restore_partial.

(** With snapshots: when no write holds the database at a switch, [Stop] comes after
    every clean-up of a replaced file, and a process that installed a snapshot ends
    only after [Stop]. *)
(** Partial; the full statement is at [C58_no_restore_partial]. *)
Theorem C58_restart_partial : forall acts, run_safe blank acts ->
  let '(w, es) := run acts in
  (w_proc w = None -> found w = wanted es) /\ (w_proc w <> None -> readable w = Some (wanted es)).
Proof. exact restart_wanted. Qed.
Print Assumptions C58_restart_partial.

(** Under the same conditions a read that starts before [Stop] and is not overtaken by
    a switch gives exactly that. *)
(** Partial; the full statement is at [C58_no_restore_partial]. *)
Theorem C58_read_partial : forall acts, run_safe blank acts ->
  let '(w, es) := run acts in
  forall p, w_proc w = Some p -> p_stop p = PUp ->
  snd (step (fst (step w AReadLoad)) (ARead (length (p_readers p)))) = [ERead (Some (wanted es))].
Proof. exact fresh_read. Qed.
Print Assumptions C58_read_partial.

Local Definition restore (snap : list tok) : list action := [ARestoreWrite snap; ARestoreFlag; ARestoreSwap; ARestoreEnd].

(** One whole write. *)
Local Definition write (i : nat) (x : tok) : list action := [AWrite x; ACheck i; ALoad i; ACommit i].

(** While a snapshot is being installed the database takes no writes: a write made then, with
    all its steps, is refused and changes nothing. *)
Theorem C58_refused : forall acts x p, w_proc (fst (run acts)) = Some p ->
  (p_restore p = RSwapped \/ exists path snap, p_restore p = RFlagged path snap) ->
  let n := length (p_writers p) in
  let '(w, es) := run acts in let '(w', es') := run (acts ++ write n x) in
  es' = es /\ found w' = found w /\ readable w' = readable w /\
  exists p', w_proc w' = Some p' /\ nth_error (p_writers p') n = Some (x, WReturned false).
Proof.
  intros acts x p W B n. assert (p_ro p = true) as RO.
  { rewrite (flag_run acts blank []); [|discriminate|exact W]. destruct B as [->|(q & s & ->)]; reflexivity. }
  unfold run. rewrite fold_left_app. unfold run in W. destruct (fold_left _ acts (blank, [])) as [w es] eqn:E. cbn [fst] in W.
  pose proof (write_refused w es p x W RO) as R. cbv zeta in R. unfold run_from in R. fold n in R. fold (write n x) in R. rewrite R.
  split; [reflexivity|]. split; [reflexivity|]. split.
  - unfold readable. rewrite W. reflexivity.
  - eexists. split; [reflexivity|]. cbn [p_writers with_writers]. apply nth_error_end.
Qed.
Print Assumptions C58_refused.
Example C58_refused_case :
  let acts := [AOpen; ARestoreWrite [1; 2]; ARestoreFlag] in
  option_map p_restore (w_proc (fst (run acts))) = Some (RFlagged 1 [1; 2]) /\
  snd (run (acts ++ write 0 7 ++ [ARestoreSwap; ARestoreEnd] ++ write 1 8)) = [ERestored [1; 2]; EAck 8].
Proof. split; reflexivity. Qed.

(** Missing: the clean-up goroutine removes the file by its name (storage.go 141).  When
    [Stop] has already renamed the new file to that name (84), it removes the new one. *)
Theorem C58_late_cleanup_refuted : exists acts, let '(w, es) := run acts in
  w_proc w = None /\ In (EAck 7) es /\ wanted es = [1; 2; 7] /\ found w = [].
Proof.
  exists (AOpen :: restore [1; 2] ++ write 0 7 ++ [AClean 0; AStopClose; AStopRename; AClean 0; AExit]).
  vm_compute. repeat split; auto.
Qed.
Print Assumptions C58_late_cleanup_refuted.

(** Missing: a process that installed a snapshot and ends without [Stop] leaves the
    data under the other name; the next one opens an empty database. *)
Theorem C58_crash_refuted : exists acts, let '(w, es) := run acts in
  w_proc w = None /\ wanted es = [1; 2; 7] /\ found w = [].
Proof.
  exists (AOpen :: restore [1; 2] ++ write 0 7 ++ [AClean 0; AClean 0; AExit]). vm_compute. repeat split; auto.
Qed.
Print Assumptions C58_crash_refuted.

(** Missing: when the file of the replaced database was not removed yet, the next
    process opens it: the data from before the snapshot is back. *)
Theorem C58_old_data_refuted : exists acts, let '(w, es) := run acts in
  w_proc w = None /\ wanted es = [1; 2; 7] /\ found w = [5].
Proof.
  exists (AOpen :: write 0 5 ++ restore [1; 2] ++ write 1 7 ++ [AExit]). vm_compute. repeat split; auto.
Qed.
Print Assumptions C58_old_data_refuted.

(** Missing: a write that had passed the check (storage.go 56, 69) and taken the old
    database is acknowledged after the switch and is in the file being removed. *)
Theorem C58_write_lost_refuted : exists acts, let '(w, es) := run acts in
  es = [ERestored [1; 2]; EAck 7] /\ readable w = Some [1; 2].
Proof.
  exists ([AOpen; AWrite 7; ACheck 0; ALoad 0] ++ restore [1; 2] ++ [ACommit 0]). vm_compute. repeat split; auto.
Qed.
Print Assumptions C58_write_lost_refuted.

(** Missing: a read that had taken the old database fails once the clean-up closed it. *)
Theorem C58_read_failed_refuted : exists acts, let '(w, es) := run acts in
  In (ERead None) es /\ exists p, w_proc w = Some p /\ p_stop p = PUp.
Proof.
  exists (AOpen :: write 0 5 ++ [AReadLoad] ++ restore [5; 6] ++ [AClean 0; ARead 0]).
  vm_compute. split; [auto|]. eexists. split; reflexivity.
Qed.
Print Assumptions C58_read_failed_refuted.

(** Two processes: writes, a snapshot, writes, two more snapshots, a clean stop; the
    second finds everything and is killed after another write. *)
Definition st_demo : list action :=
  AOpen :: write 0 5 ++ restore [1; 2] ++ write 1 7 ++ [AClean 0; AClean 0] ++ restore [3] ++ restore [4; 4] ++
  write 2 8 ++ [AClean 1; AClean 2; AClean 2; AClean 1; AStopClose; AStopRename; AExit].

Example C58_nonvacuous :
  run_safe blank st_demo /\ snd (run st_demo) = [EAck 5; ERestored [1; 2]; EAck 7; ERestored [3]; ERestored [4; 4]; EAck 8] /\
  found (fst (run st_demo)) = [4; 4; 8] /\
  (let acts := st_demo ++ AOpen :: write 0 9 ++ [AWrite 10; ACheck 1; AExit] in
   run_safe blank acts /\ found (fst (run acts)) = [4; 4; 8; 9]).
Proof.
  split; [apply run_safe_dec; vm_compute; reflexivity|]. split; [vm_compute; reflexivity|]. split; [vm_compute; reflexivity|].
  split; [apply run_safe_dec; vm_compute; reflexivity|vm_compute; reflexivity].
Qed.
