(** At most one migration at a time (C08). *)
From Verif Require Import Str_Spec Owner_Model Status_Model Status_Spec Status_Proofs.
Local Notation length := List.length.
Local Open Scope list_scope.

(** ** C08: one migration at a time

    For every schedule of every set of calls, the history is one in which a
    migration starts only when none is running and the server is not closed, ends
    only in its own direction, and closing happens only when idle; the status
    says exactly which phase that is. *)
Theorem C08_one_at_a_time : forall kv l,
  exists p, phase_of (st_log (run (init kv) l)) = Some p /\ stands_for (st_status (run (init kv) l)) p.
Proof. intros kv l. apply i_phase, inv_run, inv_init. Qed.
Print Assumptions C08_one_at_a_time.

(** A start while a migration runs (or after closing) is refused and changes
    nothing but its own return value. *)
Theorem C08_second_refused : forall s tid d host slots ok,
  nth_error (st_threads s) tid = Some (PCall (Ready d host slots)) -> st_status s <> Normal ->
  act s (Step tid ok) = goto s tid (PDone false).
Proof. exact refused_start. Qed.
Print Assumptions C08_second_refused.

(** The slot table changes only by a [Save] or [Remove] that found the server
    idle when it began, for every schedule. *)
Theorem C08_table_checked : forall kv l l1 tid l2,
  st_log (run (init kv) l) = l1 ++ ETable tid :: l2 -> checked tid l1.
Proof. intros kv l. apply i_table, inv_run, inv_init. Qed.
Print Assumptions C08_table_checked.

Theorem C08_table_changes : forall s a, st_kv (act s a) <> st_kv s ->
  exists tid, a = Step tid true /\ st_log (act s a) = st_log s ++ [ETable tid] /\ st_status (act s a) = st_status s.
Proof. exact act_kv. Qed.
Print Assumptions C08_table_changes.

(** A change of the table that begins during a migration is refused. *)
Theorem C08_table_refused : forall s tid c ok,
  nth_error (st_threads s) tid = Some (PCall c) -> st_status s <> Normal ->
  (exists id info, c = Save id info) \/ (exists id, c = Remove id) ->
  act s (Step tid ok) = goto s tid (PDone false).
Proof. exact refused_write. Qed.
Print Assumptions C08_table_refused.

(** Full statement of the second half of C08: the table changes only while no
    migration is running, the recorded peer is the one of the running migration,
    and every migration ends.  Proved for calls that do not overlap. *)
Theorem C08_sequential_partial : forall kv l,
  let s := exec_all (init kv) l in
  (forall l1 tid l2, st_log s = l1 ++ ETable tid :: l2 -> phase_of l1 = Some Idle) /\
  fields_ok s /\ quiet s.
Proof.
  intros kv l s. destruct (sinv_all l (init kv) (sinv_init kv)) as [H1 H2 H3 H4]. auto.
Qed.
Print Assumptions C08_sequential_partial.

(** [StartMigration] running alone: whatever fails, the server is afterwards in
    the status it was in, and the table changed only if everything succeeded. *)
(** Partial; the full statement is at [C08_sequential_partial]. *)
Theorem C08_returns_partial : forall s host slots prepared moved found rest saved id sid,
  let s' := start_migration s host slots prepared moved found rest saved id sid in
  st_status s' = st_status s /\
  st_kv s' =
    match found with
    | Some cur => if prepared && moved && saved && status_eqb (st_status s) Normal
                  then kv_put (st_kv s) id (sid, rest cur) else st_kv s
    | None => st_kv s
    end.
Proof. intros. apply start_migration_alone. Qed.
Print Assumptions C08_returns_partial.

Definition h1 : str := s2l "10.0.0.1"%string.
Definition h2 : str := s2l "10.0.0.2"%string.
Definition r1 : list str := [s2l "0-5"%string].
Definition r2 : list str := [s2l "5-9"%string].
Definition grp : str := s2l "g"%string.

Example C08_nonvacuous :
  let s := exec_all (init []) [(Ready To h1 r1, true); (Ready From h2 r2, true); (Save grp (h1, r1), true);
                               (Finish To 0, true); (Save grp (h1, r1), true); (Close, true)] in
  st_log s = [EStart 0 To h1 r1; EFinish 3 To 0; ECheck 4; ETable 4; EClose 5] /\
  st_kv s = [(grp, (h1, r1))] /\ st_status s = Closed /\
  st_threads s = [PDone true; PDone false; PDone false; PDone true; PDone true; PDone true] /\
  st_status (start_migration (init [(grp, (h1, r1))]) h2 r1 true true (Some r1) (fun _ => []) true grp h1) = Normal /\
  st_kv (start_migration (init [(grp, (h1, r1))]) h2 r1 true true (Some r1) (fun _ => []) true grp h1) = [(grp, (h1, []))].
Proof. vm_compute. repeat split; reflexivity. Qed.

(** Check-then-act: a [Save] that began before the migration writes the table
    while the migration runs. *)
Theorem C08_table_refuted : exists l l1 tid l2 b,
  st_log (run (init []) l) = l1 ++ ETable tid :: l2 /\ phase_of l1 = Some (Busy b To) /\
  st_kv (run (init []) l) <> [] /\ st_status (run (init []) l) = MigTo.
Proof.
  exists [Invoke (Save grp (h1, r1)); Step 0 true; Invoke (Ready To h2 r1); Step 1 true; Step 0 true].
  exists [ECheck 0; EStart 1 To h2 r1], 0, [], 1. vm_compute. repeat split; discriminate.
Qed.
Print Assumptions C08_table_refuted.

(** A finished migration wipes the peer of the next one: the finish has switched
    the status, a new migration starts and records its peer, then the finish goes
    on to clear the two fields.  [AutoMigrate] refuses such a migration
    (hashslot_service.go:227) before its deferred finish is in place, all calls
    have returned, and the server stays in migrate-to whatever is called, except
    [FinishMigrateTo] which only [AutoMigrate] calls. *)
Theorem C08_stuck_refuted : exists l host slots,
  let s := run (init []) l in
  quiet s /\ last_start (st_log s) = Some (To, host, slots) /\ host <> [] /\
  get_migrate s To = (true, [], []) /\
  (forall l', (forall m, ~ In (Invoke (Finish To m)) l') -> st_status (run s l') = MigTo).
Proof.
  exists [Invoke (Ready To h1 r1); Step 0 true; Step 0 true; Step 0 true;
          Invoke (Finish To 0); Step 1 true;
          Invoke (Ready To h2 r2); Step 2 true; Step 2 true; Step 2 true;
          Step 1 true; Step 1 true], h2, r2.
  cbv zeta. match goal with |- quiet ?x /\ _ => remember x as s eqn:Es end. vm_compute in Es.
  split; [|split; [|split; [|split]]].
  - subst s. intros p H. cbn in H. repeat (destruct H as [<-|H]; [eexists; reflexivity|]). destruct H.
  - subst s. vm_compute. reflexivity.
  - discriminate.
  - subst s. vm_compute. reflexivity.
  - intros l' Hl'. apply (run_stuck l' s To); [subst s; reflexivity| |exact Hl'].
    subst s. intros p H [m ->]. cbn in H. repeat (destruct H as [H|H]; [discriminate H|]). destruct H.
Qed.
Print Assumptions C08_stuck_refuted.

(** [AutoMigrate] finishes twice, at line 251 and in the deferred call of line
    230.  A migration that starts in between is ended by the second finish of the
    first one: the server accepts writes again and a third migration may start,
    while the second is still sending.  The calls do not even overlap. *)
Theorem C08_double_finish_refuted : exists l l1 tid meant running l2,
  let s := exec_all (init []) l in
  st_log s = l1 ++ EFinish tid To meant :: l2 /\
  phase_of l1 = Some (Busy running To) /\ meant <> running /\
  (forall t, ~ In (EFinish t To running) (st_log s)) /\ st_status s = Normal.
Proof.
  exists [(Ready To h1 r1, true); (Finish To 0, true); (Ready To h2 r2, true); (Finish To 0, true)].
  exists [EStart 0 To h1 r1; EFinish 1 To 0; EStart 2 To h2 r2], 3, 0, 2, [].
  cbv zeta. match goal with |- st_log ?x = _ /\ _ => remember x as s eqn:Es end. vm_compute in Es. subst s.
  split; [reflexivity|]. split; [vm_compute; reflexivity|]. split; [discriminate|]. split; [|reflexivity].
  intros t H. cbn in H. repeat (destruct H as [H|H]; [discriminate H|]). destruct H.
Qed.
Print Assumptions C08_double_finish_refuted.

(** The same on the receiver: the prepare timer of a migration
    (hashslot_service.go:149-157) that has fired but not yet run its finish ends
    the next migration. *)
Theorem C08_timer_refuted : exists l l1 tid meant running l2,
  let s := run (init []) l in
  st_log s = l1 ++ EFinish tid From meant :: l2 /\
  phase_of l1 = Some (Busy running From) /\ meant <> running /\ st_status s = Normal.
Proof.
  exists [Invoke (Ready From h1 r1); Step 0 true; Step 0 true; Step 0 true;
          Invoke (Finish From 0);
          Invoke (Finish From 0); Step 2 true; Step 2 true; Step 2 true;
          Invoke (Ready From h2 r2); Step 3 true; Step 3 true; Step 3 true;
          Step 1 true].
  exists [EStart 0 From h1 r1; EFinish 2 From 0; EStart 3 From h2 r2], 1, 0, 3, [].
  vm_compute. repeat split; discriminate.
Qed.
Print Assumptions C08_timer_refuted.
