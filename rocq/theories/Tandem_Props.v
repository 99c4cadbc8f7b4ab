From Verif Require Import Tandem_Model Tandem_Spec Tandem_Proofs.
From Coq Require Import List Arith Lia.
Import ListNotations.

(** * Concrete data for the examples *)

(** Two servers, rows of four bytes. *)
Definition eight : setup := mk_setup 2 4 8.
Definition seven : setup := mk_setup 2 4 7.

(** The whole object in one request. *)
Definition all_eight : request := mk_request 0 [10; 11] None.
Definition all_seven : request := mk_request 0 [10] (Some (11, 3)).

Definition both (j c : nat) : list event := [Do j (Append c 0); Do j (Append c 1)].
Definition put (j i : nat) : list event := [Do j (Commit i); Do j (Forget i)].
Definition keep (j : nat) : list event := put j 0 ++ put j 1 ++ [Go j true].

Lemma eight_object : object eight [10; 11].
Proof. unfold object. cbn. lia. Qed.
Lemma seven_object : object seven [10; 11].
Proof. unfold object. cbn. lia. Qed.
Lemma all_eight_honest : honest eight [10; 11] all_eight.
Proof. left. exists 0. cbn. repeat split; lia. Qed.
Lemma all_seven_honest : honest seven [10; 11] all_seven.
Proof. left. exists 0. cbn. repeat split; lia. Qed.

(** A request cut off within the second row, then the rest, then another that comes too late. *)
Definition in_parts (j : nat) : request :=
  match j with
  | 0 => mk_request 0 [10] (Some (11, 2))
  | 1 => mk_request 4 [] (Some (11, 3))
  | _ => mk_request 7 [] None
  end.
Definition parts_run : list event :=
  [Begin 0; Go 0 true] ++ both 0 10 ++ [Go 0 true; Begin 1; Go 1 true] ++ both 1 11 ++ [Go 1 true] ++ keep 1 ++ [Begin 2].

Lemma in_parts_honest : forall j, honest seven [10; 11] (in_parts j).
Proof.
  intros [|[|j]].
  - left. exists 0. cbn. repeat split; lia.
  - left. exists 1. cbn. repeat split; lia.
  - right. repeat split.
Qed.

Ltac quiet_now := split; [intros [|[|[|j]]] p g; vm_compute; discriminate|vm_compute; reflexivity].
Ltac apart_now := cbn [apart app both keep put parts_run]; repeat (split; [first [exact Logic.I|quiet_now]|]); exact Logic.I.

(** * C190: several requests continue one upload at the same time *)

(** Requests one after another, each with what the object has at the offset it names and cut
    off anywhere: when one of them is answered with 200, every stored file is that of the
    object.  Full statement: without [apart]; missing: requests that overlap, see below. *)
Theorem C190_apart_partial : forall t w qs es j,
  object t w -> (forall j, honest t w (qs j)) -> apart t qs start es ->
  s_phase (run t qs start es) j = Done Stored ->
  forall i, i < t_shards t -> s_kept (run t qs start es) i = Some w.
Proof. intros t w qs es j O H A D. exact (apart_whole t w qs O H es j A D). Qed.
Print Assumptions C190_apart_partial.

Example C190_apart_nonvacuous : apart seven in_parts start parts_run /\
  let s := run seven in_parts start parts_run in
  s_phase s 0 = Done Partial /\ s_phase s 1 = Done Stored /\ s_phase s 2 = Done Failed /\ s_kept s 1 = Some [10; 11].
Proof. split; [apart_now|vm_compute; repeat split]. Qed.

(** However requests overlap: an answer of 200 means that a version was recorded for the request
    and that all files are stored. *)
Theorem C190_answered : forall t qs es j, s_phase (run t qs start es) j = Done Stored ->
  In j (s_saved (run t qs start es)) /\
  forall i, i < t_shards t -> exists l, s_kept (run t qs start es) i = Some l.
Proof. exact answered. Qed.
Print Assumptions C190_answered.

Example C190_answered_nonvacuous :
  s_phase (run seven in_parts start parts_run) 1 = Done Stored /\ s_saved (run seven in_parts start parts_run) = [1].
Proof. vm_compute. repeat split. Qed.

(** What is in a file was sent by one of the requests. *)
Theorem C190_source : forall t qs es i c l, let s := run t qs start es in
  s_tmp s i = Some l \/ s_kept s i = Some l -> In c l -> exists j, carries (qs j) c.
Proof. exact source. Qed.
Print Assumptions C190_source.

Example C190_source_nonvacuous : s_kept (run seven in_parts start parts_run) 1 = Some [10; 11] /\
  s_tmp (run seven in_parts start (firstn 4 parts_run)) 0 = Some [10].
Proof. vm_compute. split; reflexivity. Qed.

(** A stored file is never changed again. *)
Theorem C190_stays : forall t qs es es' i l,
  s_kept (run t qs start es) i = Some l -> s_kept (run t qs start (es ++ es')) i = Some l.
Proof. intros t qs es es' i l H. unfold run. rewrite fold_left_app. exact (run_kept t qs es' _ i l H). Qed.
Print Assumptions C190_stays.

Example C190_stays_nonvacuous : s_kept (run seven in_parts start parts_run) 0 = Some [10; 11].
Proof. vm_compute. reflexivity. Qed.

(** A request that names another offset than server 0 reports changes no file. *)
Theorem C190_refused : forall t qs s j n,
  s_phase s j = Idle -> current t s = Some n -> n <> q_first (qs j) ->
  let s' := step t qs s (Begin j) in
  s_phase s' j = Done Refused /\ s_tmp s' = s_tmp s /\ s_kept s' = s_kept s /\ s_saved s' = s_saved s.
Proof.
  intros t qs s j n H1 H2 H3. cbv zeta. cbn [step]. rewrite H1, H2. apply Nat.eqb_neq in H3. rewrite H3.
  split; [cbn [at_ s_phase]; apply upd_same|]. repeat split.
Qed.
Print Assumptions C190_refused.

Example C190_refused_nonvacuous : let s := run seven in_parts start (firstn 5 parts_run) in
  s_phase s 2 = Idle /\ current seven s = Some 4 /\ 4 <> q_first (in_parts 2).
Proof. vm_compute. repeat split. discriminate. Qed.

(** An object of one row survives any overlap of honest requests. *)
Theorem C190_one_row : forall t qs es j r, object t [r] -> (forall j, honest t [r] (qs j)) ->
  s_phase (run t qs start es) j = Done Stored ->
  forall i, i < t_shards t -> intact [r] (s_kept (run t qs start es) i).
Proof. exact single. Qed.
Print Assumptions C190_one_row.

Definition one : setup := mk_setup 2 4 3.
Definition one_run : list event :=
  [Begin 0; Begin 1; Go 0 true; Go 1 true] ++ both 0 10 ++ both 1 10 ++ [Go 0 true] ++ keep 0.
Example C190_one_row_nonvacuous : object one [10] /\ honest one [10] (mk_request 0 [] (Some (10, 3))) /\
  let s := run one (fun _ => mk_request 0 [] (Some (10, 3))) start one_run in
  s_phase s 0 = Done Stored /\ s_kept s 1 = Some [10; 10].
Proof.
  split; [unfold object; cbn; lia|]. split; [left; exists 0; cbn; repeat split; lia|vm_compute; repeat split].
Qed.

(** Refuted in general: the same honest request sent again while the first is still served.
    Each row is stored twice, 200 is answered, and no file is that of the object. *)
Definition twice_run : list event :=
  [Begin 0; Begin 1; Go 0 true; Go 1 true] ++ both 0 10 ++ both 1 10 ++ [Go 0 true; Go 1 true] ++
  both 0 11 ++ both 1 11 ++ [Go 0 true; Go 0 true] ++ keep 0.
Theorem C190_twice_refuted : exists t w qs es,
  object t w /\ (forall j, honest t w (qs j)) /\
  s_phase (run t qs start es) 0 = Done Stored /\
  forall i, i < t_shards t -> s_kept (run t qs start es) i = Some [10; 10; 11; 11] /\
                              ~ intact w (s_kept (run t qs start es) i).
Proof.
  exists eight, [10; 11], (fun _ => all_eight), twice_run.
  split; [exact eight_object|]. split; [intros _; exact all_eight_honest|]. split; [vm_compute; reflexivity|].
  intros i Hi. assert (E : s_kept (run eight (fun _ => all_eight) start twice_run) i = Some [10; 10; 11; 11]).
  { cbn in Hi. destruct i as [|[|i]]; [vm_compute; reflexivity|vm_compute; reflexivity|lia]. }
  rewrite E. split; [reflexivity|]. intros (l & F & G). injection F as <-. discriminate G.
Qed.
Print Assumptions C190_twice_refuted.

(** Files may even hold the rows in different orders, so that pieces of different rows are put
    together when the object is read. *)
Definition mixed_run : list event :=
  [Begin 0; Begin 1; Go 0 true; Go 1 true; Do 0 (Append 10 0); Do 0 (Append 10 1); Go 0 true;
   Do 1 (Append 10 0); Do 0 (Append 11 0); Do 0 (Append 11 1); Do 1 (Append 10 1);
   Go 1 true; Do 1 (Append 11 0); Do 1 (Append 11 1); Go 0 true; Go 0 true] ++ keep 0.
Theorem C190_mixed_refuted : exists t w qs es,
  object t w /\ (forall j, honest t w (qs j)) /\
  s_phase (run t qs start es) 0 = Done Stored /\
  s_kept (run t qs start es) 0 = Some [10; 10; 11; 11] /\ s_kept (run t qs start es) 1 = Some [10; 11; 10; 11].
Proof.
  exists eight, [10; 11], (fun _ => all_eight), mixed_run.
  split; [exact eight_object|]. split; [intros _; exact all_eight_honest|]. vm_compute. repeat split.
Qed.
Print Assumptions C190_mixed_refuted.

(** The size is asked of server 0 only: while one request flushes the last row, another that
    sends nothing is told that all is there, and stores the other files without that row. *)
Definition early_run : list event :=
  [Begin 0; Go 0 true] ++ both 0 10 ++ [Go 0 true; Do 0 (Append 11 0); Begin 1; Go 1 true; Go 1 true] ++ keep 1.
Definition early_reqs (j : nat) : request := match j with 0 => all_seven | _ => mk_request 7 [] None end.
Theorem C190_early_refuted : exists t w qs es,
  object t w /\ (forall j, honest t w (qs j)) /\
  s_phase (run t qs start es) 1 = Done Stored /\
  s_kept (run t qs start es) 0 = Some w /\ s_kept (run t qs start es) 1 = Some [10] /\
  ~ intact w (s_kept (run t qs start es) 1).
Proof.
  exists seven, [10; 11], early_reqs, early_run.
  split; [exact seven_object|]. split; [intros [|j]; [exact all_seven_honest|right; repeat split]|].
  split; [vm_compute; reflexivity|]. split; [vm_compute; reflexivity|].
  assert (E : s_kept (run seven early_reqs start early_run) 1 = Some [10]) by (vm_compute; reflexivity).
  rewrite E. split; [reflexivity|]. intros (l & F & G). injection F as <-. discriminate G.
Qed.
Print Assumptions C190_early_refuted.

(** One upload may be answered with 200 twice and give two versions. *)
Definition versions_run : list event :=
  [Begin 0; Begin 1; Go 0 true; Go 1 true] ++ [Go 0 true; Go 1 true] ++ both 0 10 ++ both 1 10 ++ [Go 0 true; Go 1 true] ++
  [Do 0 (Commit 0); Do 0 (Commit 1); Do 1 (Commit 0); Do 1 (Commit 1);
   Do 0 (Forget 0); Do 0 (Forget 1); Do 1 (Forget 0); Do 1 (Forget 1); Go 0 true; Go 1 true].
Theorem C190_versions_refuted : exists t w qs es,
  object t w /\ (forall j, honest t w (qs j)) /\
  s_phase (run t qs start es) 0 = Done Stored /\ s_phase (run t qs start es) 1 = Done Stored /\
  s_saved (run t qs start es) = [0; 1].
Proof.
  exists one, [10], (fun _ => mk_request 0 [] (Some (10, 3))), versions_run.
  split; [unfold object; cbn; lia|]. split; [intros _; left; exists 0; cbn; repeat split; lia|vm_compute; repeat split].
Qed.
Print Assumptions C190_versions_refuted.

(** A request that is too long takes the files from under an honest one, which has recorded its
    version already: the version stays without any file. *)
Definition taken_reqs (j : nat) : request := match j with 0 => all_seven | _ => mk_request 4 [11; 12] None end.
Definition taken_run : list event :=
  [Begin 0; Go 0 true] ++ both 0 10 ++ [Begin 1; Go 1 true] ++ both 1 11 ++ [Go 1 true] ++ both 1 12 ++
  [Go 1 true; Go 1 true; Go 0 true; Late (Forget 0); Late (Forget 1); Do 0 (Append 11 0)].
Theorem C190_taken_refuted : exists t w qs es,
  object t w /\ honest t w (qs 0) /\
  s_phase (run t qs start es) 1 = Done Exceeds /\ s_phase (run t qs start es) 0 = Done Failed /\
  s_saved (run t qs start es) = [0] /\
  forall i es', i < t_shards t -> s_kept (run t qs start (es ++ es')) i = None.
Proof.
  exists seven, [10; 11], taken_reqs, taken_run.
  split; [exact seven_object|]. split; [exact all_seven_honest|]. repeat (split; [vm_compute; reflexivity|]).
  intros i es' Hi. apply gone_run. cbn in Hi. destruct i as [|[|i]]; [vm_compute; auto|vm_compute; auto|lia].
Qed.
Print Assumptions C190_taken_refuted.
