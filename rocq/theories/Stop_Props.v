(** Theorems about stopping and starting again (C140-C142). *)
From stdpp Require Import list.
From Coq Require Import NArith.
From Verif Require Import Str_Model Registry_Model Stop_Model Stop_Spec Stop_Proofs.
Local Open Scope list_scope.

(** ** C140: requests being served when a server is told to stop are finished *)

(** API and admin servers: unless the 15 seconds run out, the process ends only after every
    request it took was served in full.  (Full statement: the same for all servers and
    however long it takes; see the refutations.) *)
Theorem C140_waits_partial : forall ops, Forall (fun o => o <> PTimer) ops ->
  pr_main (prun KWait proc0 ops) = MEnd -> Forall served (pr_reqs (prun KWait proc0 ops)).
Proof.
  intros ops F M. destruct (pinv_run ops proc0 F pinv0) as (_ & H). rewrite M in H. exact H.
Qed.

Example C140_waits_case :
  Forall (fun o => o <> PTimer) [PNew 2; PSignal; PMain; PStep 0; PStep 0; PNew 1; PStep 0; PMain; PMain; PMain] /\
  prun KWait proc0 [PNew 2; PSignal; PMain; PStep 0; PStep 0; PNew 1; PStep 0; PMain; PMain; PMain] = Proc [RGood] MEnd false false.
Proof. split; [repeat constructor; discriminate|vm_compute; reflexivity]. Qed.

(** No request that failed, at no time. *)
(** Partial; the full statement is at [C140_waits_partial]. *)
Theorem C140_never_fails_partial : forall ops, Forall (fun o => o <> PTimer) ops ->
  Forall (fun r => served r \/ running r) (pr_reqs (prun KWait proc0 ops)).
Proof.
  intros ops F. destruct (pinv_run ops proc0 F pinv0) as (_ & H).
  destruct (pr_main (prun KWait proc0 ops)).
  1,2: destruct H as (_ & H).
  all: revert H; apply List.Forall_impl.
  1,2: intros r [->|[n ->]]; [left; reflexivity|right; exists n, true; reflexivity].
  all: intros r ->; left; reflexivity.
Qed.

(** The servers do stop: when no request runs, the signal and three steps end the process. *)
Theorem C140_stops : forall k p, pr_main p = MServe -> Forall (fun r => ~ running r) (pr_reqs p) ->
  prun k p [PSignal; PMain; PMain; PMain] = Proc (pr_reqs p) MEnd (pr_timer p) false.
Proof.
  intros k [reqs main timer store] M F. cbn in M, F. subst main.
  assert (D : forallb rq_done reqs = true).
  { induction F as [|r l H _ IH]; [reflexivity|]. cbn. rewrite IH, andb_true_r.
    destruct r; try reflexivity. exfalso. apply H. eexists _, _. reflexivity. }
  assert (C : map rq_cut reqs = reqs).
  { induction F as [|r l H _ IH]; [reflexivity|]. cbn in D. apply andb_prop in D as (D1 & D2). cbn. rewrite (IH D2).
    destruct r; try reflexivity. discriminate D1. }
  unfold prun. cbn [foldl pstep pr_main pr_reqs pr_timer pr_store].
  destruct k; rewrite ?D, ?orb_true_r; cbn [pr_main pr_reqs pr_timer pr_store]; rewrite C; reflexivity.
Qed.

Example C140_stops_case : Forall (fun r => ~ running r) [RGood; RBad].
Proof. repeat constructor; intros (n & ok & H); discriminate H. Qed.

(** Once told to stop, API and admin servers take no new request. *)
Theorem C140_no_new : forall p n, pr_main p <> MServe -> pstep KWait p (PNew n) = p.
Proof. intros [reqs main timer store] n M. cbn in M. destruct main; try reflexivity. congruence. Qed.

(** Metadata and data servers never wait: whatever runs is cut off. *)
Theorem C140_hurry_refuted : forall p, pr_main p = MServe ->
  pr_main (prun KHurry p [PSignal; PMain; PMain; PMain]) = MEnd /\
  forall i r, pr_reqs p !! i = Some r -> running r ->
    pr_reqs (prun KHurry p [PSignal; PMain; PMain; PMain]) !! i = Some RCut.
Proof.
  intros [reqs main timer store] M. cbn in M. subst main. split; [reflexivity|].
  intros i r L (n & ok & ->). cbn in *. rewrite list_lookup_fmap, L. reflexivity.
Qed.

Example C140_hurry_refuted_case : pr_main (prun KHurry proc0 [PNew 3]) = MServe /\
  pr_reqs (prun KHurry proc0 [PNew 3]) !! 0 = Some (RWork 3 true) /\ running (RWork 3 true).
Proof. repeat split. eexists _, _. reflexivity. Qed.

(** ... or it goes on with the database closed and fails, and requests are even taken then. *)
Theorem C140_closed_refuted : forall n,
  pr_reqs (prun KHurry proc0 ([PSignal; PMain; PMain; PNew (S n)] ++ replicate (S (S n)) (PStep 0) ++ [PMain])) = [RBad].
Proof.
  intros n. unfold prun. rewrite foldl_app. cbn [foldl app].
  rewrite foldl_app.
  assert (H : forall m b, foldl (pstep KHurry) (Proc [RWork m b] MExit false false) (replicate (S m) (PStep 0)) =
    Proc [if (match m with O => b | _ => false end) then RGood else RBad] MExit false false).
  { induction m as [|m IH]; intros b; [reflexivity|].
    change (replicate (S (S m)) (PStep 0)) with (PStep 0 :: replicate (S m) (PStep 0)).
    cbn [foldl pstep pr_main pr_reqs lookup list_lookup rq_step pr_store insert list_insert pr_timer].
    rewrite andb_false_r, IH. destruct m; reflexivity. }
  change (pstep KHurry (pstep KHurry (pstep KHurry (pstep KHurry proc0 PSignal) PMain) PMain) (PNew (S n))) with
    (Proc [RWork (S n) true] MExit false false).
  rewrite H. reflexivity.
Qed.

(** When the 15 seconds are over, API and admin servers do the same. *)
Theorem C140_timer_refuted : forall p, pr_main p = MServe ->
  prun KWait p [PSignal; PTimer; PMain; PMain; PMain] = Proc (map rq_cut (pr_reqs p)) MEnd true false.
Proof. intros [reqs main timer store] M. cbn in M. subst main. reflexivity. Qed.

Example C140_timer_refuted_case :
  pr_reqs (prun KWait proc0 [PNew 1; PSignal; PTimer; PMain; PMain; PMain]) = [RCut].
Proof. reflexivity. Qed.

(** ** C141: the slots of a group survive stops, crashes and elections *)

(** As long as no server stops while it leads, the entry in etcd is what the last migration
    made of it, through any elections and crashes.  (Full statement: also over stops of
    leaders; see [C141_other_refuted].) *)
Theorem C141_kept_partial : forall ops s l, st_etcd s = Some l -> leaders_stay (st_leader s) ops ->
  st_etcd (srun s ops) = Some (last_slots (match st_leader s with Some _ => true | None => false end) l ops).
Proof. exact kept_run. Qed.

Example C141_kept_case :
  let s := Slotst (Some [s2l "0-100"%string]) (fun _ => [s2l "0-16384"%string]) (Some 0) in
  let ops := [SMigrate [s2l "0-50"%string]; SStop 1 false false; SCrash; SElect 1; SStop 0 false false] in
  leaders_stay (st_leader s) ops /\ st_etcd (srun s ops) = Some [s2l "0-50"%string].
Proof. cbn. repeat split; discriminate. Qed.

(** A leader that stops and is the next to lead finds the slots it had, whatever happens to
    the others meanwhile. *)
(** Partial; the full statement is at [C141_kept_partial]. *)
Theorem C141_same_partial : forall s i l ops, st_etcd s = Some l -> st_leader s = Some i -> Forall no_election ops ->
  st_etcd (srun s ([SStop i false false] ++ ops ++ [SElect i])) = Some l.
Proof.
  intros s i l ops E L F. unfold srun. rewrite foldl_app, foldl_app. cbn [foldl].
  set (s1 := sstep s (SStop i false false)).
  assert (S1 : st_etcd s1 = None /\ st_leader s1 = None /\ st_cfg s1 i = l).
  { unfold s1. cbn [sstep]. rewrite E, L, Nat.eqb_refl. cbn. unfold set_cfg. rewrite Nat.eqb_refl. auto. }
  destruct S1 as (E1 & L1 & C1). destruct (away_run ops s1 i l E1 L1 C1 F) as (E2 & L2 & C2).
  change (foldl sstep s1 ops) with (srun s1 ops). cbn [sstep save_slots st_etcd]. rewrite E2, C2. reflexivity.
Qed.

Example C141_same_case :
  let s := Slotst (Some [s2l "0-100"%string]) (fun _ => [s2l "0-16384"%string]) (Some 0) in
  Forall no_election [SStop 1 true false; SCrash] /\
  st_etcd (srun s ([SStop 0 false false] ++ [SStop 1 true false; SCrash] ++ [SElect 0])) = Some [s2l "0-100"%string].
Proof. split; [repeat constructor|vm_compute; reflexivity]. Qed.

(** A server that stops writes down the slots of its group, leader or not; the others' notes
    are left alone. *)
Theorem C141_notes : forall s i busy l, st_etcd s = Some l ->
  st_cfg (sstep s (SStop i false busy)) i = l /\
  (forall j, j <> i -> st_cfg (sstep s (SStop i false busy)) j = st_cfg s j) /\
  (st_etcd (sstep s (SStop i false busy)) = None <-> st_leader s = Some i /\ busy = false).
Proof.
  intros s i busy l E. cbn [sstep]. rewrite E. cbn [st_cfg st_etcd]. unfold set_cfg. rewrite Nat.eqb_refl.
  split; [reflexivity|]. split; [intros j J; apply Nat.eqb_neq in J; rewrite J; reflexivity|].
  destruct (st_leader s) as [j|]; cbn.
  - destruct (j =? i) eqn:B; cbn.
    + apply Nat.eqb_eq in B. subst j. destruct busy; cbn; [split; [discriminate|intros (_ & X); discriminate X]|tauto].
    + split; [discriminate|]. intros (X & _). injection X as ->. rewrite Nat.eqb_refl in B. discriminate B.
  - split; [discriminate|]. intros (X & _). discriminate X.
Qed.

(** The server that leads has in its configuration what is in etcd, at any time; so if it
    stops, even with etcd down, and is the next to lead, it finds its slots. *)
Theorem C141_leads : forall ops s, (forall i, st_leader s = Some i -> st_etcd s = Some (st_cfg s i)) ->
  forall i, st_leader (srun s ops) = Some i ->
    st_etcd (srun s ops) = Some (st_cfg (srun s ops) i) /\
    forall down, st_etcd (srun s (ops ++ [SStop i down false; SElect i])) = st_etcd (srun s ops).
Proof.
  intros ops s H i L. assert (G : forall i, st_leader (srun s ops) = Some i -> st_etcd (srun s ops) = Some (st_cfg (srun s ops) i)).
  { clear i L. revert s H. induction ops as [|o ops IH]; intros s H; [exact H|]. unfold srun. cbn [foldl].
    apply (IH (sstep s o)). intros i L. destruct o as [j|l| |j down busy]; cbn [sstep] in *.
    - injection L as <-. cbn [save_slots st_etcd st_cfg]. unfold set_cfg. rewrite Nat.eqb_refl. reflexivity.
    - destruct (st_leader s) as [j|] eqn:E; [|rewrite E in L; discriminate L]. injection L as <-.
      cbn [save_slots st_etcd st_cfg]. unfold set_cfg. rewrite Nat.eqb_refl. reflexivity.
    - discriminate L.
    - assert (L2 : st_leader s = Some i /\ j <> i).
      { destruct (st_leader s) as [k|] eqn:E.
        - destruct (Nat.eqb_spec k j) as [->|N]; destruct (st_etcd s); cbn [st_leader] in L; try discriminate L; injection L as ->; split; congruence.
        - destruct (st_etcd s); cbn [st_leader] in L; discriminate L. }
      destruct L2 as [L2 N]. specialize (H i L2). rewrite H, L2. apply not_eq_sym, Nat.eqb_neq in N. rewrite N. cbn [andb st_etcd st_cfg].
      destruct down; [reflexivity|]. unfold set_cfg. rewrite N. reflexivity. }
  split; [exact (G i L)|]. intros down. unfold srun in *. rewrite foldl_app. cbn [foldl sstep].
  specialize (G i L). rewrite G, L, Nat.eqb_refl. cbn [andb negb save_slots st_etcd st_cfg].
  destruct down; [reflexivity|]. unfold set_cfg. rewrite Nat.eqb_refl. reflexivity.
Qed.
Print Assumptions C141_leads.

Example C141_leads_case :
  let s := Slotst None (fun _ => [s2l "0-16384"%string]) None in
  (forall i, st_leader s = Some i -> st_etcd s = Some (st_cfg s i)) /\
  st_leader (srun s [SElect 0; SMigrate [s2l "0-100"%string]]) = Some 0 /\
  st_etcd (srun s [SElect 0; SMigrate [s2l "0-100"%string]; SStop 0 true false; SElect 0]) = Some [s2l "0-100"%string].
Proof. cbv zeta. split; [discriminate|]. split; vm_compute; reflexivity. Qed.

(** When the leader stops and another server is elected, the entry is what that one has in
    its configuration, whatever the group had. *)
Theorem C141_other_refuted : forall s i j down, st_leader s = Some i -> j <> i ->
  st_etcd s <> None ->
  st_etcd (srun s [SStop i down false; SElect j]) = Some (st_cfg s j).
Proof.
  intros s i j down L J E. unfold srun. cbn [foldl sstep]. rewrite L, Nat.eqb_refl.
  destruct (st_etcd s) as [l|]; [|congruence]. cbn [andb negb save_slots st_etcd st_cfg].
  destruct down; [reflexivity|]. unfold set_cfg. apply Nat.eqb_neq in J. rewrite J. reflexivity.
Qed.

(** So slots that were given to another group come back by a stop: two groups have them. *)
Example C141_other_refuted_case :
  let s := Slotst None (fun _ => [s2l "0-16384"%string]) None in
  st_etcd (srun s [SElect 0; SMigrate [s2l "0-100"%string]]) = Some [s2l "0-100"%string] /\
  st_etcd (srun s [SElect 0; SMigrate [s2l "0-100"%string]; SStop 0 false false; SElect 1]) = Some [s2l "0-16384"%string].
Proof. vm_compute. auto. Qed.

(** A server that stops while its group has no entry panics, which happens to each server
    that stops after its leader has stopped and before a new one is elected. *)
Theorem C141_panic_refuted : forall s i, st_leader s = Some i -> st_etcd s <> None ->
  stop_panics s false = false /\
  forall ops, Forall no_election ops -> stop_panics (srun s (SStop i false false :: ops)) false = true.
Proof.
  intros s i L E. destruct (st_etcd s) as [l|] eqn:El; [|congruence]. split; [unfold stop_panics; rewrite El; reflexivity|].
  intros ops F. change (srun s (SStop i false false :: ops)) with (srun (sstep s (SStop i false false)) ops).
  set (s1 := sstep s (SStop i false false)).
  assert (S1 : st_etcd s1 = None /\ st_leader s1 = None).
  { unfold s1. cbn [sstep]. rewrite El, L, Nat.eqb_refl. auto. }
  destruct (away_run ops s1 0 _ (proj1 S1) (proj2 S1) eq_refl F) as (E2 & _). unfold stop_panics. rewrite E2. reflexivity.
Qed.

Example C141_panic_refuted_case : Forall no_election [SStop 1 false false].
Proof. repeat constructor. Qed.

(** ** C142: a data server can leave and join again *)

(** Whatever is asked in whatever order, the services are started, then their closing
    functions run once each, the last first, then they are started again. *)
Theorem C142_turns : forall fs ops, in_turns fs (orun fs opener0 ops).2.
Proof. intros fs ops. apply (proj1 (turns_run fs ops) false). Qed.

(** Asking takes effect: after [Open] they run, after [Close] they do not. *)
Theorem C142_effect : forall fs ops o,
  op_opened (orun fs opener0 (ops ++ [o])).1 = match o with OOpen => true | OClose => false end.
Proof.
  intros fs ops o.
  assert (G : forall p, (op_closed p = true -> op_opened p = false) ->
    op_opened (orun fs p (ops ++ [o])).1 = match o with OOpen => true | OClose => false end).
  { induction ops as [|a r IH]; intros p I; cbn [app orun].
    - destruct o; cbn [ostep].
      + destruct (op_opened p) eqn:B; cbn; [exact B|reflexivity].
      + destruct (op_closed p) eqn:B; cbn; [apply I; reflexivity|reflexivity].
    - destruct (ostep fs p a) as [p1 l1] eqn:E.
      assert (I1 : op_closed p1 = true -> op_opened p1 = false).
      { destruct a; cbn [ostep] in E.
        - destruct (op_opened p) eqn:B; injection E as <- <-; [|discriminate].
          intros C. specialize (I C). congruence.
        - destruct (op_closed p) eqn:B; injection E as <- <-; [intros _; apply I; reflexivity|reflexivity]. }
      specialize (IH p1 I1). destruct (orun fs p1 (r ++ [o])) as [p2 l2]. exact IH. }
  apply G. reflexivity.
Qed.

Example C142_turns_case :
  orun [1; 2; 3] opener0 [OOpen; OOpen; OClose; OClose; OOpen] =
  (Opener true false [1; 2; 3], [OStarted; ORan 3; ORan 2; ORan 1; OStarted]).
Proof. reflexivity. Qed.

(** But the registration does not come back: the loop that keeps it is started on the
    lifecycle that was closed and ends by itself, and whenever it has ended there is no entry,
    for whatever leases, notifications and failures (as long as etcd keeps its connection). *)
Theorem C142_rejoin_refuted : forall s, lf_ctx s = false -> lf_pc s = LDone -> lf_entry s = None ->
  ~ In (lf_lease s) (lf_live s) -> lf_lock s = false ->
  (forall ops, Forall (fun o => match o with LStep _ k => k = true | _ => True end) ops ->
     lf_pc (lrun (life_again s) ops) = LDone -> lf_entry (lrun (life_again s) ops) = None) /\
  forall id, lf_pc (lrun (life_again s) (replicate 5 (LStep (Some id) true))) = LDone.
Proof.
  intros [pc lock lease live entry calls ctx] C P E L K.
  cbn [lf_ctx lf_pc lf_entry lf_lock lf_lease lf_live] in C, P, E, K, L. subst. split; [|reflexivity].
  intros ops F D. destruct (ainv_run ops (life_again (mk_life LDone false lease live None calls false)) F) as (_ & H).
  - split; [reflexivity|]. cbn. auto.
  - rewrite D in H. apply H.
Qed.

(** That is how the lifecycle is after a first life. *)
Example C142_rejoin_refuted_case :
  let s := lrun life0 [LStep None true; LStep (Some 7%N) true; LStep None true; LCall true; LStep None true; LClose; LStep None true] in
  lf_entry (lrun life0 [LStep None true; LStep (Some 7%N) true; LStep None true; LCall true; LStep None true]) = Some 7%N /\
  lf_ctx s = false /\ lf_pc s = LDone /\ lf_entry s = None /\ ~ In (lf_lease s) (lf_live s) /\ lf_lock s = false.
Proof. vm_compute. repeat split; tauto. Qed.

Print Assumptions C140_waits_partial.
Print Assumptions C140_never_fails_partial.
Print Assumptions C140_stops.
Print Assumptions C140_no_new.
Print Assumptions C140_hurry_refuted.
Print Assumptions C140_closed_refuted.
Print Assumptions C140_timer_refuted.
Print Assumptions C141_kept_partial.
Print Assumptions C141_same_partial.
Print Assumptions C141_notes.
Print Assumptions C141_other_refuted.
Print Assumptions C141_panic_refuted.
Print Assumptions C142_turns.
Print Assumptions C142_effect.
Print Assumptions C142_rejoin_refuted.
