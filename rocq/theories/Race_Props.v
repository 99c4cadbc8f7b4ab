(** Maps used by several goroutines (C118) and the pool of connections (C119). *)
From Coq Require Import List Bool Arith.
From Verif Require Import Race_Model Race_Spec Race_Proofs.
Import ListNotations.

(** ** C118: no map is accessed while another goroutine writes to it

    In full: [safe_for m ps] for every map and all programs that may run at the same time. *)

(** Maps only used under one lock are safe, whatever else the programs do. *)
Theorem C118_locked : forall l m ps, Forall (fun p => disciplined l m None p = true) ps -> safe_for m ps.
Proof. exact locked_safe. Qed.
Print Assumptions C118_locked.

(** So are maps that nobody writes, and maps of one goroutine. *)
Theorem C118_readers : forall m ps, Forall (writes_not m) ps -> safe_for m ps.
Proof. exact readers_safe. Qed.
Print Assumptions C118_readers.
Theorem C118_owner : forall m i ps, (forall j p, j <> i -> nth_error ps j = Some p -> untouched m p) -> safe_for m ps.
Proof. exact owner_safe. Qed.
Print Assumptions C118_owner.

(** The list of a service: any number of goroutines, each adding, removing and listing as
    often as it likes; only [combine] is missing. *)
Definition list_use (l m : nat) (p : list instr) : Prop := p = sl_add l m \/ p = sl_remove l m \/ exists n, p = sl_list l m n.
(** Partial.  Full statement: In every schedule of the goroutines that use a shared map, none
    accesses it while another one writes to it, which would end the process.  It fails in general:
    [C118_pool_refuted], [C118_selector_refuted], [C118_combine_refuted], [C118_services_refuted],
    [C118_contains_refuted], [C118_stat_refuted].  Refuted: getConn looks up without the lock;
    selectors read while another request refreshes; combine writes without the lock; the map of
    services is read while it is filled; WriteSyncSet.Contains; reports of measurements. *)
Theorem C118_list_partial : forall l m pss, Forall (Forall (list_use l m)) pss -> safe_for m (map (@concat instr) pss).
Proof.
  intros l m pss H. apply (locked_safe l). apply Forall_map. eapply Forall_impl; [|exact H]. intros ps Hp. cbn beta.
  apply closed_concat. eapply Forall_impl; [|exact Hp].
  intros p Q. destruct Q as [E|[E|(n & E)]]; subst p; [apply closed_add|apply closed_add|apply closed_list].
Qed.
Print Assumptions C118_list_partial.
Example C118_list_case : Forall (Forall (list_use 0 7)) [[sl_list 0 7 3; sl_add 0 7]; [sl_remove 0 7]; [sl_list 0 7 2]].
Proof.
  unfold list_use. repeat (apply Forall_cons || apply Forall_nil); try (left; reflexivity); try (right; left; reflexivity);
    right; right; eexists; reflexivity.
Qed.
(** Readers do get in at the same time. *)
Example C118_together :
  map t_in (m_threads (go (start [sl_list 0 7 3; sl_list 0 7 2]) [0; 1; 0; 1])) = [Some (7, false); Some (7, false)].
Proof. reflexivity. Qed.

(** The set of errors of a repair: goroutines that add and remove. *)
Definition set_use (l m : nat) (p : list instr) : Prop := p = ws_add l m \/ exists b, p = ws_remove l m b.
(** Partial; the full statement is at [C118_list_partial]. *)
Theorem C118_set_partial : forall l m pss, Forall (Forall (set_use l m)) pss -> safe_for m (map (@concat instr) pss).
Proof.
  intros l m pss H. apply (locked_safe l). apply Forall_map. eapply Forall_impl; [|exact H]. intros ps Hp. cbn beta.
  apply closed_concat. eapply Forall_impl; [|exact Hp].
  intros p Q. destruct Q as [E|(b & E)]; subst p; [apply closed_add|apply closed_ws_remove].
Qed.
Print Assumptions C118_set_partial.
Example C118_set_case : Forall (Forall (set_use 0 7)) [[ws_add 0 7; ws_remove 0 7 true]; [ws_add 0 7]].
Proof.
  unfold set_use. repeat (apply Forall_cons || apply Forall_nil); try (left; reflexivity); right; eexists; reflexivity.
Qed.

(** The first loading of the measurements of all services, as long as no service is being
    watched yet and no page is asked for; [o] is the map of the services. *)
(** Partial; the full statement is at [C118_list_partial]. *)
Theorem C118_load_partial : forall l o loads x,
  safe_for x (map (fun m : nat * (bool * bool) => load_prog l o (fst m) (fst (snd m)) (snd (snd m))) loads).
Proof. intros l o loads x. apply (locked_safe l). apply Forall_map, Forall_forall. intros [m [a b]] _. apply load_disciplined. Qed.
Print Assumptions C118_load_partial.

(** The pool of connections of the API server and of the admin server: a lookup while a new
    connection is entered ends the process. *)
Theorem C118_pool_refuted : ~ safe_for 7 [get_conn_miss 0 7; get_conn_hit 7].
Proof. intros S. apply (S [0; 0; 0; 0; 0; 0; 1]). reflexivity. Qed.
Print Assumptions C118_pool_refuted.
(** It needs a new address: lookups of known ones are safe. *)
(** Partial; the full statement is at [C118_list_partial]. *)
Theorem C118_pool_partial : forall m n, safe_for m (repeat (get_conn_hit m) n).
Proof.
  intros m n. apply readers_safe. apply Forall_forall. intros p I. apply repeat_spec in I. subst p.
  intros [E|[]]. discriminate E.
Qed.
Print Assumptions C118_pool_partial.

(** Choosing servers by space or load: of two requests at the time of a refresh one writes
    what the other reads, since it does not wait for the lock. *)
Theorem C118_selector_refuted : ~ safe_for 7 [pop_prog 0 7 2 true; pop_prog 0 7 2 true].
Proof. intros S. apply (S [0; 0; 1; 1]). reflexivity. Qed.
Print Assumptions C118_selector_refuted.
(** Partial; the full statement is at [C118_list_partial]. *)
Theorem C118_selector_partial : forall l m sizes, safe_for m (map (fun n => pop_prog l m n false) sizes).
Proof.
  intros l m sizes. apply readers_safe. apply Forall_map, Forall_forall. intros n _ I. unfold pop_prog, pop_reads in I. cbn [app] in I.
  apply repeat_spec in I. discriminate I.
Qed.
Print Assumptions C118_selector_partial.

(** The first fetch of a service's entries against a request that lists them, and against an
    entry that is added under the lock. *)
Theorem C118_combine_refuted :
  ~ safe_for 7 [sl_combine 7 1; sl_list 0 7 1] /\ ~ safe_for 7 [sl_combine 7 1; sl_add 0 7].
Proof. split; intros S; [apply (S [0; 1; 1])|apply (S [0; 1; 1])]; reflexivity. Qed.
Print Assumptions C118_combine_refuted.

(** The map of the lists, while the constructor still enters the next service. *)
Theorem C118_services_refuted : ~ safe_for 9 [disc_new 9 2 true; disc_init 9 7 1].
Proof. intros S. apply (S [0; 0; 0; 1]). reflexivity. Qed.
Print Assumptions C118_services_refuted.

(** A set that is asked while elements are added. *)
Theorem C118_contains_refuted : ~ safe_for 7 [ws_add 0 7; ws_contains 7].
Proof. intros S. apply (S [0; 0; 1]). reflexivity. Qed.
Print Assumptions C118_contains_refuted.

(** The measurements: two services that report for the first time; a new server that reports
    while a page is shown; loading against watching. *)
Theorem C118_stat_refuted :
  ~ safe_for 9 [add_prog 9 7 true true; add_prog 9 8 true true] /\
  ~ safe_for 7 [add_prog 9 7 false true; page_prog 9 7 2] /\
  ~ safe_for 9 [load_prog 0 9 7 true true; add_prog 9 8 false false].
Proof.
  split; [|split]; intros S.
  - apply (S [0; 0; 0; 1]). reflexivity.
  - apply (S [1; 1; 0; 0; 0; 0; 0; 1]). reflexivity.
  - apply (S [0; 0; 0; 0; 1]). reflexivity.
Qed.
Print Assumptions C118_stat_refuted.
(** Known servers of known services report safely. *)
(** Partial; the full statement is at [C118_list_partial]. *)
Theorem C118_stat_partial : forall o ms pages x,
  safe_for x (map (fun m => add_prog o m false false) ms ++ map (fun mn : nat * nat => page_prog o (fst mn) (snd mn)) pages).
Proof.
  intros o ms pages x. apply readers_safe. apply Forall_app. split.
  - apply Forall_map, Forall_forall. intros y _ [E|[E|[]]]; discriminate E.
  - apply Forall_map, Forall_forall. intros y _ [E|E]; [discriminate E|]. apply repeat_spec in E. discriminate E.
Qed.
Print Assumptions C118_stat_partial.

(** ** C119: one connection is made per address *)

Theorem C119_one : forall addrs l, one_each (pool_run (pool_new addrs) l).
Proof. exact pool_one. Qed.
Print Assumptions C119_one.

(** What a call returns is what the pool holds, from then on. *)
Theorem C119_kept : forall addrs l i a c, nth_error (p_calls (pool_run (pool_new addrs) l)) i = Some (GDone a (Some c)) ->
  p_conns (pool_run (pool_new addrs) l) a = Some c.
Proof. intros addrs l. apply (pi_done _ (pinv_run l _ (pinv_new addrs))). Qed.
Print Assumptions C119_kept.

(** No call is stuck: unless all have ended, some call can go on, however the dialling ends. *)
Theorem C119_progress : forall addrs l, let s := pool_run (pool_new addrs) l in
  (forall i c, nth_error (p_calls s) i = Some c -> left_of c = 0) \/
  exists i c, nth_error (p_calls s) i = Some c /\ forall ok, exists c', nth_error (p_calls (pool_step s (i, ok))) i = Some c' /\ left_of c' < left_of c.
Proof. exact pool_progress. Qed.
Print Assumptions C119_progress.

Example C119_case :
  p_calls (pool_run (pool_new [4; 4; 5]) [(0, true); (1, true); (1, true); (0, true); (1, true); (1, true); (2, true); (1, true);
    (0, true); (0, true); (2, true); (2, true); (2, false)]) = [GDone 4 (Some 0); GDone 4 (Some 0); GDone 5 None].
Proof. reflexivity. Qed.
