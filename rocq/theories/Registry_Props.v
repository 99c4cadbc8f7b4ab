(** Properties of registration and discovery (C76-C79). *)
From Verif Require Import Str_Model Str_Proofs Meta_Model Meta_Proofs Registry_Model Registry_Spec Registry_Proofs.
From stdpp Require Import gmap.
From Coq Require Import Lia.
Local Open Scope list_scope.

(** ** C76: the copy of the registry is the registry *)

(** Full statement: whenever everything was delivered, the copy is what etcd holds below the
    prefix.  Missing: changes while no watch is set up. *)

(** Proved: an entry is that of etcd after the changes delivered so far, unless a change of it
    was missed and no later one delivered; whatever the past of the registry. *)
(** Partial.  Full statement: A server's copy of the registry holds, for each service, exactly the
    entries etcd holds, as of the changes delivered so far.  It fails in general: [C76_gap_refuted],
    [C76_left_refuted], [C76_fetch_refuted], [C76_self_refuted].  Refuted: the watch starts without
    a revision and after a cancellation nothing is fetched again, so a missed removal or addition
    stays wrong until that entry changes again; a failed fetch is never repeated; a server's own
    entry has another key and is counted twice. *)
Theorem C76_entry_partial : forall p k log ops i, Forall (fun o => ~ enters k o) ops ->
  w_phase (vrun p (vstart log) ops) = PWatch i -> missed p k (vstart log) ops false = false ->
  as_of p i (vrun p (vstart log) ops) k.
Proof. exact right_run. Qed.
Print Assumptions C76_entry_partial.

(** Proved: with no change between the fetch and the watch, and no cancelled watch, every entry
    but the server's own is right, and the copy is up to date once everything is delivered. *)
(** Partial; the full statement is at [C76_entry_partial]. *)
Theorem C76_calm_partial : forall p log ops, calm ops ->
  exists i, w_phase (vrun p (vstart log) ops) = PWatch i /\
    forall k, Forall (fun o => ~ enters k o) ops -> as_of p i (vrun p (vstart log) ops) k /\
      (length (w_log (vrun p (vstart log) ops)) <= i -> up_to_date p (vrun p (vstart log) ops) k).
Proof.
  intros p log ops C. destruct (calm_run p [] log ops C) as [_ [i P]]. exists i. split; [exact P|].
  intros k F. destruct (calm_run p k log ops C) as [M _]. pose proof (right_run p k log ops i F P M) as R.
  split; [exact R|]. intros L. unfold up_to_date, as_of in *. rewrite R. by rewrite take_ge.
Qed.
Print Assumptions C76_calm_partial.

Definition pfx : str := fmt_registry (s2l "goodfs"%string) (s2l "data"%string).
Definition k1 : str := pfx ++ s2l "/d1"%string.
Definition k2 : str := pfx ++ s2l "/d2"%string.
Definition k3 : str := fmt_registry (s2l "goodfs"%string) (s2l "api/a1"%string).
Definition a1 : str := s2l "10.0.0.1:80"%string.
Definition a2 : str := s2l "10.0.0.2:80"%string.

(** A calm run in which servers come and go. *)
Definition ops_calm : list vop :=
  [VEvent (EPut k1 a1); VSelf (s2l "self"%string) a2; VGet; VWatch; VEvent (EPut k2 a2); VDeliver;
   VEvent (EPut k3 a1); VEvent (EDel k1); VDeliver; VDeliver].
Example C76_calm_example : calm ops_calm /\
  w_phase (vrun pfx (vstart []) ops_calm) = PWatch 4 /\ length (w_log (vrun pfx (vstart []) ops_calm)) = 4 /\
  w_data (vrun pfx (vstart []) ops_calm) !! k1 = None /\ w_data (vrun pfx (vstart []) ops_calm) !! k2 = Some a2 /\
  w_data (vrun pfx (vstart []) ops_calm) !! k3 = None /\ etcd_at (w_log (vrun pfx (vstart []) ops_calm)) !! k3 = Some a1.
Proof.
  split; [|vm_compute; tauto].
  exists [VEvent (EPut k1 a1); VSelf (s2l "self"%string) a2], [],
    [VEvent (EPut k2 a2); VDeliver; VEvent (EPut k3 a1); VEvent (EDel k1); VDeliver; VDeliver].
  split; [reflexivity|]. split; [|split]; repeat (apply List.Forall_cons; [eauto 8|]); apply List.Forall_nil.
Qed.
(** A watch that is cancelled with nothing of [k1] undelivered: the entry stays right. *)
Definition ops_cancel : list vop :=
  [VGet; VWatch; VEvent (EPut k1 a1); VEvent (EPut k2 a2); VDeliver; VCancel; VWatch; VEvent (EPut k1 a2); VDeliver].
Example C76_entry_example :
  missed pfx k1 (vstart []) ops_cancel false = false /\ missed pfx k2 (vstart []) ops_cancel false = true /\
  w_phase (vrun pfx (vstart []) ops_cancel) = PWatch 3 /\ w_data (vrun pfx (vstart []) ops_cancel) !! k1 = Some a2.
Proof. vm_compute. tauto. Qed.

(** Refuted (etcd_discovery.go 50-63, 70-99): a change while no watch is set up is never learnt,
    until the same entry changes again: whatever else happens, a server that left stays in the
    copy, and one that came stays out of it. *)
Theorem C76_gap_refuted : forall p s k e ops, (w_phase s = PGot \/ w_phase s = PBroken) -> event_key e = k ->
  Forall (fun o => ~ enters k o /\ ~ changes k o) ops ->
  let s' := vrun p s (VEvent e :: ops) in
  w_data s' !! k = w_data s !! k /\ etcd_at (w_log s') !! k = apply_event (etcd_at (w_log s)) e !! k.
Proof.
  intros p s k e ops P K F. cbn zeta. rewrite vrun_cons.
  destruct (stuck_run p k ops (vstep p s (VEvent e)) F) as [D E].
  - unfold pending_clean. cbn. destruct P as [-> | ->]; done.
  - rewrite D, E. cbn. split; [done|]. by rewrite etcd_snoc.
Qed.
Print Assumptions C76_gap_refuted.
Theorem C76_left_refuted : forall p s k v ops, (w_phase s = PGot \/ w_phase s = PBroken) -> w_data s !! k = Some v ->
  Forall (fun o => ~ enters k o /\ ~ changes k o) ops ->
  let s' := vrun p s (VEvent (EDel k) :: ops) in w_data s' !! k = Some v /\ etcd_at (w_log s') !! k = None.
Proof.
  intros p s k v ops P E F. destruct (C76_gap_refuted p s k (EDel k) ops P eq_refl F) as [D E']. cbn zeta in *.
  rewrite D, E'. split; [exact E|]. cbn. apply lookup_delete.
Qed.
Print Assumptions C76_left_refuted.
Example C76_gap_example :
  let s := vrun pfx (vstart [EPut k1 a1]) [VGet] in
  w_phase s = PGot /\ w_data s !! k1 = Some a1 /\
  Forall (fun o => ~ enters k1 o /\ ~ changes k1 o) [VWatch; VEvent (EPut k2 a2); VDeliver] /\
  up_to_date pfx (vrun pfx s [VEvent (EDel k1); VWatch; VEvent (EPut k2 a2); VDeliver]) k2.
Proof.
  cbn zeta. split; [reflexivity|]. split; [reflexivity|]. split; [|reflexivity].
  repeat constructor; intros [x Y]; try discriminate; destruct Y as [Y1 Y2]; try discriminate; injection Y1 as <-; discriminate.
Qed.

(** Refuted (51-54): after a fetch that failed the copy never learns anything. *)
Theorem C76_fetch_refuted : forall p s k ops, w_phase s = PStart -> w_data s !! k = None -> Forall (fun o => ~ enters k o) ops ->
  w_data (vrun p s (VGetFail :: ops)) !! k = None.
Proof.
  intros p s k ops P D F. rewrite vrun_cons. rewrite dead_run; [|cbn; rewrite P; done|done]. cbn. rewrite P. exact D.
Qed.
Print Assumptions C76_fetch_refuted.
Example C76_fetch_example : let s := vrun pfx (vstart []) [VGetFail; VGet; VWatch; VEvent (EPut k1 a1); VDeliver; VGet] in
  w_data s !! k1 = None /\ etcd_at (w_log s) !! k1 = Some a1.
Proof. vm_compute. tauto. Qed.

(** Refuted (37-39, config.go 32-34): the entry a server makes for itself in its copy has another
    key than its entry in etcd; it stays, and in the copy of its own service it comes on top. *)
Theorem C76_self_refuted : forall p k v ops s, prefixb p k = false ->
  Forall (fun o => forall v', o = VSelf k v' -> v' = v) ops ->
  w_data (vrun p s (VSelf k v :: ops)) !! k = Some v.
Proof. intros p k v ops s P F. rewrite vrun_cons. apply self_run; [done|done|]. cbn. apply lookup_insert. Qed.
Print Assumptions C76_self_refuted.
Definition cfg1 : rcfg := mk_rcfg (s2l "goodfs"%string) (s2l "data"%string) (s2l "d1"%string) a1.
Example C76_self_example : prefixb pfx (self_key cfg1) = false /\ reg_key cfg1 RPlain = k1 /\
  let s := vrun pfx (vstart []) [VSelf (self_key cfg1) a1; VGet; VWatch; VEvent (EPut (reg_key cfg1 RPlain) a1); VDeliver] in
  map_to_list (w_data s) = [(self_key cfg1, a1); (k1, a1)] \/ map_to_list (w_data s) = [(k1, a1); (self_key cfg1, a1)].
Proof. split; [reflexivity|]. split; [reflexivity|]. vm_compute. tauto. Qed.

(** ** C77: servers are found by their ids *)

(** Full statement: the mapping of a service finds exactly its servers by their ids.  Missing:
    underscores in groups, names and ids; services whose names begin alike; default ids. *)
Theorem C77_mapping_partial : forall l kvs, Forall (fun x => readable x.1 x.2) l -> NoDup ((fun x => sid x.1) <$> l) ->
  Permutation kvs (map entry_of l) -> exists m, mapping kvs ∅ = Some m /\ finds m l.
Proof. exact mapping_perm. Qed.
Print Assumptions C77_mapping_partial.

(** Partial; the full statement is at [C77_mapping_partial]. *)
Theorem C77_roles_partial : forall mst l kvs,
  Forall (fun x => ~ In "/"%char (sid x.1) /\ ~ In "_"%char (sid x.1)) l -> NoDup ((fun x => sid x.1) <$> l) ->
  Permutation kvs (map entry_of l) ->
  forall i a, mapping_with mst kvs ∅ !! i = Some a <->
    exists x, x ∈ l /\ asked mst x.2 = true /\ sid x.1 = i /\ rc_addr x.1 = a.
Proof.
  intros mst l kvs F ND P i a. destruct (perm_entries l kvs P) as (l' & -> & P').
  rewrite (with_finds mst l' ∅).
  - rewrite lookup_empty. split.
    + intros [|(x & I & Q)]; [done|]. exists x. by rewrite P'.
    + intros (x & I & Q). right. exists x. by rewrite <- P'.
  - by rewrite <- P'.
  - by rewrite <- P'.
  - intros x _. apply lookup_empty.
Qed.
Print Assumptions C77_roles_partial.

Definition cfgm (i a : str) : rcfg := mk_rcfg (s2l "goodfs"%string) (s2l "meta"%string) i a.
Definition servers1 : list (rcfg * role) :=
  [(cfgm (s2l "m1"%string) a1, RMaster); (cfgm (s2l "m2"%string) a2, RSlave); (cfgm (s2l "m3"%string) a2, RPlain)].
Example C77_mapping_example : Forall (fun x => readable x.1 x.2) servers1 /\ NoDup ((fun x => sid x.1) <$> servers1) /\
  Forall (fun x => ~ In "/"%char (sid x.1) /\ ~ In "_"%char (sid x.1)) servers1 /\
  mapping_with false (map entry_of servers1) ∅ !! s2l "m2"%string = Some a2 /\
  mapping_with false (map entry_of servers1) ∅ !! s2l "m1"%string = None.
Proof.
  split; [repeat constructor; vm_compute; intuition discriminate|].
  split; [apply (bool_decide_eq_true_1 (NoDup _)); vm_compute; reflexivity|].
  split; [repeat constructor; vm_compute; intuition discriminate|]. vm_compute. tauto.
Qed.

(** Refuted (107-115): with an underscore in the group or the name of a service, the mapping
    panics as soon as it has a server without a role. *)
Theorem C77_panic_refuted : forall c kvs acc, ~ In "/"%char (sid c) -> ~ In "_"%char (sid c) ->
  In "_"%char (rc_group c) \/ In "_"%char (rc_name c) -> In (entry_of (c, RPlain)) kvs -> mapping kvs acc = None.
Proof. intros c kvs acc N1 N2 H I. exact (mapping_panics kvs acc _ _ I (key_id_panics c N1 N2 H)). Qed.
Print Assumptions C77_panic_refuted.
Definition cfg_u : rcfg := mk_rcfg (s2l "my_fs"%string) (s2l "data"%string) (s2l "d1"%string) a1.
Example C77_panic_example : ~ In "/"%char (sid cfg_u) /\ ~ In "_"%char (sid cfg_u) /\ In "_"%char (rc_group cfg_u) /\
  key_id (reg_key cfg_u RMaster) = FId (s2l "d1"%string).
Proof. vm_compute. intuition discriminate. Qed.

(** Refuted: a server without a role whose id has an underscore is listed under a shorter id. *)
Theorem C77_cut_refuted : forall c a b, sid c = a ++ "_"%char :: b -> ~ In "/"%char (sid c) -> ~ In "_"%char b ->
  mapping [entry_of (c, RPlain)] ∅ = Some {[ a := rc_addr c ]} /\ a <> sid c.
Proof.
  intros c a b E N1 N2. split.
  - cbn [mapping entry_of fst snd]. rewrite (key_id_truncates c a b E N1 N2). reflexivity.
  - rewrite E. intros Y. apply (f_equal (@length ascii)) in Y. rewrite app_length in Y. cbn in Y. lia.
Qed.
Print Assumptions C77_cut_refuted.
Example C77_cut_example : let c := cfgm (s2l "node_1"%string) a1 in sid c = s2l "node"%string ++ "_"%char :: s2l "1"%string.
Proof. reflexivity. Qed.

(** Refuted (152-157): a master whose id has an underscore is not found among the masters. *)
Theorem C77_master_refuted : forall c, ~ In "/"%char (sid c) -> In "_"%char (sid c) ->
  mapping_with true [entry_of (c, RMaster)] ∅ = ∅.
Proof. intros c N I. cbn [mapping_with entry_of fst snd]. by rewrite (key_id_with_lost c N I). Qed.
Print Assumptions C77_master_refuted.
Example C77_master_example : let c := cfgm (s2l "node_1"%string) a1 in
  ~ In "/"%char (sid c) /\ In "_"%char (sid c) /\ key_id (reg_key c RMaster) = FId (sid c).
Proof. vm_compute. intuition discriminate. Qed.

(** Which servers a service's prefix covers: those of all services whose names begin with its
    name.  Exact for names without a slash. *)
Theorem C77_service : forall n c r, ~ In "/"%char n ->
  prefixb (fmt_registry (rc_group c) n) (reg_key c r) = prefixb n (rc_name c).
Proof. exact prefix_service. Qed.
Print Assumptions C77_service.
Theorem C77_service_refuted : forall n x c r, rc_name c = n ++ x -> ~ In "/"%char n ->
  prefixb (fmt_registry (rc_group c) n) (reg_key c r) = true.
Proof. intros n x c r E N. rewrite prefix_service by done. rewrite E. apply prefixb_app. Qed.
Print Assumptions C77_service_refuted.
Example C77_service_example :
  prefixb (fmt_registry (s2l "goodfs"%string) (s2l "data"%string)) (reg_key (mk_rcfg (s2l "goodfs"%string) (s2l "datalog"%string) (s2l "x"%string) a1) RPlain) = true /\
  prefixb (fmt_registry (s2l "goodfs"%string) (s2l "data"%string)) (reg_key (cfgm (s2l "x"%string) a1) RPlain) = false.
Proof. vm_compute. tauto. Qed.

(** Default ids (config.go 36-44): addresses that agree up to the last dot have different ids. *)
(** Partial; the full statement is at [C77_mapping_partial]. *)
Theorem C77_default_partial : forall c1 c2 p l1 l2 q1 q2, rc_id c1 = [] -> rc_id c2 = [] -> rc_name c1 = rc_name c2 ->
  rc_addr c1 = p ++ "."%char :: l1 ++ ":"%char :: q1 -> rc_addr c2 = p ++ "."%char :: l2 ++ ":"%char :: q2 ->
  Forall is_digit l1 -> Forall is_digit l2 -> Forall is_digit q1 -> Forall is_digit q2 ->
  sid c1 = sid c2 -> rc_addr c1 = rc_addr c2.
Proof.
  intros c1 c2 p l1 l2 q1 q2 E1 E2 EN A1 A2 D1 D2 D3 D4 S. rewrite (sid_default c1 E1), (sid_default c2 E2), EN in S.
  apply app_inv_head in S. injection S as S. rewrite A1, A2 in S. apply dashes_inj in S as [-> ->]; try done. congruence.
Qed.
Print Assumptions C77_default_partial.
(** Refuted: dots are left out, so two servers of one subnet can share id and key; of the two
    only the last to register is in the registry. *)
Definition cfg_a : rcfg := mk_rcfg (s2l "goodfs"%string) (s2l "data"%string) [] (s2l "10.0.1.11:80"%string).
Definition cfg_b : rcfg := mk_rcfg (s2l "goodfs"%string) (s2l "data"%string) [] (s2l "10.0.11.1:80"%string).
Theorem C77_default_refuted : sid cfg_a = sid cfg_b /\ rc_addr cfg_a <> rc_addr cfg_b /\
  forall r, etcd_at [EPut (reg_key cfg_a r) (rc_addr cfg_a); EPut (reg_key cfg_b r) (rc_addr cfg_b)] =
    {[ reg_key cfg_a r := rc_addr cfg_b ]}.
Proof.
  split; [reflexivity|]. split; [discriminate|]. intros r. assert (reg_key cfg_b r = reg_key cfg_a r) as -> by reflexivity.
  unfold etcd_at. cbn [foldl apply_event]. rewrite insert_insert. reflexivity.
Qed.
Print Assumptions C77_default_refuted.
Example C77_default_example : let c1 := mk_rcfg (s2l "goodfs"%string) (s2l "data"%string) [] a1 in
  let c2 := mk_rcfg (s2l "goodfs"%string) (s2l "data"%string) [] a2 in
  rc_addr c1 = s2l "10.0.0"%string ++ "."%char :: s2l "1"%string ++ ":"%char :: s2l "80"%string /\ sid c1 <> sid c2 /\
  sid c1 = s2l "data-10001-80"%string /\ Forall is_digit (s2l "80"%string).
Proof. split; [reflexivity|]. split; [discriminate|]. split; [reflexivity|]. repeat constructor; vm_compute; discriminate. Qed.

(** ** C78: a running server stays registered *)

(** Full statement: as long as the server runs, whatever leases end, it gets registered again.
    Missing: requests for leases that fail, puts that fail. *)
(** Proved: after any history in which these do not fail, whenever the loop waits, its lease lives and
    no notification is under way, the server is registered under that lease; *)
(** Partial.  Full statement: Whatever leases end, a server that runs gets registered again.  It
    fails in general: [C78_grant_refuted], [C78_put_refuted].  Refuted: after one failed request for
    a lease the loop waits for its own lock for ever and Lease blocks; a failed put is not repeated
    while the lease lives. *)
Theorem C78_rest_partial : forall ops, Forall op_served ops ->
  let s := lrun life0 ops in lf_pc s = LWait -> In (lf_lease s) (lf_live s) -> lf_calls s = 0 ->
  lf_entry s = Some (lf_lease s).
Proof.
  intros ops F. cbn zeta. intros P L C. destruct (linv_run ops life0 F linv0) as (_ & _ & _ & I).
  destruct (I (or_intror P) L) as [H|H]; [lia|exact H].
Qed.
Print Assumptions C78_rest_partial.
(** and from anywhere a few steps lead to being registered; [Lease] never blocks for good. *)
(** Partial; the full statement is at [C78_rest_partial]. *)
Theorem C78_returns_partial : forall ops id, Forall op_served ops ->
  let s := lrun life0 ops in
  registered (lrun s (repeat (LStep (Some id) true) 7 ++ repeat (LCall true) (7 + lf_calls s))).
Proof. exact returns. Qed.
Print Assumptions C78_returns_partial.
Definition ops_life : list lop :=
  [LStep (Some 5%N) true; LStep (Some 5%N) true; LStep (Some 5%N) true; LStep (Some 5%N) true; LCall true; LExpire 5%N].
Example C78_example : Forall op_served ops_life /\
  lf_entry (lrun life0 (firstn 5 ops_life)) = Some 5%N /\ lf_entry (lrun life0 ops_life) = None /\
  lf_pc (lrun life0 ops_life) = LWait /\
  lf_entry (lrun (lrun life0 ops_life) (repeat (LStep (Some 6%N) true) 7 ++ repeat (LCall true) 7)) = Some 6%N.
Proof. split; [repeat constructor|vm_compute; tauto]. Qed.

(** Refuted (etcd_lifecycle.go 51-57): one failed request for a lease and the loop waits for its
    own lock for ever; the server is not registered again, and [Lease] blocks. *)
Theorem C78_grant_refuted : forall s k ops, lf_pc s = LGrant -> lf_lock s = true -> lf_calls s = 0 ->
  let s' := lrun s (LStep None k :: ops) in
  lease_blocks s' = true /\ forall l, lf_entry s' = Some l -> lf_entry s = Some l.
Proof.
  intros s k ops P L C. cbn zeta. change (lrun s (LStep None k :: ops)) with (lrun (lstep s (LStep None k)) ops).
  assert (jammed (lstep s (LStep None k))) as J by (cbn; rewrite P; split; [done|exact L]). split.
  - exact (proj2 (jam_run ops _ J)).
  - intros l E. apply jam_entry in E; [|exact J|cbn; rewrite P; exact C]. cbn in E. rewrite P in E. exact E.
Qed.
Print Assumptions C78_grant_refuted.
Example C78_grant_example : let s := lrun life0 (ops_life ++ [LStep None true; LStep None true]) in
  lf_pc s = LGrant /\ lf_lock s = true /\ lf_calls s = 0 /\ lf_entry s = None.
Proof. vm_compute. tauto. Qed.

(** Refuted (etcd_registry.go 94-97): a failed put is only logged; while the lease lives the
    server is not registered. *)
Theorem C78_put_refuted : forall s ops, lf_pc s = LWait -> lf_ctx s = true -> In (lf_lease s) (lf_live s) -> lf_calls s = 1 ->
  lf_entry s = None -> Forall (fun o => o <> LExpire (lf_lease s) /\ o <> LClose) ops ->
  lf_entry (lrun s (LCall false :: ops)) = None.
Proof.
  intros s ops P X L C E F. change (lf_entry (lrun (lstep s (LCall false)) ops) = None).
  apply idle_run; cbn; rewrite C; cbn; auto.
Qed.
Print Assumptions C78_put_refuted.
Example C78_put_example : let s := lrun life0 (firstn 4 ops_life) in
  lf_pc s = LWait /\ lf_ctx s = true /\ In (lf_lease s) (lf_live s) /\ lf_calls s = 1 /\ lf_entry s = None.
Proof. vm_compute. tauto. Qed.

(** ** C79: a metadata server is registered under its role only *)

(** Full statement: at any time with no call under way, the server has one entry at most, for the
    role of the last change, and it ends with the server's lease.  Missing: calls that overlap,
    changes before the first lease. *)
Theorem C79_one_partial : forall r id ops, r <> RPlain -> id <> 0%N -> Forall grants_ok ops ->
  let s := settled (member0 r) (MGrant id :: ops) in only_under (last_role r ops) s.
Proof.
  intros r id ops R N F. cbn zeta. change (settled (member0 r) (MGrant id :: ops)) with (settled (settle (member0 r) (MGrant id)) ops).
  pose proof (minv_first r id R N) as I. pose proof (minv_settled ops _ F I) as (_ & _ & U).
  rewrite settled_role in U by apply I. rewrite settle_role in U by done. exact U.
Qed.
Print Assumptions C79_one_partial.
(** While the lease lives, each lease and each change of role leaves the server registered. *)
(** Partial; the full statement is at [C79_one_partial]. *)
Theorem C79_registered_partial : forall r id ops o, r <> RPlain -> id <> 0%N -> Forall grants_ok (ops ++ [o]) ->
  (exists id', o = MGrant id') \/ (exists b, o = MLeader b) ->
  let s := settled (member0 r) (MGrant id :: ops ++ [o]) in
  In (mb_lease s) (mb_live s) -> mb_entry (last_role r (ops ++ [o])) s = Some (mb_lease s).
Proof.
  intros r id ops o R N F O. cbn zeta.
  change (settled (member0 r) (MGrant id :: ops ++ [o])) with (settled (settle (member0 r) (MGrant id)) (ops ++ [o])).
  pose proof (minv_first r id R N) as I. apply Forall_app in F as [F FO].
  pose proof (minv_settled ops _ F I) as I'. rewrite settled_app. set (s := settled (settle (member0 r) (MGrant id)) ops) in *.
  assert (mb_role s = last_role r ops) as ER.
  { unfold s. rewrite settled_role by apply I. by rewrite settle_role by done. }
  assert (last_role r (ops ++ [o]) = last_role (mb_role s) [o]) as ->.
  { rewrite ER. clear. revert r. induction ops as [|x ops IH]; intros r; [done|]. cbn [app last_role]. destruct x; apply IH. }
  change (settled s [o]) with (settle s o). intros L. destruct I' as (RS & LS & _). destruct O as [[id' ->]|[b ->]].
  - rewrite settle_grant in L |- * by done. destruct (mb_role s); done.
  - rewrite settle_lead in L |- * by done. cbn zeta in *. destruct (known (mb_lease s) s) eqn:K.
    + destruct (mb_role s), b; done.
    + exfalso. assert (In (mb_lease s) (mb_live s)) as L' by (destruct (mb_role s), b; done).
      unfold known in K. apply orb_false_iff in K as [_ K]. apply in_live in L'. congruence.
Qed.
Print Assumptions C79_registered_partial.
Definition ops_role : list mop := [MLeader true; MExpire 5%N; MGrant 6%N; MLeader false].
Example C79_example : Forall grants_ok ops_role /\
  mb_slave (settled (member0 RSlave) (MGrant 5%N :: ops_role)) = Some 6%N /\
  mb_master (settled (member0 RSlave) (MGrant 5%N :: ops_role)) = None /\
  mb_master (settled (member0 RSlave) (MGrant 5%N :: firstn 3 ops_role)) = Some 6%N.
Proof. split; [repeat constructor; discriminate|vm_compute; tauto]. Qed.

(** Refuted (registry_logic.go 11-18 against etcd_lifecycle.go 32-39): the put of a notification that
    has read the old key comes after its removal: both entries stay, under the live lease. *)
Theorem C79_both_refuted : exists ops, let s := mrun (member0 RSlave) ops in
  all_done s /\ mb_role s = RMaster /\ exists l, In l (mb_live s) /\ mb_master s = Some l /\ mb_slave s = Some l.
Proof.
  exists [MGrant 5%N; MStep 0; MStep 0; MLeader true; MStep 1; MStep 1; MStep 0; MStep 1; MStep 1; MStep 1; MStep 1].
  vm_compute. split; [repeat constructor|]. split; [reflexivity|]. exists 5%N. tauto.
Qed.
Print Assumptions C79_both_refuted.
(** Refuted (raft_impl.go 139-146): two changes of leadership run in goroutines of their own; when the
    later overtakes the earlier the server stays registered as a master though it has lost the lead. *)
Theorem C79_order_refuted : exists id ops1 ops2, let s := mrun (settle (member0 RSlave) (MGrant id)) ([MLeader true; MLeader false] ++ ops1 ++ ops2) in
  Forall (fun o => o = MStep 2) ops1 /\ Forall (fun o => o = MStep 1) ops2 /\
  all_done s /\ mb_role s = RMaster /\ mb_master s = Some id /\ mb_slave s = None.
Proof.
  exists 5%N, (repeat (MStep 2) 6), (repeat (MStep 1) 6). cbn zeta. split; [repeat constructor|]. split; [repeat constructor|].
  vm_compute. split; [repeat constructor|]. tauto.
Qed.
Print Assumptions C79_order_refuted.
(** Refuted (registry_logic.go 14, 16): a change before the first lease puts an entry without a lease,
    which outlives the server. *)
Theorem C79_lease_refuted : forall r b ids, r <> RPlain -> Forall (fun id => id <> 0%N) ids ->
  mb_entry (role_of b) (mrun (settle (member0 r) (MLeader b)) (map MExpire ids)) = Some 0%N.
Proof. intros r b ids R F. apply forever_run; [|exact F]. destruct r; [done| |]; destruct b; reflexivity. Qed.
Print Assumptions C79_lease_refuted.
Example C79_lease_example : mb_master (mrun (settle (member0 RSlave) (MLeader true)) (map MExpire [1%N; 2%N])) = Some 0%N.
Proof. reflexivity. Qed.
