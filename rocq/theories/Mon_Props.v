(** Theorems about the measurements the admin server shows. *)
From Verif Require Import Str_Model Str_Proofs Meta_Model Registry_Model Registry_Proofs Mon_Model Mon_Spec Mon_Proofs.
From stdpp Require Import gmap.
From Coq Require Import Lia.
Local Open Scope list_scope.

(** ** C120: the series of a server are its last 59 reports *)

(** What is kept, exactly: what etcd held when it was read (event [f]) and what was written
    from the setting up of the watch (event [w]) to the last delivered change ([i]). *)
Theorem C120_series_exact : forall dec group serv k log ops f w i, let m := mon_run dec group (mon_start log) ops in
  prefixb (fmt_system group serv) k = true -> alone (fmt_system group serv) k (mo_log m) -> mo_alive m = true ->
  mo_phase m serv = MWatching f w i \/ mo_phase m serv = MClosed f w i ->
  kept (mo_db m) serv (stat_id k) = shown dec (values k f w i (mo_log m)) /\ f <= w /\ w <= i /\ i <= length (mo_log m).
Proof. exact series_exact. Qed.
Print Assumptions C120_series_exact.

(** The full claim: every report after the reading is kept, [values k f f i].  It holds when
    nothing was written to the key between the reading and the watch. *)
Theorem C120_series_partial : forall dec group serv k log ops f w i, let m := mon_run dec group (mon_start log) ops in
  prefixb (fmt_system group serv) k = true -> alone (fmt_system group serv) k (mo_log m) -> mo_alive m = true ->
  mo_phase m serv = MWatching f w i -> puts k f w (mo_log m) = [] ->
  kept (mo_db m) serv (stat_id k) = shown dec (values k f f i (mo_log m)).
Proof.
  intros dec group serv k log ops f w i m PK AL AV PH G.
  destruct (series_exact dec group serv k log ops f w i PK AL AV (or_introl PH)) as (E & FW & WI & L). fold m in E, L. rewrite E. f_equal.
  unfold values. f_equal. assert (puts k f i (mo_log m) = puts k f w (mo_log m) ++ puts k w i (mo_log m)) as ->; [|rewrite G; reflexivity].
  unfold puts. rewrite <- omap_app. f_equal.
  rewrite <- (take_drop (w - f) (take (i - f) (drop f (mo_log m)))). f_equal.
  - rewrite take_take. f_equal. lia.
  - rewrite skipn_firstn_comm, drop_drop. f_equal; [lia|]. f_equal. lia.
Qed.
Print Assumptions C120_series_partial.

(** No series has more than 59 points, whatever the keys. *)
Theorem C120_bounded : forall dec group log ops s i,
  length (tl_cpu (kept (mo_db (mon_run dec group (mon_start log) ops)) s i)) <= 59 /\
  length (tl_mem (kept (mo_db (mon_run dec group (mon_start log) ops)) s i)) <= 59.
Proof.
  intros dec group log ops. apply bounded_run. intros s i. unfold kept. cbn [mon_start mo_db]. rewrite lookup_empty. cbn. lia.
Qed.
Print Assumptions C120_bounded.

(** Of more reports the last 59 are shown, in their order. *)
Theorem C120_window : forall dec vs, exists early late,
  reports dec vs = early ++ late /\ length late = Nat.min 59 (length (reports dec vs)) /\
  tl_cpu (shown dec vs) = map fst late /\ tl_mem (shown dec vs) = map snd late.
Proof.
  intros dec vs. set (r := reports dec vs). exists (take (length r - 59) r), (drop (length r - 59) r).
  split; [symmetry; apply take_drop|]. split; [rewrite drop_length; lia|].
  unfold shown, last_n. fold r. cbn. rewrite !map_length.
  change (drop (length r - 59) (fst <$> r) = fst <$> drop (length r - 59) r /\ drop (length r - 59) (snd <$> r) = snd <$> drop (length r - 59) r).
  rewrite !fmap_drop. split; reflexivity.
Qed.
Print Assumptions C120_window.

(** A small decoding for the examples: the processor's figure is the length. *)
Definition dec_ex (v : str) : record :=
  match v with
  | [] => Garbled
  | "?"%char :: _ => Incomplete
  | _ => Report (Z.of_nat (length v)) 1 3
  end.
Definition g_ex : str := s2l "g"%string.
Definition api_ex : str := s2l "api"%string.
Definition key_ex (x : string) : str := fmt_system g_ex api_ex ++ s2l x.

Lemma alone_check : forall p k log, forallb (fun e => negb (prefixb p (event_key e)) || negb (str_eqb (stat_id (event_key e)) (stat_id k)) || str_eqb (event_key e) k) log = true ->
  alone p k log.
Proof.
  intros p k log F e I P S0. rewrite forallb_forall in F. specialize (F e (proj1 (elem_of_list_In _ _) I)).
  rewrite P, S0, str_eqb_refl in F. cbn in F. apply str_eqb_eq in F. exact F.
Qed.

Definition run_ex : list mop :=
  [MFetch api_ex; MAdd api_ex; MWatch api_ex; MChange (EPut (key_ex "a"%string) (s2l "xx"%string)); MChange (EDel (key_ex "a"%string));
   MChange (EPut (key_ex "b"%string) (s2l "yyyyy"%string)); MChange (EPut (key_ex "a"%string) (s2l "xxx"%string));
   MDeliver api_ex; MDeliver api_ex; MDeliver api_ex; MDeliver api_ex].
Definition log_ex : list event := [EPut (key_ex "a"%string) (s2l "x"%string)].

Example C120_case :
  let m := mon_run dec_ex g_ex (mon_start log_ex) run_ex in
  prefixb (fmt_system g_ex api_ex) (key_ex "a"%string) = true /\ alone (fmt_system g_ex api_ex) (key_ex "a"%string) (mo_log m) /\
  mo_alive m = true /\ mo_phase m api_ex = MWatching 1 1 5 /\ puts (key_ex "a"%string) 1 1 (mo_log m) = [] /\
  tl_cpu (kept (mo_db m) api_ex (s2l "a"%string)) = [1; 2; 3]%Z /\ tl_cpu (kept (mo_db m) api_ex (s2l "b"%string)) = [5%Z] /\
  tl_mem (kept (mo_db m) api_ex (s2l "b"%string)) = [Some 34%N].
Proof.
  cbv zeta. split; [vm_compute; reflexivity|]. split; [apply alone_check; vm_compute; reflexivity|].
  repeat split; vm_compute; reflexivity.
Qed.

Example C120_window_case : exists vs, length (reports dec_ex vs) = 60 /\ length (tl_cpu (shown dec_ex vs)) = 59 /\ head (tl_cpu (shown dec_ex vs)) = Some 2%Z.
Proof. exists (s2l "x"%string :: repeat (s2l "yy"%string) 59). vm_compute. repeat split. Qed.

(** Of the reports written between the reading and the watch none is kept. *)
Theorem C120_gap_refuted : exists dec group serv k log ops f w i, let m := mon_run dec group (mon_start log) ops in
  prefixb (fmt_system group serv) k = true /\ alone (fmt_system group serv) k (mo_log m) /\ mo_alive m = true /\
  mo_phase m serv = MWatching f w i /\ i = length (mo_log m) /\ Forall (complete dec) (mo_log m) /\
  kept (mo_db m) serv (stat_id k) <> shown dec (values k f f i (mo_log m)).
Proof.
  exists dec_ex, g_ex, api_ex, (key_ex "a"%string), log_ex,
    [MFetch api_ex; MAdd api_ex; MChange (EPut (key_ex "a"%string) (s2l "xx"%string)); MWatch api_ex], 1, 2, 2. cbv zeta.
  split; [vm_compute; reflexivity|]. split; [apply alone_check; vm_compute; reflexivity|].
  split; [vm_compute; reflexivity|]. split; [vm_compute; reflexivity|]. split; [vm_compute; reflexivity|].
  split; [repeat constructor; vm_compute; discriminate|]. vm_compute. discriminate.
Qed.
Print Assumptions C120_gap_refuted.

(** After the channel of a watch was closed nothing is kept any more: the series of the
    service stay as they are for ever. *)
Theorem C120_closed_refuted : forall dec group m ops serv f w i, mo_phase m serv = MClosed f w i ->
  mo_phase (mon_run dec group m ops) serv = MClosed f w i /\
  forall id, kept (mo_db (mon_run dec group m ops)) serv id = kept (mo_db m) serv id.
Proof.
  intros dec group m ops serv f w i. revert m. induction ops as [|o ops IH]; intros m P; [split; [exact P|reflexivity]|].
  change (mon_run dec group m (o :: ops)) with (mon_run dec group (mon_step dec group m o) ops).
  assert (mo_phase (mon_step dec group m o) serv = MClosed f w i /\ forall id, kept (mo_db (mon_step dec group m o)) serv id = kept (mo_db m) serv id) as [P' K].
  { unfold mon_step. destruct (mo_alive m); [|split; [exact P|reflexivity]].
    destruct o as [e|s|s|s|s|s|s]; [split; [exact P|reflexivity]|..].
    all: destruct (decide (s = serv)) as [->|N]; [rewrite P; split; [exact P|reflexivity]|].
    all: destruct (mo_phase m s) as [|f1 [|[k0 v0] todo]|f1 w1 i1|f1 w1 i1]; try (split; [exact P|reflexivity]);
      cbn [after_add mo_phase mo_db].
    all: try (rewrite set_phase_other by congruence; split; [exact P|]; intros id; try reflexivity).
    - rewrite add_kept. apply not_eq_sym, str_eqb_neq in N. rewrite N. reflexivity.
    - destruct (mo_log m !! i1) as [[k v|k]|]; cbn [after_add mo_phase mo_db]; try (split; [exact P|reflexivity]).
      + destruct (prefixb _ k); cbn [after_add mo_phase mo_db]; rewrite set_phase_other by congruence; split; try exact P; try reflexivity.
        intros id. rewrite add_kept. apply not_eq_sym, str_eqb_neq in N. rewrite N. reflexivity.
      + rewrite set_phase_other by congruence. split; [exact P|reflexivity]. }
  destruct (IH _ P') as [Q1 Q2]. split; [exact Q1|]. intros id. rewrite Q2. apply K.
Qed.
Print Assumptions C120_closed_refuted.

Example C120_closed_case : exists ops, let m := mon_run dec_ex g_ex (mon_start log_ex) ops in
  mo_phase m api_ex = MClosed 1 1 1 /\ mo_alive m = true /\ length (mo_log m) = 2.
Proof.
  exists [MFetch api_ex; MAdd api_ex; MWatch api_ex; MClose api_ex; MChange (EPut (key_ex "a"%string) (s2l "xx"%string))].
  vm_compute. repeat split.
Qed.

(** Two servers whose keys end alike share one series. *)
Theorem C120_shared_refuted : exists dec group serv k1 k2 log ops, let m := mon_run dec group (mon_start log) ops in
  prefixb (fmt_system group serv) k1 = true /\ prefixb (fmt_system group serv) k2 = true /\ k1 <> k2 /\ mo_alive m = true /\
  kept (mo_db m) serv (stat_id k1) <> shown dec (values k1 0 0 2 (mo_log m)) /\ mo_phase m serv = MWatching 0 0 2.
Proof.
  exists dec_ex, g_ex, api_ex, (key_ex "a"%string), (key_ex "b/a"%string), [],
    [MFetch api_ex; MWatch api_ex; MChange (EPut (key_ex "a"%string) (s2l "x"%string)); MChange (EPut (key_ex "b/a"%string) (s2l "xx"%string));
     MDeliver api_ex; MDeliver api_ex].
  vm_compute. repeat split; discriminate.
Qed.
Print Assumptions C120_shared_refuted.

(** ** C121: reports and faults of etcd do not end the admin server *)

(** The full claim: [mo_alive] after every run.  It holds without failed readings and
    incomplete records. *)
Theorem C121_alive_partial : forall dec group log ops, Forall (complete dec) log ->
  (forall s, MFetchFail s ∉ ops) -> (forall e, MChange e ∈ ops -> complete dec e) ->
  mo_alive (mon_run dec group (mon_start log) ops) = true.
Proof.
  intros dec group log ops F NF CH. destruct (no_nil_run dec group ops (mon_start log) NF CH) as [A _]; [|exact A].
  split; [reflexivity|]. split; [exact F|]. intros s f todo Q. discriminate Q.
Qed.
Print Assumptions C121_alive_partial.

Example C121_alive_case : Forall (complete dec_ex) log_ex /\ (forall s, MFetchFail s ∉ run_ex) /\ (forall e, MChange e ∈ run_ex -> complete dec_ex e).
Proof.
  split; [repeat constructor; vm_compute; discriminate|]. split.
  - intros s I. apply elem_of_list_In in I. cbn in I. intuition discriminate.
  - intros e I. apply elem_of_list_In in I. unfold run_ex in I.
    repeat (destruct I as [I|I]; [first [discriminate I|injection I as <-; vm_compute; first [exact I|discriminate]]|]). destruct I.
Qed.

(** The first reading fails: the admin server ends. *)
Theorem C121_fetch_refuted : forall dec group m s, mo_phase m s = MStart -> mo_alive (mon_step dec group m (MFetchFail s)) = false.
Proof. intros dec group m s P. unfold mon_step. destruct (mo_alive m) eqn:A; [rewrite P; reflexivity|exact A]. Qed.
Print Assumptions C121_fetch_refuted.

Example C121_fetch_case : mo_phase (mon_start log_ex) api_ex = MStart.
Proof. reflexivity. Qed.

(** A record without processor or memory is delivered: the admin server ends. *)
Theorem C121_incomplete_refuted : forall dec group m s f w i k v, mo_phase m s = MWatching f w i -> mo_log m !! i = Some (EPut k v) ->
  prefixb (fmt_system group s) k = true -> dec v = Incomplete -> mo_alive (mon_step dec group m (MDeliver s)) = false.
Proof.
  intros dec group m s f w i k v P L PK D. unfold mon_step. destruct (mo_alive m) eqn:A; [|exact A]. rewrite P, L, PK. cbn. unfold add_stat. rewrite D. reflexivity.
Qed.
Print Assumptions C121_incomplete_refuted.

Example C121_incomplete_case : exists ops, let m := mon_run dec_ex g_ex (mon_start log_ex) ops in
  mo_phase m api_ex = MWatching 1 1 1 /\ mo_log m !! 1 = Some (EPut (key_ex "a"%string) (s2l "?"%string)) /\ mo_alive m = true /\
  prefixb (fmt_system g_ex api_ex) (key_ex "a"%string) = true /\ dec_ex (s2l "?"%string) = Incomplete.
Proof.
  exists [MFetch api_ex; MAdd api_ex; MWatch api_ex; MChange (EPut (key_ex "a"%string) (s2l "?"%string))]. vm_compute. repeat split.
Qed.

(** An ended server stays ended, with what it knew. *)
Theorem C121_ended : forall dec group ops m, mo_alive m = false -> mon_run dec group m ops = m.
Proof. exact dead_stays. Qed.
Print Assumptions C121_ended.

Example C121_ended_case : exists m, mo_alive m = false.
Proof. exists (mk_mon [] ∅ (fun _ => MStart) false). reflexivity. Qed.

(** Unreadable records alone do no harm and add nothing. *)
Theorem C121_garbled : forall dec db serv key v s i, dec v = Garbled ->
  kept (fst (add_stat dec db serv key v)) s i = kept db s i /\ snd (add_stat dec db serv key v) = AErr.
Proof.
  intros dec db serv key v s i D. split; [|unfold add_stat; rewrite D; reflexivity]. rewrite add_kept, D. destruct (_ && _); reflexivity.
Qed.
Print Assumptions C121_garbled.

Example C121_garbled_case : dec_ex [] = Garbled.
Proof. reflexivity. Qed.

(** ** C122: the pages show what was asked for *)

(** A page of processors of the API servers, by their number. *)
Theorem C122_usage_cpu : forall c db id, usage c db (s2l "cpu"%string) (s2l "0"%string) !! id =
  fmap (fun t => SCpu (tl_cpu t)) (default ∅ (db !! n_api c) !! id).
Proof. intros c db id. unfold usage. rewrite lookup_fmap. reflexivity. Qed.
Print Assumptions C122_usage_cpu.

(** In general: the servers of the kind, and each with its own series. *)
Theorem C122_usage : forall c db type server id s, usage c db type server !! id = Some s <->
  exists t, default ∅ (db !! name_of_no c (to_int_any server)) !! id = Some t /\
    s = (if str_eqb type (s2l "cpu"%string) then SCpu (tl_cpu t) else SMem (tl_mem t)).
Proof.
  intros c db type server id s. unfold usage. rewrite lookup_fmap.
  destruct ((default ∅ (db !! name_of_no c (to_int_any server)) : gmap str tline) !! id) as [t|]; cbn; split.
  - intros E. injection E as <-. exists t. split; reflexivity.
  - intros (t' & E & ->). injection E as <-. reflexivity.
  - discriminate.
  - intros (t' & E & _). discriminate E.
Qed.
Print Assumptions C122_usage.

(** The kinds by their numbers, and no servers for any other number. *)
Theorem C122_kinds : forall c n, name_of_no c n =
  match n with 0%Z => n_api c | 1%Z => n_meta c | 2%Z => n_data c | _ => [] end.
Proof.
  intros c n. unfold name_of_no. destruct (Z.eqb_spec n 0) as [->|N0]; [reflexivity|].
  destruct (Z.eqb_spec n 1) as [->|N1]; [reflexivity|]. destruct (Z.eqb_spec n 2) as [->|N2]; [reflexivity|].
  destruct n as [|[p|[p|p|]|]|p]; try reflexivity; congruence.
Qed.
Print Assumptions C122_kinds.

Theorem C122_no_kind : forall c db type server, db !! ([] : str) = None ->
  (to_int_any server < 0 \/ 2 < to_int_any server)%Z -> usage c db type server = ∅.
Proof.
  intros c db type server D H. unfold usage. rewrite C122_kinds.
  assert (match to_int_any server with 0%Z => n_api c | 1%Z => n_meta c | 2%Z => n_data c | _ => [] end = []) as ->.
  { destruct (to_int_any server) as [|[p|[p|p|]|]|p]; try reflexivity; destruct H as [H|H]; exfalso; vm_compute in H; discriminate H. }
  rewrite D. apply fmap_empty.
Qed.
Print Assumptions C122_no_kind.

Example C122_no_kind_case : (2 < to_int_any (s2l "3"%string))%Z /\ (to_int_any (s2l "-1"%string) < 0)%Z.
Proof. vm_compute. auto. Qed.

Definition c_ex : names := mk_names (s2l "api"%string) (s2l "meta"%string) (s2l "data"%string).
Definition db_ex : gmap str (gmap str tline) :=
  {[ s2l "api"%string := {[ s2l "a"%string := mk_tline [7%Z] [Some 3%N] ]}; s2l "meta"%string := {[ s2l "m"%string := mk_tline [8%Z] [None] ]} ]}.

Example C122_usage_case :
  usage c_ex db_ex (s2l "cpu"%string) (s2l "1"%string) !! s2l "m"%string = Some (SCpu [8%Z]) /\
  usage c_ex db_ex (s2l "mem"%string) (s2l "1"%string) !! s2l "m"%string = Some (SMem [None]) /\
  usage c_ex db_ex (s2l "cpu"%string) (s2l "1"%string) !! s2l "a"%string = None.
Proof. vm_compute. repeat split. Qed.

(** A kind of servers that cannot be read is taken for the API servers, a series of unknown
    name for memory; numbers without a kind show nothing. *)
Theorem C122_unreadable_refuted : forall c db type server,
  parse_digits server = None -> (forall r, server <> "-"%char :: r) -> (forall r, server <> "+"%char :: r) ->
  usage c db type server = usage c db type (s2l "0"%string).
Proof.
  intros c db type server P M Q. unfold usage. assert (to_int_any server = 0%Z) as ->; [|reflexivity].
  unfold to_int_any. destruct server as [|ch r]; [reflexivity|].
  destruct (decide (ch = "-"%char)) as [->|N1]; [destruct (M r); reflexivity|].
  destruct (decide (ch = "+"%char)) as [->|N2]; [destruct (Q r); reflexivity|].
  assert (forall (a b d : Z), match ch with "-"%char => a | "+"%char => b | _ => d end = d) as R.
  { intros a b d. destruct ch as [[] [] [] [] [] [] [] []]; try reflexivity; exfalso; first [apply N1; reflexivity|apply N2; reflexivity]. }
  rewrite P in *. rewrite R. reflexivity.
Qed.
Print Assumptions C122_unreadable_refuted.

Example C122_unreadable_case :
  usage c_ex db_ex (s2l "cpu"%string) (s2l "meta"%string) !! s2l "a"%string = Some (SCpu [7%Z]) /\
  usage c_ex db_ex (s2l "CPU"%string) (s2l "0"%string) !! s2l "a"%string = Some (SMem [Some 3%N]) /\
  usage c_ex db_ex (s2l "cpu"%string) (s2l "99999999999999999999"%string) !! s2l "a"%string = None /\
  parse_digits (s2l "meta"%string) = None.
Proof. vm_compute. repeat split. Qed.

(** The overview is the series of one server, whichever the iteration gives last, and not an
    average: the full claim is that it depends on all of them and on no order. *)
Theorem C122_overview_refuted : forall l x, overview (l ++ [x]) = Some (snd x).
Proof. exact overview_last. Qed.
Print Assumptions C122_overview_refuted.

(** With one server it is right. *)
(** Partial.  Full statement: A request for a kind of servers and a series gets the series of
    exactly these servers or an error, and the overview of a kind does not depend on the order of
    iteration.  It fails in general: [C122_unreadable_refuted], [C122_overview_refuted].  Refuted:
    unreadable kinds are taken for the API servers and unknown series for memory; the overview is
    the series of whichever server comes last. *)
Theorem C122_overview_partial : forall order order', length order <= 1 -> Permutation order order' ->
  overview order = overview order' /\ overview order = fmap snd (head order).
Proof.
  intros order order' L P. destruct order as [|x [|y o]]; cbn in L; [| |lia].
  - apply Permutation_nil in P. subst order'. split; reflexivity.
  - apply Permutation_length_1_inv in P. subst order'. split; reflexivity.
Qed.
Print Assumptions C122_overview_partial.

Example C122_overview_case : exists a b, overview [a; b] <> overview [b; a] /\ Permutation [a; b] [b; a].
Proof.
  exists (s2l "a"%string, mk_tline [1%Z] []), (s2l "b"%string, mk_tline [2%Z] []). split; [vm_compute; discriminate|]. constructor.
Qed.

(** ** C123: the list of servers *)

(** The page lists exactly the registered servers, each with its address and its report; a
    server that has not reported has the empty one. *)
Theorem C123_servers : forall dec servers kvs r, server_stat dec servers kvs = Some r ->
  NoDup (map (fun kv : str * str => stat_id kv.1) kvs) ->
  (forall id, is_Some (r !! id) <-> is_Some (servers !! id)) /\
  (forall id addr, servers !! id = Some addr -> (forall kv, kv ∈ kvs -> stat_id kv.1 <> id) -> r !! id = Some (addr, Report 0 0 0)) /\
  (forall kv addr, kv ∈ kvs -> servers !! stat_id kv.1 = Some addr -> r !! stat_id kv.1 = Some (addr, dec kv.2)).
Proof.
  intros dec servers kvs r H ND. unfold server_stat in H. destruct (sys_info dec kvs ∅) as [infos|] eqn:SI; [|discriminate H]. injection H as <-.
  destruct (sys_info_app dec kvs ∅ infos SI) as (_ & O & S0). split; [|split].
  - intros id. rewrite map_lookup_imap. destruct (servers !! id); cbn; split; intros [x Q]; try discriminate Q; eexists; reflexivity.
  - intros id addr E NI. rewrite map_lookup_imap, E. cbn. rewrite O by exact NI. rewrite lookup_empty. reflexivity.
  - intros kv addr I E. rewrite map_lookup_imap, E. cbn. rewrite (S0 ND kv I). reflexivity.
Qed.
Print Assumptions C123_servers.

Definition servers_ex : gmap str str := {[ s2l "a"%string := s2l "h:1"%string; s2l "b"%string := s2l "h:2"%string ]}.
Definition kvs_ex : list (str * str) := [(key_ex "a"%string, s2l "xx"%string); (key_ex "z"%string, s2l "x"%string)].

Example C123_case : match server_stat dec_ex servers_ex kvs_ex with
  | Some r => r !! s2l "a"%string = Some (s2l "h:1"%string, Report 2 1 3) /\ r !! s2l "b"%string = Some (s2l "h:2"%string, Report 0 0 0) /\ r !! s2l "z"%string = None
  | None => False end /\ NoDup (map (fun kv : str * str => stat_id kv.1) kvs_ex).
Proof. split; [vm_compute; repeat split|]. apply (bool_decide_eq_true_1 _). vm_compute. reflexivity. Qed.

(** The full claim: a page for every state of etcd.  One record that cannot be read is enough
    for the page to fail, and nothing else. *)
Theorem C123_garbled_refuted : forall dec servers kvs, server_stat dec servers kvs = None <-> Exists (fun kv => dec kv.2 = Garbled) kvs.
Proof.
  intros dec servers kvs. unfold server_stat. destruct (sys_info dec kvs ∅) as [i|] eqn:E.
  - split; [discriminate|]. intros X. apply (sys_info_none dec kvs ∅) in X. congruence.
  - split; [intros _; eapply sys_info_none, E|reflexivity].
Qed.
Print Assumptions C123_garbled_refuted.

Example C123_garbled_case : server_stat dec_ex servers_ex ((key_ex "q"%string, []) :: kvs_ex) = None.
Proof. reflexivity. Qed.

(** The share of memory is the least number of hundredths not below the share. *)
Theorem C123_memory : forall used all p, mem_percent used all = Some p -> (100 * used <= p * all /\ p * all < 100 * used + all)%N.
Proof. exact percent_ceil. Qed.
Print Assumptions C123_memory.

(** It is at most the whole, as long as no more is used than there is. *)
Theorem C123_memory_whole : forall used all p, mem_percent used all = Some p -> (used <= all)%N -> (p <= 100)%N.
Proof. intros used all p H L. pose proof (percent_ceil used all p H). nia. Qed.
Print Assumptions C123_memory_whole.

Example C123_memory_case : mem_percent 1 3 = Some 34%N /\ mem_percent 3 3 = Some 100%N /\ mem_percent 0 0 = None.
Proof. vm_compute. repeat split. Qed.
