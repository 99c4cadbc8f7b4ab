(** Slot migration keeps one owner per slot (C07); requests are served by the
    owner of their slot (C39). *)
From Verif Require Import Str_Spec HashSlot_Model HashSlot_Spec HashSlot_Proofs Owner_Model Owner_Spec Owner_Proofs.
Local Notation length := List.length.
Local Open Scope list_scope.
Local Open Scope Z_scope.

(** ** C07: a migration conserves slots

    Full statement: for every accepted table, every migration request and every
    pattern of faults, afterwards every slot has exactly one owner: the receiver
    for the migrated slots on success, the same as before otherwise.

    Proved with the restriction that both servers look at the current table and
    nothing goes wrong between the sender's and the receiver's write of their
    tables ([handed_over]); faults before that are arbitrary.  The table
    afterwards is accepted again, so the theorem applies to any number of
    migrations in a row.  Missing: see the refutations below. *)
Theorem C07_conserved_partial : forall sort kv table gs sids curs gr sidr curr slots f kv' r,
  is_sorter sort -> tables_ok sort kv table ->
  In (gs, (sids, curs)) kv -> In (gr, (sidr, curr)) kv -> gs <> gr -> handed_over f ->
  migrate sort kv gs sids gr sidr table table slots f = (kv', r) ->
  (r = Failed -> kv' = kv) /\
  (r = Migrated ->
     (forall s, named slots s -> owned kv gs s) /\
     (forall g s, owned kv' g s <-> (g = gr /\ named slots s) \/ (~ named slots s /\ owned kv g s))) /\
  (exists table', tables_ok sort kv' table') /\
  map fst kv' = map fst kv /\
  map (fun gi => fst (snd gi)) kv' = map (fun gi => fst (snd gi)) kv.
Proof.
  intros. eapply migrate_conserves; eassumption.
Qed.
Print Assumptions C07_conserved_partial.

(** Whatever tables the two servers look at: nothing is changed unless the sender's has it
    hold every slot named, and the receiver's has none of the named ranges lie in a range
    of the receiver. *)
Theorem C07_checked : forall sort kv kvs ps kvr pr gs sids gr sidr slots f kv' r,
  is_sorter sort -> tables_ok sort kvs ps -> tables_ok sort kvr pr ->
  migrate sort kv gs sids gr sidr ps pr slots f = (kv', r) -> r = Migrated \/ kv' <> kv ->
  (forall s, named slots s -> holds ps sids s) /\
  (forall t a b x, In t slots -> range_text t a b -> In x pr -> e_value x = sidr -> ~ (e_start x <= a /\ b <= e_end x)).
Proof. intros. eapply migrate_checked; eassumption. Qed.
Print Assumptions C07_checked.

(** One owner per slot in every accepted table. *)
Theorem C07_single_owner : forall sort kv table g h s,
  is_sorter sort -> tables_ok sort kv table -> owned kv g s -> owned kv h s -> g = h.
Proof. intros. eapply single_owner; eassumption. Qed.
Print Assumptions C07_single_owner.

Example C07_nonvacuous :
  let slots := [s2l "0-100"%string; s2l "8192-16384"%string] in
  is_sorter isort /\ tables_ok isort ex_kv ex_table /\ handed_over no_faults /\
  migrate isort ex_kv (s2l "a"%string) (s2l "A"%string) (s2l "b"%string) (s2l "B"%string) ex_table ex_table slots no_faults =
    ([(s2l "a"%string, (s2l "A"%string, [s2l "100-8192"%string]));
      (s2l "b"%string, (s2l "B"%string, [s2l "0-100"%string; s2l "8192-16384"%string]))], Migrated) /\
  snd (migrate isort ex_kv (s2l "a"%string) (s2l "A"%string) (s2l "b"%string) (s2l "B"%string) ex_table ex_table slots
         (mk_faults false false true false false false false false)) = Failed /\
  ownedb ex_kv 50 = [s2l "a"%string].
Proof.
  split; [exact isort_is_sorter|]. split; [exact ex_ok|]. split; [repeat split|].
  split; [vm_compute; reflexivity|]. split; vm_compute; reflexivity.
Qed.

(** A migration the sender reports as a success leaves slots without owner: the
    deferred [cancel] of hashslot_service.go:238 runs right after [CloseSend]; a
    receiver that sees the cancellation first finishes with failure. *)
Theorem C07_cancel_refuted : exists kv table gs sids gr sidr slots kv',
  tables_ok isort kv table /\
  migrate isort kv gs sids gr sidr table table slots (mk_faults false false false false false false true false) = (kv', Migrated) /\
  (exists s, owned kv gs s /\ named slots s /\ forall g, ~ owned kv' g s).
Proof.
  exists ex_kv, ex_table, (s2l "a"%string), (s2l "A"%string), (s2l "b"%string), (s2l "B"%string), [s2l "0-100"%string].
  eexists. split; [exact ex_ok|]. split; [vm_compute; reflexivity|]. exists 50. split; [|split].
  - apply ownedb_iff. vm_compute. left. reflexivity.
  - apply namedb_iff. vm_compute. reflexivity.
  - intros g H. apply ownedb_iff in H. vm_compute in H. exact H.
Qed.
Print Assumptions C07_cancel_refuted.

(** The same for every other single fault after the sender's write: the prepare
    timer, a stop of the sender, a failing write of the receiver. *)
Theorem C07_faults_refuted : forall f,
  In f [mk_faults false false false true false false false false;
        mk_faults false false false false false true false false;
        mk_faults false false false false false false false true] ->
  exists kv table gs sids gr sidr slots kv' r,
  tables_ok isort kv table /\
  migrate isort kv gs sids gr sidr table table slots f = (kv', r) /\
  (exists s, owned kv gs s /\ named slots s /\ forall g, ~ owned kv' g s).
Proof.
  intros f Hf.
  exists ex_kv, ex_table, (s2l "a"%string), (s2l "A"%string), (s2l "b"%string), (s2l "B"%string), [s2l "0-100"%string].
  destruct Hf as [<-|[<-|[<-|[]]]]; eexists; eexists; (split; [exact ex_ok|]); (split; [vm_compute; reflexivity|]);
    exists 50; (split; [|split]);
    [ apply ownedb_iff; vm_compute; left; reflexivity
    | apply namedb_iff; vm_compute; reflexivity
    | intros g H; apply ownedb_iff in H; vm_compute in H; exact H
    | apply ownedb_iff; vm_compute; left; reflexivity
    | apply namedb_iff; vm_compute; reflexivity
    | intros g H; apply ownedb_iff in H; vm_compute in H; exact H
    | apply ownedb_iff; vm_compute; left; reflexivity
    | apply namedb_iff; vm_compute; reflexivity
    | intros g H; apply ownedb_iff in H; vm_compute in H; exact H ].
Qed.
Print Assumptions C07_faults_refuted.

(** The table of a server is cached for five minutes and not refreshed by a
    migration: moving the same slots again within that time, to another server,
    gives them two owners, and then no server accepts the table any more. *)
Definition ex_kv3 : etcd :=
  [(s2l "a"%string, (s2l "A"%string, [s2l "0-16384"%string])); (s2l "b"%string, (s2l "B"%string, [])); (s2l "c"%string, (s2l "C"%string, []))].
Lemma ex_ok3 : tables_ok isort ex_kv3 ex_table.
Proof.
  constructor; [| |vm_compute; reflexivity]; cbn;
    repeat (apply NoDup_cons; [intros H; repeat (destruct H as [H|H]; [discriminate H|]); exact H|]); apply NoDup_nil.
Qed.

Theorem C07_stale_refuted : exists kv table slots kv1 kv2 a sa b sb c sc s,
  tables_ok isort kv table /\
  migrate isort kv a sa b sb table table slots no_faults = (kv1, Migrated) /\
  migrate isort kv1 a sa c sc table table slots no_faults = (kv2, Migrated) /\
  b <> c /\ owned kv2 b s /\ owned kv2 c s /\ provider isort kv2 = None.
Proof.
  exists ex_kv3, ex_table, [s2l "0-100"%string].
  eexists. eexists.
  exists (s2l "a"%string), (s2l "A"%string), (s2l "b"%string), (s2l "B"%string), (s2l "c"%string), (s2l "C"%string), 50.
  split; [exact ex_ok3|]. split; [vm_compute; reflexivity|]. split; [vm_compute; reflexivity|].
  split; [discriminate|]. split; [apply ownedb_iff; vm_compute; left; reflexivity|].
  split; [apply ownedb_iff; vm_compute; right; left; reflexivity|]. vm_compute. reflexivity.
Qed.
Print Assumptions C07_stale_refuted.

(** ** C39: requests are served by the owner of their slot

    Full statement: a metadata request for a key is served exactly when the local
    server owns the key's slot, otherwise refused with the owner's address.

    Proved for gRPC requests and for HTTP requests with a writing method, for a
    server whose table is the current one: it serves iff the owner is this server
    or its raft leader, and otherwise names the owner's address.  A key of a slot
    nobody owns is refused, with the address of no server.  Missing: HTTP reads,
    an outdated table. *)
Theorem C39_routed_partial : forall sort crc kv table sid leader peer key,
  is_sorter sort -> tables_ok sort kv table -> key <> [] ->
  let slot := Z.of_N (N.land (crc key) 16383) in
  forall d, In d [check_rpc crc table sid leader peer (RMetaReq key);
                  check_rpc crc table sid leader peer (RMetadata key);
                  check_http crc table sid leader peer true key] ->
  (d = Serve <-> exists g v sl, In (g, (v, sl)) kv /\ named sl slot /\ (v = sid \/ v = leader)) /\
  (forall g v sl, In (g, (v, sl)) kv -> named sl slot -> v <> sid -> v <> leader -> d = Redirect (peer v)) /\
  ((forall g, ~ owned kv g slot) -> d = Redirect (peer [])).
Proof.
  intros sort crc kv table sid leader peer key HS Hok Hk slot d Hd.
  destruct (check_rpc_decision crc table sid leader peer key Hk) as [E1 [E2 E3]].
  assert (E : d = key_decision crc table sid leader peer key).
  { destruct Hd as [<-|[<-|[<-|[]]]]; assumption. }
  rewrite E. exact (key_decision_spec sort HS crc kv table sid leader peer key Hok).
Qed.
Print Assumptions C39_routed_partial.

(** Requests without a key are not refused for their slot, and a missing request
    never reaches a handler. *)
Theorem C39_unkeyed : forall crc table sid leader peer,
  check_rpc crc table sid leader peer RNil = BadRequest /\
  check_rpc crc table sid leader peer ROther = Serve /\
  check_rpc crc table sid leader peer (RMetaReq []) = Serve /\
  check_rpc crc table sid leader peer (RMetadata []) = Serve.
Proof. intros. repeat split. Qed.
Print Assumptions C39_unkeyed.

Example C39_nonvacuous :
  tables_ok isort ex_kv ex_table /\
  check_rpc (fun _ => 7%N) ex_table (s2l "A"%string) [] (fun v => v) (RMetaReq (s2l "k"%string)) = Serve /\
  check_rpc (fun _ => 7%N) ex_table (s2l "B"%string) [] (fun v => v) (RMetadata (s2l "k"%string)) = Redirect (s2l "A"%string) /\
  check_rpc (fun _ => 7%N) ex_table (s2l "B"%string) (s2l "A"%string) (fun v => v) (RMetaReq (s2l "k"%string)) = Serve /\
  check_http (fun _ => 7%N) ex_table (s2l "B"%string) [] (fun v => v) true (s2l "k"%string) = Redirect (s2l "A"%string).
Proof. split; [exact ex_ok|]. repeat split; vm_compute; reflexivity. Qed.

(** HTTP reads are answered by every server, whoever owns the slot: for every key
    and hash, a server that owns nothing serves it. *)
Theorem C39_http_read_refuted : exists kv table sid,
  tables_ok isort kv table /\ In sid (map (fun gi => fst (snd gi)) kv) /\
  forall crc leader peer key,
    (forall g v sl, In (g, (v, sl)) kv -> named sl (Z.of_N (N.land (crc key) 16383)) -> v <> sid) /\
    (exists g, owned kv g (Z.of_N (N.land (crc key) 16383))) /\
    check_http crc table sid leader peer false key = Serve.
Proof.
  exists ex_kv, ex_table, (s2l "B"%string). split; [exact ex_ok|]. split; [cbn; auto|].
  intros crc leader peer key. pose proof (key_slot_range crc key) as HR. unfold key_slot in HR.
  split; [|split; [|reflexivity]].
  - intros g v sl [H|[H|[]]] Hn; injection H as <- <- <-; [discriminate|].
    destruct Hn as [t [a [b [[] _]]]].
  - exists (s2l "a"%string). apply owned_named. exists (s2l "A"%string), [s2l "0-16384"%string].
    split; [left; reflexivity|]. apply named_f. exists (s2l "0-16384"%string), 0, 16384.
    split; [left; reflexivity|]. split; [vm_compute; reflexivity|exact HR].
Qed.
Print Assumptions C39_http_read_refuted.

(** After a complete migration the former owner keeps serving the moved keys, and
    the new owner keeps refusing them, until their cached tables expire: for
    every key and hash. *)
Theorem C39_stale_refuted : exists kv table kv' a sa b sb,
  tables_ok isort kv table /\
  migrate isort kv a sa b sb table table [s2l "0-16384"%string] no_faults = (kv', Migrated) /\
  sa <> sb /\
  forall crc peer key, key <> [] ->
    (forall g, owned kv' g (Z.of_N (N.land (crc key) 16383)) <-> g = b) /\
    check_rpc crc table sa [] peer (RMetaReq key) = Serve /\
    check_rpc crc table sb [] peer (RMetaReq key) = Redirect (peer sa).
Proof.
  exists ex_kv, ex_table. eexists. exists (s2l "a"%string), (s2l "A"%string), (s2l "b"%string), (s2l "B"%string).
  split; [exact ex_ok|]. split; [vm_compute; reflexivity|]. split; [discriminate|].
  intros crc peer key Hk. pose proof (key_slot_range crc key) as HR. unfold key_slot in HR.
  assert (HN : named [s2l "0-16384"%string] (Z.of_N (N.land (crc key) 16383))).
  { apply named_f. exists (s2l "0-16384"%string), 0, 16384.
    split; [left; reflexivity|]. split; [vm_compute; reflexivity|exact HR]. }
  split; [|split].
  - intros g. rewrite owned_named. split.
    + intros [sid [sl [[H|[H|[]]] Hn]]]; injection H as <- <- <-; [|reflexivity].
      destruct Hn as [t [x [y [[] _]]]].
    + intros ->. exists (s2l "B"%string), [s2l "0-16384"%string]. split; [right; left; reflexivity|exact HN].
  - destruct (C39_routed_partial isort crc ex_kv ex_table (s2l "A"%string) [] peer key isort_is_sorter ex_ok Hk
      _ (or_introl eq_refl)) as [H _]. apply H.
    exists (s2l "a"%string), (s2l "A"%string), [s2l "0-16384"%string].
    split; [left; reflexivity|]. split; [exact HN|left; reflexivity].
  - destruct (C39_routed_partial isort crc ex_kv ex_table (s2l "B"%string) [] peer key isort_is_sorter ex_ok Hk
      _ (or_introl eq_refl)) as [_ [H _]].
    apply (H (s2l "a"%string) (s2l "A"%string) [s2l "0-16384"%string]);
      [left; reflexivity|exact HN|discriminate|discriminate].
Qed.
Print Assumptions C39_stale_refuted.
