From Verif Require Import Str_Model Str_Spec Meta_Model Meta_Spec Meta_Proofs Meta_History Meta_Ids Meta_Log Meta_List.
From stdpp Require Import gmap sorting.

(** * Concrete data for the examples *)

Definition md (t : Z) : metadata := mk_metadata (s2l "obj") (s2l "bkt") 1 t.
Definition ver (h u : str) (t : Z) (n : N) : version := mk_version false 1 4 2 0 10 t n h u [s2l "s1"; s2l "s2"].
Definition bk (t : Z) : bucket := mk_bucket true false false 1 4 2 3 5 t (s2l "bkt") [].
Definition cmds (cs : list call) : list hop := map (fun c => HCmd (command true c)) cs.

Local Notation "'a'" := (s2l "obj" : str) (only parsing).
Local Notation "'c'" := (s2l "other" : str) (only parsing).

Local Ltac vc := vm_compute; repeat split; done.

Lemma cmds_history : forall B cs,
  Forall (fun x => match x with MigrateVersion _ v => (1 <= v_seq v <= B)%N | _ => True end) cs ->
  (B + N.of_nat (length cs) < 2 ^ 63)%N -> history B (cmds cs).
Proof.
  intros B cs H L. split; [|unfold cmds; by rewrite map_length].
  unfold cmds. induction H as [|x cs Hx H IH]; [constructor|]. cbn [map length] in *. constructor.
  - exists true, x. done.
  - apply IH. lia.
Qed.

Lemma cmds_not : forall (P : call -> Prop) cs, Forall (fun x => ~ P x) cs -> Forall (fun o => ~ is_call P o) (cmds cs).
Proof.
  intros P cs H. induction H as [|x cs Hx H IH]; [constructor|]. cbn. constructor; [|done].
  intros (b & y & E & Hy). apply Hx. injection E as E. assert (x = y) as -> by (destruct x, y; cbn in E; congruence). done.
Qed.

(** * C14: version numbers grow *)

(** In every history (log entries, lookups, location changes) with migrated numbers in
    1..B and fewer than 2^63 - B operations: a number given by [AddVersion] is larger
    than any number the object got before, unless the object's metadata or all its
    versions were removed in between.  (The property excludes only the former.) *)
(** Partial.  Full statement: Every version added to an object gets a number larger than every
    number handed out before for that object (including removed versions) until the object's
    metadata is removed.  It fails in general: [C14_reuse_refuted]. *)
Theorem C14_numbers_grow_partial : forall B h1 o1 h2 batch id v n n',
  history B (h1 ++ o1 :: h2 ++ [HCmd (command batch (AddVersion id v))]) ->
  adds (hrun db_empty h1) o1 id n ->
  Forall (fun o => ~ is_call (removes_object id) o) h2 ->
  adds (hrun db_empty (h1 ++ o1 :: h2)) (HCmd (command batch (AddVersion id v))) id n' ->
  (n < n')%N.
Proof. exact numbers_grow. Qed.
Print Assumptions C14_numbers_grow_partial.

(** Missing: [RemoveAllVersion] restarts the numbers though the metadata stays, so a
    number is handed out twice. *)
Theorem C14_reuse_refuted : exists h1 h2 id v n,
  adds (hrun db_empty h1) (HCmd (command true (AddVersion id v))) id n /\
  Forall (fun o => ~ is_call (fun x => x = RemoveMetadata id) o) h2 /\
  exists v', adds (hrun db_empty (h1 ++ HCmd (command true (AddVersion id v)) :: h2))
                  (HCmd (command true (AddVersion id v'))) id n.
Proof.
  exists (cmds [AddMetadata a (md 1)]), (cmds [RemoveVersions a]), a, (ver (s2l "h") (s2l "u") 1 0), 1%N.
  split_and!; [vc| |].
  - apply cmds_not. repeat constructor; congruence.
  - exists (ver (s2l "h2") (s2l "u2") 1 0). split; vc.
Qed.
Print Assumptions C14_reuse_refuted.

Example C14_nonvacuous :
  let h1 := cmds [AddMetadata a (md 1)] in
  let o1 := HCmd (command true (MigrateVersion a (ver (s2l "h") (s2l "u") 1 41))) in
  let h2 := cmds [RemoveVersion a 41; AddMetadata c (md 1)] in
  let v := ver (s2l "h2") (s2l "u2") 1 0 in
  history 41 (h1 ++ o1 :: h2 ++ [HCmd (command true (AddVersion a v))]) /\
  adds (hrun db_empty h1) o1 a 41 /\
  Forall (fun o => ~ is_call (removes_object a) o) h2 /\
  adds (hrun db_empty (h1 ++ o1 :: h2)) (HCmd (command true (AddVersion a v))) a 42.
Proof.
  intros h1 o1 h2 v. split_and!; [|vc| |vc].
  - apply (cmds_history 41 [AddMetadata a (md 1); MigrateVersion a (ver (s2l "h") (s2l "u") 1 41);
      RemoveVersion a 41; AddMetadata c (md 1); AddVersion a v]); [|done]. repeat constructor; done.
  - apply cmds_not. repeat constructor; intros [X|X]; discriminate.
Qed.

(** * C15: the store is a map *)

(** Every sequence of calls, through either repository: the answers and the resulting
    data are those of a plain map from object ids to metadata and numbered versions
    (specification in Meta_Spec.v).  Failed calls change nothing and a call touches
    only its own object because the map operations do.  (Whether the unique id of an
    added version counts as taken is left open here; C16 is about that.) *)
Theorem C15_store_is_map : forall cs, exists s,
  spec_run store_empty cs (snd (store_run db_empty cs)) s /\ shows (fst (store_run db_empty cs)) s.
Proof. exact store_is_map. Qed.
Print Assumptions C15_store_is_map.

Example C15_nonvacuous :
  snd (store_run db_empty [(true, AddMetadata a (md 1)); (false, AddVersion a (ver (s2l "h") (s2l "u") 3 0));
    (true, UpdateVersion a 1 (ver [] [] 4 0)); (true, AddVersion c (ver (s2l "h") (s2l "w") 3 0));
    (true, UpdateMetadata a (md 1)); (true, RemoveVersion a 7)]) =
  [ok; RStatus 200 (Some 1%N); ok; RStatus 404 (Some 0%N); bad; not_found].
Proof. vc. Qed.

(** * C16: unique ids *)

(** Without migrations, a unique id of a stored version is refused and changes
    nothing, for additions and migrations, on any object. *)
(** Partial.  Full statement: Adding a version with a unique id already stored is refused as
    existing and changes nothing, so a retried or replayed write never creates a second version; and
    once that version is removed its id is free again.  It fails in general:
    [C16_free_after_remove_refuted], [C16_migrated_refuted]. *)
Theorem C16_stored_id_refused_partial : forall B ops id n v batch id' v', Forall (hop_ok B) ops ->
  Forall (fun o => ~ is_call migrates o) ops ->
  get_ver id n (hrun db_empty ops) = Some v -> v_uid v' = v_uid v ->
  hstep (hrun db_empty ops) (HCmd (command batch (AddVersion id' v'))) = hrun db_empty ops /\
  hstep (hrun db_empty ops) (HCmd (command batch (MigrateVersion id' v'))) = hrun db_empty ops.
Proof. exact stored_id_refused. Qed.
Print Assumptions C16_stored_id_refused_partial.

(** A unique id that no earlier call used (as the id of an addition, or as the hash of
    a migration) is accepted on an existing object: a fresh number, the data stored. *)
Theorem C16_fresh_id_accepted : forall B ops batch id v, history B ops ->
  Forall (fun o => ~ is_call (uses_id (v_uid v)) o) ops ->
  d_meta (hrun db_empty ops) !! id <> None -> v_hash v <> [] -> v_uid v <> [] ->
  exists n, get_ver id n (hrun db_empty ops) = None /\
    get_ver id n (hstep (hrun db_empty ops) (HCmd (command batch (AddVersion id v)))) = Some (with_seq n v) /\
    snd (dispatch (command batch (AddVersion id v)) (hrun db_empty ops)) = RStatus 200 (Some n).
Proof. exact fresh_id_accepted. Qed.
Print Assumptions C16_fresh_id_accepted.

(** Missing: the id of a removed version stays taken (the removal looks for it under
    the hash). *)
Theorem C16_free_after_remove_refuted : exists ops id v,
  Forall (hop_ok 0) ops /\ d_meta (hrun db_empty ops) !! id <> None /\
  (forall id' n w, get_ver id' n (hrun db_empty ops) = Some w -> v_uid w <> v_uid v) /\
  hstep (hrun db_empty ops) (HCmd (command true (AddVersion id v))) = hrun db_empty ops.
Proof.
  exists (cmds [AddMetadata a (md 1); AddVersion a (ver (s2l "h") (s2l "u") 1 0); RemoveVersion a 1]), a,
    (ver (s2l "h") (s2l "u") 1 0).
  split_and!; [| | |].
  - apply cmds_history; [|done]. repeat constructor.
  - vc.
  - intros id' n w G. unfold get_ver in G.
    destruct (d_vers _ !! id') as [b|] eqn:E; [|done]. exfalso. apply elem_of_map_to_list in E.
    revert E G. vm_compute (map_to_list _). intros E. apply elem_of_list_singleton in E. injection E as -> ->.
    intros G. apply elem_of_map_to_list in G. revert G. vm_compute (map_to_list _). intros G. by apply elem_of_nil in G.
  - refine (proj1 (taken_refused _ true _ _ _)). vc.
Qed.
Print Assumptions C16_free_after_remove_refuted.

(** Missing: the id of a migrated version is not recognised (it was entered under its
    hash), so the retried write is stored a second time. *)
Theorem C16_migrated_refuted : exists id v, let ops := cmds [AddMetadata id (md 1); MigrateVersion id v; AddVersion id v] in
  history 1 ops /\ get_ver id 1 (hrun db_empty ops) = Some v /\
  get_ver id 2 (hrun db_empty ops) = Some (with_seq 2 v).
Proof.
  exists a, (ver (s2l "h") (s2l "u") 1 1). intros ops. split_and!; [|vc|vc].
  apply cmds_history; [|done]. repeat constructor; done.
Qed.
Print Assumptions C16_migrated_refuted.

Example C16_nonvacuous : let ops := cmds [AddMetadata a (md 1); AddVersion a (ver (s2l "h") (s2l "u") 1 0)] in
  history 0 ops /\ Forall (fun o => ~ is_call migrates o) ops /\
  get_ver a 1 (hrun db_empty ops) = Some (ver (s2l "h") (s2l "u") 1 1) /\
  Forall (fun o => ~ is_call (uses_id (s2l "w")) o) ops.
Proof.
  intros ops. split_and!; [| |vc|].
  - apply cmds_history; [|done]. repeat constructor.
  - apply cmds_not. repeat constructor; intros (? & ? & X); discriminate.
  - apply cmds_not. repeat constructor; intros [(? & ? & X & Y)|(? & ? & X & Y)]; try discriminate.
    injection X as <- <-. discriminate.
Qed.

(** * C17: find by hash *)

(** Every stored version is found under its hash, after every history. *)
Theorem C17_find_complete : forall B ops h id n v, history B ops ->
  get_ver id n (hrun db_empty ops) = Some v -> v_hash v = h ->
  v ∈ snd (find_by_hash h (hrun db_empty ops)).
Proof. exact find_complete. Qed.
Print Assumptions C17_find_complete.

(** Everything found is a stored version. *)
Theorem C17_find_stored : forall B ops h v, history B ops ->
  v ∈ snd (find_by_hash h (hrun db_empty ops)) -> exists id n, get_ver id n (hrun db_empty ops) = Some v.
Proof. exact find_stored. Qed.
Print Assumptions C17_find_stored.

(** As long as no object (or all versions of one) was removed: exactly the versions
    with that hash, each once. *)
(** Partial.  Full statement: Looking up versions by content hash returns exactly the stored
    versions whose hash is the requested one.  It fails in general: [C17_find_exact_refuted],
    [C17_update_locate_refuted]. *)
Theorem C17_find_exact_partial : forall B ops h, history B ops ->
  Forall (fun o => ~ is_call removes_some_object o) ops ->
  exists l : list (str * N), NoDup l /\
    (forall id n, (id, n) ∈ l <-> exists v, get_ver id n (hrun db_empty ops) = Some v /\ v_hash v = h) /\
    Forall2 (fun p v => get_ver (fst p) (snd p) (hrun db_empty ops) = Some v) l
            (snd (find_by_hash h (hrun db_empty ops))).
Proof. exact find_exact. Qed.
Print Assumptions C17_find_exact_partial.

(** Missing: removing an object leaves its index entries, which then find a version of
    other content of an object created later under the same id. *)
Theorem C17_find_exact_refuted : exists ops h v, history 0 ops /\
  v ∈ snd (find_by_hash h (hrun db_empty ops)) /\ v_hash v <> h.
Proof.
  exists (cmds [AddMetadata a (md 1); AddVersion a (ver (s2l "h") (s2l "u") 1 0); RemoveMetadata a;
    AddMetadata a (md 1); AddVersion a (ver (s2l "g") (s2l "w") 1 0)]), (s2l "h"), (ver (s2l "g") (s2l "w") 1 1).
  split_and!; [|vm_compute; constructor|vc].
  apply cmds_history; [|done]. repeat constructor.
Qed.
Print Assumptions C17_find_exact_refuted.

(** Missing: changing the locations of a content fails altogether once any object
    holding it was removed, though another still holds it. *)
Theorem C17_update_locate_refuted : exists ops h id v, history 0 ops /\
  get_ver id 1 (hrun db_empty ops) = Some v /\ v_hash v = h /\ (v_ts v < 9)%Z /\ length (v_locate v) = 2%nat /\
  snd (update_locate_by_hash h 0 (s2l "s3") 9 (hrun db_empty ops)) = Some ENotFound.
Proof.
  exists (cmds [AddMetadata a (md 1); AddVersion a (ver (s2l "h") (s2l "u") 1 0); AddMetadata c (md 1);
    AddVersion c (ver (s2l "h") (s2l "w") 1 0); RemoveMetadata a]), (s2l "h"), c, (ver (s2l "h") (s2l "w") 1 1).
  split_and!; try vc. apply cmds_history; [|done]. repeat constructor.
Qed.
Print Assumptions C17_update_locate_refuted.

Example C17_nonvacuous : let ops := cmds [AddMetadata a (md 1); AddVersion a (ver (s2l "h") (s2l "u") 1 0);
    AddMetadata c (md 1); AddVersion c (ver (s2l "h") (s2l "w") 1 0); AddVersion c (ver (s2l "g") (s2l "x") 1 0)] in
  history 0 ops /\ Forall (fun o => ~ is_call removes_some_object o) ops /\
  snd (find_by_hash (s2l "h") (hrun db_empty ops)) = [ver (s2l "h") (s2l "u") 1 1; ver (s2l "h") (s2l "w") 1 1].
Proof.
  intros ops. split_and!; [| |vc].
  - apply cmds_history; [|done]. repeat constructor.
  - apply cmds_not. repeat constructor; intros (? & [X|X]); discriminate.
Qed.

(** * C18: the latest version *)

(** When all version numbers of the object have the same number of digits: first and
    last are the smallest and largest stored numbers, and reading without a number
    gives the largest. *)
(** Partial.  Full statement: Reading an object without a version number returns the version with
    the largest number; first/last version numbers reported are the smallest/largest.  It fails in
    general: [C18_latest_refuted]. *)
Theorem C18_latest_partial : forall B ops id k, history B ops ->
  let d := hrun db_empty ops in
  (exists n, has_version d id n) ->
  (forall n, has_version d id n -> (10 ^ k <= n < 10 ^ (k + 1))%N) ->
  (forall n, has_version d id n -> (first_version_number id d <= n <= last_version_number id d)%N) /\
  has_version d id (first_version_number id d) /\ has_version d id (last_version_number id d) /\
  service_get_version id 0 d = get_ver id (last_version_number id d) d.
Proof. exact latest_number. Qed.
Print Assumptions C18_latest_partial.

(** In general the number reported as last is the one whose decimal text is greatest
    in byte order, as first the one whose text is smallest; [GetExtra] reports the
    same two. *)
Theorem C18_text_order : forall B ops id, history B ops -> id <> ([] : str) ->
  let d := hrun db_empty ops in
  (exists n, has_version d id n) ->
  has_version d id (last_version_number id d) /\ has_version d id (first_version_number id d) /\
  (forall n, has_version d id n ->
     (n = last_version_number id d \/ str_ltb (print_N n) (print_N (last_version_number id d)) = true) /\
     (n = first_version_number id d \/ str_ltb (print_N (first_version_number id d)) (print_N n) = true)) /\
  exists total, get_extra id d = Some (total, Z.of_N (first_version_number id d), Z.of_N (last_version_number id d)).
Proof. exact text_order. Qed.
Print Assumptions C18_text_order.

(** Missing: with ten versions the ninth is served as the latest. *)
Theorem C18_latest_refuted : exists ops id v, history 0 ops /\
  has_version (hrun db_empty ops) id 10 /\ service_get_version id 0 (hrun db_empty ops) = Some v /\ v_seq v = 9%N.
Proof.
  exists (cmds (AddMetadata a (md 1) :: map (fun u => AddVersion a (ver (s2l "h") u 1 0))
    [s2l "a"; s2l "b"; s2l "c"; s2l "d"; s2l "e"; s2l "f"; s2l "g"; s2l "h"; s2l "i"; s2l "j"])), a,
    (ver (s2l "h") (s2l "i") 1 9).
  split_and!; try vc. apply cmds_history; [|done]. repeat constructor.
Qed.
Print Assumptions C18_latest_refuted.

Example C18_nonvacuous : let ops := cmds [AddMetadata a (md 1); MigrateVersion a (ver (s2l "h") (s2l "u") 1 12);
    MigrateVersion a (ver (s2l "h2") (s2l "w") 1 97); AddVersion a (ver (s2l "h3") (s2l "z") 1 0)] in
  history 97 ops /\ first_version_number a (hrun db_empty ops) = 12%N /\
  last_version_number a (hrun db_empty ops) = 98%N /\
  forall n, has_version (hrun db_empty ops) a n -> (10 ^ 1 <= n < 10 ^ (1 + 1))%N.
Proof.
  intros ops. assert (history 97 ops) as H.
  { apply cmds_history; [|done]. repeat constructor; done. }
  split_and!; [done|vc|vc|].
  intros n Hn. apply (small_numbers 97 ops a n H) in Hn. vm_compute in Hn.
  repeat (apply elem_of_cons in Hn as [->|Hn]; [vc|]). by apply elem_of_nil in Hn.
Qed.

(** * C19: stale updates *)

(** An update not newer than what is stored is refused and changes nothing. *)
Theorem C19_stale_version_refused : forall batch d id n v v0, get_ver id n d = Some v0 -> (v_ts v <= v_ts v0)%Z ->
  dispatch (command batch (UpdateVersion id n v)) d = (d, bad).
Proof. exact stale_version_refused. Qed.
Print Assumptions C19_stale_version_refused.

Theorem C19_stale_metadata_refused : forall batch d id m m0, d_meta d !! id = Some m0 -> (m_utime m <= m_utime m0)%Z ->
  dispatch (command batch (UpdateMetadata id m)) d = (d, bad).
Proof. exact stale_meta_refused. Qed.
Print Assumptions C19_stale_metadata_refused.

Theorem C19_stale_bucket_refused : forall batch d b b0, b_name b <> [] -> d_bkt d !! b_name b = Some b0 ->
  (b_utime b <= b_utime b0)%Z -> dispatch (command batch (UpdateBucket b)) d = (d, bad).
Proof. exact stale_bucket_refused. Qed.
Print Assumptions C19_stale_bucket_refused.

(** Over any further history that does not remove it, a version keeps hash, unique id
    and number, and is either unchanged or strictly newer; likewise the bucket and
    creation time of metadata. *)
Theorem C19_version_identity : forall ops d id n v,
  Forall (fun o => forall r, o = HCmd r -> exists batch x, r = command batch x /\ ~ removes_version id n x) ops ->
  get_ver id n d = Some v ->
  exists v', get_ver id n (hrun d ops) = Some v' /\ succeeds v v'.
Proof. exact version_hrun. Qed.
Print Assumptions C19_version_identity.

Theorem C19_metadata_identity : forall ops d id m,
  Forall (fun o => forall r, o = HCmd r -> exists batch x, r = command batch x /\ x <> RemoveMetadata id) ops ->
  d_meta d !! id = Some m ->
  exists m', d_meta (hrun d ops) !! id = Some m' /\ meta_succeeds m m'.
Proof. exact meta_hrun. Qed.
Print Assumptions C19_metadata_identity.

Example C19_nonvacuous :
  let d := hrun db_empty (cmds [AddMetadata a (md 1); AddVersion a (ver (s2l "h") (s2l "u") 3 0)]) in
  let ops := [HCmd (command true (UpdateVersion a 1 (ver (s2l "x") (s2l "y") 5 9)));
              HLocate (s2l "h") 1 (s2l "s9") 8; HCmd (command true (UpdateMetadata a (mk_metadata [] [] 9 7)))] in
  get_ver a 1 d = Some (ver (s2l "h") (s2l "u") 3 1) /\
  Forall (fun o => forall r, o = HCmd r -> exists batch x, r = command batch x /\ ~ removes_version a 1 x) ops /\
  get_ver a 1 (hrun d ops) = Some (mk_version false 1 4 2 0 10 8 1 (s2l "h") (s2l "u") [s2l "s1"; s2l "s9"]) /\
  d_meta (hrun d ops) !! a = Some (mk_metadata [] (s2l "bkt") 1 7).
Proof.
  intros d ops. split_and!; [vc| |vc|vc].
  apply Forall_cons; split.
  { intros r X. injection X as <-. exists true, (UpdateVersion a 1 (ver (s2l "x") (s2l "y") 5 9)).
    split; [reflexivity|]. intros [[Y|Y]|Y]; discriminate. }
  apply Forall_cons; split; [done|]. apply Forall_cons; split; [|constructor].
  intros r X. injection X as <-. exists true, (UpdateMetadata a (mk_metadata [] [] 9 7)). split; [reflexivity|]. intros [[Y|Y]|Y]; discriminate.
Qed.

(** * C20: batches *)

(** Entries as the service writes them, nil entries, entries of other types and
    truncated ones: however the sequence is cut into batches, data and answers are
    those of the entries taken one by one. *)
Theorem C20_batches_agree : forall bs d, Forall whole (List.concat bs) ->
  let (d', rs) := run_with fsm_apply_batch d bs in
  (d', List.concat rs) = run_with lone d (List.concat bs).
Proof. exact batches_agree. Qed.
Print Assumptions C20_batches_agree.

(** [Apply] and [ApplyBatch] agree on an entry whose version (if any) has both texts
    and which does not update metadata with nil. *)
(** Partial.  Full statement: Two metadata replicas that apply the same sequence of log entries hold
    the same data and return the same results, regardless of how the consensus layer groups entries
    into batches.  It fails in general: [C20_single_vs_batch_refuted], [C20_absent_field_refuted]. *)
Theorem C20_single_vs_batch_partial : forall d r, careful r ->
  run_with fsm_apply d [EnCmd (raft_data_fields r)] = fsm_apply_batch d [EnCmd (raft_data_fields r)].
Proof. exact single_vs_batch. Qed.
Print Assumptions C20_single_vs_batch_partial.

(** Missing: a migrated version without unique id is refused by [Apply] and stored by
    [ApplyBatch]. *)
Theorem C20_single_vs_batch_refuted : exists es id,
  get_ver id 1 (fst (run_with fsm_apply db_empty es)) <> get_ver id 1 (fst (fsm_apply_batch db_empty es)).
Proof.
  exists [EnCmd (raft_data_fields (command false (AddMetadata a (md 1))));
          EnCmd (raft_data_fields (command false (MigrateVersion a (ver (s2l "h") [] 1 1))))], a.
  vc.
Qed.
Print Assumptions C20_single_vs_batch_refuted.

(** Missing: an entry that lacks a field (which the present encoder never writes)
    takes it from the entry before it in the same batch. *)
Theorem C20_absent_field_refuted : exists e1 e2 id,
  get_ver id 1 (fst (fsm_apply_batch db_empty [e1; e2])) <>
  get_ver id 1 (fst (run_with fsm_apply_batch db_empty [[e1]; [e2]])).
Proof.
  exists (EnCmd (raft_data_fields (mk_raft_data LInsert DMetadata a 0 (Some (ver (s2l "h") (s2l "u") 1 0)) (Some (md 1)) None false))),
         (EnCmd [FType LInsert; FDest DVersion; FName a]), a.
  vc.
Qed.
Print Assumptions C20_absent_field_refuted.

Example C20_nonvacuous :
  let e x := EnCmd (raft_data_fields (command false x)) in
  let es := [e (AddMetadata a (md 1)); EnNil; EnCmd [FType LRemove; FDest DMetadata; FName a; FBad];
             e (AddVersion a (ver (s2l "h") (s2l "u") 1 0)); EnOther; e (AddVersion a (ver (s2l "h") (s2l "w") 1 0))] in
  Forall whole es /\
  snd (run_with lone db_empty es) = [ok; bad; RErr; RStatus 200 (Some 1%N); RErr; RStatus 200 (Some 2%N)] /\
  careful (command false (AddVersion a (ver (s2l "h") (s2l "u") 1 0))).
Proof.
  intros e es. split_and!; [|vc|].
  - repeat (apply Forall_cons; split); try done; try (left; by eexists). right.
    do 3 (apply elem_of_cons; right). apply elem_of_cons. by left.
  - split; [|done]. intros v X. injection X as <-. done.
Qed.

(** * C21: replay *)

(** A log in which every call finds what it is about, nothing is migrated, no object,
    set of versions or bucket is removed, and no unique id is also a hash: replaying
    any of its entries, any number of times and in any order, changes nothing. *)
(** Partial.  Full statement: If a metadata server restarts and the consensus layer replays already
    applied entries, the data afterwards equals the data before the restart.  It fails in general:
    [C21_replay_recreated_refuted], [C21_replay_failed_refuted], [C21_replay_removal_refuted]. *)
Theorem C21_replay_partial : forall cs again, all_on_target db_empty cs -> (N.of_nat (length cs) < 2 ^ 64)%N ->
  (forall u, adds_uid cs u -> ~ adds_hash cs u) -> (forall x, x ∈ again -> x ∈ cs) ->
  apply_log (apply_log db_empty cs) again = apply_log db_empty cs.
Proof. exact replay. Qed.
Print Assumptions C21_replay_partial.

(** Missing: after an object was removed and created again, a replay of the whole log
    numbers its versions differently. *)
Theorem C21_replay_recreated_refuted : exists cs id n,
  get_ver id n (apply_log (apply_log db_empty cs) cs) <> get_ver id n (apply_log db_empty cs).
Proof.
  exists [AddMetadata a (md 1); AddVersion a (ver (s2l "h") (s2l "u") 1 0); RemoveMetadata a;
          AddMetadata a (md 1); AddVersion a (ver (s2l "h") (s2l "w") 1 0)], a, 1%N.
  vc.
Qed.
Print Assumptions C21_replay_recreated_refuted.

(** Missing: a write that was answered "not found" takes effect in the replay. *)
Theorem C21_replay_failed_refuted : exists cs id n,
  snd (store_run db_empty (map (pair true) cs)) = [RStatus 404 (Some 0%N); ok] /\
  get_ver id n (apply_log (apply_log db_empty cs) cs) <> get_ver id n (apply_log db_empty cs).
Proof.
  exists [AddVersion a (ver (s2l "h") (s2l "u") 1 0); AddMetadata a (md 1)], a, 1%N.
  split; vc.
Qed.
Print Assumptions C21_replay_failed_refuted.

(** Missing: a removal that came before the version was written removes it in the
    replay. *)
Theorem C21_replay_removal_refuted : exists cs id n,
  get_ver id n (apply_log db_empty cs) <> None /\ get_ver id n (apply_log (apply_log db_empty cs) cs) = None.
Proof.
  exists [RemoveVersion a 1; AddMetadata a (md 1); AddVersion a (ver (s2l "h") (s2l "u") 1 0)], a, 1%N.
  split; vc.
Qed.
Print Assumptions C21_replay_removal_refuted.

Example C21_nonvacuous :
  let cs := [CreateBucket (bk 1); AddMetadata a (md 1); AddVersion a (ver (s2l "h") (s2l "u") 1 0);
             UpdateVersion a 1 (ver [] [] 5 0); AddVersion a (ver (s2l "h") (s2l "w") 1 0);
             RemoveVersion a 1; UpdateMetadata a (md 8); UpdateBucket (bk 3)] in
  all_on_target db_empty cs /\ (forall u, adds_uid cs u -> ~ adds_hash cs u) /\
  get_ver a 2 (apply_log db_empty cs) = Some (ver (s2l "h") (s2l "w") 1 2).
Proof.
  intros cs. split_and!; [|  |vc].
  - cbn [all_on_target cs]. split_and!; vc.
  - intros u (id & v & Hin & Hu) (id' & v' & Hin' & Hh).
    repeat (apply elem_of_cons in Hin as [X|Hin]; [try discriminate|]); [..|by apply elem_of_nil in Hin];
    injection X as -> ->;
    (repeat (apply elem_of_cons in Hin' as [X'|Hin']; [try discriminate|]); [..|by apply elem_of_nil in Hin']);
    injection X' as -> ->; subst u; discriminate.
Qed.

(** * C48: listing by prefix *)

(** Objects (and buckets) listed by prefix: in byte order of their keys, exactly the
    first [n] of those whose key starts with the prefix; the total is the number of
    matching keys if there is no prefix or nothing was cut off. *)
(** Partial.  Full statement: Listing objects or buckets by prefix returns, in byte order of their
    keys, exactly the first n entries whose key starts with the prefix, together with the number of
    matching entries.  It fails in general: [C48_total_refuted]. *)
Theorem C48_list_exact_partial : forall p n d, exists ks,
  (forall k, k ∈ ks <-> is_Some (d_meta d !! k) /\ exists t, k = p ++ t) /\
  StronglySorted (fun x y => str_ltb x y = true) ks /\
  Some <$> fst (list_metadata p n d) = (fun k => d_meta d !! k) <$> take n ks /\
  (p = [] \/ (length ks <= n)%nat -> snd (list_metadata p n d) = length ks).
Proof. exact list_metadata_spec. Qed.
Print Assumptions C48_list_exact_partial.

(** Partial; the full statement is at [C48_list_exact_partial]. *)
Theorem C48_list_buckets_partial : forall p n d, exists ks,
  (forall k, k ∈ ks <-> is_Some (d_bkt d !! k) /\ exists t, k = p ++ t) /\
  StronglySorted (fun x y => str_ltb x y = true) ks /\
  Some <$> fst (list_buckets p n d) = (fun k => d_bkt d !! k) <$> take n ks /\
  (p = [] \/ (length ks <= n)%nat -> snd (list_buckets p n d) = length ks).
Proof. exact list_buckets_spec. Qed.
Print Assumptions C48_list_buckets_partial.

(** Missing: with a prefix and more matches than asked for, the total is the number
    returned. *)
Theorem C48_total_refuted : exists d p, is_Some (d_meta d !! (s2l "obj" : str)) /\ is_Some (d_meta d !! (s2l "other" : str)) /\
  prefixb p (s2l "obj") = true /\ prefixb p (s2l "other") = true /\ snd (list_metadata p 1 d) = 1%nat.
Proof.
  exists (hrun db_empty (cmds [AddMetadata a (md 1); AddMetadata c (md 1)])), (s2l "o").
  split_and!; [by exists (md 1)|by exists (md 1)|done|done|vc].
Qed.
Print Assumptions C48_total_refuted.

Example C48_nonvacuous : let d := hrun db_empty (cmds [AddMetadata c (md 2); AddMetadata (s2l "p") (md 3); AddMetadata a (md 1)]) in
  list_metadata (s2l "o") 5 d = ([md 1; md 2], 2%nat) /\ list_metadata [] 2 d = ([md 1; md 2], 3%nat).
Proof. split; vc. Qed.

(** * C49: pages of versions *)

(** When the numbers of all versions and of the start of the page have the same number
    of digits, a page lists versions from the start on in increasing order, and a
    version from there on that is not on it comes after a full page (of one more than
    the page size). *)
(** Partial.  Full statement: Listing the versions of an object page by page yields every version
    exactly once, in increasing order of number.  It fails in general: [C49_pages_disjoint_refuted],
    [C49_pages_order_refuted]. *)
Theorem C49_page_partial : forall B ops id page size k l total, history B ops ->
  let d := hrun db_empty ops in
  let start := ((page - 1) * N.of_nat size + 1)%N in
  (1 <= page)%N -> (10 ^ k <= start < 10 ^ (k + 1))%N ->
  (forall n, has_version d id n -> (10 ^ k <= n < 10 ^ (k + 1))%N) ->
  service_list_versions id page size d = Some (l, total) ->
  StronglySorted (fun x y => (v_seq x < v_seq y)%N) l /\
  (forall v, v ∈ l -> get_ver id (v_seq v) d = Some v /\ (start <= v_seq v)%N) /\
  (forall n v, get_ver id n d = Some v -> (start <= n)%N -> v ∉ l ->
     length l = S size /\ forall w, w ∈ l -> (v_seq w < n)%N).
Proof. exact page_service. Qed.
Print Assumptions C49_page_partial.

(** Missing: consecutive pages share a version. *)
Theorem C49_pages_disjoint_refuted : exists ops id l1 l2 v, history 0 ops /\
  option_map fst (service_list_versions id 1 2 (hrun db_empty ops)) = Some l1 /\
  option_map fst (service_list_versions id 2 2 (hrun db_empty ops)) = Some l2 /\ v ∈ l1 /\ v ∈ l2.
Proof.
  exists (cmds (AddMetadata a (md 1) :: map (fun u => AddVersion a (ver (s2l "h") u 1 0)) [s2l "x"; s2l "y"; s2l "z"; s2l "t"])), a,
    [ver (s2l "h") (s2l "x") 1 1; ver (s2l "h") (s2l "y") 1 2; ver (s2l "h") (s2l "z") 1 3],
    [ver (s2l "h") (s2l "z") 1 3; ver (s2l "h") (s2l "t") 1 4], (ver (s2l "h") (s2l "z") 1 3).
  split_and!; [|vc|vc|by repeat constructor|by repeat constructor].
  apply cmds_history; [|done]. repeat constructor.
Qed.
Print Assumptions C49_pages_disjoint_refuted.

(** Missing: with ten versions, no page of size 3 from the second on shows the tenth,
    and the first shows it in second place. *)
Theorem C49_pages_order_refuted : exists ops id, history 0 ops /\
  option_map (fun r => map v_seq (fst r)) (service_list_versions id 1 3 (hrun db_empty ops)) = Some [1; 10; 2; 3]%N /\
  option_map (fun r => map v_seq (fst r)) (service_list_versions id 4 3 (hrun db_empty ops)) = Some [10; 2; 3; 4]%N /\
  option_map (fun r => map v_seq (fst r)) (service_list_versions id 3 3 (hrun db_empty ops)) = Some [7; 8; 9]%N.
Proof.
  exists (cmds (AddMetadata a (md 1) :: map (fun u => AddVersion a (ver (s2l "h") u 1 0))
    [s2l "a"; s2l "b"; s2l "c"; s2l "d"; s2l "e"; s2l "f"; s2l "g"; s2l "h"; s2l "i"; s2l "j"])), a.
  split_and!; [|vc|vc|vc].
  apply cmds_history; [|done]. repeat constructor.
Qed.
Print Assumptions C49_pages_order_refuted.

Example C49_nonvacuous : let d := hrun db_empty (cmds (AddMetadata a (md 1) ::
    map (fun u => AddVersion a (ver (s2l "h") u 1 0)) [s2l "x"; s2l "y"; s2l "z"; s2l "t"])) in
  option_map (fun r => map v_seq (fst r)) (service_list_versions a 2 1 d) = Some [2; 3]%N /\
  (10 ^ 0 <= (2 - 1) * N.of_nat 1 + 1 < 10 ^ (0 + 1))%N.
Proof. split; vc. Qed.
