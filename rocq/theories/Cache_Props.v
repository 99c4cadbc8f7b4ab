From Verif Require Import Str_Model Str_Spec Meta_Model Meta_Spec Meta_Proofs Meta_History Meta_Ids Meta_List Meta_Props
  Cache_Model Cache_Spec Cache_Proofs.
From stdpp Require Import gmap sorting.

Local Notation "'a'" := (s2l "obj" : str) (only parsing).
Local Ltac vc := vm_compute; repeat split; done.

(** Every goroutine has finished. *)
Local Definition idle (s : cst) : Prop := Forall (eq []) (cs_pend s).

(** * C56: reads answer the current data *)

(** Wanted: whatever writes, reads, goroutine steps and cache losses came before, a
    read of an object's metadata, of a version or of a bucket answers what the database
    holds.  Proved for runs (any interleaving) in which every step changes only things no
    goroutine is busy with, changes the cache is not told of are of things not cached,
    and no object id is another one followed by a dot and a number; the read must also
    find no goroutine busy with the thing read.  Each restriction is needed, see the
    refutations. *)
Theorem C56_reads_current_partial : forall P d ops k, separate P -> named d -> run_ok P (cstart d) ops ->
  in_use P k -> quiet (crun (cstart d) ops) k ->
  snd (cstep (crun (cstart d) ops) (read_op k)) = current (cs_db (crun (cstart d) ops)) k.
Proof. exact reads_current. Qed.
Print Assumptions C56_reads_current_partial.

Local Definition v1 : version := ver (s2l "h") (s2l "u") 1 0.

(** Two goroutines at work at once, a lost entry, a write through the log of something
    not cached; then the new metadata and the version are read through the cache. *)
Local Definition demo : list cop :=
  [ODirect (AddMetadata a (md 1)); OGetMeta a; ORun 1; ODirect (AddVersion a v1); OEvict (meta_key a); ORun 0;
   OEvict (meta_key a); ORun 2; OBatch (UpdateMetadata a (md 2)); OGetMeta a; ORun 3;
   ODirect (CreateBucket (bk 7)); ORun 4; ODirect (UpdateMetadata a (md 3)); ORun 5].

Example C56_nonvacuous : let P := fun id => id = (a : str) in let s := crun (cstart db_empty) demo in
  separate P /\ named db_empty /\ run_ok P (cstart db_empty) demo /\
  quiet s (KMeta a) /\ quiet s (KVer a 1) /\ quiet s (KBkt (s2l "bkt")) /\
  is_Some (cs_cache s !! meta_key a) /\ is_Some (cs_cache s !! ver_key a 1) /\
  snd (cstep s (OGetMeta a)) = AnsMeta (Some (md 3)) /\
  snd (cstep s (OGetVer a 1)) = AnsVer (Some (with_seq 1 v1)).
Proof.
  intros P s. split_and!.
  - intros id id' n -> ->. intros H. apply (f_equal length) in H. unfold vkey in H. rewrite app_length in H. cbn in H. lia.
  - apply named_empty.
  - unfold demo.
    assert (forall s, run_ok P s []) as Hnil by done.
    Local Ltac same := split; [apply step_ok_same; [done|reflexivity]|].
    Local Ltac still := split; [apply step_ok_idle; [intros ? E; first [discriminate E|injection E as <-; reflexivity]|vm_compute; by repeat constructor|intros [] X; exact X]|].
    still. same. same.
    (* the version is added while the metadata is still on its way to the cache *)
    split.
    { split; [cbn; intros ? E; by injection E as <-|]. intros k U X. split; [|by destruct k].
      intros g x Hg Hx. vm_compute in Hg. repeat (apply elem_of_cons in Hg as [->|Hg]); try by apply elem_of_nil in Hx.
      - apply elem_of_list_singleton in Hx as ->. intros E. apply X.
        assert (k = KMeta a) as ->; [|reflexivity]. symmetry. eapply (text_inj P); [|done|done|exact E].
        intros id id' n -> ->. intros H. apply (f_equal length) in H. unfold vkey in H. rewrite app_length in H. cbn in H. lia.
      - by apply elem_of_nil in Hg. }
    same. same. same. same.
    split.
    { split; [done|]. intros k U X. split; [apply quiet_idle; vm_compute; by repeat constructor|]. intros _.
      assert (k = KMeta a) as ->; [|vm_compute; done].
      destruct k as [id|id n|name]; [by rewrite U|exfalso; apply X|exfalso; apply X; done].
      unfold P in U; cbn in U; subst id. reflexivity. }
    same. same. still. same. still. same. done.
  - apply quiet_idle. vm_compute. by repeat constructor.
  - apply quiet_idle. vm_compute. by repeat constructor.
  - apply quiet_idle. vm_compute. by repeat constructor.
  - vm_compute. by eexists.
  - vm_compute. by eexists.
  - reflexivity.
  - reflexivity.
Qed.

(** A client does not see its own acknowledged update while the goroutine that tells the
    cache has not run (metadata_repo.go 54-59). *)
Theorem C56_own_write_refuted : exists ops o,
  let s := crun (cstart db_empty) ops in let s' := fst (cstep s o) in
  idle s /\ o = ODirect (UpdateMetadata a (md 2)) /\ snd (cstep s o) = AnsErr None /\
  d_meta (cs_db s') !! (a : str) = Some (md 2) /\
  snd (cstep s' (OGetMeta a)) = AnsMeta (Some (md 1)).
Proof.
  exists [ODirect (AddMetadata a (md 1)); ORun 0], (ODirect (UpdateMetadata a (md 2))).
  cbv zeta. split_and!; [vm_compute; by repeat constructor|done|reflexivity|reflexivity|reflexivity].
Qed.
Print Assumptions C56_own_write_refuted.

(** A read that missed the cache before an update can fill it with the old record after
    the update has told the cache: with every goroutine finished, reads stay old until
    the entry is lost (metadata_repo.go 85-88). *)
Theorem C56_late_fill_refuted : exists ops, let s := crun (cstart db_empty) ops in
  idle s /\ d_meta (cs_db s) !! (a : str) = Some (md 2) /\ snd (cstep s (OGetMeta a)) = AnsMeta (Some (md 1)).
Proof.
  exists [ODirect (AddMetadata a (md 1)); ORun 0; OEvict (meta_key a); OGetMeta a;
          ODirect (UpdateMetadata a (md 2)); ORun 2; ORun 1].
  cbv zeta. split_and!; [vm_compute; by repeat constructor|reflexivity|reflexivity].
Qed.
Print Assumptions C56_late_fill_refuted.

(** Entries of the replicated log are applied by the batch repositories, which never tell
    the cache: the old metadata is still read, and a removed object too. *)
Theorem C56_replicated_refuted : exists ops ops', let s := crun (cstart db_empty) ops in let s' := crun (cstart db_empty) ops' in
  idle s /\ d_meta (cs_db s) !! (a : str) = Some (md 2) /\ snd (cstep s (OGetMeta a)) = AnsMeta (Some (md 1)) /\
  idle s' /\ d_meta (cs_db s') !! (a : str) = None /\ snd (cstep s' (OGetMeta a)) = AnsMeta (Some (md 1)).
Proof.
  exists [OBatch (AddMetadata a (md 1)); OGetMeta a; ORun 0; OBatch (UpdateMetadata a (md 2))],
         [OBatch (AddMetadata a (md 1)); OGetMeta a; ORun 0; OBatch (RemoveMetadata a)].
  cbv zeta. split_and!; try reflexivity; vm_compute; by repeat constructor.
Qed.
Print Assumptions C56_replicated_refuted.

(** After an object moved ([UpdateLocateByHash], metadata_repo.go 390-411, tells the cache
    nothing) readers are still sent to the old server. *)
Theorem C56_moved_refuted : exists ops, let s := crun (cstart db_empty) ops in
  idle s /\ (v_locate <$> get_ver a 1 (cs_db s)) = Some [s2l "s3"; s2l "s2"] /\
  exists v, snd (cstep s (OGetVer a 1)) = AnsVer (Some v) /\ v_locate v = [s2l "s1"; s2l "s2"].
Proof.
  exists [ODirect (AddMetadata a (md 1)); ORun 0; ODirect (AddVersion a v1); ORun 1; OLocate (s2l "h") 0 (s2l "s3") 5].
  cbv zeta. split_and!; [vm_compute; by repeat constructor|reflexivity|]. eexists. split; reflexivity.
Qed.
Print Assumptions C56_moved_refuted.

(** Removing an object with ten versions leaves the tenth in the cache: the number taken
    for the last one is 9, the last in text order (metadata_repo.go 63, 70). *)
Theorem C56_removed_refuted : exists ops, let s := crun (cstart db_empty) ops in
  idle s /\ d_meta (cs_db s) !! (a : str) = None /\ get_ver a 10 (cs_db s) = None /\
  exists v, snd (cstep s (OGetVer a 10)) = AnsVer (Some v).
Proof.
  exists (ODirect (AddMetadata a (md 1)) :: ORun 0 ::
    List.concat (map (fun i => [ODirect (AddVersion a (ver (s2l "h") (print_N (N.of_nat i)) 1 0)); ORun i]) (seq 1 10)) ++
    ODirect (RemoveMetadata a) :: repeat (ORun 11) 10).
  cbv zeta. split_and!; [vm_compute; by repeat constructor|reflexivity|reflexivity|]. eexists. vm_compute. reflexivity.
Qed.
Print Assumptions C56_removed_refuted.

(** Version 1 of object "obj" and the metadata of object "obj.1" are cached under the same
    text: asking for the metadata of the latter gives an empty record. *)
Theorem C56_same_text_refuted : exists ops, let s := crun (cstart db_empty) ops in
  idle s /\ d_meta (cs_db s) !! (s2l "obj.1" : str) = Some (md 1) /\
  snd (cstep s (OGetMeta (s2l "obj.1"))) = AnsMeta (Some (mk_metadata [] [] 0 0)).
Proof.
  exists [ODirect (AddMetadata (s2l "obj.1") (md 1)); ORun 0; ODirect (AddMetadata a (md 1)); ORun 1;
          ODirect (AddVersion a v1); ORun 2].
  cbv zeta. split_and!; [vm_compute; by repeat constructor|reflexivity|reflexivity].
Qed.
Print Assumptions C56_same_text_refuted.

(** A restored snapshot does not empty the cache (metadata_repo.go 308-328). *)
Theorem C56_restored_refuted : exists ops, let s := crun (cstart db_empty) ops in
  idle s /\ d_meta (cs_db s) !! (a : str) = None /\ snd (cstep s (OGetMeta a)) = AnsMeta (Some (md 1)).
Proof.
  exists [ODirect (AddMetadata a (md 1)); ORun 0; ORestore db_empty].
  cbv zeta. split_and!; [vm_compute; by repeat constructor|reflexivity|reflexivity].
Qed.
Print Assumptions C56_restored_refuted.

(** * C57: a page of versions does not depend on what is cached *)

(** Wanted: for any cache holding only current versions, [ListVersions] gives what it gives
    with an empty cache.  Proved when the stored numbers and the whole page have the same
    number of digits. *)
Theorem C57_page_partial : forall B ops id k c start sz, history B ops ->
  let d := hrun db_empty ops in
  (forall n, has_version d id n -> (10 ^ k <= n < 10 ^ (k + 1))%N) ->
  fresh_versions c id d -> (10 ^ k <= start)%N -> (start + N.of_nat sz <= 10 ^ (k + 1))%N ->
  list_versions_cached c id start sz d = list_versions id start sz d.
Proof. intros B ops id k c start sz H d O F H1 H2. eapply page_same; [by apply inv_history|exact O|done|done|done]. Qed.
Print Assumptions C57_page_partial.

(** The cache holds only current versions after the runs of C56. *)
(** Partial; the full statement is at [C57_page_partial]. *)
Theorem C57_cache_fresh_partial : forall P d ops id, separate P -> named d -> run_ok P (cstart d) ops -> P id ->
  (forall n, quiet (crun (cstart d) ops) (KVer id n)) ->
  fresh_versions (cs_cache (crun (cstart d) ops)) id (cs_db (crun (cstart d) ops)).
Proof. exact fresh_run. Qed.
Print Assumptions C57_cache_fresh_partial.

Local Definition many (n : nat) : list call :=
  AddMetadata a (md 1) :: map (fun i => AddVersion a (ver (s2l "h") (print_N (N.of_nat i)) 1 0)) (seq 1 n).

(** The first [n] versions of the object, as cached. *)
Local Definition cached (n : nat) (d : db) : gmap str crec :=
  list_to_map (omap (fun i => (fun v => (ver_key a (N.of_nat i), CVer v)) <$> get_ver a (N.of_nat i) d) (seq 1 n)).

Local Lemma cached_fresh : forall m d, fresh_versions (cached m d) a d.
Proof.
  intros m d n r H. unfold cached in H. apply elem_of_list_to_map_2, elem_of_list_omap in H as (i & Hi & E).
  destruct (get_ver a (N.of_nat i) d) as [v|] eqn:G; [|done].
  apply (inj Some), pair_equal_spec in E as [E <-]. rewrite !ver_key_meta in E.
  apply meta_key_inj, vkey_inj2 in E as [_ <-]. exists v. split; [reflexivity|exact G].
Qed.

Local Definition seqs (r : option (list version * nat)) : option (list N) := (fun x => map v_seq (fst x)) <$> r.

Example C57_nonvacuous : let d := hrun db_empty (cmds (many 5)) in
  history 0 (cmds (many 5)) /\ (forall n, has_version d a n -> (10 ^ 0 <= n < 10 ^ (0 + 1))%N) /\
  fresh_versions {[ ver_key a 2 := CVer (with_seq 2 (ver (s2l "h") (s2l "2") 1 0)) ]} a d /\
  seqs (list_versions_cached {[ ver_key a 2 := CVer (with_seq 2 (ver (s2l "h") (s2l "2") 1 0)) ]} a 2 3 d) = Some [2; 3; 4]%N.
Proof.
  intros d. split_and!.
  - apply cmds_history; [repeat (constructor; [done|]); constructor|vm_compute; done].
  - intros n Hn. unfold has_version in Hn. destruct (get_ver a n d) as [v|] eqn:G; [|by destruct Hn].
    assert (history 0 (cmds (many 5))) as H by (apply cmds_history; [repeat (constructor; [done|]); constructor|vm_compute; done]).
    destruct (inv_number _ _ _ _ _ (inv_history _ _ H) G) as [_ R]. clear -R.
    change (0 + N.of_nat (length (cmds (many 5))))%N with 6%N in R.
    change (10 ^ 0)%N with 1%N. change (10 ^ (0 + 1))%N with 10%N. lia.
  - intros n r H. apply lookup_singleton_Some in H as [E <-].
    assert (n = 2%N) as ->. { symmetry. rewrite !ver_key_meta in E. by apply meta_key_inj, vkey_inj2 in E as [_ ?]. }
    eexists. split; [reflexivity|]. vm_compute. reflexivity.
  - vm_compute. reflexivity.
Qed.

(** Nine versions, all cached, and a page of ten numbers: number 10 is not cached, the scan
    continues at the text "obj.10", before "obj.2" - number 2 is listed again. *)
Theorem C57_repeated_refuted : exists ops c, history 0 ops /\ fresh_versions c a (hrun db_empty ops) /\
  seqs (list_versions a 1 10 (hrun db_empty ops)) = Some [1; 2; 3; 4; 5; 6; 7; 8; 9]%N /\
  seqs (list_versions_cached c a 1 10 (hrun db_empty ops)) = Some [1; 2; 3; 4; 5; 6; 7; 8; 9; 2]%N.
Proof.
  exists (cmds (many 9)), (cached 9 (hrun db_empty (cmds (many 9)))). split_and!.
  - apply cmds_history; [repeat (constructor; [done|]); constructor|vm_compute; done].
  - apply cached_fresh.
  - vm_compute. reflexivity.
  - vm_compute. reflexivity.
Qed.
Print Assumptions C57_repeated_refuted.

(** With twelve versions the first page of eleven numbers is 1, 10, 11, 12, 2, ... from the
    database and 1, 2, 3, ... from the cache. *)
Theorem C57_order_refuted : exists ops c, history 0 ops /\ fresh_versions c a (hrun db_empty ops) /\
  seqs (list_versions a 1 5 (hrun db_empty ops)) = Some [1; 10; 11; 12; 2]%N /\
  seqs (list_versions_cached c a 1 5 (hrun db_empty ops)) = Some [1; 2; 3; 4; 5]%N.
Proof.
  exists (cmds (many 12)), (cached 5 (hrun db_empty (cmds (many 12)))). split_and!.
  - apply cmds_history; [repeat (constructor; [done|]); constructor|vm_compute; done].
  - apply cached_fresh.
  - vm_compute. reflexivity.
  - vm_compute. reflexivity.
Qed.
Print Assumptions C57_order_refuted.
