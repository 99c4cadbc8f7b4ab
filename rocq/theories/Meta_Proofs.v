(** Proofs about the metadata store: keys, simulation by the map machine. *)
From Verif Require Import Str_Model Str_Proofs Meta_Model Meta_Spec.
From stdpp Require Import gmap.
Local Arguments N.pow : simpl never.
Local Arguments N.modulo : simpl never.
Local Arguments N.add : simpl never.
Local Arguments N.max : simpl never.

(** ** Keys *)

Lemma cut_last_none : forall sep s, ~ In sep s -> cut_last sep s = None.
Proof.
  intros sep; induction s as [|c s IH]; intros H; cbn [cut_last]; [done|].
  rewrite IH by (intros ?; apply H; right; done).
  destruct (ascii_dec c sep) as [->|]; [|done]. exfalso; apply H; left; done.
Qed.

Lemma cut_last_app : forall sep a b, ~ In sep b -> cut_last sep (a ++ sep :: b) = Some (a, b).
Proof.
  intros sep; induction a as [|c a IH]; intros b H; cbn [cut_last app].
  - rewrite cut_last_none by done. destruct (ascii_dec sep sep); done.
  - by rewrite IH.
Qed.

Lemma cut_last_vkey : forall id n, cut_last "."%char (vkey id n) = Some (id, print_N n).
Proof. intros. apply cut_last_app. by apply print_N_notin. Qed.

Lemma vkey_inj2 : forall id n id' n', vkey id n = vkey id' n' -> id = id' /\ n = n'.
Proof.
  intros id n id' n' H. assert (E := cut_last_vkey id n). rewrite H, cut_last_vkey in E.
  injection E as -> E. split; [done|]. symmetry. by apply print_N_inj.
Qed.

Global Instance vkey_inj id : Inj (=) (=) (vkey id).
Proof. intros n m H. by apply vkey_inj2 in H as [_ ?]. Qed.

Lemma size_kmap_vkey : forall id (m : gmap N version), size (kmap (vkey id) m : gmap str version) = size m.
Proof.
  intros id m. induction m as [|n v m Hn IH] using map_ind.
  - by rewrite kmap_empty, !map_size_empty.
  - rewrite kmap_insert by apply _. rewrite !map_size_insert_None; [by rewrite IH|done|].
    rewrite lookup_kmap by apply _. done.
Qed.

(** ** The map machine simulates the store *)

Definition vb_of (id : str) (o : obj) : vbucket :=
  mk_vbucket (o_next o) (kmap (vkey id) (o_vers o)).

Definition sim (d : db) (s : store) : Prop :=
  (forall id, d_meta d !! id = o_meta <$> s_objs s !! id) /\
  (forall id, d_vers d !! id = vb_of id <$> s_objs s !! id) /\
  d_bkt d = s_bkts s /\
  s_objs s !! ([] : str) = None.

Lemma sim_empty : sim db_empty store_empty.
Proof. split_and!; done. Qed.

Lemma sim_get_ver : forall d s id n, sim d s ->
  get_ver id n d = s_objs s !! id ≫= fun o => o_vers o !! n.
Proof.
  intros d s id n (_ & H & _ & _). unfold get_ver. rewrite H.
  destruct (s_objs s !! id) as [o|]; [|done]. cbn. by rewrite lookup_kmap by apply _.
Qed.

Lemma sim_shows : forall d s, sim d s -> shows d s.
Proof.
  intros d s S. pose proof S as (M & V & B & Z0). split_and!.
  - done.
  - intros id. rewrite V. by destruct (s_objs s !! id).
  - intros. by apply sim_get_ver.
  - intros id. rewrite V. destruct (s_objs s !! id) as [o|]; [|done]. cbn.
    by rewrite size_kmap_vkey.
  - intros. by rewrite B.
Qed.

(** Putting one object back. *)
Lemma sim_put_meta : forall d s id o m, sim d s -> s_objs s !! id = Some o ->
  sim (with_meta (<[id:=m]> (d_meta d)) d) (put_obj id (mk_obj m (o_next o) (o_vers o)) s).
Proof.
  intros d s id o m (M & V & B & Z0) E. split_and!; [intros id'|intros id'|done|]; cbn.
  3:{ rewrite lookup_insert_ne; [done|]. intros X. rewrite X, Z0 in E. done. }
  - destruct (decide (id = id')) as [<-|N]; [by rewrite !lookup_insert|].
    by rewrite !lookup_insert_ne.
  - destruct (decide (id = id')) as [<-|N].
    + rewrite lookup_insert, V, E. done.
    + by rewrite !lookup_insert_ne.
Qed.

Lemma sim_put_vers : forall d s id o n m h u, sim d s -> s_objs s !! id = Some o ->
  sim (mk_db (d_meta d) (<[id:=mk_vbucket n (kmap (vkey id) m)]> (d_vers d)) h u (d_bkt d))
      (put_obj id (mk_obj (o_meta o) n m) s).
Proof.
  intros d s id o n m h u (M & V & B & Z0) E. split_and!; [intros id'|intros id'|done|]; cbn.
  3:{ rewrite lookup_insert_ne; [done|]. intros X. rewrite X, Z0 in E. done. }
  - destruct (decide (id = id')) as [<-|N].
    + rewrite lookup_insert, M, E. done.
    + by rewrite !lookup_insert_ne.
  - destruct (decide (id = id')) as [<-|N]; [by rewrite !lookup_insert|].
    by rewrite !lookup_insert_ne.
Qed.

Lemma kmap_ins : forall id n v (m : gmap N version),
  <[vkey id n := v]> (kmap (vkey id) m : gmap str version) = kmap (vkey id) (<[n:=v]> m).
Proof. intros. by rewrite kmap_insert by apply _. Qed.

Lemma kmap_del : forall id n (m : gmap N version),
  delete (vkey id n) (kmap (vkey id) m : gmap str version) = kmap (vkey id) (delete n m).
Proof. intros. by rewrite kmap_delete by apply _. Qed.

Lemma kmap_get : forall id n (m : gmap N version),
  (kmap (vkey id) m : gmap str version) !! vkey id n = m !! n.
Proof. intros. by rewrite lookup_kmap by apply _. Qed.

Lemma idx_add_none : forall h k m, idx_add h k m = None <-> h = [].
Proof. intros [|] k m; cbn; split; intros; congruence. Qed.

Lemma nonempty_ids_present : forall v, nonempty_ids v = ids_present v.
Proof.
  intros v. unfold nonempty_ids, ids_present.
  destruct (v_hash v); destruct (v_uid v); cbn; done.
Qed.

Lemma max_if : forall a b, (if (a <? b)%N then b else a) = N.max a b.
Proof. intros. destruct (N.ltb_spec a b); lia. Qed.

(** The duplicate decision of the store for a call. *)
Definition dup_of (c : call) (d : db) : bool :=
  match c with
  | AddVersion _ v | MigrateVersion _ v => uid_exists d (v_uid v)
  | _ => false
  end.

Ltac fin := split; [done|]; try done.

Lemma call_sim : forall batch c d s, sim d s ->
  snd (dispatch (command batch c) d) = snd (spec_call (dup_of c d) batch c s) /\
  sim (fst (dispatch (command batch c) d)) (fst (spec_call (dup_of c d) batch c s)).
Proof.
  intros batch c d s S. pose proof S as (M & V & B & Z0).
  destruct c as [id m|id|id m|id v|id v|id n|id n v|id|b|name|b]; cbn [command dispatch rd_dest
    apply_metadata apply_version apply_version_all apply_bucket rd_type rd_meta rd_ver rd_bkt rd_name rd_seq
    rd_batch spec_call dup_of].
  - (* AddMetadata *)
    unfold add_meta, create_version_bucket. rewrite M.
    destruct (s_objs s !! id) as [o|] eqn:E; cbn; [done|].
    destruct id as [|c0 id]; cbn; [done|]. rewrite V, E. cbn. fin.
    split_and!; [intros id'|intros id'|done|by cbn; rewrite lookup_insert_ne]; cbn.
    + destruct (decide (c0 :: id = id')) as [<-|N]; [by rewrite !lookup_insert|].
      by rewrite !lookup_insert_ne.
    + destruct (decide (c0 :: id = id')) as [<-|N].
      * rewrite !lookup_insert. cbn. unfold vb_of. cbn. by rewrite kmap_empty.
      * by rewrite !lookup_insert_ne.
  - (* RemoveMetadata *)
    unfold remove_meta, remove_version_bucket. rewrite M. cbn.
    destruct (s_objs s !! id) as [o|] eqn:E; cbn.
    + rewrite V, E. cbn. fin. split_and!; [intros id'|intros id'|done|by cbn; rewrite lookup_delete_None; right]; cbn.
      * destruct (decide (id = id')) as [<-|N]; [by rewrite !lookup_delete|].
        by rewrite !lookup_delete_ne.
      * destruct (decide (id = id')) as [<-|N]; [by rewrite !lookup_delete|].
        by rewrite !lookup_delete_ne.
    + fin. rewrite delete_notin by done. by destruct s.
  - (* UpdateMetadata *)
    unfold update_meta. rewrite M. destruct (s_objs s !! id) as [o|] eqn:E; cbn; [|done].
    destruct (m_utime m <=? m_utime (o_meta o))%Z; cbn; [done|]. fin.
    by apply sim_put_meta.
  - (* AddVersion *)
    unfold repo_add_version, repo_add_version_seq, add_ver_seq, add_ver.
    rewrite nonempty_ids_present, V.
    destruct batch; cbn [negb andb orb].
    + destruct (s_objs s !! id) as [o|] eqn:E; cbn; [|done].
      destruct (uid_exists d (v_uid v)); cbn; [done|]. rewrite kmap_get. unfold next_seq. cbn [vb_seq vb_of].
      set (n := ((o_next o + 1) mod 2 ^ 64)%N).
      destruct (o_vers o !! n); cbn; [done|].
      destruct (idx_add (v_hash v) _ _) as [hi|] eqn:Eh; cbn.
      * destruct (idx_add (v_uid v) _ _) as [ui|] eqn:Eu; cbn.
        -- assert (ids_present v = true) as ->.
           { unfold ids_present. destruct (v_hash v); [done|]. destruct (v_uid v); done. }
           fin. cbn. rewrite kmap_ins. by apply (sim_put_vers d).
        -- apply idx_add_none in Eu. unfold ids_present. rewrite Eu, andb_false_r. done.
      * apply idx_add_none in Eh. unfold ids_present. rewrite Eh. done.
    + destruct (ids_present v) eqn:P; cbn [negb].
      * destruct (s_objs s !! id) as [o|] eqn:E; cbn; [|done].
        destruct (uid_exists d (v_uid v)); cbn; [done|]. rewrite kmap_get. unfold next_seq. cbn [vb_seq vb_of].
        set (n := ((o_next o + 1) mod 2 ^ 64)%N).
        destruct (o_vers o !! n); cbn; [done|].
        unfold ids_present in P.
        destruct (idx_add (v_hash v) _ _) as [hi|] eqn:Eh; cbn.
        2:{ apply idx_add_none in Eh. by rewrite Eh in P. }
        destruct (idx_add (v_uid v) _ _) as [ui|] eqn:Eu; cbn.
        2:{ apply idx_add_none in Eu. rewrite Eu, andb_false_r in P. done. }
        fin. cbn. rewrite kmap_ins. by apply (sim_put_vers d).
      * cbn. destruct (s_objs s !! id) as [o|] eqn:E; cbn; done.
  - (* MigrateVersion *)
    unfold repo_add_version_raft, add_ver_with_sequence. rewrite nonempty_ids_present, V.
    destruct (negb batch && negb (ids_present v)) eqn:G; cbn; [done|].
    destruct (s_objs s !! id) as [o|] eqn:E; cbn; [|done].
    destruct (uid_exists d (v_uid v)); cbn; [done|]. rewrite kmap_get.
    destruct (o_vers o !! v_seq v); cbn; [done|].
    destruct (idx_add (v_hash v) _ (d_uid d)) as [ui|] eqn:Eu; cbn.
    2:{ apply idx_add_none in Eu. by rewrite Eu. }
    destruct (idx_add (v_hash v) _ (d_hash d)) as [hi|] eqn:Eh; cbn.
    2:{ apply idx_add_none in Eh. by rewrite Eh. }
    rewrite bool_decide_false.
    2:{ intros X. apply (idx_add_none _ (vkey id (v_seq v)) (d_hash d)) in X. congruence. }
    cbn. fin. rewrite max_if, kmap_ins. by apply (sim_put_vers d).
  - (* RemoveVersion *)
    unfold remove_ver. rewrite V. destruct (s_objs s !! id) as [o|] eqn:E; cbn; [|done].
    rewrite kmap_get. destruct (o_vers o !! n) as [v|]; cbn; [|done]. fin.
    rewrite kmap_del. by apply (sim_put_vers d).
  - (* UpdateVersion *)
    unfold update_ver. rewrite V. destruct (s_objs s !! id) as [o|] eqn:E; cbn; [|done].
    rewrite kmap_get. destruct (o_vers o !! n) as [v0|]; cbn; [|done].
    destruct (v_ts v <=? v_ts v0)%Z; cbn; [done|]. fin.
    rewrite kmap_ins. by apply (sim_put_vers d).
  - (* RemoveVersions *)
    unfold remove_all_ver, remove_version_bucket, create_version_bucket. rewrite V.
    destruct (s_objs s !! id) as [o|] eqn:E; cbn; [|done].
    destruct id as [|c0 id]; cbn.
    + congruence.
    + rewrite lookup_delete. cbn. fin. rewrite <-(kmap_empty (vkey (c0 :: id))), insert_delete_insert.
      by apply (sim_put_vers d).
  - unfold bkt_create. rewrite B. destruct (b_name b) eqn:Eb; cbn; [done|].
    destruct (s_bkts s !! _); cbn; [done|]. fin.
  - fin. split_and!; cbn; [done|done| |done]. by rewrite B.
  - unfold bkt_update. rewrite B. destruct (b_name b) eqn:Eb; cbn; [done|].
    destruct (s_bkts s !! _) as [b0|]; cbn; [|done].
    destruct (b_utime b <=? b_utime b0)%Z; cbn; [done|]. fin.
    split_and!; cbn; [done|done| |done]. rewrite ?B, ?Eb. unfold keep_ctime. by rewrite ?Eb.
Qed.

Lemma store_run_sim : forall cs d s, sim d s ->
  exists s', spec_run s cs (snd (store_run d cs)) s' /\ sim (fst (store_run d cs)) s'.
Proof.
  induction cs as [|[batch c] cs IH]; intros d s S; cbn [store_run].
  - exists s. split; [constructor|done].
  - destruct (call_sim batch c d s S) as [R S1].
    destruct (dispatch (command batch c) d) as [d1 r]. cbn [fst snd] in R, S1.
    destruct (IH d1 _ S1) as (s' & Run & S').
    destruct (store_run d1 cs) as [d2 rs]. cbn [fst snd] in *.
    exists s'. split; [|done]. econstructor; [|done].
    rewrite R. apply surjective_pairing.
Qed.

Lemma store_is_map : forall cs, exists s,
  spec_run store_empty cs (snd (store_run db_empty cs)) s /\ shows (fst (store_run db_empty cs)) s.
Proof.
  intros cs. destruct (store_run_sim cs _ _ sim_empty) as (s & R & S).
  exists s. split; [done|]. by apply sim_shows.
Qed.

(** ** Effects of a call on the database *)

Inductive effect (d : db) : call -> db -> Prop :=
| ef_same c : effect d c d
| ef_update_meta (id : str) m origin :
    d_meta d !! id = Some origin -> (m_utime origin < m_utime m)%Z ->
    effect d (UpdateMetadata id m) (with_meta (<[id := keep_meta origin m]> (d_meta d)) d)
| ef_create (id : str) m :
    d_meta d !! id = None -> d_vers d !! id = None -> id <> [] ->
    effect d (AddMetadata id m)
      (with_meta (<[id := m]> (d_meta d)) (with_vers (<[id := mk_vbucket 0 ∅]> (d_vers d)) d))
| ef_drop (id : str) m :
    d_meta d !! id = Some m ->
    effect d (RemoveMetadata id) (with_vers (delete id (d_vers d)) (with_meta (delete id (d_meta d)) d))
| ef_add (id : str) v b hi ui :
    d_vers d !! id = Some b -> uid_exists d (v_uid v) = false ->
    vb_map b !! vkey id (next_seq b) = None ->
    idx_add (v_hash v) (vkey id (next_seq b)) (d_hash d) = Some hi ->
    idx_add (v_uid v) (vkey id (next_seq b)) (d_uid d) = Some ui ->
    effect d (AddVersion id v)
      (with_uid ui (with_hash hi (with_vers (<[id := mk_vbucket (next_seq b)
         (<[vkey id (next_seq b) := with_seq (next_seq b) v]> (vb_map b))]> (d_vers d)) d)))
| ef_mig (id : str) v b hi ui :
    d_vers d !! id = Some b -> uid_exists d (v_uid v) = false ->
    vb_map b !! vkey id (v_seq v) = None ->
    idx_add (v_hash v) (vkey id (v_seq v)) (d_hash d) = Some hi ->
    idx_add (v_hash v) (vkey id (v_seq v)) (d_uid d) = Some ui ->
    effect d (MigrateVersion id v)
      (with_hash hi (with_uid ui (with_vers (<[id := mk_vbucket (N.max (vb_seq b) (v_seq v))
         (<[vkey id (v_seq v) := v]> (vb_map b))]> (d_vers d)) d)))
| ef_del (id : str) n b v :
    d_vers d !! id = Some b -> vb_map b !! vkey id n = Some v ->
    effect d (RemoveVersion id n)
      (with_vers (<[id := mk_vbucket (vb_seq b) (delete (vkey id n) (vb_map b))]> (d_vers d))
         (with_uid (idx_remove (v_hash v) (vkey id n) (d_uid d))
            (with_hash (idx_remove (v_hash v) (vkey id n) (d_hash d)) d)))
| ef_upd (id : str) n v b origin :
    d_vers d !! id = Some b -> vb_map b !! vkey id n = Some origin -> (v_ts origin < v_ts v)%Z ->
    effect d (UpdateVersion id n v)
      (with_vers (<[id := mk_vbucket (vb_seq b)
         (<[vkey id n := keep_identity origin v]> (vb_map b))]> (d_vers d)) d)
| ef_clear (id : str) b :
    d_vers d !! id = Some b ->
    effect d (RemoveVersions id) (with_vers (<[id := mk_vbucket 0 ∅]> (d_vers d)) d)
| ef_bkt c m :
    (exists b, c = CreateBucket b \/ c = UpdateBucket b) \/ (exists n, c = DeleteBucket n) ->
    effect d c (with_bkt m d).

Lemma keep_identity_seq : forall o n v, keep_identity o (with_seq n v) = keep_identity o v.
Proof. done. Qed.

Lemma with_vers_del_absent : forall id d, d_vers d !! id = None ->
  with_vers (delete id (d_vers d)) (with_meta (delete id (d_meta d)) d) = with_meta (delete id (d_meta d)) d.
Proof. intros id d H. unfold with_vers, with_meta. cbn. by rewrite (delete_notin (d_vers d)). Qed.

Lemma create_version_bucket_eq : forall id d, create_version_bucket id d =
  if decide (id = []) then inr EBolt else
  match d_vers d !! id with
  | Some _ => inr EBolt
  | None => inl (with_vers (<[ id := mk_vbucket 0 ∅ ]> (d_vers d)) d)
  end.
Proof. intros [|c id] d; done. Qed.

Lemma dispatch_effect : forall batch c d, effect d c (fst (dispatch (command batch c) d)).
Proof.
  intros batch c d.
  destruct c as [id m|id|id m|id v|id v|id n|id n v|id|b|name|b]; cbn [command dispatch rd_dest
    apply_metadata apply_version apply_version_all apply_bucket rd_type rd_meta rd_ver rd_bkt rd_name rd_seq
    rd_batch].
  - unfold add_meta. rewrite create_version_bucket_eq. destruct (d_meta d !! id) eqn:E; cbn; [constructor|].
    destruct (decide (id = [])); cbn; [constructor|].
    destruct (d_vers d !! id) eqn:E2; cbn; [constructor|]. by apply ef_create.
  - unfold remove_meta, remove_version_bucket. destruct (d_meta d !! id) eqn:E; cbn; [|constructor].
    destruct (d_vers d !! id) eqn:E2; cbn; [by eapply ef_drop|].
    rewrite <-with_vers_del_absent by done. by eapply ef_drop.
  - unfold update_meta. destruct (d_meta d !! id) eqn:E; cbn; [|constructor].
    destruct (Z.leb_spec (m_utime m) (m_utime m0)); cbn; [constructor|]. by apply ef_update_meta.
  - unfold repo_add_version, add_ver. destruct (_ && _); cbn; [constructor|].
    destruct (d_vers d !! id) eqn:E; cbn; [|constructor].
    destruct (uid_exists d (v_uid v)) eqn:U; cbn; [constructor|].
    destruct (vb_map v0 !! _) eqn:K; cbn; [constructor|].
    destruct (idx_add (v_hash v) _ _) eqn:H; cbn; [|constructor].
    destruct (idx_add (v_uid v) _ _) eqn:I; cbn; [|constructor]. by apply ef_add.
  - unfold repo_add_version_raft, add_ver_with_sequence. destruct (_ && _); cbn; [constructor|].
    destruct (d_vers d !! id) eqn:E; cbn; [|constructor].
    destruct (uid_exists d (v_uid v)) eqn:U; cbn; [constructor|].
    destruct (vb_map v0 !! _) eqn:K; cbn; [constructor|].
    destruct (idx_add (v_hash v) _ (d_uid d)) eqn:H; cbn; [|constructor].
    destruct (idx_add (v_hash v) _ (d_hash d)) eqn:I; cbn; [|constructor]. rewrite max_if. by apply ef_mig.
  - unfold remove_ver. destruct (d_vers d !! id) eqn:E; cbn; [|constructor].
    destruct (vb_map v !! _) eqn:K; cbn; [|constructor]. by apply ef_del.
  - unfold update_ver. destruct (d_vers d !! id) eqn:E; cbn; [|constructor].
    destruct (vb_map v0 !! _) eqn:K; cbn; [|constructor].
    destruct (Z.leb_spec (v_ts v) (v_ts v1)); cbn; [constructor|].
    rewrite keep_identity_seq. by apply ef_upd.
  - unfold remove_all_ver, remove_version_bucket.
    destruct (d_vers d !! id) eqn:E; cbn; [|constructor]. rewrite create_version_bucket_eq. cbn.
    destruct (decide (id = [])); cbn; [constructor|]. rewrite lookup_delete. cbn.
    unfold with_vers; cbn. rewrite insert_delete_insert. by apply (ef_clear d _ v).
  - unfold bkt_create. destruct (b_name b) eqn:Eb; cbn; [constructor|].
    destruct (d_bkt d !! _); cbn; [constructor|]. apply ef_bkt. left; eauto.
  - apply ef_bkt. right; eauto.
  - unfold bkt_update. destruct (b_name b) eqn:Eb; cbn; [constructor|].
    destruct (d_bkt d !! _); cbn; [|constructor].
    destruct (_ <=? _)%Z; cbn; [constructor|]. apply ef_bkt. left; eauto.
Qed.

(** ** Reading versions after a change *)

Lemma gv_put : forall d id b n v M s h u B id' n', d_vers d !! id = Some b ->
  get_ver id' n' (mk_db M (<[id := mk_vbucket s (<[vkey id n := v]> (vb_map b))]> (d_vers d)) h u B) =
  if decide (id' = id /\ n' = n) then Some v else get_ver id' n' d.
Proof.
  intros d id b n v M s h u B id' n' E. unfold get_ver. cbn.
  destruct (decide (id = id')) as [<-|Ni].
  - rewrite lookup_insert. cbn. destruct (decide (n' = n)) as [->|Nn].
    + rewrite decide_True by done. by rewrite lookup_insert.
    + rewrite decide_False by naive_solver. rewrite E.
      rewrite lookup_insert_ne; [done|]. intros X. by apply vkey_inj in X.
  - rewrite lookup_insert_ne by done. rewrite decide_False by naive_solver. done.
Qed.

Lemma gv_del : forall d id b n M s h u B id' n', d_vers d !! id = Some b ->
  get_ver id' n' (mk_db M (<[id := mk_vbucket s (delete (vkey id n) (vb_map b))]> (d_vers d)) h u B) =
  if decide (id' = id /\ n' = n) then None else get_ver id' n' d.
Proof.
  intros d id b n M s h u B id' n' E. unfold get_ver. cbn.
  destruct (decide (id = id')) as [<-|Ni].
  - rewrite lookup_insert. cbn. destruct (decide (n' = n)) as [->|Nn].
    + rewrite decide_True by done. by rewrite lookup_delete.
    + rewrite decide_False by naive_solver. rewrite E.
      rewrite lookup_delete_ne; [done|]. intros X. by apply vkey_inj in X.
  - rewrite lookup_insert_ne by done. rewrite decide_False by naive_solver. done.
Qed.

Lemma gv_clear : forall d id M s h u B id' n',
  get_ver id' n' (mk_db M (<[id := mk_vbucket s ∅]> (d_vers d)) h u B) =
  if decide (id' = id) then None else get_ver id' n' d.
Proof.
  intros d id M s h u B id' n'. unfold get_ver. cbn.
  destruct (decide (id' = id)) as [->|Ni].
  - by rewrite lookup_insert.
  - by rewrite lookup_insert_ne by done.
Qed.

Lemma gv_drop : forall d id M h u B id' n',
  get_ver id' n' (mk_db M (delete id (d_vers d)) h u B) =
  if decide (id' = id) then None else get_ver id' n' d.
Proof.
  intros d id M h u B id' n'. unfold get_ver. cbn.
  destruct (decide (id' = id)) as [->|Ni].
  - by rewrite lookup_delete.
  - by rewrite lookup_delete_ne by done.
Qed.

Lemma gv_same : forall d M h u B id n, get_ver id n (mk_db M (d_vers d) h u B) = get_ver id n d.
Proof. done. Qed.

(** ** Index lemmas *)

Lemma idx_add_get : forall h k m m', idx_add h k m = Some m' ->
  forall h', idx_get h' m' = if decide (h' = h) then {[k]} ∪ idx_get h m else idx_get h' m.
Proof.
  intros h k m m' E h'. unfold idx_add in E. destruct h as [|c h]; [done|].
  injection E as <-. unfold idx_get. destruct (decide (h' = c :: h)) as [->|N].
  - by rewrite lookup_insert.
  - by rewrite lookup_insert_ne.
Qed.

Lemma idx_remove_get : forall h k m h',
  idx_get h' (idx_remove h k m) = if decide (h' = h) then idx_get h m ∖ {[k]} else idx_get h' m.
Proof.
  intros h k m h'. unfold idx_remove, idx_get. destruct (m !! h) as [s|] eqn:E.
  - destruct (decide (h' = h)) as [->|N].
    + by rewrite lookup_insert.
    + by rewrite lookup_insert_ne.
  - destruct (decide (h' = h)) as [->|N]; [|done]. rewrite E. cbn. set_solver.
Qed.

Lemma idx_add_mono : forall h k m m' h' x, idx_add h k m = Some m' ->
  x ∈ idx_get h' m -> x ∈ idx_get h' m'.
Proof.
  intros h k m m' h' x E Hx. rewrite (idx_add_get _ _ _ _ E).
  destruct (decide (h' = h)) as [->|]; [set_solver|done].
Qed.

Lemma idx_add_in : forall h k m m', idx_add h k m = Some m' -> k ∈ idx_get h m'.
Proof.
  intros h k m m' E. rewrite (idx_add_get _ _ _ _ E). rewrite decide_True by done. set_solver.
Qed.

Lemma idx_add_inv : forall h k m m' h' x, idx_add h k m = Some m' ->
  x ∈ idx_get h' m' -> (h' = h /\ x = k) \/ x ∈ idx_get h' m.
Proof.
  intros h k m m' h' x E. rewrite (idx_add_get _ _ _ _ E).
  destruct (decide (h' = h)) as [->|]; [|by right].
  rewrite elem_of_union, elem_of_singleton. naive_solver.
Qed.

Lemma idx_remove_sub : forall h k m h' x, x ∈ idx_get h' (idx_remove h k m) -> x ∈ idx_get h' m.
Proof.
  intros h k m h' x. rewrite idx_remove_get. destruct (decide (h' = h)) as [->|]; set_solver.
Qed.

Lemma idx_remove_other : forall h k m h' x, x <> k -> x ∈ idx_get h' m -> x ∈ idx_get h' (idx_remove h k m).
Proof.
  intros h k m h' x N H. rewrite idx_remove_get. destruct (decide (h' = h)) as [->|]; set_solver.
Qed.
