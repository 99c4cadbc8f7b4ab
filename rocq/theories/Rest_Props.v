(** The pages of the metadata server over HTTP: success, numbers, names, malformed requests. *)
From Verif Require Import Str_Model Str_Spec Str_Proofs Util_Model Util_Proofs Meta_Model Meta_Spec Meta_Proofs Meta_Ids Meta_History Rpc_Model Rest_Model Rest_Spec Rest_Proofs.
From stdpp Require Import gmap.
From Coq Require Import Lia.

(** ** C162: success is told exactly of what was done *)

(** An answer other than success: nothing has changed. *)
Theorem C162_failed : forall raft room own now uid d r,
  ~ went_well (snd (serve raft room own now uid d r)) -> fst (serve raft room own now uid d r) = d.
Proof.
  intros raft room own now uid d r W. destruct (serve raft room own now uid d r) as [d' a] eqn:E. cbn [fst snd] in *.
  destruct r; cbn [serve] in E.
  - destruct (bind_json _ _); [|by injection E as <- _]. eapply told_failed; [exact E|vm_compute; split; congruence|exact W].
  - eapply told_failed; [exact E|vm_compute; split; congruence|exact W].
  - destruct (query_int ver), (query_bool extra); by injection E as <- _.
  - eapply told_failed; [exact E|vm_compute; split; congruence|exact W].
  - destruct (bind_json _ _); [|by injection E as <- _].
    destruct (write _ _ _) as [[d1 [e|]] n] eqn:E1.
    + apply write_failed in E1. injection E as <- _. exact E1.
    + exfalso. apply W. injection E as _ <-. unfold went_well. cbn. lia.
  - destruct (bind_json _ _); [|by injection E as <- _]. destruct (qry_int ver); [|by injection E as <- _].
    eapply told_failed; [exact E|vm_compute; split; congruence|exact W].
  - destruct (qry_int ver); by injection E as <- _.
  - destruct (qry_int ver); [|by injection E as <- _].
    eapply told_failed; [exact E|vm_compute; split; congruence|exact W].
  - destruct (query_int page), (query_int size); try by injection E as <- _.
    destruct (_ || _); by injection E as <- _.
  - destruct hash as [[|c h]|]; try by injection E as <- _.
    destruct (find_by_hash (c :: h) d) as [d1 l]. exfalso. apply W. injection E as _ <-. unfold went_well. cbn. lia.
  - destruct (bind_json _ _); [|by injection E as <- _]. destruct (bool_decide _); [by injection E as <- _|].
    destruct (own _); [|by injection E as <- _].
    eapply told_failed; [exact E|vm_compute; split; congruence|exact W].
  - destruct (bind_json _ _); [|by injection E as <- _].
    eapply told_failed; [exact E|vm_compute; split; congruence|exact W].
  - by injection E as <- _.
  - eapply told_failed; [exact E|vm_compute; split; congruence|exact W].
Qed.
Print Assumptions C162_failed.

(** Pages that read change nothing. *)
Theorem C162_reads : forall raft room own now uid d r, reads r -> fst (serve raft room own now uid d r) = d.
Proof.
  intros raft room own now uid d r R. destruct r; try contradiction R; cbn [serve].
  - by destruct (query_int ver), (query_bool extra).
  - by destruct (qry_int ver).
  - destruct (query_int page), (query_int size); try reflexivity. by destruct (_ || _).
  - reflexivity.
Qed.
Print Assumptions C162_reads.

(** Looking for contents changes no record and no version. *)
Theorem C162_find : forall raft room own now uid d h,
  d_meta (fst (serve raft room own now uid d (VFind h))) = d_meta d /\
  d_vers (fst (serve raft room own now uid d (VFind h))) = d_vers d.
Proof.
  intros raft room own now uid d h. cbn [serve]. destruct h as [[|c h]|]; try (split; reflexivity).
  unfold find_by_hash. generalize (find_loop_meta (c :: h) (ksort (elements (idx_get (c :: h) (d_hash d)))) d).
  destruct (find_loop _ _ _). auto.
Qed.
Print Assumptions C162_find.

(** A new record is stored with the name and bucket of the body and the time of the server, and has no versions. *)
Theorem C162_created : forall raft room own now uid d (id : str) m, id <> [] -> d_meta d !! id = None -> d_vers d !! id = None ->
  m_name m <> [] -> m_bucket m <> [] ->
  let (d', a) := serve raft room own now uid d (MPost id (JRead m)) in
  an_status a = 201%Z /\ d_meta d' = <[ id := mk_metadata (m_name m) (m_bucket m) now now ]> (d_meta d) /\
  (forall n, get_ver id n d' = None) /\ (forall id' n, id' <> id -> get_ver id' n d' = get_ver id' n d) /\ d_bkt d' = d_bkt d.
Proof.
  intros raft room own now uid d id m Hid Hm Hv Hn Hb. cbn [serve bind_json].
  unfold valid_metadata. rewrite !bool_decide_true by assumption. cbn [andb].
  assert (A : add_meta id (stamp_metadata now m) d =
    inl (with_meta (<[id := stamp_metadata now m]> (d_meta d)) (with_vers (<[id := mk_vbucket 0 ∅]> (d_vers d)) d))).
  { unfold add_meta. rewrite Hm, create_version_bucket_eq, Hv. destruct (decide (id = [])); [contradiction|reflexivity]. }
  destruct raft; unfold write, told; cbn [command dispatch direct rd_dest apply_metadata rd_type rd_meta rd_name];
    rewrite A; cbn [Meta_Model.answer commit fst snd fsm_status option_map];
    (split; [reflexivity|]; split; [reflexivity|]; split; [|split; [|reflexivity]]).
  1,3: intros n; unfold get_ver; cbn [d_vers with_meta with_vers]; rewrite lookup_insert; reflexivity.
  all: intros id' n H; unfold get_ver; cbn [d_vers with_meta with_vers]; rewrite lookup_insert_ne by congruence; reflexivity.
Qed.
Print Assumptions C162_created.

(** A change of a record: the name of the body, bucket and time of creation as before. *)
Theorem C162_updated : forall raft room own now uid d (id : str) b m, d_meta d !! id = Some m -> (m_utime m < now)%Z ->
  let (d', a) := serve raft room own now uid d (MPut id b) in
  an_status a = 200%Z /\ d' = with_meta (<[ id := mk_metadata (m_name (json_value b)) (m_bucket m) (m_ctime m) now ]> (d_meta d)) d.
Proof.
  intros raft room own now uid d id b m Hm Ht. cbn [serve].
  assert (A : update_meta id (stamp_meta_update now (json_value b)) d =
    inl (with_meta (<[ id := mk_metadata (m_name (json_value b)) (m_bucket m) (m_ctime m) now ]> (d_meta d)) d)).
  { unfold update_meta. rewrite Hm. cbn [m_utime stamp_meta_update]. destruct (Z.leb_spec now (m_utime m)); [lia|reflexivity]. }
  destruct raft; unfold write, told; cbn [command dispatch direct rd_dest apply_metadata rd_type rd_meta rd_name];
    rewrite A; split; reflexivity.
Qed.
Print Assumptions C162_updated.

(** A record removed takes its versions along, and nothing else. *)
Theorem C162_deleted : forall raft room own now uid d (id : str) m, d_meta d !! id = Some m ->
  let (d', a) := serve raft room own now uid d (MDelete id) in
  an_status a = 204%Z /\ d_meta d' = delete id (d_meta d) /\ (forall n, get_ver id n d' = None) /\
  (forall id' n, id' <> id -> get_ver id' n d' = get_ver id' n d) /\ d_bkt d' = d_bkt d.
Proof.
  intros raft room own now uid d id m Hm. cbn [serve].
  assert (A : exists d', remove_meta id d = inl d' /\ d_meta d' = delete id (d_meta d) /\ d_vers d' = delete id (d_vers d) /\ d_bkt d' = d_bkt d).
  { unfold remove_meta, remove_version_bucket. rewrite Hm. cbn [with_meta d_vers]. destruct (d_vers d !! id) eqn:E.
    - eexists; split; [reflexivity|]. repeat split.
    - eexists; split; [reflexivity|]. cbn. rewrite (delete_notin (d_vers d)) by exact E. repeat split. }
  destruct A as (d' & A & M & V & B).
  destruct raft; unfold write, told; cbn [command dispatch direct rd_dest apply_metadata rd_type rd_meta rd_name];
    rewrite A; cbn [Meta_Model.answer commit fst snd fsm_status option_map];
    (split; [reflexivity|]; split; [exact M|]; split; [|split; [|exact B]]).
  1,3: intros n; unfold get_ver; rewrite V, lookup_delete; reflexivity.
  all: intros id' n H; unfold get_ver; rewrite V, lookup_delete_ne by congruence; reflexivity.
Qed.
Print Assumptions C162_deleted.

(** A new version: answered with its number, under which it is kept; no other version changes. *)
Theorem C162_version : forall raft room own now uid d (id : str) v b, d_vers d !! id = Some b -> valid_version v = true ->
  uid <> [] -> uid_exists d uid = false -> vb_map b !! vkey id (next_seq b) = None -> (next_seq b < 2 ^ 63)%N ->
  let (d', a) := serve raft room own now uid d (VPost id (JRead v)) in
  a = Answer 201 (BNumber (Z.of_N (next_seq b))) /\ d_meta d' = d_meta d /\
  forall id' n', get_ver id' n' d' =
    if decide (id' = id /\ n' = next_seq b) then Some (with_seq (next_seq b) (stamp_version now uid v)) else get_ver id' n' d.
Proof.
  intros raft room own now uid d id v b Hb Hv Hu Hx Hk Hs. cbn [serve bind_json]. rewrite Hv.
  set (w := stamp_version now uid (with_seq 0 v)).
  assert (Hh : v_hash v <> []).
  { unfold valid_version in Hv. apply andb_prop in Hv as [Hv _]. apply andb_prop in Hv as [_ Hv]. by apply bool_decide_eq_true in Hv. }
  assert (A : exists hi ui, add_ver id w d = inl (with_uid ui (with_hash hi (with_vers (<[id := mk_vbucket (next_seq b)
         (<[vkey id (next_seq b) := with_seq (next_seq b) w]> (vb_map b))]> (d_vers d)) d)))).
  { unfold add_ver. rewrite Hb. change (v_uid w) with uid. rewrite Hx, Hk. change (v_hash w) with (v_hash v).
    destruct (v_hash v) as [|c h]; [contradiction|]. destruct uid as [|u us]; [contradiction|]. cbn [idx_add].
    do 2 eexists. reflexivity. }
  destruct A as (hi & ui & A).
  assert (Q : add_ver_seq id w d = next_seq b).
  { unfold add_ver_seq. rewrite Hb. change (v_uid w) with uid. by rewrite Hx. }
  assert (I : nonempty_ids w = true).
  { unfold nonempty_ids. change (v_hash w) with (v_hash v). change (v_uid w) with uid. destruct (v_hash v); [contradiction|]. by destruct uid. }
  assert (W : wrap64 (Z.of_N (next_seq b)) = Z.of_N (next_seq b)).
  { apply wrap64_small. split; [|]. 1: assert (0 <= Z.of_N (next_seq b))%Z by apply N2Z.is_nonneg; lia.
    change (2 ^ 63)%Z with (Z.of_N (2 ^ 63)). apply N2Z.inj_lt. exact Hs. }
  assert (G : forall id' n', get_ver id' n' (with_uid ui (with_hash hi (with_vers (<[id := mk_vbucket (next_seq b)
         (<[vkey id (next_seq b) := with_seq (next_seq b) w]> (vb_map b))]> (d_vers d)) d))) =
    if decide (id' = id /\ n' = next_seq b) then Some (with_seq (next_seq b) (stamp_version now uid v)) else get_ver id' n' d).
  { intros id' n'. exact (gv_put d id b (next_seq b) (with_seq (next_seq b) w) (d_meta d) (next_seq b) hi ui (d_bkt d) id' n' Hb). }
  destruct raft; unfold write; cbn [command dispatch direct rd_dest apply_version rd_type rd_ver rd_name rd_batch].
  - unfold repo_add_version, repo_add_version_seq. cbn [negb andb]. rewrite A, Q. cbn [commit fst snd].
    split; [|split; [reflexivity|exact G]]. change (raft_err (RStatus (fsm_status None) (Some (next_seq b)))) with (@None gerr).
    cbn [snd]. rewrite W. reflexivity.
  - unfold repo_add_version, repo_add_version_seq. rewrite I. cbn [negb andb]. rewrite A, Q. cbn [commit fst snd option_map].
    rewrite W. split; [reflexivity|split; [reflexivity|exact G]].
Qed.
Print Assumptions C162_version.

(** Refuted: in a group the record of an object that exists is not replaced, but its creation is told. *)
Theorem C162_exists_refuted : forall room own now uid d (id : str) m old, d_meta d !! id = Some old -> m_name m <> [] -> m_bucket m <> [] ->
  serve true room own now uid d (MPost id (JRead m)) = (d, Answer 201 BNothing) /\
  serve false room own now uid d (MPost id (JRead m)) = (d, Answer 400 BNothing).
Proof.
  intros room own now uid d id m old Hm Hn Hb. cbn [serve bind_json].
  unfold valid_metadata. rewrite !bool_decide_true by assumption. cbn [andb].
  assert (A : add_meta id (stamp_metadata now m) d = inr EExists) by (unfold add_meta; by rewrite Hm).
  unfold write, told; cbn [command dispatch direct rd_dest apply_metadata rd_type rd_meta rd_name]; rewrite A; split; reflexivity.
Qed.
Print Assumptions C162_exists_refuted.

(** Refuted: a change whose body cannot be read is told to have succeeded, and the name is what was read so far,
    none at all. *)
Theorem C162_unread_refuted : forall raft room own now uid d (id : str) m, d_meta d !! id = Some m -> (m_utime m < now)%Z ->
  let (d', a) := serve raft room own now uid d (MPut id (JBroken (mk_metadata [] [] 0 0))) in
  an_status a = 200%Z /\ d_meta d' !! id = Some (mk_metadata [] (m_bucket m) (m_ctime m) now).
Proof.
  intros raft room own now uid d id m Hm Ht.
  generalize (C162_updated raft room own now uid d id (JBroken (mk_metadata [] [] 0 0)) m Hm Ht).
  destruct (serve _ _ _ _ _ _ _) as [d' a]. intros [S ->]. split; [exact S|]. cbn. by rewrite lookup_insert.
Qed.
Print Assumptions C162_unread_refuted.

(** ** C163: a version is read, changed and removed under its own number only *)

Theorem C163_get : forall raft room own now uid d (id : str) n, (1 <= n <= int64_max)%Z ->
  serve raft room own now uid d (VGet id (Some (print_Z n))) =
  (d, match get_ver id (Z.to_N n) d with Some v => Answer 200 (BVersion v) | None => Answer 404 BNothing end).
Proof.
  intros raft room own now uid d id n H. cbn [serve qry_int option_map]. rewrite to_int64_print by lia.
  unfold service_get_version. destruct (Z.leb_spec n 0); [lia|]. by destruct (get_ver _ _ _).
Qed.
Print Assumptions C163_get.

Lemma unsigned64_small : forall n, (0 <= n <= int64_max)%Z -> unsigned64 n = Z.to_N n.
Proof. intros n H. unfold unsigned64. rewrite Z.mod_small by (unfold int64_max in H; lia). reflexivity. Qed.

Theorem C163_delete : forall raft room own now uid d (id : str) n, (1 <= n <= int64_max)%Z ->
  let (d', a) := serve raft room own now uid d (VDelete id (Some (print_Z n))) in
  (an_status a = 204%Z \/ an_status a = 404%Z) /\ d_meta d' = d_meta d /\
  forall id' n', get_ver id' n' d' = if decide (id' = id /\ n' = Z.to_N n) then None else get_ver id' n' d.
Proof.
  intros raft room own now uid d id n H. cbn [serve qry_int option_map]. rewrite to_int64_print by lia.
  destruct (Z.ltb_spec n 0); [lia|]. rewrite unsigned64_small by lia.
  assert (A : (exists e, remove_ver id (Z.to_N n) d = inr e /\ e = ENotFound /\ get_ver id (Z.to_N n) d = None) \/
    exists d', remove_ver id (Z.to_N n) d = inl d' /\ d_meta d' = d_meta d /\
    forall id' n', get_ver id' n' d' = if decide (id' = id /\ n' = Z.to_N n) then None else get_ver id' n' d).
  { unfold remove_ver. destruct (d_vers d !! id) as [b|] eqn:Hb.
    - destruct (vb_map b !! vkey id (Z.to_N n)) as [v|] eqn:Hk.
      + right. eexists. split; [reflexivity|]. split; [reflexivity|]. intros id' n'.
        exact (gv_del d id b (Z.to_N n) (d_meta d) (vb_seq b) (idx_remove (v_hash v) (vkey id (Z.to_N n)) (d_hash d))
          (idx_remove (v_hash v) (vkey id (Z.to_N n)) (d_uid d)) (d_bkt d) id' n' Hb).
      + left. eexists. split; [reflexivity|]. split; [reflexivity|]. unfold get_ver. by rewrite Hb.
    - right. eexists. split; [reflexivity|]. split; [reflexivity|]. intros id' n'. destruct (decide _) as [[-> ->]|]; [|reflexivity].
      unfold get_ver. by rewrite Hb. }
  destruct A as [(e & A & -> & G)|(d' & A & M & G)]; destruct raft; unfold write, told;
    cbn [command dispatch direct rd_dest apply_version rd_type rd_ver rd_name rd_seq]; rewrite A; cbn [Meta_Model.answer commit fst snd].
  1,2: split; [right; reflexivity|]; split; [reflexivity|]; intros id' n'; destruct (decide _) as [[-> ->]|]; [exact G|reflexivity].
  1,2: split; [left; reflexivity|]; split; [exact M|exact G].
Qed.
Print Assumptions C163_delete.

Theorem C163_put : forall raft room own now uid d (id : str) n v, (1 <= n <= int64_max)%Z -> valid_version v = true ->
  let (d', a) := serve raft room own now uid d (VPut id (Some (print_Z n)) (JRead v)) in
  d_meta d' = d_meta d /\
  (forall id' n', (id', n') <> (id, Z.to_N n) -> get_ver id' n' d' = get_ver id' n' d) /\
  (went_well a -> exists old, get_ver id (Z.to_N n) d = Some old /\
     get_ver id (Z.to_N n) d' = Some (mk_version (v_compress v) (v_strategy v) (v_ds v) (v_ps v) (v_shard v) (v_size v)
                                        now (v_seq old) (v_hash old) (v_uid old) (v_locate v))).
Proof.
  intros raft room own now uid d id n v H Hv. cbn [serve bind_json]. rewrite Hv. cbn [qry_int option_map].
  rewrite to_int64_print by lia. unfold stamp_update. rewrite unsigned64_small by lia.
  set (w := mk_version _ _ _ _ _ _ _ _ _ _ _).
  assert (A : (exists e, update_ver id (with_seq (Z.to_N n) w) d = inr e /\ (e = ENotFound \/ e = EOldData)) \/
    exists old d', get_ver id (Z.to_N n) d = Some old /\ update_ver id (with_seq (Z.to_N n) w) d = inl d' /\ d_meta d' = d_meta d /\
    forall id' n', get_ver id' n' d' = if decide (id' = id /\ n' = Z.to_N n) then Some (keep_identity old w) else get_ver id' n' d).
  { unfold update_ver. change (v_seq (with_seq (Z.to_N n) w)) with (Z.to_N n). unfold get_ver at 1. destruct (d_vers d !! id) as [b|] eqn:Hb.
    - destruct (vb_map b !! vkey id (Z.to_N n)) as [old|] eqn:Hk; [|left; eexists; split; [reflexivity|by left]].
      destruct (_ <=? _)%Z; [left; eexists; split; [reflexivity|by right]|].
      right. do 2 eexists. split; [reflexivity|]. split; [reflexivity|]. split; [reflexivity|]. intros id' n'.
      exact (gv_put d id b (Z.to_N n) (keep_identity old w) (d_meta d) (vb_seq b) (d_hash d) (d_uid d) (d_bkt d) id' n' Hb).
    - left; eexists; split; [reflexivity|by left]. }
  destruct A as [(e & A & He)|(old & d' & O & A & M & G)]; destruct raft; unfold write, told;
    cbn [command dispatch direct rd_dest apply_version rd_type rd_ver rd_name rd_seq]; rewrite A; cbn [Meta_Model.answer commit fst snd].
  1,2: split; [reflexivity|]; split; [reflexivity|]; destruct He as [-> | ->]; unfold went_well; vm_compute; intros [_ X]; discriminate X.
  1,2: split; [exact M|]; split;
    [intros id' n' Hne; rewrite G; destruct (decide _) as [[-> ->]|]; [contradiction Hne; reflexivity|reflexivity]
    |intros _; exists old; split; [exact O|]; rewrite G; destruct (decide _) as [|X]; [reflexivity|contradiction X; split; reflexivity]].
Qed.
Print Assumptions C163_put.

(** The page of a record shows the version asked for. *)
Theorem C163_shown : forall raft room own now uid d (id : str) n m, (1 <= n <= int64_max)%Z -> d_meta d !! id = Some m ->
  serve raft room own now uid d (MGet id (Some (print_Z n)) None) = (d, Answer 200 (BMeta m None (get_ver id (Z.to_N n) d))).
Proof.
  intros raft room own now uid d id n m H Hm. cbn [serve].
  assert (Q : query_int (Some (print_Z n)) = Some n).
  { unfold query_int. assert (P : print_Z n = print_N (Z.to_N n)) by (destruct n; [lia|reflexivity|lia]).
    rewrite P. destruct (print_N (Z.to_N n)) eqn:E; [by apply print_N_nonempty in E|]. rewrite <- E.
    rewrite atoi_print_N; rewrite Z2N.id; lia || reflexivity. }
  rewrite Q. cbn [query_bool]. unfold get_metadata. rewrite Hm. destruct (Z.eqb_spec n (-1)); [lia|].
  unfold service_get_version. destruct (Z.leb_spec n 0); [lia|reflexivity].
Qed.
Print Assumptions C163_shown.

(** Without a number it shows the latest version, for -1 none. *)
Theorem C163_latest : forall raft room own now uid d (id : str) m, d_meta d !! id = Some m ->
  serve raft room own now uid d (MGet id None None) = (d, Answer 200 (BMeta m None (get_ver id (last_version_number id d) d))) /\
  serve raft room own now uid d (MGet id (Some (s2l "-1"%string)) None) = (d, Answer 200 (BMeta m None None)).
Proof.
  intros raft room own now uid d id m Hm. cbn [serve query_int query_bool].
  replace (atoi (s2l "-1"%string)) with (Some (-1)%Z) by (vm_compute; reflexivity).
  cbn. unfold get_metadata. rewrite Hm. split; reflexivity.
Qed.
Print Assumptions C163_latest.

(** No number at all is refused. *)
Theorem C163_missing : forall raft room own now uid d (id : str) v, valid_version v = true ->
  serve raft room own now uid d (VGet id None) = (d, Answer 400 BNothing) /\
  serve raft room own now uid d (VDelete id None) = (d, Answer 400 BNothing) /\
  serve raft room own now uid d (VPut id None (JRead v)) = (d, Answer 400 BNothing).
Proof. intros raft room own now uid d id v Hv. cbn [serve bind_json]. rewrite Hv. repeat split. Qed.
Print Assumptions C163_missing.

(** Refuted: a text that is no number reads like no version, which is the latest one. *)
Theorem C163_text_refuted : forall raft room own now uid d (id : str) t, (to_int64 t <= 0)%Z ->
  serve raft room own now uid d (VGet id (Some t)) =
  (d, match get_ver id (last_version_number id d) d with Some v => Answer 200 (BVersion v) | None => Answer 404 BNothing end).
Proof.
  intros raft room own now uid d id t H. cbn [serve qry_int option_map]. unfold service_get_version.
  destruct (Z.leb_spec (to_int64 t) 0); [|lia]. by destruct (get_ver _ _ _).
Qed.
Print Assumptions C163_text_refuted.

Example C163_texts : Forall (fun t => unreadable t /\ (to_int64 t <= 0)%Z) [s2l "v2"; s2l "1.5"; s2l " 1"; s2l "0x1"].
Proof. repeat constructor; try (intros C; discriminate C); vm_compute; congruence. Qed.

(** Refuted: every negative number removes all versions of the object. *)
Theorem C163_negative_refuted : forall raft room own now uid d (id : str) b t, (to_int64 t < 0)%Z -> id <> [] -> d_vers d !! id = Some b ->
  let (d', a) := serve raft room own now uid d (VDelete id (Some t)) in
  an_status a = 204%Z /\ forall n, get_ver id n d' = None.
Proof.
  intros raft room own now uid d id b t H Hid Hb. cbn [serve qry_int option_map].
  destruct (Z.ltb_spec (to_int64 t) 0); [|lia].
  assert (A : exists d', remove_all_ver id d = inl d' /\ forall n, get_ver id n d' = None).
  { unfold remove_all_ver, remove_version_bucket. rewrite Hb, create_version_bucket_eq.
    destruct (decide (id = [])); [contradiction|]. cbn [d_vers with_vers]. rewrite lookup_delete.
    eexists. split; [reflexivity|]. intros n'. unfold get_ver. cbn [d_vers with_vers]. rewrite lookup_insert. reflexivity. }
  destruct A as (d' & A & G). destruct raft; unfold write, told;
    cbn [command dispatch direct rd_dest apply_version_all rd_type rd_name]; rewrite A; split; solve [reflexivity|exact G].
Qed.
Print Assumptions C163_negative_refuted.

Example C163_negatives : Forall (fun t => (to_int64 t < 0)%Z) [s2l "-1"; s2l "-7"; s2l "-99999999999999999999999"].
Proof. repeat constructor. Qed.

(** ** C164: a record is kept under the id of the object it names *)

(** Kept when bodies are about the object of their path. *)
(** Partial.  Full statement: Whatever is sent to the metadata server over HTTP, the record kept
    under an id has the bucket and the name that make up that id.  It fails in general:
    [C164_post_refuted], [C164_put_refuted].  Refuted otherwise: the path is not compared with the
    body, and a change may rename. *)
Theorem C164_named_partial : forall raft room own now uid d r, named d -> fits_path d r ->
  named (fst (serve raft room own now uid d r)).
Proof.
  intros raft room own now uid d r Nm F.
  assert (K : forall c l, (match c with
      | AddMetadata id m => id = m_bucket m ++ "/"%char :: m_name m
      | UpdateMetadata id m => forall o, d_meta d !! id = Some o -> m_name m = m_name o
      | _ => True end) -> named (fst (told (write raft c d) l))).
  { intros c l Hc. rewrite told_fst. generalize (write_effect raft c d). intros X.
    destruct X; try exact Nm; intros i x Hx; cbn [with_meta with_vers with_uid with_hash with_bkt d_meta] in Hx.
    - destruct (decide (i = id)) as [->|Ne].
      + rewrite lookup_insert in Hx. injection Hx as <-. cbn [keep_meta m_bucket m_name]. rewrite (Hc origin H). exact (Nm id origin H).
      + rewrite lookup_insert_ne in Hx by congruence. exact (Nm i x Hx).
    - destruct (decide (i = id)) as [->|Ne].
      + rewrite lookup_insert in Hx. injection Hx as <-. exact Hc.
      + rewrite lookup_insert_ne in Hx by congruence. exact (Nm i x Hx).
    - apply lookup_delete_Some in Hx as [_ Hx]. exact (Nm i x Hx). }
  destruct r; cbn [serve].
  - destruct (bind_json valid_metadata b) as [m|e] eqn:E; [|exact Nm]. apply K.
    destruct b as [m'|m']; cbn in E; [|discriminate E]. destruct (valid_metadata m'); [|discriminate E]. injection E as <-. exact F.
  - apply K. exact F.
  - by destruct (query_int ver), (query_bool extra).
  - apply K. exact Logic.I.
  - destruct (bind_json valid_version b) as [v|e]; [|exact Nm].
    pose proof (K (AddVersion id (stamp_version now uid (with_seq 0 v))) [] Logic.I) as X. rewrite told_fst in X.
    destruct (write _ _ _) as [[d1 [e|]] n]; exact X.
  - destruct (bind_json _ _); [|exact Nm]. destruct (qry_int ver); [|exact Nm]. apply K. exact Logic.I.
  - by destruct (qry_int ver).
  - destruct (qry_int ver); [|exact Nm]. apply K. by destruct (_ <? _)%Z.
  - destruct (query_int page), (query_int size); try exact Nm. by destruct (_ || _).
  - intros i x Hx. apply Nm. destruct (C162_find raft room own now uid d hash) as [M _]. cbn [serve] in M. by rewrite M in Hx.
  - destruct (bind_json _ _); [|exact Nm]. destruct (bool_decide _); [exact Nm|]. destruct (own _); [|exact Nm]. apply K. exact Logic.I.
  - destruct (bind_json _ _); [|exact Nm]. apply K. exact Logic.I.
  - exact Nm.
  - apply K. exact Logic.I.
Qed.
Print Assumptions C164_named_partial.

(** Buckets are kept under the name of the path, whatever the body says: a change takes the
    settings of the body, keeps the time of creation and touches no other bucket. *)
Theorem C164_bucket : forall raft room own now uid d (name : str) k o, name <> [] -> d_bkt d !! name = Some o -> (b_utime o < now)%Z ->
  let (d', a) := serve raft room own now uid d (KUpdate name (JRead k)) in
  an_status a = 200%Z /\ d_meta d' = d_meta d /\ d_vers d' = d_vers d /\
  d_bkt d' = <[ name := mk_bucket (b_versioning k) (b_readonly k) (b_compress k) (b_strategy k) (b_ds k) (b_ps k) (b_remains k)
                          (b_ctime o) now name (b_policies k) ]> (d_bkt d).
Proof.
  intros raft room own now uid d name k o Hn Ho Ht. cbn [serve bind_json].
  assert (A : bkt_update (stamp_bucket_update now name k) d =
    inl (with_bkt (<[ name := keep_ctime o (stamp_bucket_update now name k) ]> (d_bkt d)) d)).
  { unfold bkt_update. cbn [b_name b_utime stamp_bucket_update]. destruct name as [|c n]; [contradiction|].
    rewrite Ho. destruct (Z.leb_spec now (b_utime o)); [lia|reflexivity]. }
  destruct raft; unfold write, told; cbn [command dispatch direct rd_dest apply_bucket rd_type rd_bkt rd_name];
    rewrite A; repeat split.
Qed.
Print Assumptions C164_bucket.

Theorem C164_buckets : forall raft room own now uid d r, (forall n k, d_bkt d !! n = Some k -> b_name k = n) ->
  forall n k, d_bkt (fst (serve raft room own now uid d r)) !! n = Some k -> b_name k = n.
Proof.
  intros raft room own now uid d r Nm.
  assert (K : forall c l, forall n k, d_bkt (fst (told (write raft c d) l)) !! n = Some k -> b_name k = n).
  { intros c l. rewrite told_fst. exact (write_buckets raft c d Nm). }
  destruct r; cbn [serve].
  - destruct (bind_json valid_metadata b); [apply K|exact Nm].
  - apply K.
  - by destruct (query_int ver), (query_bool extra).
  - apply K.
  - destruct (bind_json valid_version b) as [v|e]; [|exact Nm].
    pose proof (K (AddVersion id (stamp_version now uid (with_seq 0 v))) []) as X. rewrite told_fst in X.
    destruct (write _ _ _) as [[d1 [e|]] n]; exact X.
  - destruct (bind_json _ _); [|exact Nm]. destruct (qry_int ver); [|exact Nm]. apply K.
  - by destruct (qry_int ver).
  - destruct (qry_int ver); [|exact Nm]. apply K.
  - destruct (query_int page), (query_int size); try exact Nm. by destruct (_ || _).
  - destruct hash as [[|c h]|]; try exact Nm. unfold find_by_hash.
    generalize (find_loop_bkt (c :: h) (ksort (elements (idx_get (c :: h) (d_hash d)))) d).
    destruct (find_loop _ _ _) as [d1 l]. cbn [fst]. intros ->. exact Nm.
  - destruct (bind_json _ _); [|exact Nm]. destruct (bool_decide _); [exact Nm|]. destruct (own _); [|exact Nm]. apply K.
  - destruct (bind_json _ _); [|exact Nm]. apply K.
  - exact Nm.
  - apply K.
Qed.
Print Assumptions C164_buckets.

Example C164_buckets_nonvacuous :
  let k := mk_bucket true false false 0 0 0 10 1 1 (s2l "b"%string) [] in
  let d := with_bkt (<[ s2l "b"%string := k ]> ∅) db_empty in
  (forall n x, d_bkt d !! n = Some x -> b_name x = n) /\ (b_utime k < 9)%Z /\
  (let (d', a) := serve true 1000 (fun _ => true) 9 [] d (KUpdate (s2l "b"%string) (JRead (mk_bucket false true true 1 2 3 4 5 6 (s2l "other"%string) []))) in
   an_status a = 200%Z /\ d_bkt d' !! s2l "b"%string = Some (mk_bucket false true true 1 2 3 4 1 9 (s2l "b"%string) []) /\
   d_bkt d' !! s2l "other"%string = None).
Proof.
  cbv zeta. split; [|split; [vm_compute; reflexivity|vm_compute; repeat split]].
  intros n x H. cbn in H. apply lookup_insert_Some in H. destruct H as [[<- <-]|[_ H]]; [reflexivity|]. by rewrite lookup_empty in H.
Qed.

(** Refuted: a body about another object is stored under the id of the path. *)
Theorem C164_post_refuted : forall raft room own now uid d (id : str) m, id <> [] -> d_meta d !! id = None -> d_vers d !! id = None ->
  m_name m <> [] -> m_bucket m <> [] -> id <> m_bucket m ++ "/"%char :: m_name m ->
  went_well (snd (serve raft room own now uid d (MPost id (JRead m)))) /\ ~ named (fst (serve raft room own now uid d (MPost id (JRead m)))).
Proof.
  intros raft room own now uid d id m Hid Hm Hv Hn Hb Ne.
  generalize (C162_created raft room own now uid d id m Hid Hm Hv Hn Hb).
  destruct (serve _ _ _ _ _ _ _) as [d' a]. cbn [fst snd]. intros (St & M & _). split; [unfold went_well; lia|].
  intros C. apply Ne. apply (C id (mk_metadata (m_name m) (m_bucket m) now now)). rewrite M. apply lookup_insert.
Qed.
Print Assumptions C164_post_refuted.

(** Refuted: a change may rename. *)
Theorem C164_put_refuted : forall raft room own now uid d (id : str) b m, named d -> d_meta d !! id = Some m -> (m_utime m < now)%Z ->
  m_name (json_value b) <> m_name m ->
  went_well (snd (serve raft room own now uid d (MPut id b))) /\ ~ named (fst (serve raft room own now uid d (MPut id b))).
Proof.
  intros raft room own now uid d id b m Nm Hm Ht Ne.
  generalize (C162_updated raft room own now uid d id b m Hm Ht).
  destruct (serve _ _ _ _ _ _ _) as [d' a]. cbn [fst snd]. intros (St & ->). split; [unfold went_well; lia|].
  intros C. apply Ne. pose proof (Nm id m Hm) as E1.
  specialize (C id (mk_metadata (m_name (json_value b)) (m_bucket m) (m_ctime m) now)). cbn in C. rewrite lookup_insert in C.
  specialize (C eq_refl). cbn in C. rewrite E1 in C at 1. apply app_inv_head in C. congruence.
Qed.
Print Assumptions C164_put_refuted.

(** ** C165: malformed requests are answered with 400 and change nothing *)

(** A body that breaks a rule, a page or a size of 0, no hash, no name. *)
Theorem C165_rules : forall raft room own now uid d (id : str) ver m v k, valid_metadata m = false -> valid_version v = false -> b_name k = [] ->
  Forall (fun r => serve raft room own now uid d r = (d, Answer 400 BNothing))
    [MPost id (JRead m); VPost id (JRead v); VPut id ver (JRead v); KCreate (JRead k); VFind None; VFind (Some []); VList id None None].
Proof.
  intros raft room own now uid d id ver m v k Hm Hv Hk.
  repeat constructor; cbn [serve bind_json]; rewrite ?Hm, ?Hv, ?Hk; reflexivity.
Qed.
Print Assumptions C165_rules.

(** A page or size that is no number or 0. *)
Theorem C165_page : forall raft room own now uid d (id : str) p n,
  (query_int p = None \/ query_int n = None \/ query_int p = Some 0%Z \/ query_int n = Some 0%Z) ->
  serve raft room own now uid d (VList id p n) = (d, Answer 400 BNothing).
Proof.
  intros raft room own now uid d id p n H. cbn [serve].
  destruct (query_int p) as [a|]; [|reflexivity]. destruct (query_int n) as [c|]; [|by destruct H as [H|[H|[H|H]]]].
  destruct H as [H|[H|[H|H]]]; try discriminate H; injection H as ->; cbn; [reflexivity|]. by destruct (a =? 0)%Z.
Qed.
Print Assumptions C165_page.

(** A page is that many versions and one more, from the place where it starts. *)
Theorem C165_list : forall raft room own now uid d (id : str) p n b, (1 <= p)%Z -> (1 <= n)%Z -> (p * n < 2 ^ 63 - 1)%Z -> (n + 1 <= room)%Z ->
  d_vers d !! id = Some b ->
  serve raft room own now uid d (VList id (Some (print_Z p)) (Some (print_Z n))) =
  (d, Answer 200 (BVersions (omap (fun k => vb_map b !! k)
      (take (Z.to_nat (n + 1)) (filter (fun k => str_ltb k (vkey id (Z.to_N ((p - 1) * n + 1))) = false) (keys (vb_map b)))))
      (size (vb_map b)))).
Proof.
  intros raft room own now uid d id p n b Hp Hn Ho Hr Hb. cbn [serve].
  assert (Q : forall z, (1 <= z < 2 ^ 63)%Z -> query_int (Some (print_Z z)) = Some z).
  { intros z Hz. unfold query_int. assert (P : print_Z z = print_N (Z.to_N z)) by (destruct z; [lia|reflexivity|lia]).
    rewrite P. destruct (print_N (Z.to_N z)) eqn:E; [by apply print_N_nonempty in E|]. rewrite <- E.
    rewrite atoi_print_N; rewrite Z2N.id; unfold int64_max; lia || reflexivity. }
  rewrite !Q by nia. destruct (Z.eqb_spec p 0); [lia|]. destruct (Z.eqb_spec n 0); [lia|]. cbn [orb].
  unfold list_page. destruct (Z.eqb_spec p 0); [lia|]. rewrite page_length.
  rewrite (wrap64_small (n + 1)) by nia. rewrite (wrap64_small ((p - 1) * n)) by nia. rewrite (wrap64_small ((p - 1) * n + 1)) by nia.
  destruct (Z.ltb_spec (n + 1) 0); [lia|]. destruct (Z.ltb_spec room (n + 1)); [lia|]. cbn [orb]. rewrite Hb.
  assert (P : print_Z ((p - 1) * n + 1) = print_N (Z.to_N ((p - 1) * n + 1))).
  { assert ((p - 1) * n + 1 > 0)%Z by nia. destruct ((p - 1) * n + 1)%Z; [lia|reflexivity|lia]. }
  rewrite P. reflexivity.
Qed.
Print Assumptions C165_list.

(** Refuted: a body that is no JSON is the server's fault. *)
Theorem C165_json_refuted : forall raft room own now uid d (id : str) ver m v k,
  Forall (fun r => serve raft room own now uid d r = (d, Answer 500 BNothing))
    [MPost id (JBroken m); VPost id (JBroken v); VPut id ver (JBroken v); KCreate (JBroken k); KUpdate id (JBroken k)].
Proof. intros. repeat constructor. Qed.
Print Assumptions C165_json_refuted.

(** Refuted: so is a version that is no number, or a truth value that is none. *)
Theorem C165_query_refuted : forall raft room own now uid d (id : str) ver extra, query_int ver = None \/ query_bool extra = None ->
  serve raft room own now uid d (MGet id ver extra) = (d, Answer 500 BNothing).
Proof.
  intros raft room own now uid d id ver extra H. cbn [serve]. destruct (query_int ver); [|reflexivity].
  destruct H as [H|H]; [discriminate H|]. by rewrite H.
Qed.
Print Assumptions C165_query_refuted.

(** Refuted: a negative page reads like the first. *)
Theorem C165_negative_refuted : forall raft room own now uid d (id : str) p n q b, (p < 0)%Z -> (1 <= n)%Z -> (- 2 ^ 63 <= (p - 1) * n)%Z ->
  (n + 1 < 2 ^ 63)%Z -> (n + 1 <= room)%Z -> query_int (Some q) = Some p -> d_vers d !! id = Some b ->
  (forall k, vb_map b !! k <> None -> exists m, k = vkey id m /\ (1 <= m)%N) ->
  serve raft room own now uid d (VList id (Some q) (Some (print_Z n))) =
  serve raft room own now uid d (VList id (Some (print_Z 1)) (Some (print_Z n))).
Proof.
  intros raft room own now uid d id p n q b Hp Hn Ho Hs Hr Hq Hb Hk.
  assert (Q : forall z, (1 <= z < 2 ^ 63)%Z -> query_int (Some (print_Z z)) = Some z).
  { intros z Hz. unfold query_int. assert (P : print_Z z = print_N (Z.to_N z)) by (destruct z; [lia|reflexivity|lia]).
    rewrite P. destruct (print_N (Z.to_N z)) eqn:E; [by apply print_N_nonempty in E|]. rewrite <- E.
    rewrite atoi_print_N; rewrite Z2N.id; unfold int64_max; lia || reflexivity. }
  cbn [serve]. rewrite Hq, !Q by lia. change (1 =? 0)%Z with false. destruct (Z.eqb_spec p 0); [lia|]. destruct (Z.eqb_spec n 0); [lia|]. cbn [orb].
  assert (L : list_page room id p n d = list_page room id 1 n d); [|by rewrite L].
  unfold list_page. change (1 =? 0)%Z with false. destruct (Z.eqb_spec p 0); [lia|]. rewrite !page_length, Hb.
  destruct (_ || _); [reflexivity|].
  rewrite (wrap64_small ((p - 1) * n)) by nia. rewrite (wrap64_small ((p - 1) * n + 1)) by nia.
  replace (wrap64 (wrap64 ((1 - 1) * n) + 1)) with 1%Z by (rewrite Z.mul_0_l; reflexivity).
  assert (In : forall k, k ∈ keys (vb_map b) -> exists m, k = vkey id m /\ (1 <= m)%N).
  { intros k H. apply Hk. unfold keys in H. rewrite ksort_perm in H.
    apply elem_of_list_fmap in H as ([k' v] & -> & E). apply elem_of_map_to_list in E. cbn. congruence. }
  rewrite !filter_every; [reflexivity| |].
  - intros k H. apply In in H as (m & -> & Hm). by apply after_one.
  - intros k H. apply In in H as (m & -> & Hm). apply after_minus. nia.
Qed.
Print Assumptions C165_negative_refuted.

(** Refuted: a negative size, or one too large, breaks the request; -1 gives no versions. *)
Theorem C165_size_refuted : forall raft room own now uid d (id : str) p n q s, query_int (Some q) = Some p -> p <> 0%Z -> query_int (Some s) = Some n ->
  (- 2 ^ 63 <= n < 2 ^ 63 - 1)%Z -> (n < -1 \/ room < n + 1)%Z ->
  serve raft room own now uid d (VList id (Some q) (Some s)) = (d, if (n =? 0)%Z then Answer 400 BNothing else Answer 500 BNothing).
Proof.
  intros raft room own now uid d id p n q s Hp Hp0 Hn Hb Hr. cbn [serve]. rewrite Hp, Hn.
  destruct (Z.eqb_spec p 0); [contradiction|]. destruct (Z.eqb_spec n 0); [reflexivity|]. cbn [orb].
  unfold list_page. rewrite page_length, (wrap64_small (n + 1)) by lia.
  destruct (Z.ltb_spec (n + 1) 0); [reflexivity|]. destruct (Z.ltb_spec room (n + 1)); [reflexivity|lia].
Qed.
Print Assumptions C165_size_refuted.

Theorem C165_none_refuted : forall raft room own now uid d (id : str) p q b, query_int (Some q) = Some p -> p <> 0%Z -> (0 <= room)%Z ->
  d_vers d !! id = Some b ->
  serve raft room own now uid d (VList id (Some q) (Some (s2l "-1"%string))) = (d, Answer 200 (BVersions [] (size (vb_map b)))).
Proof.
  intros raft room own now uid d id p q b Hp Hp0 Hr Hb. cbn [serve]. rewrite Hp.
  replace (query_int (Some (s2l "-1"%string))) with (Some (-1)%Z) by reflexivity.
  destruct (Z.eqb_spec p 0); [contradiction|]. change (-1 =? 0)%Z with false. cbn [orb].
  unfold list_page. rewrite page_length. change (wrap64 (-1 + 1)) with 0%Z. change (0 <? 0)%Z with false.
  destruct (Z.ltb_spec room 0); [lia|]. cbn [orb]. rewrite Hb. reflexivity.
Qed.
Print Assumptions C165_none_refuted.

(** ** A small case *)

Definition ex_serve (now : Z) (uid : str) (d : db) (r : request) := serve true 1000 (fun _ => true) now uid d r.
Definition ex_id : str := s2l "b/x"%string.
Definition ex_meta : metadata := mk_metadata (s2l "x"%string) (s2l "b"%string) 0 0.
Definition ex_ver : version := mk_version false 1 4 2 64 100 0 0 (s2l "h"%string) [] [s2l "l"%string].
Definition ex_d1 : db := fst (ex_serve 5 [] db_empty (MPost ex_id (JRead ex_meta))).
Definition ex_d2 : db := fst (ex_serve 6 (s2l "u1"%string) ex_d1 (VPost ex_id (JRead ex_ver))).
Definition ex_d3 : db := fst (ex_serve 7 (s2l "u2"%string) ex_d2 (VPost ex_id (JRead ex_ver))).

Example C162_nonvacuous :
  snd (ex_serve 5 [] db_empty (MPost ex_id (JRead ex_meta))) = Answer 201 BNothing /\
  d_meta ex_d1 !! ex_id = Some (mk_metadata (s2l "x"%string) (s2l "b"%string) 5 5) /\
  snd (ex_serve 6 (s2l "u1"%string) ex_d1 (VPost ex_id (JRead ex_ver))) = Answer 201 (BNumber 1) /\
  snd (ex_serve 7 (s2l "u2"%string) ex_d2 (VPost ex_id (JRead ex_ver))) = Answer 201 (BNumber 2) /\
  snd (ex_serve 7 [] ex_d3 (MPost ex_id (JRead (mk_metadata (s2l "y"%string) (s2l "b"%string) 0 0)))) = Answer 201 BNothing /\
  an_status (snd (ex_serve 9 [] ex_d3 (MPut ex_id (JBroken (mk_metadata [] [] 0 0))))) = 200%Z /\
  an_status (snd (ex_serve 4 [] ex_d3 (MPut ex_id (JRead ex_meta)))) = 400%Z /\
  an_status (snd (ex_serve 4 [] ex_d3 (MDelete ex_id))) = 204%Z.
Proof. vm_compute. repeat split. Qed.

Example C163_nonvacuous :
  an_status (snd (ex_serve 9 [] ex_d3 (VGet ex_id (Some (s2l "2"%string))))) = 200%Z /\
  an_status (snd (ex_serve 9 [] ex_d3 (VGet ex_id (Some (s2l "3"%string))))) = 404%Z /\
  snd (ex_serve 9 [] ex_d3 (VGet ex_id (Some (s2l "v1"%string)))) = snd (ex_serve 9 [] ex_d3 (VGet ex_id (Some (s2l "2"%string)))) /\
  an_status (snd (ex_serve 9 [] ex_d3 (VPut ex_id (Some (s2l "1"%string)) (JRead ex_ver)))) = 200%Z /\
  an_status (snd (ex_serve 9 [] ex_d3 (VDelete ex_id (Some (s2l "1"%string))))) = 204%Z /\
  get_ver ex_id 2 (fst (ex_serve 9 [] ex_d3 (VDelete ex_id (Some (s2l "1"%string))))) = get_ver ex_id 2 ex_d3 /\
  get_ver ex_id 2 ex_d3 <> None /\
  get_ver ex_id 2 (fst (ex_serve 9 [] ex_d3 (VDelete ex_id (Some (s2l "-7"%string))))) = None.
Proof. vm_compute. repeat split; congruence. Qed.

Example C164_nonvacuous : named ex_d1 /\ fits_path ex_d1 (MPut ex_id (JRead ex_meta)) /\
  d_meta ex_d1 !! s2l "c/y"%string = None /\ s2l "c/y"%string <> m_bucket ex_meta ++ "/"%char :: m_name ex_meta.
Proof.
  split; [|split; [|split; [reflexivity|vm_compute; congruence]]].
  - apply C164_named_partial; [|vm_compute; reflexivity]. intros i m H. cbn in H. by rewrite lookup_empty in H.
  - intros m H. unfold ex_d1 in H. vm_compute in H. injection H as <-. reflexivity.
Qed.

Example C165_nonvacuous :
  snd (ex_serve 9 [] ex_d3 (VList ex_id (Some (s2l "-4"%string)) (Some (s2l "1"%string)))) =
    snd (ex_serve 9 [] ex_d3 (VList ex_id (Some (s2l "1"%string)) (Some (s2l "1"%string)))) /\
  (exists v w, snd (ex_serve 9 [] ex_d3 (VList ex_id (Some (s2l "1"%string)) (Some (s2l "1"%string)))) = Answer 200 (BVersions [v; w] 2)) /\
  an_status (snd (ex_serve 9 [] ex_d3 (VList ex_id (Some (s2l "1"%string)) (Some (s2l "-2"%string))))) = 500%Z /\
  an_status (snd (ex_serve 9 [] ex_d3 (VList ex_id (Some (s2l "1"%string)) (Some (s2l "1000"%string))))) = 500%Z /\
  snd (ex_serve 9 [] ex_d3 (VList ex_id (Some (s2l "1"%string)) (Some (s2l "-1"%string)))) = Answer 200 (BVersions [] 2) /\
  snd (ex_serve 9 [] ex_d3 (MGet ex_id (Some (s2l "x"%string)) None)) = Answer 500 BNothing.
Proof. vm_compute. repeat split. do 2 eexists. reflexivity. Qed.
