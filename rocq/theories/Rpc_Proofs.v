(** Proofs about the calls between the API server and the metadata servers. *)
From Verif Require Import Str_Model Str_Proofs Meta_Model Meta_Spec Meta_Proofs Meta_History Meta_Ids Rpc_Model Rpc_Spec.
From stdpp Require Import gmap.
Local Open Scope list_scope.
Local Notation length := List.length.

Lemma signed_fits : forall bits z, (0 < bits)%Z -> fits bits z -> signed bits z = z.
Proof.
  intros bits z Hb [H1 H2]. unfold signed.
  assert (2 ^ bits = 2 * 2 ^ (bits - 1))%Z as E by (rewrite <- Z.pow_succ_r by lia; f_equal; lia).
  rewrite Z.mod_small by lia. lia.
Qed.

Lemma signed_id8 : forall z, fits 8 z -> signed 8 z = z.
Proof. intros z. apply signed_fits. lia. Qed.
Lemma signed_id32 : forall z, fits 32 z -> signed 32 z = z.
Proof. intros z. apply signed_fits. lia. Qed.

Lemma small_fits : forall n, (n < 2 ^ 31)%N -> fits 32 (Z.of_N n).
Proof. intros n H. unfold fits. change (2 ^ (32 - 1))%Z with (Z.of_N (2 ^ 31)). lia. Qed.

Local Opaque signed.

(** ** Reading *)

Lemma get_version_some : forall id n d v, id <> [] -> (0 < n)%Z -> get_ver id (Z.to_N n) d = Some v ->
  c_get_version id n d = inl (read_version_msg v).
Proof.
  intros id n d v Hi Hn H. unfold c_get_version, h_get_version. cbn [pq_id pq_ver].
  rewrite bool_decide_false by done. unfold service_get_version.
  destruct (Z.leb_spec n 0); [lia|]. by rewrite H.
Qed.

Lemma get_version_none : forall id n d, id <> [] -> (0 < n)%Z -> get_ver id (Z.to_N n) d = None ->
  c_get_version id n d = inr 404%Z.
Proof.
  intros id n d Hi Hn H. unfold c_get_version, h_get_version. cbn [pq_id pq_ver].
  rewrite bool_decide_false by done. unfold service_get_version.
  destruct (Z.leb_spec n 0); [lia|]. by rewrite H.
Qed.

Lemma get_version_eq : forall id n d d', (0 < n)%Z -> get_ver id (Z.to_N n) d' = get_ver id (Z.to_N n) d ->
  c_get_version id n d' = c_get_version id n d.
Proof.
  intros id n d d' Hn H. unfold c_get_version, h_get_version. cbn [pq_id pq_ver].
  destruct (bool_decide (id = [])); [done|]. unfold service_get_version.
  destruct (Z.leb_spec n 0); [lia|]. by rewrite H.
Qed.

(** ** Saving a version *)

Lemma valid_good : forall b, good_version b -> valid_version (wire_version 0 b) = true.
Proof.
  intros b [[? ?] [? ?] ? ? ? ? ?]. unfold valid_version, wire_version. cbn.
  rewrite signed_id8, signed_id32 by done.
  rewrite !andb_true_iff, !negb_true_iff, !Z.eqb_neq, !bool_decide_eq_true. done.
Qed.

Lemma valid_incomplete : forall seq b, incomplete b -> valid_version (wire_version seq b) = false.
Proof.
  intros seq b H. unfold valid_version, wire_version. cbn.
  assert (signed 8 0 = 0%Z) as E8 by (apply signed_id8; unfold fits; lia).
  assert (signed 32 0 = 0%Z) as E32 by (apply signed_id32; unfold fits; lia).
  destruct H as [->|[->|[->|[->|[->| ->]]]]]; rewrite ?E8, ?E32; cbn; rewrite ?andb_false_r; done.
Qed.

Lemma read_saved : forall n now uid b, good_version b -> (n < 2 ^ 31)%N ->
  read_version_msg (with_seq n (stamp_version now uid (wire_version 0 b))) = saved_version (Z.of_N n) now b.
Proof.
  intros n now uid b [[? ?] [? ?] ? ? ? ? ?] Hn. unfold read_version_msg, saved_version. cbn.
  by rewrite signed_id8, !signed_id32 by (done || by apply small_fits).
Qed.

Lemma add_effect : forall d id v d', effect d (AddVersion id v) d' ->
  d_meta d' = d_meta d /\ d_bkt d' = d_bkt d /\
  forall n, get_ver id n d = None -> get_ver id n d' <> None ->
    forall id' n', id' <> id \/ n' <> n -> get_ver id' n' d' = get_ver id' n' d.
Proof.
  intros d id v d' E.
  inversion E as [c E1 E2|id0 m o ? ? E1 E2|id0 m ? ? ? E1 E2|id0 m ? E1 E2|id0 v0 b hi ui Hb Hu Hk Hh Hi E1 E2
    |id0 v0 b hi ui ? ? ? ? ? E1 E2|id0 n0 b v0 ? ? E1 E2|id0 n0 v0 b o ? ? ? E1 E2|id0 b ? E1 E2|c m Hc E1 E2]; subst.
  - done.
  - unfold with_uid, with_hash, with_vers in *. cbn in *. split; [done|split; [done|]].
    intros n H1 H2 id' n' H3. rewrite gv_put in H2 |- * by done.
    destruct (decide (id = id /\ n = next_seq b)) as [[_ ->]|N]; [|by rewrite H1 in H2].
    rewrite decide_False; [done|]. intros [-> ->]. destruct H3; done.
  - destruct Hc as [(b & [Hc|Hc])|(b & Hc)]; done.
Qed.

Lemma save_version_reads : forall B ops now (uid id : str) body, history B ops ->
  (B + N.of_nat (length ops) + 1 < 2 ^ 31)%N ->
  d_meta (hrun db_empty ops) !! id <> None -> id <> [] ->
  Forall (fun o => ~ is_call (uses_id uid) o) ops -> uid <> [] -> good_version body ->
  exists n d', c_save_version now uid id body (hrun db_empty ops) = (d', inl n) /\ (0 < n)%Z /\
    c_get_version id n (hrun db_empty ops) = inr 404%Z /\
    c_get_version id n d' = inl (saved_version n now body) /\
    same_but_version id n (hrun db_empty ops) d' /\
    d_meta d' = d_meta (hrun db_empty ops) /\ d_bkt d' = d_bkt (hrun db_empty ops).
Proof.
  intros B ops now uid id body H HB Hm Hid HU Hu G.
  set (d := hrun db_empty ops) in *.
  set (v := stamp_version now uid (wire_version 0 body)).
  destruct (fresh_id_accepted B ops true id v H HU Hm (gv_hash _ G) Hu) as (n & A1 & A2 & A3). fold d in A1, A2, A3.
  pose proof (inv_history _ _ H) as I. fold d in I. pose proof (proj1 H) as O. pose proof (proj2 H) as L. pose proof pow63_64.
  assert (inv (B + N.of_nat (length ops) + 1) (hstep d (HCmd (command true (AddVersion id v))))) as I'.
  { apply (inv_hstep B); [exact I| |lia|lia]. exists true, (AddVersion id v). done. }
  assert (1 <= n <= B + N.of_nat (length ops) + 1)%N as Hn.
  { unfold get_ver in A2. destruct (d_vers (hstep d (HCmd (command true (AddVersion id v)))) !! id) as [b|] eqn:Eb; [|done]. apply I' in Eb as [Eb1 Eb2].
    apply Eb2 in A2 as [_ A2]. cbn in A2. lia. }
  assert (n < 2 ^ 31)%N as Hn' by lia.
  exists (Z.of_N n), (hstep d (HCmd (command true (AddVersion id v)))).
  assert (Z.to_N (Z.of_N n) = n) as EN by lia.
  split; [|split; [lia|split; [|split; [|split; [|split]]]]].
  - unfold c_save_version, h_save_version. cbn [pq_id]. rewrite bool_decide_false by done.
    rewrite (valid_good _ G). cbn [should_bind]. fold v.
    cbn [hstep]. destruct (dispatch (command true (AddVersion id v)) d) as [d' x] eqn:E.
    cbn [fst snd] in *. subst x. cbn [raft_err]. change (is_ok 200) with true. cbn.
    by rewrite signed_id32 by (by apply small_fits).
  - apply get_version_none; [done|lia|]. by rewrite EN.
  - rewrite (get_version_some id (Z.of_N n) _ (with_seq n v)); [|done|lia|by rewrite EN].
    f_equal. by apply read_saved.
  - intros id' n' Hn0 Hd. apply get_version_eq; [done|]. apply (proj2 (proj2 (add_effect _ _ _ _ (dispatch_effect true (AddVersion id v) d)))) with (n := n);
      [exact A1|cbn [hstep] in A2; by rewrite A2|].
    destruct Hd as [Hd|Hd]; [by left|right; lia].
  - exact (proj1 (add_effect _ _ _ _ (dispatch_effect true (AddVersion id v) d))).
  - exact (proj1 (proj2 (add_effect _ _ _ _ (dispatch_effect true (AddVersion id v) d)))).
Qed.

Lemma save_version_incomplete : forall now uid id body d, id <> [] -> incomplete body ->
  c_save_version now uid id body d = (d, inr 500%Z).
Proof.
  intros now uid id body d Hi H. unfold c_save_version, h_save_version. cbn [pq_id].
  rewrite bool_decide_false by done. rewrite valid_incomplete by done. done.
Qed.

(** ** Updating a version *)

Lemma update_refused : forall now id body d, c_update_version now id body d = (d, Some 400%Z).
Proof.
  intros now id body d. unfold c_update_version, h_update_version. cbn [pq_id pq_ver].
  change (0 <=? 0)%Z with true. by rewrite orb_true_r.
Qed.

Lemma update_handler : forall d now (id : str) n v o, (0 < n < 2 ^ 31)%Z -> id <> [] ->
  valid_version v = true -> get_ver id (Z.to_N n) d = Some o -> (v_ts o < now)%Z ->
  exists d', h_update_version now (mk_preq id n) v d = (d', None) /\
    get_ver id (Z.to_N n) d' = Some (keep_identity o (stamp_update now n v)) /\
    same_but_version id n d d'.
Proof.
  intros d now id n v o Hn Hi V E T.
  assert (unsigned64 n = Z.to_N n) as U.
  { unfold unsigned64. f_equal. apply Z.mod_small. change (2 ^ 64)%Z with (2 ^ 31 * 2 ^ 33)%Z. nia. }
  unfold h_update_version. cbn [pq_id pq_ver]. rewrite bool_decide_false by done.
  destruct (Z.leb_spec n 0); [lia|]. cbn [orb]. rewrite V. cbn [should_bind].
  change (v_seq (stamp_update now n v)) with (unsigned64 n). rewrite U.
  unfold get_ver in E. destruct (d_vers d !! id) as [b|] eqn:Eb; [|done].
  cbn [command dispatch rd_dest apply_version rd_type rd_ver rd_name rd_seq].
  unfold update_ver. rewrite Eb. change (v_seq (with_seq (Z.to_N n) (stamp_update now n v))) with (Z.to_N n).
  rewrite E. cbn [v_ts with_seq stamp_update].
  destruct (Z.leb_spec now (v_ts o)); [lia|]. cbn [commit answer fst snd fsm_status].
  eexists. split; [cbn; reflexivity|]. unfold with_vers. split.
  - rewrite gv_put by done. rewrite decide_True by done. done.
  - intros id' n' Hn' Hd. apply get_version_eq; [done|]. rewrite gv_put by done.
    rewrite decide_False; [done|]. intros [-> X]. destruct Hd as [Hd|Hd]; [done|]. lia.
Qed.

(** ** Removing a version *)

Lemma remove_refused : forall id n d, (n <= 0)%Z -> c_remove_version id n d = (d, CInvalid).
Proof.
  intros id n d H. unfold c_remove_version, h_remove_version. cbn [pq_id pq_ver].
  destruct (Z.leb_spec n 0); [|lia]. by rewrite orb_true_r.
Qed.

Lemma remove_removes : forall (id : str) n d, (0 < n < 2 ^ 31)%Z -> id <> [] -> get_ver id (Z.to_N n) d <> None ->
  exists d', c_remove_version id n d = (d', COk) /\ c_get_version id n d' = inr 404%Z /\
    same_but_version id n d d' /\ d_meta d' = d_meta d /\ d_bkt d' = d_bkt d.
Proof.
  intros id n d Hn Hi E.
  assert (unsigned64 n = Z.to_N n) as U.
  { unfold unsigned64. f_equal. apply Z.mod_small. change (2 ^ 64)%Z with (2 ^ 31 * 2 ^ 33)%Z. nia. }
  unfold c_remove_version, h_remove_version. cbn [pq_id pq_ver]. rewrite bool_decide_false by done.
  destruct (Z.leb_spec n 0); [lia|]. destruct (Z.ltb_spec n 0); [lia|]. cbn [orb]. rewrite U.
  unfold get_ver in E. destruct (d_vers d !! id) as [b|] eqn:Eb; [|done].
  destruct (vb_map b !! vkey id (Z.to_N n)) as [v|] eqn:Ev; [|done].
  cbn [command dispatch rd_dest apply_version rd_type rd_ver rd_name rd_seq].
  unfold remove_ver. rewrite Eb, Ev. cbn [commit answer fst snd fsm_status].
  eexists. split; [cbn; reflexivity|]. unfold with_vers, with_uid, with_hash. cbn. split; [|split; [|done]].
  - apply get_version_none; [done|lia|]. rewrite gv_del by done. by rewrite decide_True.
  - intros id' n' Hn' Hd. apply get_version_eq; [done|]. rewrite gv_del by done.
    rewrite decide_False; [done|]. intros [-> X]. destruct Hd as [Hd|Hd]; [done|]. lia.
Qed.

Lemma remove_missing : forall (id : str) n d, (0 < n < 2 ^ 31)%Z -> id <> [] -> get_ver id (Z.to_N n) d = None ->
  d_vers d !! id <> None -> c_remove_version id n d = (d, CNotFound).
Proof.
  intros id n d Hn Hi E Hv.
  assert (unsigned64 n = Z.to_N n) as U.
  { unfold unsigned64. f_equal. apply Z.mod_small. change (2 ^ 64)%Z with (2 ^ 31 * 2 ^ 33)%Z. nia. }
  unfold c_remove_version, h_remove_version. cbn [pq_id pq_ver]. rewrite bool_decide_false by done.
  destruct (Z.leb_spec n 0); [lia|]. destruct (Z.ltb_spec n 0); [lia|]. cbn [orb]. rewrite U.
  unfold get_ver in E. destruct (d_vers d !! id) as [b|] eqn:Eb; [|done].
  cbn [command dispatch rd_dest apply_version rd_type rd_ver rd_name rd_seq].
  unfold remove_ver. rewrite Eb, E. done.
Qed.

(** ** Buckets *)

Lemma save_bucket_reads : forall now body d, good_bucket body -> d_bkt d !! eb_name body = None ->
  exists d', c_save_bucket now body d = (d', None) /\
    c_get_bucket (eb_name body) d' = inl (saved_bucket now body) /\
    (forall other, other <> eb_name body -> c_get_bucket other d' = c_get_bucket other d) /\
    d_meta d' = d_meta d /\ d_vers d' = d_vers d.
Proof.
  intros now body d [] H. unfold c_save_bucket, h_save_bucket. cbn [pq_id].
  rewrite bool_decide_false by done.
  cbn [command dispatch rd_dest apply_bucket rd_type rd_bkt rd_name]. unfold bkt_create.
  change (b_name (stamp_bucket now (eb_name body) (wire_bucket body))) with (eb_name body).
  destruct (eb_name body) as [|c s] eqn:N; [done|]. rewrite H. cbn [commit answer fst snd fsm_status].
  eexists. split; [cbn; reflexivity|]. unfold c_get_bucket, h_get_bucket, with_bkt. cbn [pq_id d_bkt d_meta d_vers].
  rewrite bool_decide_false by done. rewrite lookup_insert. split; [|split; [|done]].
  - f_equal. unfold read_bucket_msg, saved_bucket. cbn. rewrite N, signed_id8, !signed_id32 by done. done.
  - intros other Ho. by rewrite lookup_insert_ne.
Qed.

Lemma save_bucket_again : forall now body d, eb_name body <> [] -> d_bkt d !! eb_name body <> None ->
  c_save_bucket now body d = (d, None).
Proof.
  intros now body d N H. unfold c_save_bucket, h_save_bucket. cbn [pq_id].
  rewrite bool_decide_false by done.
  cbn [command dispatch rd_dest apply_bucket rd_type rd_bkt rd_name]. unfold bkt_create.
  change (b_name (stamp_bucket now (eb_name body) (wire_bucket body))) with (eb_name body).
  destruct (eb_name body) as [|c s] eqn:E; [done|]. destruct (d_bkt d !! _); [done|done].
Qed.

(** ** Metadata *)

Lemma save_metadata_adds : forall now (id name bucket : str) d, id <> [] -> name <> [] -> bucket <> [] ->
  d_meta d !! id = None -> d_vers d !! id = None ->
  exists d', c_save_metadata now id name bucket d = (d', None) /\
    d_meta d' = <[ id := mk_metadata name bucket now now ]> (d_meta d) /\
    d_vers d' = <[ id := mk_vbucket 0 ∅ ]> (d_vers d) /\ d_bkt d' = d_bkt d.
Proof.
  intros now id name bucket d Hi Hn Hb H1 H2. unfold c_save_metadata, h_save_metadata. cbn [pq_id].
  rewrite bool_decide_false by done.
  assert (valid_metadata (mk_metadata name bucket 0 0) = true) as V.
  { unfold valid_metadata. cbn. by rewrite !bool_decide_true. }
  rewrite V. cbn [should_bind]. cbn [command dispatch rd_dest apply_metadata rd_type rd_meta rd_name].
  unfold add_meta. unfold create_version_bucket.
  destruct id as [|c s]; [done|]. cbn [with_meta d_vers]. rewrite ?H1, ?H2.
  cbn [commit answer fst snd fsm_status]. eexists. split; [cbn; reflexivity|]. done.
Qed.

(** ** Errors *)

Lemma http_ok_iff : forall e, class (http_of e) = 2%Z <-> exists st, e = GResp st /\ is_ok st = true.
Proof.
  intros e. split.
  - destruct e as [st| | |]; [|cbn; done..]. intros H. exists st. split; [done|].
    destruct (is_ok st) eqn:E; [done|]. exfalso. revert H. unfold http_of, grpc_error. rewrite E.
    destruct (is_internal st); [done|]. unfold http_code.
    destruct (Z.eqb_spec st 200); [subst; done|]. destruct (Z.eqb_spec st 400); [done|].
    destruct (Z.eqb_spec st 401); [done|]. destruct (Z.eqb_spec st 403); [done|]. by destruct (Z.eqb_spec st 404).
  - intros (st & -> & E). unfold http_of, grpc_error. by rewrite E.
Qed.

Lemma http_internal : forall st, is_internal st = true -> http_of (GResp st) = 500%Z.
Proof.
  intros st E. unfold http_of, grpc_error. rewrite E.
  destruct (is_ok st) eqn:O; [|done]. unfold is_ok, is_internal in *.
  apply Z.eqb_eq in O, E. lia.
Qed.

Lemma raft_none : forall x, raft_err x = None <-> exists st n, x = RStatus st n /\ is_ok st = true.
Proof.
  intros x. split.
  - destruct x as [st n| |]; cbn; [|discriminate|discriminate]. destruct (is_ok st) eqn:E; [|discriminate]. intros _. exists st, n. auto.
  - intros (st & n & -> & E). cbn. rewrite E. reflexivity.
Qed.

Lemma raft_told : forall x, match raft_err x with Some e => grpc_error e | None => None end = None ->
  exists st n, x = RStatus st n /\ is_ok st = true.
Proof.
  intros x H. apply raft_none. destruct x as [st n| |]; cbn in *; [|discriminate|discriminate].
  destruct (is_ok st) eqn:E; [reflexivity|]. cbn in H. rewrite E in H. destruct (is_internal st); discriminate.
Qed.

Lemma handlers_told :
  (forall x, raft_err x = None <-> exists st n, x = RStatus st n /\ is_ok st = true) /\
  (forall now q v d d', h_update_version now q v d = (d', None) -> exists c st n, dispatch (command true c) d = (d', RStatus st n) /\ is_ok st = true) /\
  (forall q d d', h_remove_version q d = (d', None) -> exists c st n, dispatch (command true c) d = (d', RStatus st n) /\ is_ok st = true) /\
  (forall now q m d d', h_save_metadata now q m d = (d', None) -> exists c st n, dispatch (command true c) d = (d', RStatus st n) /\ is_ok st = true) /\
  (forall now q b d d', h_save_bucket now q b d = (d', None) -> exists c st n, dispatch (command true c) d = (d', RStatus st n) /\ is_ok st = true).
Proof.
  split; [exact raft_none|]. split; [|split; [|split]].
  - intros now q v d d'. unfold h_update_version. destruct (_ || _); [discriminate|]. unfold should_bind.
    destruct (valid_version v); [|discriminate]. match goal with |- context [dispatch (command true ?c) d] => set (cc := c) end.
    destruct (dispatch (command true cc) d) as [d1 x] eqn:E. intros H. injection H as -> H.
    destruct (raft_told x H) as (st & n & -> & Ok). exists cc, st, n. auto.
  - intros q d d'. unfold h_remove_version. destruct (_ || _); [discriminate|]. match goal with |- context [dispatch (command true ?c) d] => set (cc := c) end.
    destruct (dispatch (command true cc) d) as [d1 x] eqn:E. intros H. injection H as -> H.
    destruct (raft_told x H) as (st & n & -> & Ok). exists cc, st, n. auto.
  - intros now q m d d'. unfold h_save_metadata. destruct (bool_decide _); [discriminate|]. unfold should_bind.
    destruct (valid_metadata m); [|discriminate]. match goal with |- context [dispatch (command true ?c) d] => set (cc := c) end.
    destruct (dispatch (command true cc) d) as [d1 x] eqn:E. intros H. injection H as -> H.
    destruct (raft_told x H) as (st & n & -> & Ok). exists cc, st, n. auto.
  - intros now q b d d'. unfold h_save_bucket. destruct (bool_decide _); [discriminate|]. match goal with |- context [dispatch (command true ?c) d] => set (cc := c) end.
    destruct (dispatch (command true cc) d) as [d1 x] eqn:E. intros H. injection H as -> H.
    destruct (raft_told x H) as (st & n & -> & Ok). exists cc, st, n. auto.
Qed.
