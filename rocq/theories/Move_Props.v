(** Theorems about moving objects and buckets between two metadata servers. *)
From Verif Require Import Str_Model HashSlot_Model HashSlot_Spec HashSlot_Proofs Owner_Model Owner_Spec
  Meta_Model Meta_Spec Move_Model Move_Spec Move_Proofs.
From stdpp Require Import gmap.

Local Ltac vc := vm_compute; repeat split; done.

(** * C40: metadata migration *)

(** For every sender and receiver, every set of slots the sender accepts, and every
    pattern of lost items, lost answers and failed deletions: provided the receiver
    has none of the moved objects except what an earlier attempt left there, and no
    index entry that bears the unique id of a moved version, objects and buckets of
    other slots stay, no object or bucket is lost, after success all are on the
    receiver with all versions and numbers (and, unless a deletion failed, gone from
    the sender), and without failures the migration succeeds. *)
(** Partial.  Full statement: After a successful metadata migration every object and bucket whose
    slot was migrated is on the receiver with all its versions and numbers, the others stay on the
    sender, and a failure loses nothing.  It fails in general: [C40_back_refuted],
    [C40_times_refuted], [C40_counter_refuted], [C40_failed_gone_refuted],
    [C40_changed_between_refuted], [C40_changed_during_refuted], [C40_stale_cache_refuted].  Refuted
    in general: moving an object away and back loses all its versions; times and number counters do
    not move; after a failure objects already sent are gone from the server that still owns the
    slot; changes between attempts or during the migration are lost; a stale cached bucket is sent.
    Without any condition on the receiver: what leaves the sender or is reported as moved is on the
    receiver, except versions whose unique id another version has. *)
Theorem C40_move_partial : forall crc32 sort batch now ev cache prov sid slots ds dr, is_sorter sort ->
  prepare_to sort prov sid slots = true ->
  let sel k := named slots (calc_bytes_slot crc32 k) in
  store_ok ds -> cache_ok cache ds -> receivable sel ds dr ->
  let '(ds', dr', ok) := move_all crc32 sort batch now ev cache slots ds dr in
  moved_right sel ds dr ds' dr' ok /\ receivable sel ds' dr' /\
  (ok = true -> deleted ev -> forall k, sel k -> gone ds' k /\ d_bkt ds' !! k = None) /\
  (calm ev -> ok = true).
Proof. exact move_all_right. Qed.
Print Assumptions C40_move_partial.

(** Whatever is on the receiver: every object and bucket that disappears from the
    sender, or is covered by a reported success, is on the receiver, and each of its
    versions is there unless another one has its unique id. *)
(** Partial; the full statement is at [C40_move_partial]. *)
Theorem C40_nothing_dropped_partial : forall crc32 sort batch now ev cache prov sid slots ds dr, is_sorter sort ->
  prepare_to sort prov sid slots = true ->
  store_ok ds -> cache_ok cache ds ->
  let '(ds', dr', ok) := move_all crc32 sort batch now ev cache slots ds dr in
  nothing_dropped (fun k => named slots (calc_bytes_slot crc32 k)) ds ds' dr' ok.
Proof. exact move_all_any. Qed.
Print Assumptions C40_nothing_dropped_partial.

(** After a migration that failed in any way, one without failures completes it. *)
(** Partial; the full statement is at [C40_move_partial]. *)
Theorem C40_repeat_partial : forall crc32 sort batch now ev cache prov sid slots ds dr, is_sorter sort ->
  prepare_to sort prov sid slots = true ->
  let sel k := named slots (calc_bytes_slot crc32 k) in
  store_ok ds -> cache_ok cache ds -> receivable sel ds dr ->
  let '(ds', dr', _) := move_all crc32 sort batch now ev cache slots ds dr in
  forall batch2 now2 ev2 cache2, cache_ok cache2 ds' -> calm ev2 ->
  let '(ds2, dr2, ok2) := move_all crc32 sort batch2 now2 ev2 cache2 slots ds' dr' in
  ok2 = true /\
  (forall key, sel key -> is_Some (d_meta ds !! key) -> complete ds dr2 key /\ gone ds2 key) /\
  (forall name b, sel name -> d_bkt ds !! name = Some b ->
     d_bkt ds2 !! name = None /\ exists b', d_bkt dr2 !! name = Some b' /\ same_bkt b b') /\
  (forall key, ~ sel key -> kept ds ds2 key /\ kept dr dr2 key).
Proof. exact move_all_again. Qed.
Print Assumptions C40_repeat_partial.

(** The stores reached by any history satisfy [store_ok]. *)
Theorem C40_stores : forall B ops, history B ops -> store_ok (hrun db_empty ops).
Proof. exact store_ok_history. Qed.
Print Assumptions C40_stores.

(** ** Concrete servers *)

Definition mv_a : str := s2l "obj".
Definition mv_c : str := s2l "other".
Definition mv_crc (k : str) : N := if bool_decide (k = mv_c) then 500%N else 5%N.
Definition mv_slots : list str := [s2l "0-100"].
Definition mv_prov : list edge := [mkEdge 0 16384 (s2l "s1")].
Definition mv_ver (h u : str) (l : str) : version := mk_version false 1 4 2 0 10 1 0 h u [l].
Definition mv_meta : metadata := mk_metadata (s2l "obj") (s2l "bkt") 1 1.
Definition mv_bkt (t : Z) : bucket := mk_bucket true false false 1 4 2 3 1 t (s2l "bkt") [].
Definition mv_log (cs : list call) : db := fold_left (fun d c => fst (dispatch (command true c) d)) cs db_empty.
Definition mv_calm : events := mk_events (fun _ => Answered) (fun _ _ => Answered) (fun _ => Answered) (fun _ => true) (fun _ => true).
Definition mv_none : str -> option bucket := fun _ => None.
Definition mv_run (ev : events) (now : Z) (ds dr : db) : mstate := move_all mv_crc isort true now ev mv_none mv_slots ds dr.
Definition mv_ds : db := mv_log
  [AddMetadata mv_a mv_meta; AddMetadata mv_c mv_meta; CreateBucket (mv_bkt 1);
   AddVersion mv_a (mv_ver (s2l "h1") (s2l "u1") (s2l "x")); AddVersion mv_a (mv_ver (s2l "h2") (s2l "u2") (s2l "x"));
   AddVersion mv_c (mv_ver (s2l "h3") (s2l "u3") (s2l "x"))].

(** Missing: an object that is moved away and later moved back loses all its
    versions, though both migrations report success.  (The first server still has
    the index entries of the unique ids, so it takes the versions for present and
    the second server deletes them.) *)
Theorem C40_back_refuted : exists ds dr key v,
  get_ver key 1 ds = Some v /\
  let '(ds1, dr1, ok1) := mv_run mv_calm 7 ds dr in
  let '(dr2, ds2, ok2) := mv_run mv_calm 9 dr1 ds1 in
  ok1 = true /\ get_ver key 1 dr1 = Some v /\
  ok2 = true /\ get_ver key 1 ds2 = None /\ get_ver key 1 dr2 = None.
Proof.
  exists mv_ds, db_empty, mv_a, (mk_version false 1 4 2 0 10 1 1 (s2l "h1") (s2l "u1") [s2l "x"]). vc.
Qed.
Print Assumptions C40_back_refuted.

(** Missing: objects and buckets get new creation times. *)
Theorem C40_times_refuted : exists ds dr key name,
  let '(ds1, dr1, ok1) := mv_run mv_calm 7 ds dr in
  ok1 = true /\ m_ctime <$> d_meta ds !! key = Some 1%Z /\ m_ctime <$> d_meta dr1 !! key = Some 7%Z /\
  b_ctime <$> d_bkt ds !! name = Some 1%Z /\ b_ctime <$> d_bkt dr1 !! name = Some 7%Z.
Proof. exists mv_ds, db_empty, mv_a, (s2l "bkt"). vc. Qed.
Print Assumptions C40_times_refuted.

(** Missing: the counter of version numbers does not move; when the newest version
    had been removed its number is given to another version. *)
Theorem C40_counter_refuted : exists ds dr key v,
  adds ds (HCmd (command true (AddVersion key v))) key 3 /\
  let '(ds1, dr1, ok1) := mv_run mv_calm 7 ds dr in
  ok1 = true /\ adds dr1 (HCmd (command true (AddVersion key v))) key 2.
Proof.
  exists (fst (dispatch (command true (RemoveVersion mv_a 2)) mv_ds)), db_empty, mv_a, (mv_ver (s2l "h9") (s2l "u9") (s2l "x")).
  vm_compute. repeat split; done.
Qed.
Print Assumptions C40_counter_refuted.

(** Missing: when a migration fails the sender keeps its slots, but the objects
    already sent are gone from it: requests for them, which still go to the sender,
    find nothing. *)
Theorem C40_failed_gone_refuted : exists ds dr key ev,
  is_Some (d_meta ds !! key) /\
  let '(ds1, dr1, ok1) := mv_run ev 7 ds dr in ok1 = false /\ gone ds1 key.
Proof.
  exists mv_ds, db_empty, mv_a,
    (mk_events (fun _ => Answered) (fun _ _ => Answered) (fun _ => Lost) (fun _ => true) (fun _ => true)).
  split; [vm_compute; by eexists|]. vc.
Qed.
Print Assumptions C40_failed_gone_refuted.

(** Missing: a version changed on the sender between a failed attempt and the next
    one arrives as it was before the change. *)
Theorem C40_changed_between_refuted : exists ds dr key n v0 v1 ev c,
  let '(ds1, dr1, ok1) := mv_run ev 7 ds dr in
  let ds2 := fst (dispatch (command true c) ds1) in
  get_ver key n ds = Some v0 /\ ok1 = false /\ get_ver key n ds2 = Some v1 /\ v_locate v1 <> v_locate v0 /\
  let '(ds3, dr3, ok3) := mv_run mv_calm 9 ds2 dr1 in
  ok3 = true /\ get_ver key n dr3 = Some v0 /\ gone ds3 key.
Proof.
  exists mv_ds, db_empty, mv_a, 1%N,
    (mk_version false 1 4 2 0 10 1 1 (s2l "h1") (s2l "u1") [s2l "x"]),
    (mk_version false 1 4 2 0 10 8 1 (s2l "h1") (s2l "u1") [s2l "y"]),
    (mk_events (fun _ => Answered) (fun _ k => if bool_decide (k = vkey mv_a 2) then Lost else Answered)
       (fun _ => Answered) (fun _ => true) (fun _ => true)),
    (UpdateVersion mv_a 1 (mk_version false 1 4 2 0 10 8 1 [] [] [s2l "y"])).
  vc.
Qed.
Print Assumptions C40_changed_between_refuted.

(** Missing: [UpdateVersion] is not refused during a migration
    (controller/grpc/middleware.go 31-40 does not list it), so a change made before
    the delayed deletion is acknowledged and lost. *)
Theorem C40_changed_during_refuted : exists ds dr key n v0 ev c,
  let '(ds1, dr1, ok1) := mv_run ev 7 ds dr in
  let (ds2, answer) := dispatch (command true c) ds1 in
  let ds3 := fst (commit ds2 (remove_meta key ds2)) in
  ok1 = true /\ answer = Meta_Spec.ok /\ get_ver key n ds2 <> get_ver key n ds1 /\
  get_ver key n dr1 = Some v0 /\ get_ver key n ds1 = Some v0 /\ gone ds3 key.
Proof.
  exists mv_ds, db_empty, mv_a, 1%N,
    (mk_version false 1 4 2 0 10 1 1 (s2l "h1") (s2l "u1") [s2l "x"]),
    (mk_events (fun _ => Answered) (fun _ _ => Answered) (fun _ => Answered) (fun _ => false) (fun _ => true)),
    (UpdateVersion mv_a 1 (mk_version false 1 4 2 0 10 8 1 [] [] [s2l "y"])).
  vc.
Qed.
Print Assumptions C40_changed_during_refuted.

(** Missing: a bucket whose cached copy is old arrives as the old copy. *)
Theorem C40_stale_cache_refuted : exists ds dr name b old,
  d_bkt ds !! name = Some b /\ b_utime old <> b_utime b /\ b_remains old <> b_remains b /\
  let '(ds1, dr1, ok1) := move_all mv_crc isort true 7 mv_calm (fun _ => Some old) mv_slots ds dr in
  ok1 = true /\ d_bkt ds1 !! name = None /\ b_remains <$> d_bkt dr1 !! name = Some (b_remains old).
Proof.
  exists (mv_log [CreateBucket (mv_bkt 1); UpdateBucket (mk_bucket true false false 1 4 2 9 1 5 (s2l "bkt") [])]),
    db_empty, (s2l "bkt"), (mk_bucket true false false 1 4 2 9 1 5 (s2l "bkt") []), (mv_bkt 1).
  vc.
Qed.
Print Assumptions C40_stale_cache_refuted.

(** A sender with two objects, one of which moves, and a bucket; the first attempt
    loses the answer for a version, the second completes. *)
Example C40_nonvacuous :
  let ev := mk_events (fun _ => Answered) (fun _ k => if bool_decide (k = vkey mv_a 2) then Unanswered else Answered)
              (fun _ => Lost) (fun _ => true) (fun _ => true) in
  is_sorter isort /\ prepare_to isort mv_prov (s2l "s1") mv_slots = true /\
  (exists B ops, history B ops /\ mv_ds = hrun db_empty ops) /\ cache_ok mv_none mv_ds /\
  receivable (fun k => named mv_slots (calc_bytes_slot mv_crc k)) mv_ds db_empty /\
  named mv_slots (calc_bytes_slot mv_crc mv_a) /\ ~ named mv_slots (calc_bytes_slot mv_crc mv_c) /\
  calm mv_calm /\
  let '(ds1, dr1, ok1) := mv_run ev 7 mv_ds db_empty in
  ok1 = false /\ is_Some (d_meta ds1 !! mv_a) /\ is_Some (d_meta dr1 !! mv_a) /\ is_Some (get_ver mv_a 2 dr1) /\
  let '(ds2, dr2, ok2) := mv_run mv_calm 9 ds1 dr1 in
  ok2 = true /\ d_meta ds2 !! mv_a = None /\ is_Some (d_meta ds2 !! mv_c) /\ is_Some (get_ver mv_a 1 dr2) /\
  is_Some (d_bkt dr2 !! (s2l "bkt" : str)).
Proof.
  assert (forall k, named mv_slots (calc_bytes_slot mv_crc k) <-> k <> mv_c) as NM.
  { intros k. rewrite <-(moves_named mv_crc isort mv_prov (s2l "s1") mv_slots k); [|apply isort_is_sorter|reflexivity].
    unfold moves, calc_bytes_slot, mv_crc. case_bool_decide; vm_compute; split; done. }
  assert (forall v, moved_version (fun k => named mv_slots (calc_bytes_slot mv_crc k)) mv_ds v ->
    (v_hash v = s2l "h1" /\ v_uid v = s2l "u1") \/ (v_hash v = s2l "h2" /\ v_uid v = s2l "u2")) as MV.
  { intros v (key & b & k & Hs & Hb & Hk). apply NM in Hs.
    assert (key = mv_a \/ key = mv_c) as [->| -> ]; [| |exact (False_ind _ (Hs eq_refl))].
    { assert (key ∈ keys (d_vers mv_ds)) as I by (apply Meta_History.keys_in; by eexists).
      replace (keys (d_vers mv_ds)) with [mv_a; mv_c] in I by (vm_compute; reflexivity).
      apply elem_of_cons in I as [->|I]; [left; reflexivity|]. apply elem_of_cons in I as [->|I]; [right; reflexivity|].
      exact (False_ind _ (not_elem_of_nil _ I)). }
    assert (k = vkey mv_a 1 \/ k = vkey mv_a 2) as K.
    { assert (k ∈ keys (vb_map b)) as I by (apply Meta_History.keys_in; by eexists).
      assert (keys <$> (vb_map <$> d_vers mv_ds !! mv_a) = Some [vkey mv_a 1; vkey mv_a 2]) as E by (vm_compute; reflexivity).
      rewrite Hb in E. cbn [fmap option_fmap option_map] in E. injection E as E. rewrite E in I.
      apply elem_of_cons in I as [->|I]; [left; reflexivity|]. apply elem_of_cons in I as [->|I]; [right; reflexivity|].
      exact (False_ind _ (not_elem_of_nil _ I)). }
    assert (get_ver mv_a 1 mv_ds = Some (mk_version false 1 4 2 0 10 1 1 (s2l "h1") (s2l "u1") [s2l "x"])) as G1 by (vm_compute; reflexivity).
    assert (get_ver mv_a 2 mv_ds = Some (mk_version false 1 4 2 0 10 1 2 (s2l "h2") (s2l "u2") [s2l "x"])) as G2 by (vm_compute; reflexivity).
    unfold get_ver in G1, G2. rewrite Hb in G1, G2.
    destruct K as [->| ->]; [rewrite G1 in Hk|rewrite G2 in Hk]; injection Hk as <-; [left|right]; split; reflexivity. }
  intros ev. split_and!.
  - apply isort_is_sorter.
  - reflexivity.
  - exists 0%N, (map (fun c => HCmd (command true c)) [AddMetadata mv_a mv_meta; AddMetadata mv_c mv_meta; CreateBucket (mv_bkt 1);
      AddVersion mv_a (mv_ver (s2l "h1") (s2l "u1") (s2l "x")); AddVersion mv_a (mv_ver (s2l "h2") (s2l "u2") (s2l "x"));
      AddVersion mv_c (mv_ver (s2l "h3") (s2l "u3") (s2l "x"))]).
    split; [|reflexivity]. split; [|by vm_compute]. cbn [map].
    repeat (apply Forall_cons; split); try (eexists _, _; split; [reflexivity|done]). constructor.
  - done.
  - constructor.
    + intros key _ _. left. done.
    + intros v Hv. apply MV in Hv. destruct Hv as [[-> ->]|[-> ->]]; vc.
    + intros v w Hv Hw. apply MV in Hv, Hw. destruct Hv as [[_ ->]|[_ ->]], Hw as [[-> _]|[-> _]]; done.
    + intros. left. done.
  - by apply NM.
  - rewrite NM. by intros X; apply X.
  - done.
  - vm_compute. split_and!; try done; by eexists.
Qed.

(** A receiver that is not [receivable]: it has another object's version under the
    unique id "u1", so version 1 is dropped and version 2 arrives. *)
Example C40_nothing_dropped_nonvacuous :
  let dr := mv_log [AddMetadata mv_c mv_meta; AddVersion mv_c (mv_ver (s2l "h1") (s2l "u1") (s2l "x"))] in
  is_sorter isort /\ prepare_to isort mv_prov (s2l "s1") mv_slots = true /\ cache_ok mv_none mv_ds /\
  uid_exists dr (s2l "u1") = true /\
  let '(ds1, dr1, ok1) := mv_run mv_calm 7 mv_ds dr in
  ok1 = true /\ d_meta ds1 !! mv_a = None /\ get_ver mv_a 1 dr1 = None /\ is_Some (get_ver mv_a 2 dr1).
Proof.
  split_and!.
  - apply isort_is_sorter.
  - reflexivity.
  - done.
  - vm_compute. reflexivity.
  - vm_compute. split_and!; try reflexivity. eexists. reflexivity.
Qed.
