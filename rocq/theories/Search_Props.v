From Verif Require Import Str_Model Str_Proofs Meta_Model Meta_Spec Meta_Proofs Meta_History Search_Model Search_Spec Search_Proofs.
From stdpp Require Import gmap sorting.

Local Ltac vc := vm_compute; repeat split; done.

(** * Concrete data for the examples *)

Definition sm (t : Z) : metadata := mk_metadata (s2l "obj"%string) (s2l "bkt"%string) 1 t.
Definition sv (h u : string) (n : N) : version := mk_version false 1 4 2 0 10 1 n (s2l h) (s2l u) [s2l "s1"%string].
Definition put (c : call) : event := Write (HCmd (command false c)).

Local Notation "'oa'" := (s2l "obj"%string : str) (only parsing).
Local Notation "'ob'" := (s2l "other"%string : str) (only parsing).
Local Notation "'hh'" := (s2l "h"%string : str) (only parsing).

Lemma put_ok : forall B c, (forall id v, c = MigrateVersion id v -> (1 <= v_seq v <= B)%N) -> event_ok B (put c).
Proof. intros B c H. exists false, c. split; [done|]. destruct c; try done. by eapply H. Qed.

Lemma put_plain : forall c, ~ removes_some_object c -> ~ migrates c -> plain (put c).
Proof.
  intros c R M. split; intros (x & c' & E & Hc); injection E as E;
    assert (c = c') as -> by (destruct c, c'; cbn in E; congruence); done.
Qed.

Local Ltac oks := split; [repeat constructor; try (apply put_ok; intros ? ? ?; discriminate)|vm_compute; done].
Local Ltac plains := repeat constructor; try (apply put_plain; [intros (? & [X|X]); discriminate|intros (? & ? & X); discriminate]).

(** * C188: finding by hash beside writes *)

(** In every execution every version in the answer of a search was stored at the moment
    it was looked at. *)
Theorem C188_stored : forall B pre h post q v, execution B (pre ++ Begin h :: post) ->
  searches_after (pre ++ Begin h :: post) !! length (searches_after pre) = Some q -> v ∈ q_found q ->
  exists p id n, p `prefix_of` post /\ get_ver id n (db_after (pre ++ Begin h :: p)) = Some v.
Proof. exact found_stored. Qed.
Print Assumptions C188_stored.

(** As long as no object is removed and no version comes from another server: the content
    of every version found is the one asked for. *)
(** Partial.  Full statement: However a search by content interleaves with writes and other
    searches, it answers only versions that were stored with that content while it ran, it misses
    none that was stored all the time, and no search makes a stored version impossible to find
    later.  It fails in general: [C188_kept_refuted], [C188_migrated_refuted], [C188_right_refuted].
    Refuted: an object removed and stored again with the same content (or a version migrated back)
    between a search's miss and its removal of the entry is never found by its content again. *)
Theorem C188_right_partial : forall B pre h post q v,
  execution B (pre ++ Begin h :: post) -> Forall plain (pre ++ Begin h :: post) ->
  searches_after (pre ++ Begin h :: post) !! length (searches_after pre) = Some q -> v ∈ q_found q ->
  exists p id n, p `prefix_of` post /\ get_ver id n (db_after (pre ++ Begin h :: p)) = Some v /\ v_hash v = h.
Proof. exact found_right. Qed.
Print Assumptions C188_right_partial.

(** Likewise: a version stored from the begin of a search to its end is in the answer. *)
(** Partial; the full statement is at [C188_right_partial]. *)
Theorem C188_complete_partial : forall B pre h post q id n,
  execution B (pre ++ Begin h :: post) -> Forall plain (pre ++ Begin h :: post) ->
  searches_after (pre ++ Begin h :: post) !! length (searches_after pre) = Some q -> finished q = true ->
  (forall p, p `prefix_of` post -> exists v, get_ver id n (db_after (pre ++ Begin h :: p)) = Some v /\ v_hash v = h) ->
  exists p v, p `prefix_of` post /\ get_ver id n (db_after (pre ++ Begin h :: p)) = Some v /\ v ∈ q_found q.
Proof. exact found_all. Qed.
Print Assumptions C188_complete_partial.

(** Likewise: whatever searches removed from the index, every stored version is still found
    by its content. *)
(** Partial; the full statement is at [C188_right_partial]. *)
Theorem C188_kept_partial : forall B es, execution B es -> Forall plain es -> all_found (db_after es).
Proof. exact kept. Qed.
Print Assumptions C188_kept_partial.

(** A search that nothing interrupts does what [find_by_hash] of the store does in one
    step, on every database whose index has proper keys. *)
Theorem C188_alone : forall h d, (forall k, k ∈ idx_get h (d_hash d) -> cut_last "."%char k <> None) ->
  run (start d) (Begin h :: visits 0 (size (idx_get h (d_hash d)))) =
  mk_state (fst (find_by_hash h d)) [mk_search h [] None (snd (find_by_hash h d))].
Proof.
  intros h0 d C. cbn [run fold_left step start s_db s_searches]. unfold find_by_hash.
  set (ks := ksort (elements (idx_get h0 (d_hash d)))).
  assert (size (idx_get h0 (d_hash d)) = length ks) as ->.
  { unfold ks. by rewrite ksort_perm. }
  pose proof (visits_alone h0 ks 0 d [] [begin_search h0 d] eq_refl) as V. apply V.
  intros k Hk. apply C. unfold ks in Hk. by rewrite ksort_perm, elem_of_elements in Hk.
Qed.
Print Assumptions C188_alone.

(** Missing: an object removed and stored again with the same content, between the moment
    a search misses its old version and the removal of the entry, is no longer found by
    its content, by any later search. *)
Theorem C188_kept_refuted : exists es v, execution 0 es /\
  get_ver oa 1 (db_after es) = Some v /\ v_hash v = hh /\
  snd (find_by_hash hh (db_after es)) = [] /\ ~ all_found (db_after es).
Proof.
  exists [put (AddMetadata oa (sm 1)); put (AddVersion oa (sv "h" "u" 0)); Begin hh; put (RemoveMetadata oa); Look 0;
          put (AddMetadata oa (sm 2)); put (AddVersion oa (sv "h" "w" 0)); Drop 0], (sv "h" "w" 1).
  split_and!; [oks|vc|vc|vc|]. intros A.
  assert (sv "h" "w" 1 ∈ (@nil version)) as X; [|by apply elem_of_nil in X].
  replace (@nil version) with (snd (find_by_hash (v_hash (sv "h" "w" 1)) (db_after
    [put (AddMetadata oa (sm 1)); put (AddVersion oa (sv "h" "u" 0)); Begin hh; put (RemoveMetadata oa); Look 0;
          put (AddMetadata oa (sm 2)); put (AddVersion oa (sv "h" "w" 0)); Drop 0]))) by vc.
  by apply (A oa 1%N).
Qed.
Print Assumptions C188_kept_refuted.

(** Missing: likewise when a version removed here comes back from another server under its
    number. *)
Theorem C188_migrated_refuted : exists es v, execution 1 es /\
  Forall (fun e => match e with Write o => ~ is_call removes_some_object o | _ => True end) es /\
  get_ver oa 1 (db_after es) = Some v /\ v_hash v = hh /\ snd (find_by_hash hh (db_after es)) = [].
Proof.
  exists [put (AddMetadata oa (sm 1)); put (AddVersion oa (sv "h" "u" 0)); Begin hh; put (RemoveVersion oa 1); Look 0;
          put (MigrateVersion oa (sv "h" "w" 1)); Drop 0], (sv "h" "w" 1).
  split_and!; [|repeat constructor|vc|vc|vc].
  - split; [|vm_compute; done]. repeat constructor; apply put_ok; intros ? ? X; try discriminate.
    injection X as <- <-. done.
  - intros (x & c & E & (id & [->| ->])); destruct x; discriminate.
  - intros (x & c & E & (id & [->| ->])); destruct x; discriminate.
  - intros (x & c & E & (id & [->| ->])); destruct x; discriminate.
  - intros (x & c & E & (id & [->| ->])); destruct x; discriminate.
Qed.
Print Assumptions C188_migrated_refuted.

(** Missing: an object removed and stored again with other content while a search runs is
    answered though its content was never the one asked for together with its key. *)
Theorem C188_right_refuted : exists pre post q v, execution 0 (pre ++ Begin hh :: post) /\
  searches_after (pre ++ Begin hh :: post) !! length (searches_after pre) = Some q /\ finished q = true /\
  v ∈ q_found q /\ v_hash v <> hh.
Proof.
  exists [put (AddMetadata oa (sm 1)); put (AddVersion oa (sv "h" "u" 0))],
    [put (RemoveMetadata oa); put (AddMetadata oa (sm 2)); put (AddVersion oa (sv "g" "w" 0)); Look 0],
    (mk_search hh [] None [sv "g" "w" 1]), (sv "g" "w" 1).
  split_and!; [oks|vc|vc|by constructor|]. vm_compute. discriminate.
Qed.
Print Assumptions C188_right_refuted.

(** Two searches beside an upload and the removal of a version: both answer what is left, the
    entry of the removed version goes, the new version is found. *)
Example C188_nonvacuous :
  let pre := [put (AddMetadata oa (sm 1)); put (AddVersion oa (sv "h" "u" 0)); put (AddMetadata ob (sm 1));
              put (AddVersion ob (sv "h" "w" 0)); Begin hh] in
  let post := [put (RemoveVersion oa 1); Look 0; Look 1; Drop 1; put (AddVersion oa (sv "h" "x" 0)); Drop 0; Look 0; Look 1] in
  execution 0 (pre ++ Begin hh :: post) /\ Forall plain (pre ++ Begin hh :: post) /\
  searches_after (pre ++ Begin hh :: post) =
    [mk_search hh [] None [sv "h" "w" 1]; mk_search hh [] None [sv "h" "w" 1]] /\
  length (searches_after pre) = 1%nat /\
  get_ver ob 1 (db_after (pre ++ Begin hh :: post)) = Some (sv "h" "w" 1) /\
  snd (find_by_hash hh (db_after (pre ++ Begin hh :: post))) = [sv "h" "x" 2; sv "h" "w" 1].
Proof. intros pre post. split_and!; [oks|plains|vc|vc|vc|vc]. Qed.

(** The keys of the index are proper, and a search alone removes the entry of a removed object. *)
Example C188_alone_nonvacuous :
  let d := db_after [put (AddMetadata oa (sm 1)); put (AddVersion oa (sv "h" "u" 0)); put (AddMetadata ob (sm 1));
                     put (AddVersion ob (sv "h" "w" 0)); put (RemoveMetadata oa)] in
  (forall k, k ∈ idx_get hh (d_hash d) -> cut_last "."%char k <> None) /\ size (idx_get hh (d_hash d)) = 2%nat /\
  snd (find_by_hash hh d) = [sv "h" "w" 1].
Proof.
  intros d. split_and!; [|vc|vc]. intros k Hk. apply elem_of_elements in Hk.
  assert (elements (idx_get hh (d_hash d)) = [vkey ob 1; vkey oa 1] \/ elements (idx_get hh (d_hash d)) = [vkey oa 1; vkey ob 1]) as X
    by (vm_compute; auto).
  revert Hk X. generalize (elements (idx_get hh (d_hash d))). clear d. intros l Hk X.
  destruct X as [-> | ->]; repeat (apply elem_of_cons in Hk as [->|Hk]; [by rewrite cut_last_vkey|]);
    by apply elem_of_nil in Hk.
Qed.
