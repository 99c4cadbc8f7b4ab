From Verif Require Import Reader_Proofs Rs_Main Copy_Proofs.

(** * C25: replicated objects read back intact from any copy *)

(** For every configured block size: the object is uploaded however it is split into
    writes, each copy becomes the same file, and whichever copies are lost, if one is
    left a client reading [k] bytes gets the first [k] bytes of the object. *)
Theorem C25_copies_read_back : forall (B : Type) (zero : B) rf b bts fuel, (0 < b)%Z ->
  Forall (fun bt => length bt <= fuel) bts ->
  exists sent file, c_upload (Z.to_nat (init_copy_block b)) fuel bts = Some sent /\
    store_blocks zero rf sent = Some file /\
    forall (sv : servers B) sel locs k,
      (forall i, i < length locs -> sv (nth i locs 0) i = None \/ sv (nth i locs 0) i = Some file) ->
      (exists i f, i < length locs /\ sv (nth i locs 0) i = Some f) ->
      exists nl, copy_read sv sel locs (length (concat bts)) None k = Some (firstn k (concat bts), nl).
Proof.
  intros B zero rf b bts fuel Hb Hf. destruct (init_copy_block_ok b Hb) as [Hp Hm].
  destruct (copy_stored zero rf (Z.to_nat (init_copy_block b)) bts fuel) as (sent & file & H1 & H2 & H3);
    [lia|left; apply mod_block_Z; [lia|exact Hm]|exact Hf|].
  exists sent, file. split; [exact H1|]. split; [exact H2|]. intros sv sel locs k Hsv Hex.
  apply copy_read_good; [|exact Hex]. intros i f Hi E. destruct (Hsv i Hi) as [E'|E']; [congruence|].
  rewrite E' in E. injection E as <-. exact H3.
Qed.
Print Assumptions C25_copies_read_back.

(** With no copy left the read is refused. *)
Theorem C25_all_lost : forall (B : Type) (sv : servers B) sel locs size off k,
  (forall i, i < length locs -> sv (nth i locs 0) i = None) -> copy_read sv sel locs size off k = None.
Proof.
  intros B sv sel locs size off k H. unfold copy_read. destruct (copy_open sv sel 0 locs) as [[j|] nl] eqn:E; [|reflexivity].
  pose proof (copy_open_spec _ _ _ _ _ _ E) as (m & Hj & Hk & (f & Hf) & _). cbn in Hj. subst m. rewrite (H j Hk) in Hf. discriminate.
Qed.
Print Assumptions C25_all_lost.

Definition ex_sv : servers nat := fun s i => if (s =? 1) && (i =? 1) then Some [1; 2; 3] else None.
Example C25_nonvacuous : copy_read ex_sv (fun _ => 7) [0; 1; 2] 3 None 9 = Some ([1; 2; 3], [7]) /\
  c_upload 2 9 [[1]; [2; 3]] = Some [[1; 2]; [3]] /\ init_copy_block 32768 = 65536%Z.
Proof. repeat split. Qed.

(** * C26: repair on read never damages an object (replicated objects) *)

(** Partial: the client reads the whole object from the start; then every recorded copy
    is good afterwards and one is reachable.  ("No surviving copy is forgotten" fails,
    see below.) *)
(** Partial.  Full statement: When a read finds lost shards or copies and repairs them, then however
    much of the object the client reads (all, a range, a prefix), the repaired shard or copy equals
    the original and no surviving copy is forgotten.  It fails in general: [C26_rs_prefix_refuted],
    [C26_rs_order_refuted], [C26_copy_forgets_refuted], [C26_copy_prefix_refuted],
    [C26_copy_range_refuted]. *)
Theorem C26_copy_repair_partial : forall (B : Type) (zero : B) rf (sv : servers B) sel locs s tol bytes sv' locs',
  0 < length s -> good_copies s sv locs ->
  (forall i f, sv (sel i) i = Some f -> fetch f (length s) = s) ->
  read_close zero rf sv sel locs (length s) tol None (length s) = Some (bytes, sv', locs') ->
  bytes = s /\ good_copies s sv' locs' /\ exists i f, i < length locs' /\ sv' (nth i locs' 0) i = Some f.
Proof. exact @repair_good. Qed.
Print Assumptions C26_copy_repair_partial.

(** Whenever copies are repaired, the recorded locations shrink: the surviving copies
    are forgotten. *)
Theorem C26_copy_forgets_refuted : forall (B : Type) (zero : B) rf (sv : servers B) sel locs size tol off k bytes sv' locs',
  read_close zero rf sv sel locs size tol off k = Some (bytes, sv', locs') ->
  (tol < length locs' /\ length locs' < length locs) \/ locs' = locs.
Proof. exact @repair_forgets. Qed.
Print Assumptions C26_copy_forgets_refuted.

(** A client that reads one byte and stops: the next read does not return the object,
    although two good copies existed. *)
Theorem C26_copy_prefix_refuted : forall rf, exists (sv : servers nat) sel locs sv' locs' bytes nl,
  good_copies [1; 2; 3] sv locs /\ sv (nth 1 locs 0) 1 <> None /\ sv (nth 2 locs 0) 2 <> None /\
  read_close 0 rf sv sel locs 3 0 None 1 = Some ([1], sv', locs') /\
  copy_read sv' sel locs' 3 None 3 = Some (bytes, nl) /\ bytes <> [1; 2; 3].
Proof.
  intros rf. destruct rf; exists (fun s i => if (s =? i) && (0 <? i) then Some [1; 2; 3] else None), (fun _ => 7), [0; 1; 2];
    do 4 eexists; (split;
    [intros i f Hi E; destruct i as [|[|[|i]]]; cbn in *; try discriminate; try (injection E as <-; reflexivity); lia|]);
    (split; [discriminate|]); (split; [discriminate|]); (split; [reflexivity|]);
    (split; [vm_compute; reflexivity|]); discriminate.
Qed.
Print Assumptions C26_copy_prefix_refuted.

(** A client that asks for the bytes from offset 1 and reads to the end: same damage. *)
Theorem C26_copy_range_refuted : forall rf, exists (sv : servers nat) sel locs sv' locs' got bytes nl,
  good_copies [1; 2; 3] sv locs /\ sv (nth 1 locs 0) 1 <> None /\ sv (nth 2 locs 0) 2 <> None /\
  read_close 0 rf sv sel locs 3 0 (Some 1) 3 = Some (got, sv', locs') /\
  copy_read sv' sel locs' 3 None 3 = Some (bytes, nl) /\ bytes <> [1; 2; 3].
Proof.
  intros rf. destruct rf; exists (fun s i => if (s =? i) && (0 <? i) then Some [1; 2; 3] else None), (fun _ => 7), [0; 1; 2];
    do 5 eexists; (split;
    [intros i f Hi E; destruct i as [|[|[|i]]]; cbn in *; try discriminate; try (injection E as <-; reflexivity); lia|]);
    (split; [discriminate|]); (split; [discriminate|]); (split; [reflexivity|]);
    (split; [vm_compute; reflexivity|]); discriminate.
Qed.
Print Assumptions C26_copy_range_refuted.

Example C26_nonvacuous : exists sv', read_close 0 false ex_sv (fun _ => 7) [0; 1; 2] 3 0 None 3 = Some ([1; 2; 3], sv', [7]) /\
  sv' 7 0 = Some [1; 2; 3].
Proof. eexists. split; [reflexivity|]. vm_compute. reflexivity. Qed.

(** * C50: a range read returns the rest of the object *)

(** Erasure-coded objects: after skipping [o] bytes (rs_get_stream.go:87-112 reads and
    drops them), reading to end of file returns the object from offset [o]. *)
Theorem C50_rs_range : forall (B : Type) (lib : rs_lib B) c bts fuel avail skip reqs,
  0 < rc_data c -> 0 < rc_bps c -> mds lib (rc_data c) (rc_parity c) ->
  Forall (fun bt => length bt <= fuel) bts ->
  exists sent, upload lib c fuel bts = Some sent /\
    forall dropped d rws bytes rws',
      read_many lib c (open_shards c (length (concat bts)) (shard_bytes sent) avail) skip [] = (dropped, Ok d, rws) ->
      read_many lib c d reqs [] = (bytes, Eof, rws') ->
      bytes = skipn (length dropped) (concat bts).
Proof.
  intros B lib c bts fuel avail skip reqs H1 H2 H3 H4.
  destruct (read_back lib c H1 H2 H3 bts fuel avail (skip ++ reqs) H4) as (sent & Hu & H).
  exists sent. split; [exact Hu|]. intros dropped d rws bytes rws' Ha Hb.
  assert (Hout : forall reqs d out x, read_many lib c d reqs (x ++ out) =
    let '(b, st, r) := read_many lib c d reqs out in (x ++ b, st, r)).
  { induction reqs0 as [|q reqs0 IH]; intros d0 out x; [reflexivity|]. cbn [read_many].
    destruct (read lib c d0 q) as [bt [d1| | |]]; try (rewrite app_assoc; reflexivity). rewrite <- app_assoc. apply IH. }
  assert (Happ : forall skip d0 out dr d1 r, read_many lib c d0 skip out = (dr, Ok d1, r) ->
    read_many lib c d0 (skip ++ reqs) out = read_many lib c d1 reqs dr).
  { induction skip0 as [|q skip0 IH]; intros d0 out dr d1 r E; cbn [read_many app] in *.
    - injection E as <- <- _. reflexivity.
    - destruct (read lib c d0 q) as [bt [d2| | |]]; try discriminate. apply (IH _ _ _ _ _ E). }
  pose proof (Hout reqs d [] dropped) as E. rewrite app_nil_r, Hb in E.
  rewrite <- (Happ _ _ _ _ _ _ Ha) in E. destruct (H _ _ _ E) as [_ [He _]]. rewrite <- He.
  rewrite ListX.skipn_app_exact. reflexivity.
Qed.
Print Assumptions C50_rs_range.

(** Replicated objects, partial: the answer starts with the rest of the object. *)
(** Partial.  Full statement: Seeking to an offset before reading and then reading to the end
    returns exactly the bytes of the object from that offset on, with each of the two storage
    strategies.  It fails in general: [C50_copy_range_refuted]. *)
Theorem C50_copy_range_partial : forall (B : Type) (sv : servers B) sel locs s o k bytes nl,
  (forall i f, i < length locs -> sv (nth i locs 0) i = Some f -> fetch f (length s) = s) ->
  copy_read sv sel locs (length s) (Some o) k = Some (bytes, nl) -> k <= length s - o ->
  bytes = firstn k (skipn o s).
Proof.
  intros B sv sel locs s o k bytes nl Hg H Hk. unfold copy_read in H.
  destruct (copy_open sv sel 0 locs) as [[j|] nl'] eqn:E; [|discriminate].
  pose proof (copy_open_spec _ _ _ _ _ _ E) as (m & Hj & Hm & (f & Hf) & _). cbn in Hj. subst m. rewrite Hf in H. injection H as <- _.
  specialize (Hg j f Hm Hf). unfold fetch, fetch_at in *. rewrite <- Hg at 2. rewrite firstn_firstn.
  rewrite skipn_firstn_comm, firstn_firstn. f_equal. lia.
Qed.
Print Assumptions C50_copy_range_partial.

(** But it does not stop at the end of the object: the data server is asked for [size]
    bytes from the offset on and delivers the padding of the file. *)
Theorem C50_copy_range_refuted : exists (sv : servers nat) sel locs file bytes nl,
  store_blocks 0 true [[1; 2; 3]] = Some file /\ sv 0 0 = Some file /\
  copy_read sv sel locs 3 (Some 1) 100 = Some (bytes, nl) /\ bytes = [2; 3; 0] /\ bytes <> skipn 1 [1; 2; 3].
Proof.
  eexists (fun _ _ => Some _), (fun _ => 0), [0]. do 3 eexists. split; [vm_compute; reflexivity|].
  split; [reflexivity|]. split; [vm_compute; reflexivity|]. split; [reflexivity|discriminate].
Qed.
Print Assumptions C50_copy_range_refuted.

Example C50_nonvacuous : copy_read ex_sv (fun _ => 7) [0; 1] 3 (Some 1) 2 = Some ([2; 3], [7]) /\ 2 <= length [1; 2; 3] - 1.
Proof. split; [reflexivity|cbn; lia]. Qed.
