(** Theorems about what deleting a bucket, an object or a version does. *)
From Verif Require Import Str_Model Str_Proofs Meta_Model Meta_Spec Meta_Proofs Client_Model Churn_Model Estate_Model Estate_Spec Estate_Proofs.
From stdpp Require Import gmap.
Local Open Scope list_scope.

(** For the examples: a bucket that keeps ten versions, one object in it. *)
Definition box (ro : bool) (t : Z) : bucket := mk_bucket true ro false 0 0 0 10 t t (s2l "box") [].
Definition about_it : metadata := mk_metadata (s2l "it") (s2l "box") 1 1.
Definition content (h u : str) : version := mk_version false 1 1 0 0 5 1 0 h u [].
Definition put_it (h u : str) : op := Put (s2l "box") (s2l "it") about_it (content h u) true true.
Definition used : list op := [Manage (CreateBucket (box false 1)); put_it (s2l "h1") (s2l "u1"); put_it (s2l "h2") (s2l "u2")].

(** === C200: a deleted bucket takes its objects with it === *)

(** After a bucket is deleted, nothing more is stored into it: uploads are refused and change nothing. *)
Theorem C200_refused : forall st bucket name m v asks sent,
  step (fst (step st (Manage (DeleteBucket bucket)))) (Put bucket name m v asks sent) =
  (fst (step st (Manage (DeleteBucket bucket))), false).
Proof.
  intros st bucket name m v asks sent. cbn [step]. unfold manage, put. cbn. rewrite lookup_delete. done.
Qed.
Print Assumptions C200_refused.

Example C200_refused_case : snd (step (run nothing used) (put_it (s2l "h3") (s2l "u3"))) = true /\
  told nothing (used ++ [Manage (DeleteBucket (s2l "box")); put_it (s2l "h3") (s2l "u3")]) = [true; true; true; true; false].
Proof. vm_compute. done. Qed.

(** A bucket made again after it was deleted has the settings it was made with, none of the old ones. *)
Theorem C200_settings : forall st b, b_name b <> [] ->
  d_bkt (e_db (run st [Manage (DeleteBucket (b_name b)); Manage (CreateBucket b)])) !! b_name b = Some b /\
  forall other, other <> b_name b ->
    d_bkt (e_db (run st [Manage (DeleteBucket (b_name b)); Manage (CreateBucket b)])) !! other = d_bkt (e_db st) !! other.
Proof.
  intros [d P] b Hb. unfold run. cbn [fold_left step]. unfold manage. cbn. unfold bkt_create.
  destruct (b_name b) as [|c n] eqn:E; [done|]. cbn. rewrite lookup_delete. cbn. split.
  - by rewrite lookup_insert.
  - intros o Ho. rewrite lookup_insert_ne, lookup_delete_ne by done. done.
Qed.
Print Assumptions C200_settings.

Example C200_settings_case : b_name (box true 2) <> [] /\
  d_bkt (e_db (run nothing used)) !! s2l "box" = Some (box false 1) /\ box true 2 <> box false 1.
Proof. split; [done|]. split; [by vm_compute|]. done. Qed.

(** But what was in it can be read as before: deleting a bucket changes no answer to any reader. *)
Theorem C200_gone_refuted : forall st bucket b name n,
  get b name n (fst (step st (Manage (DeleteBucket bucket)))) = get b name n st.
Proof. intros. apply manage_other. cbn. tauto. Qed.
Print Assumptions C200_gone_refuted.

(** And it is there in the bucket made anew. *)
Theorem C200_anew_refuted :
  (forall st b b' name n,
     get b' name n (run st [Manage (DeleteBucket (b_name b)); Manage (CreateBucket b)]) = get b' name n st) /\
  exists ops b, told nothing (ops ++ [Manage (DeleteBucket (b_name b)); Manage (CreateBucket b)]) = [true; true; true; true; true] /\
    ~ empty_bucket (b_name b) (run nothing (ops ++ [Manage (DeleteBucket (b_name b)); Manage (CreateBucket b)])).
Proof.
  split.
  - intros. unfold run. cbn [fold_left]. rewrite !manage_other; [done|cbn; tauto|cbn; tauto].
  - exists used, (box true 2). split; [by vm_compute|]. intros H. specialize (H (s2l "it") 1%Z). vm_compute in H. discriminate.
Qed.
Print Assumptions C200_anew_refuted.

(** Full statement: a bucket just created is empty.  Partial: it is if no upload ever named it,
    whatever else was stored, deleted or made; uploads name buckets without a slash (C62). *)
Theorem C200_anew_partial : forall ops bucket, ~ In "/"%char bucket -> Forall (elsewhere bucket) ops ->
  empty_bucket bucket (run nothing ops).
Proof. exact untouched_empty. Qed.
Print Assumptions C200_anew_partial.

Example C200_anew_case : ~ In "/"%char (s2l "box2" : str) /\
  Forall (elsewhere (s2l "box2")) (used ++ [Manage (CreateBucket (mk_bucket true false false 0 0 0 10 1 1 (s2l "box2") []))]) /\
  ~ empty_bucket (s2l "box") (run nothing used).
Proof.
  split; [|split].
  - cbn. intros [H|[H|[H|[H|[]]]]]; discriminate.
  - assert (~ In "/"%char (s2l "box")) by (cbn; intros [H|[H|[H|[]]]]; discriminate).
    repeat constructor; done.
  - intros H. specialize (H (s2l "it") 0%Z). vm_compute in H. discriminate.
Qed.

(** An upload that read the bucket before it was deleted never brings the bucket back... *)
Theorem C200_stays : forall st b bucket name m v asks sent,
  d_bkt (e_db (fst (store b bucket name m v asks sent (fst (step st (Manage (DeleteBucket bucket))))))) !! bucket = None.
Proof. intros. rewrite store_bkt. cbn. apply lookup_delete. Qed.
Print Assumptions C200_stays.

(** ... but its object is stored all the same, told as done and read, with no bucket there. *)
Theorem C200_late_refuted : exists st b m v,
  d_bkt (e_db st) !! s2l "box" = Some b /\ b_readonly b = false /\
  let st' := store b (s2l "box") (s2l "it") m v true true (fst (step st (Manage (DeleteBucket (s2l "box"))))) in
  snd st' = Some 1%N /\ d_bkt (e_db (fst st')) !! s2l "box" = None /\
  get (s2l "box") (s2l "it") 1 (fst st') = Some (with_seq 1 v).
Proof.
  exists (run nothing [Manage (CreateBucket (box false 1))]), (box false 1), about_it, (content (s2l "h1") (s2l "u1")).
  vm_compute. done.
Qed.
Print Assumptions C200_late_refuted.

(** === C201: bytes are kept as long as a version needs them, and no longer === *)

(** The bytes of every version a reader is led to are there, whatever was removed before. *)
Theorem C201_kept : forall ops id n v, service_get_version id n (e_db (run nothing ops)) = Some v ->
  v_hash v ∈ e_pieces (run nothing ops).
Proof. intros ops id n v H. apply service_ver in H as [k H]. by eapply hashes_run. Qed.
Print Assumptions C201_kept.

(** Two objects with the same content: one removed, the other is still there. *)
Definition twins : list op := [Manage (CreateBucket (box false 1)); put_it (s2l "h") (s2l "u1");
  Put (s2l "box") (s2l "that") about_it (content (s2l "h") (s2l "u2")) true false;
  Manage (RemoveMetadata (s2l "box/it"))].
Example C201_kept_case : told nothing twins = [true; true; true; true] /\
  get (s2l "box") (s2l "it") 1 (run nothing twins) = None /\
  get (s2l "box") (s2l "that") 1 (run nothing twins) = Some (with_seq 1 (content (s2l "h") (s2l "u2"))).
Proof. vm_compute. done. Qed.

(** A request about one object or bucket changes what is read of no other object, and removing
    one version what is read of no other version. *)
Theorem C201_others : forall st bucket name,
  (forall c n, ~ about bucket name c -> get bucket name n (fst (step st (Manage c))) = get bucket name n st) /\
  (forall n removed, (0 < n)%Z -> n <> Z.of_N removed ->
     get bucket name n (fst (step st (Manage (RemoveVersion (bucket ++ ["/"%char] ++ name) removed)))) = get bucket name n st).
Proof. intros st bucket name. split; intros; [by apply manage_other|by apply (remove_version_other bucket name)]. Qed.
Print Assumptions C201_others.

Example C201_others_case : ~ about (s2l "box") (s2l "that") (RemoveMetadata (s2l "box/it")) /\
  get (s2l "box") (s2l "it") 2 (run nothing (used ++ [Manage (RemoveVersion (s2l "box/it") 1)])) = Some (with_seq 2 (content (s2l "h2") (s2l "u2"))) /\
  get (s2l "box") (s2l "it") 1 (run nothing (used ++ [Manage (RemoveVersion (s2l "box/it") 1)])) = None.
Proof. split; [done|]. vm_compute. done. Qed.

(** Nothing is held that was not uploaded. *)
Theorem C201_brought : forall ops h, h ∈ e_pieces (run nothing ops) -> Exists (brings h) ops.
Proof. exact pieces_brought. Qed.
Print Assumptions C201_brought.

Example C201_brought_case : s2l "h" ∈ e_pieces (run nothing twins) /\ size (e_pieces (run nothing twins)) = 1%nat.
Proof. split; vm_compute; done. Qed.

(** But bytes are never given back: no request makes the data servers hold less. *)
Theorem C201_never_refuted : forall st o, e_pieces st ⊆ e_pieces (fst (step st o)).
Proof. exact pieces_grow. Qed.
Print Assumptions C201_never_refuted.

(** So any amount is held for nothing: requests that are all done, after which nothing can be read
    and [k] contents are held. *)
Theorem C201_heap_refuted : forall k, exists ops, Forall (fun done => done = true) (told nothing ops) /\
  no_versions (run nothing ops) /\ size (e_pieces (run nothing ops)) = k.
Proof.
  intros k. exists (heap k). destruct (heap_facts k) as [T (_ & M & _ & _ & _ & Z)]. split; [done|]. split; [|done].
  intros b name n. unfold get. by rewrite M.
Qed.
Print Assumptions C201_heap_refuted.
