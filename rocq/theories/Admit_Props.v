From Verif Require Import Str_Model Meta_Model Meta_Spec Meta_Props Cache_Model Admit_Model Admit_Spec Admit_Proofs.
From stdpp Require Import gmap.
Local Open Scope list_scope.

Local Ltac grd := unfold guarded; apply (bool_decide_eq_true_1 (_ ∈ writable_methods)); vm_compute; reflexivity.
Local Notation "'a'" := (s2l "obj" : str) (only parsing).

(** * C59: acknowledged writes go through the replicated log *)

(** The checks let a guarded write through only on a server that takes itself for the
    leader, and, except for the items of a migration, only outside a migration. *)
Theorem C59_checked : forall r q, guarded q -> admitted r q = true ->
  r_lead r = true /\ (~ foreign_item q -> r_normal r = true).
Proof. intros r q G A. split; [exact (admitted_lead r q G A) | intros F; exact (admitted_normal r q G F A)]. Qed.
Print Assumptions C59_checked.

Local Definition ld : replica := mk_replica db_empty 0 true true.

Example C59_checked_nonvacuous :
  let q := RCall (Rpc (s2l "/proto.MetadataApi/SaveVersion")) (AddVersion a (ver (s2l "h") (s2l "u") 1 0)) in
  guarded q /\ possible q = true /\ admitted ld q = true /\ ~ foreign_item q.
Proof.
  cbv zeta. split_and!.
  - apply (bool_decide_eq_true_1 _). vm_compute. reflexivity.
  - vm_compute. reflexivity.
  - vm_compute. reflexivity.
  - intros [c E]. discriminate E.
Qed.

(** Wanted: whatever writes arrive where and whenever leadership moves, every server
    holds what the log entries it applied give, and every acknowledged write is in the
    log.  Proved for runs whose writes are all guarded and in which no server's flag
    drops between the check and the service's own look at the flag.  Missing: the
    unguarded method, changes of locations, and the drop in between; each is needed, see
    the refutations. *)
Theorem C59_agreed_partial : forall n acts, acts_ok (cluster_start n) acts ->
  agreed (fst (arun (cluster_start n, []) acts)) (snd (arun (cluster_start n, []) acts)).
Proof. exact run_agreed. Qed.
Print Assumptions C59_agreed_partial.

(** Servers that applied equally many entries hold the same data. *)
(** Partial; the full statement is at [C59_agreed_partial]. *)
Theorem C59_same_partial : forall n acts, acts_ok (cluster_start n) acts ->
  ~ diverged (fst (arun (cluster_start n, []) acts)).
Proof.
  intros n acts A (i & j & ri & rj & Ei & Ej & D & N). apply N.
  destruct (run_agreed n acts A) as [R _].
  destruct (R i ri Ei) as [_ ->]. destruct (R j rj Ej) as [_ ->]. rewrite D. reflexivity.
Qed.
Print Assumptions C59_same_partial.

(** The log only grows, in every run. *)
Theorem C59_log_grows : forall s acts, exists cs, cl_log (fst (arun s acts)) = cl_log (fst s) ++ cs.
Proof. intros s acts. exact (arun_log acts s). Qed.
Print Assumptions C59_log_grows.

Local Definition rpc (m : String.string) (c : call) : request := RCall (Rpc (s2l m)) c.
Local Definition save_md := rpc "/proto.MetadataApi/SaveMetadata" (AddMetadata a (md 1)).
Local Definition save_v (u : str) := rpc "/proto.MetadataApi/SaveVersion" (AddVersion a (ver (s2l "h") u 1 0)).
Local Definition upd_v := rpc "/proto.MetadataApi/UpdateVersion" (UpdateVersion a 1 (ver (s2l "h") (s2l "u") 9 1)).

(** Both servers have an object with one version; server 0 leads. *)
Local Definition setup : list aact :=
  [Lead 0 true; Arrive 0 save_md; Serve 0 ACommitted; Arrive 0 (save_v (s2l "u")); Serve 0 ACommitted;
   Deliver 1; Deliver 1].

(** The leadership moves, the new leader catches up and serves an HTTP write; a write at
    the old leader is refused. *)
Local Definition demo : list aact :=
  setup ++ [Lead 0 false; Lead 1 true; Arrive 0 (save_v (s2l "x"));
            Arrive 1 (RCall Http (UpdateMetadata a (md 5))); Serve 0 ACommitted; Deliver 0].

Example C59_nonvacuous : acts_ok (cluster_start 2) demo /\
  let s := arun (cluster_start 2, []) demo in
  length (cl_log (fst s)) = 3 /\ length (snd s) = 3 /\ Acked 1 (RCall Http (UpdateMetadata a (md 5))) ∈ snd s.
Proof.
  split.
  - assert (forall q m c, q = rpc m c -> bool_decide (s2l m ∈ writable_methods) = true -> guarded q) as Hg.
    { intros q m c -> H. exact (bool_decide_eq_true_1 _ H). }
    unfold demo, setup. simpl app.
    repeat match goal with
      | |- acts_ok _ [] => exact I
      | |- acts_ok _ (_ :: _) => split
      | |- act_ok _ (Arrive _ save_md) => exact (Hg _ "/proto.MetadataApi/SaveMetadata"%string _ eq_refl eq_refl)
      | |- act_ok _ (Arrive _ (save_v _)) => exact (Hg _ "/proto.MetadataApi/SaveVersion"%string _ eq_refl eq_refl)
      | |- act_ok _ (Lead _ false) => intros q; vm_compute; apply not_elem_of_nil
      | |- act_ok _ _ => exact I
      end.
  - cbv zeta. split_and!; [vm_compute; reflexivity|vm_compute; reflexivity|].
    vm_compute. right. right. left.
Qed.

(** [UpdateVersion] is missing in the list of guarded methods: a follower takes it,
    changes its own database and acknowledges; the log does not have it. *)
Theorem C59_update_version_refuted : exists acts, let s := arun (cluster_start 2, []) acts in
  Forall no_drop acts /\ Acked 1 upd_v ∈ snd s /\ diverged (fst s) /\
  (forall c, upd_v = RCall (Rpc (s2l "/proto.MetadataApi/UpdateVersion")) c -> c ∉ cl_log (fst s)).
Proof.
  exists (setup ++ [Arrive 1 upd_v; Serve 0 ACommitted]). cbv zeta. split_and!.
  - repeat constructor.
  - vm_compute. right. right. left.
  - exists 0, 1. eexists. eexists. split; [reflexivity|]. split; [reflexivity|]. split; [vm_compute; reflexivity|].
    intros E. apply (f_equal (get_ver a 1)) in E. vm_compute in E. discriminate E.
  - intros c E. injection E as <-. vm_compute. intros H.
    repeat (apply elem_of_cons in H; destruct H as [H|H]; [discriminate H|]). exact (not_elem_of_nil _ H).
Qed.
Print Assumptions C59_update_version_refuted.

(** A change of locations is never logged: the leader acknowledges it and the followers
    keep the old locations. *)
Theorem C59_locate_refuted : exists acts i q, let s := arun (cluster_start 2, []) acts in
  Forall no_drop acts /\ Acked i q ∈ snd s /\ diverged (fst s) /\ possible q = true /\
  (forall q', q' ∈ flat_map (fun x => match x with Arrive _ q' => [q'] | _ => [] end) acts ->
     q' = q \/ guarded q').
Proof.
  exists (setup ++ [Arrive 0 (RLocate (s2l "h") 0 (s2l "s9") 5); Serve 0 ACommitted]), 0,
    (RLocate (s2l "h") 0 (s2l "s9") 5). cbv zeta. split_and!.
  - repeat constructor.
  - vm_compute. right. right. left.
  - exists 0, 1. eexists. eexists. split; [reflexivity|]. split; [reflexivity|]. split; [vm_compute; reflexivity|].
    intros E. apply (f_equal (get_ver a 1)) in E. vm_compute in E. discriminate E.
  - reflexivity.
  - intros q' H. simpl in H. repeat (apply elem_of_cons in H; destruct H as [->|H]).
    + right. unfold save_md, save_v, rpc; grd.
    + right. unfold save_md, save_v, rpc; grd.
    + left. reflexivity.
    + destruct (not_elem_of_nil _ H).
Qed.
Print Assumptions C59_locate_refuted.

(** The flag drops between the check and the service: the write goes to the local
    database of a server that no longer leads, and is acknowledged. *)
Theorem C59_lead_lost_refuted : exists acts i q, let s := arun (cluster_start 2, []) acts in
  Acked i q ∈ snd s /\ diverged (fst s) /\
  Forall (fun x => match x with Arrive _ q' => guarded q' | _ => True end) acts.
Proof.
  exists (setup ++ [Arrive 0 (save_v (s2l "w")); Lead 0 false; Serve 0 ACommitted]), 0, (save_v (s2l "w")).
  cbv zeta. split_and!.
  - vm_compute. right. right. left.
  - exists 0, 1. eexists. eexists. split; [reflexivity|]. split; [reflexivity|]. split; [vm_compute; reflexivity|].
    intros E. apply (f_equal (get_ver a 2)) in E. vm_compute in E. discriminate E.
  - unfold setup. simpl app. repeat (constructor; [first [exact I | unfold save_md, save_v, rpc; grd]|]). constructor.
Qed.
Print Assumptions C59_lead_lost_refuted.

(** A save answered with an error may be in the log; saved again (under a new unique id,
    metadata_service.go 42) it is stored as two versions. *)
Theorem C59_retry_refuted : exists acts q q', let s := arun (cluster_start 2, []) acts in
  acts_ok (cluster_start 2) acts /\ Errored 0 q ∈ snd s /\ Acked 0 q' ∈ snd s /\
  exists r v v', cl_reps (fst s) !! 0 = Some r /\ get_ver a 1 (r_db r) = Some v /\ get_ver a 2 (r_db r) = Some v' /\
    v_hash v = v_hash v' /\ v_uid v <> v_uid v'.
Proof.
  exists [Lead 0 true; Arrive 0 save_md; Serve 0 ACommitted; Arrive 0 (save_v (s2l "u")); Serve 0 (AFailed true);
          Arrive 0 (save_v (s2l "w")); Serve 0 ACommitted], (save_v (s2l "u")), (save_v (s2l "w")).
  cbv zeta. split_and!.
  - repeat match goal with
      | |- acts_ok _ [] => exact I
      | |- acts_ok _ (_ :: _) => split
      | |- act_ok _ (Arrive _ _) => unfold act_ok, save_md, save_v, rpc; grd
      | |- act_ok _ _ => exact I
      end.
  - vm_compute. right. left.
  - vm_compute. right. right. left.
  - eexists. eexists. eexists. split; [reflexivity|]. split; [vm_compute; reflexivity|].
    split; [vm_compute; reflexivity|]. split; [reflexivity|discriminate].
Qed.
Print Assumptions C59_retry_refuted.
