From Verif Require Import Str_Model Str_Proofs Meta_Model Meta_Spec Meta_Proofs Retain_Model Churn_Model Churn_Spec Churn_Proofs.
From stdpp Require Import gmap.

Local Ltac vc := vm_compute; repeat split; done.

(** * Concrete data for the examples *)

Definition cu (u : string) : upload :=
  mk_upload (s2l "b/o"%string) (mk_metadata (s2l "o"%string) (s2l "b"%string) 1 1)
    (mk_version false 0 1 0 5 5 1 0 (s2l "h"%string) (s2l u) []) true 2.

(** The first alone; the second and third read before either adds; the fourth reads three and
    removes the first of them. *)
Definition mixed : list event :=
  Arrive (cu "1") :: whole 0 ++
  [Arrive (cu "2"); Arrive (cu "3"); Read 1 true; Read 2 true; Churn_Model.Add 2; Churn_Model.Add 1;
   Arrive (cu "4"); Read 3 true; Churn_Model.Add 3; Remove 3].

Lemma mixed_ok : execution mixed.
Proof.
  split; [|split; [|by vm_compute]].
  - repeat constructor; done.
  - apply (bool_decide_unpack _). by vm_compute.
Qed.

Lemma mixed_given : given (after mixed) 0 (cu "1") 1 /\ given (after mixed) 1 (cu "2") 3 /\
  given (after mixed) 2 (cu "3") 2 /\ given (after mixed) 3 (cu "4") 4.
Proof. repeat split; left; by vm_compute. Qed.

(** * C189: uploads at once and the versions that are kept *)

(** An upload alone, whatever happened before, is the one of the earlier model. *)
Theorem C189_alone : forall es u, execution (es ++ Arrive u :: whole (length (s_ups (after es)))) ->
  s_db (run (after es) (Arrive u :: whole (length (s_ups (after es))))) =
  put (u_versioning u) (u_remains u) (u_id u) (u_meta u) (s_db (after es)) (u_ver u) /\
  exists n, given (run (after es) (Arrive u :: whole (length (s_ups (after es))))) (length (s_ups (after es))) u n.
Proof. exact alone_put. Qed.
Print Assumptions C189_alone.

Example C189_alone_nonvacuous :
  execution (mixed ++ Arrive (cu "5") :: whole (length (s_ups (after mixed)))) /\
  given (run (after mixed) (Arrive (cu "5") :: whole (length (s_ups (after mixed))))) 4 (cu "5") 5.
Proof.
  split.
  - split; [|split; [|by vm_compute]].
    + repeat constructor; done.
    + apply (bool_decide_unpack _). by vm_compute.
  - left. by vm_compute.
Qed.

(** However uploads interleave, fail and leave their removals: once an upload was given a
    number, its own version or a newer one of the same object is stored. *)
Theorem C189_newest : forall es i u n, execution es -> given (after es) i u n ->
  exists k, (n <= k)%N /\ has_version (s_db (after es)) (u_id u) k.
Proof. exact newest_kept. Qed.
Print Assumptions C189_newest.

Example C189_newest_nonvacuous : execution mixed /\ given (after mixed) 0 (cu "1") 1 /\
  get_ver (s2l "b/o"%string) 1 (s_db (after mixed)) = None.
Proof. split; [exact mixed_ok|]. split; [apply mixed_given|by vm_compute]. Qed.

(** What is stored under the number an upload was given is what that upload sent; if it is no
    longer stored, something newer is. *)
Theorem C189_content : forall es i u n, execution es -> given (after es) i u n ->
  get_ver (u_id u) n (s_db (after es)) = Some (with_seq n (u_ver u)) \/
  get_ver (u_id u) n (s_db (after es)) = None /\
  exists k, (n < k)%N /\ has_version (s_db (after es)) (u_id u) k.
Proof. exact own_content. Qed.
Print Assumptions C189_content.

Example C189_content_nonvacuous : execution mixed /\ given (after mixed) 1 (cu "2") 3 /\
  get_ver (s2l "b/o"%string) 3 (s_db (after mixed)) = Some (with_seq 3 (u_ver (cu "2"))).
Proof. split; [exact mixed_ok|]. split; [apply mixed_given|by vm_compute]. Qed.

(** Every stored version was sent by an upload of that object that was given that number. *)
Theorem C189_source : forall es id n v, execution es -> get_ver id n (s_db (after es)) = Some v ->
  exists i u, given (after es) i u n /\ u_id u = id /\ v = with_seq n (u_ver u).
Proof. exact stored_source. Qed.
Print Assumptions C189_source.

Example C189_source_nonvacuous : execution mixed /\
  get_ver (s2l "b/o"%string) 4 (s_db (after mixed)) = Some (with_seq 4 (u_ver (cu "4"))).
Proof. split; [exact mixed_ok|by vm_compute]. Qed.

(** No two uploads of one object are given the same number. *)
Theorem C189_apart : forall es i j u w n, execution es -> given (after es) i u n -> given (after es) j w n ->
  u_id u = u_id w -> i = j.
Proof. exact numbers_apart. Qed.
Print Assumptions C189_apart.

Example C189_apart_nonvacuous : execution mixed /\ given (after mixed) 1 (cu "2") 3 /\ given (after mixed) 2 (cu "3") 2.
Proof. split; [exact mixed_ok|]. split; apply mixed_given. Qed.

(** If the bucket promised every upload of the object at least [r] versions, at least [r] are
    stored, or as many as were ever given if those are fewer. *)
Theorem C189_enough : forall es r i u n, execution es ->
  Forall (fun w => u_id w = u_id u -> (r <= promised w)%Z) (arrived es) -> given (after es) i u n ->
  exists l, NoDup l /\ Forall (has_version (s_db (after es)) (u_id u)) l /\
            (Z.min r (Z.of_N n) <= Z.of_nat (length l))%Z.
Proof. exact enough_kept. Qed.
Print Assumptions C189_enough.

Example C189_enough_nonvacuous : execution mixed /\
  Forall (fun w => u_id w = u_id (cu "4") -> (2 <= promised w)%Z) (arrived mixed) /\
  given (after mixed) 3 (cu "4") 4.
Proof. split; [exact mixed_ok|]. split; [repeat constructor; by vm_compute|apply mixed_given]. Qed.

(** The other half does not hold: with a bucket that keeps one version and never more than two
    uploads under way, all of them ending well, as many versions as one likes pile up. *)
Theorem C189_grows_refuted : forall k, (N.of_nat k < 2 ^ 59)%N -> exists es, execution es /\
  Forall (fun u => u_id u = s2l "b/o"%string /\ u_versioning u = false /\ u_remains u = 1%Z) (arrived es) /\
  (forall a b, es = a ++ b -> busy (after a) <= 2) /\
  Forall (fun x => exists n, snd x = Finished n) (s_ups (after es)) /\
  exists l, NoDup l /\ length l = S k /\ Forall (has_version (s_db (after es)) (s2l "b/o"%string)) l.
Proof.
  intros k Hk. exists (pairs k). split_and!.
  - by apply pairs_execution.
  - rewrite pairs_arrived. apply List.Forall_forall. intros u Hu. apply in_map_iff in Hu as (j & <- & _). done.
  - intros a b E. by eapply prefix_pairs.
  - by apply pairs_state.
  - by apply pairs_grow.
Qed.
Print Assumptions C189_grows_refuted.

Example C189_grows_nonvacuous : get_extra (s2l "b/o"%string) (s_db (after (pairs 3))) = Some (4, 4%Z, 7%Z).
Proof. by vm_compute. Qed.
