(** Proofs about [Stop_Model]. *)
From stdpp Require Import list.
From Coq Require Import NArith.
From Verif Require Import Str_Model Registry_Model Stop_Model Stop_Spec.
Local Open Scope list_scope.

(** ** Ending a process *)

(** While the store is open all requests are fine; it is closed only after all are done. *)
Definition pinv (p : proc) : Prop :=
  pr_timer p = false /\
  match pr_main p with
  | MServe | MShut => pr_store p = true /\ Forall (fun r => r = RGood \/ exists n, r = RWork n true) (pr_reqs p)
  | _ => Forall (fun r => r = RGood) (pr_reqs p)
  end.

Lemma rq_step_fine : forall r, (r = RGood \/ exists n, r = RWork n true) ->
  rq_step true r = RGood \/ exists n, rq_step true r = RWork n true.
Proof. intros r [->|[[|n] ->]]; cbn; eauto. Qed.

Lemma all_done_good : forall l, Forall (fun r => r = RGood \/ exists n, r = RWork n true) l -> forallb rq_done l = true ->
  Forall (fun r => r = RGood) l.
Proof.
  intros l H D. induction H as [|r l [->|[n ->]] _ IH]; cbn in D; [constructor|constructor; auto|discriminate].
Qed.

Lemma good_insert : forall i b l, Forall (fun r => r = RGood) l -> Forall (fun r => r = RGood) (match l !! i with Some r => <[i := rq_step b r]> l | None => l end).
Proof.
  intros i b l H. destruct (l !! i) as [r|] eqn:E; [|exact H].
  pose proof (proj1 (Forall_lookup _ _) H i r E) as ->. cbn [rq_step]. apply Forall_insert; [exact H|reflexivity].
Qed.

Lemma pinv_step : forall p o, o <> PTimer -> pinv p -> pinv (pstep KWait p o).
Proof.
  intros [reqs main timer store] o N1 (T & H). cbn in T. subst timer.
  destruct o as [n|i| | |]; [| | | |congruence]; unfold pinv; cbn in *.
  - destruct main; cbn; (split; [reflexivity|]); try exact H.
    destruct H as (-> & H). split; [reflexivity|]. apply Forall_app. split; [exact H|]. constructor; [eauto|constructor].
  - assert (E : forall s m, (match reqs !! i with Some r => Proc (<[i := rq_step s r]> reqs) m false s | None => Proc reqs m false s end) =
                            Proc (match reqs !! i with Some r => <[i := rq_step s r]> reqs | None => reqs end) m false s)
      by (intros; destruct (reqs !! i); reflexivity).
    destruct main; rewrite ?E; cbn; (split; [reflexivity|]); try exact H; try (apply good_insert, H).
    all: destruct H as (-> & H); split; [reflexivity|].
    all: destruct (reqs !! i) as [r|] eqn:L; [|exact H]; apply Forall_insert; [exact H|].
    all: apply rq_step_fine; exact (proj1 (Forall_lookup _ _) H i r L).
  - destruct main; cbn; (split; [reflexivity|]); exact H.
  - destruct main; cbn; try (split; [reflexivity|exact H]).
    + destruct (forallb rq_done reqs) eqn:D; cbn; (split; [reflexivity|]); [|exact H].
      apply all_done_good; [apply H|exact D].
    + split; [reflexivity|]. induction H as [|r l -> _ IH]; cbn; constructor; auto.
Qed.

Lemma pinv_run : forall ops p, Forall (fun o => o <> PTimer) ops -> pinv p -> pinv (prun KWait p ops).
Proof.
  induction ops as [|o r IH]; intros p F H; [exact H|]. cbn. inversion F; subst. apply IH; [assumption|]. apply pinv_step; assumption.
Qed.

Lemma pinv0 : pinv proc0.
Proof. split; [reflexivity|]. cbn. split; [reflexivity|constructor]. Qed.

(** ** The slots of a group *)

Lemma kept_run : forall ops s l, st_etcd s = Some l -> leaders_stay (st_leader s) ops ->
  st_etcd (srun s ops) = Some (last_slots (match st_leader s with Some _ => true | None => false end) l ops).
Proof.
  induction ops as [|o r IH]; intros s l E H; [exact E|].
  change (srun s (o :: r)) with (srun (sstep s o) r).
  destruct o as [i|m| |i down busy]; cbn [leaders_stay last_slots] in *.
  - cbn [sstep]. rewrite E. rewrite (IH (save_slots s i l) l eq_refl); [reflexivity|exact H].
  - cbn [sstep]. destruct (st_leader s) as [i|] eqn:L.
    + rewrite (IH (save_slots s i m) m eq_refl); [reflexivity|exact H].
    + rewrite (IH s l E); [rewrite L; reflexivity|rewrite L; exact H].
  - cbn [sstep]. rewrite (IH (Slotst (st_etcd s) (st_cfg s) None) l E); [reflexivity|exact H].
  - destruct H as (N1 & H). cbn [sstep]. rewrite E.
    assert (Lf : (match st_leader s with Some j => j =? i | None => false end) = false).
    { destruct (st_leader s) as [j|]; [|reflexivity]. apply Nat.eqb_neq. intros ->. congruence. }
    rewrite Lf. cbn [andb].
    match goal with |- st_etcd (srun ?x r) = _ => rewrite (IH x l eq_refl); [reflexivity|exact H] end.
Qed.

Lemma away_run : forall ops s i l, st_etcd s = None -> st_leader s = None -> st_cfg s i = l -> Forall no_election ops ->
  st_etcd (srun s ops) = None /\ st_leader (srun s ops) = None /\ st_cfg (srun s ops) i = l.
Proof.
  induction ops as [|o r IH]; intros s i l E L C F; [auto|].
  inversion F as [|? ? No Fr]; subst. change (srun s (o :: r)) with (srun (sstep s o) r).
  destruct o as [j|m| |j down busy]; [contradiction| | |]; cbn [sstep].
  - rewrite L. apply IH; auto.
  - apply IH; auto.
  - rewrite E, L. apply IH; auto.
Qed.

(** ** Leaving and joining again *)

Lemma turns_run : forall fs ops,
  (forall c, in_turns fs (orun fs (Opener false c []) ops).2) /\
  in_turns fs (OStarted :: (orun fs (Opener true false fs) ops).2).
Proof.
  intros fs. induction ops as [|o r (IH1 & IH2)].
  - split; [intros c; constructor|constructor].
  - split.
    + intros c. cbn [orun]. destruct o; cbn [ostep op_opened op_closed op_events].
      * destruct (orun fs (Opener true false ([] ++ fs)) r) as [p2 l2] eqn:E.
        change (in_turns fs (OStarted :: l2)). change ([] ++ fs) with fs in E. rewrite E in IH2. exact IH2.
      * destruct c.
        -- specialize (IH1 true). destruct (orun fs (Opener false true []) r) as [p2 l2]. exact IH1.
        -- specialize (IH1 true). destruct (orun fs (Opener false true []) r) as [p2 l2]. exact IH1.
    + cbn [orun]. destruct o; cbn [ostep op_opened op_closed op_events].
      * destruct (orun fs (Opener true false fs) r) as [p2 l2]. exact IH2.
      * specialize (IH1 true). destruct (orun fs (Opener false true []) r) as [p2 l2]. cbn [snd] in *.
        apply turns_both, IH1.
Qed.

(** The lifecycle started again. *)
Definition ainv (s : life) : Prop :=
  lf_ctx s = false /\
  match lf_pc s with
  | LLock | LGrant | LDone => lf_entry s = None /\ ~ In (lf_lease s) (lf_live s)
  | _ => lf_entry s = None \/ lf_entry s = Some (lf_lease s)
  end.

Lemma existsb_eqb : forall x l, existsb (N.eqb x) l = true <-> In x l.
Proof.
  intros x l. rewrite existsb_exists. split.
  - intros (y & I & E). apply N.eqb_eq in E. subst. exact I.
  - intros I. exists x. split; [exact I|apply N.eqb_refl].
Qed.

Lemma ainv_step : forall s o, (match o with LStep _ k => k = true | _ => True end) -> ainv s -> ainv (lstep s o).
Proof.
  intros [pc lock lease live entry calls ctx] o K (C & H). cbn in C. subst ctx. unfold ainv.
  destruct o as [grant keep|ok|id|]; cbn in *.
  - subst keep. destruct pc; cbn in *.
    + destruct lock; cbn; auto.
    + destruct grant as [id|]; cbn; auto. split; [reflexivity|]. left. apply H.
    + auto.
    + auto.
    + split; [reflexivity|]. split.
      * destruct H as [->| ->]; [reflexivity|]. rewrite N.eqb_refl. reflexivity.
      * intros I. apply List.in_remove in I. tauto.
    + auto.
  - destruct calls as [|n]; cbn; [auto|]. split; [reflexivity|].
    destruct (existsb (N.eqb lease) live) eqn:E.
    + apply existsb_eqb in E. destruct pc; try (destruct H as (_ & H); contradiction); destruct ok; cbn; auto.
    + rewrite andb_false_r. exact H.
  - split; [reflexivity|]. destruct pc; cbn in *.
    1,2,6: destruct H as (-> & H); split; [reflexivity|]; intros I; apply List.in_remove in I; tauto.
    all: destruct H as [->| ->]; [auto|]; destruct (lease =? id)%N; auto.
  - split; [reflexivity|exact H].
Qed.

Lemma ainv_run : forall ops s, Forall (fun o => match o with LStep _ k => k = true | _ => True end) ops -> ainv s -> ainv (lrun s ops).
Proof.
  induction ops as [|o r IH]; intros s F H; [exact H|]. inversion F; subst. cbn. apply IH; [assumption|]. apply ainv_step; assumption.
Qed.
