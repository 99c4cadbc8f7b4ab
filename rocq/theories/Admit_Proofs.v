(** Proofs of the write admission properties. *)
From Verif Require Import Str_Model Meta_Model Meta_Spec Cache_Model Admit_Model Admit_Spec.
From stdpp Require Import gmap.
Local Open Scope list_scope.
Local Arguments dispatch : simpl never.
Local Arguments command : simpl never.
Local Arguments repo_call : simpl never.

Definition follows (log : list call) (r : replica) : Prop :=
  r_done r <= length log /\ r_db r = apply_log db_empty (take (r_done r) log).

Lemma apply_log_snoc d cs c : apply_log d (cs ++ [c]) = fst (dispatch (command true c) (apply_log d cs)).
Proof. unfold apply_log. rewrite fold_left_app. reflexivity. Qed.

Lemma follows_snoc log c r : follows log r -> follows (log ++ [c]) r.
Proof.
  intros [A B]. split; [rewrite app_length; simpl; lia|].
  rewrite B, take_app_le; [reflexivity | lia].
Qed.

Lemma apply_next_follows log r : follows log r -> follows log (apply_next log r).
Proof.
  intros [A B]. unfold apply_next. destruct (log !! r_done r) as [c|] eqn:E; [|split; assumption].
  split; simpl.
  - apply lookup_lt_Some in E. lia.
  - rewrite (take_S_r _ _ _ E), apply_log_snoc, B. reflexivity.
Qed.

Lemma apply_next_done log r : r_done r < length log -> r_done (apply_next log r) = S (r_done r).
Proof.
  intros L. unfold apply_next. destruct (lookup_lt_is_Some_2 _ _ L) as [c E]. rewrite E. reflexivity.
Qed.

Lemma iter_follows log r k : follows log r -> r_done r + k <= length log ->
  follows log (Nat.iter k (apply_next log) r) /\ r_done (Nat.iter k (apply_next log) r) = r_done r + k.
Proof.
  intros F. induction k as [|k IH]; intros L; simpl; [split; [assumption | lia]|].
  destruct IH as [A B]; [lia|]. split; [apply apply_next_follows, A|].
  rewrite apply_next_done; lia.
Qed.

Lemma catch_up_follows log n r : follows log r -> r_done r <= n -> n <= length log ->
  follows log (catch_up log n r) /\ r_done (catch_up log n r) = n.
Proof.
  intros F A B. unfold catch_up. destruct (iter_follows log r (n - r_done r) F) as [C D]; [lia|].
  split; [exact C | lia].
Qed.

Record inv (cl : cluster) (es : list aevent) : Prop := {
  i_rep : forall i r, cl_reps cl !! i = Some r -> follows (cl_log cl) r;
  i_ack : forall i q, Acked i q ∈ es -> exists f c, q = RCall f c /\ c ∈ cl_log cl;
  i_pend : forall i q, (i, q) ∈ cl_pend cl ->
    guarded q /\ exists r, cl_reps cl !! i = Some r /\ r_lead r = true }.

Lemma admitted_lead r q : guarded q -> admitted r q = true -> r_lead r = true.
Proof.
  intros G A. destruct q as [[m|] c|h i l now]; simpl in *.
  - rewrite bool_decide_eq_true_2 in A by exact G. destruct (r_lead r); [reflexivity | discriminate].
  - apply andb_true_iff in A. apply A.
  - destruct G.
Qed.

Lemma admitted_normal r q : guarded q -> ~ foreign_item q -> admitted r q = true -> r_normal r = true.
Proof.
  intros G F A. destruct q as [[m|] c|h i l now]; simpl in *.
  - rewrite bool_decide_eq_true_2 in A by exact G. destruct (r_lead r); [|discriminate].
    destruct (bool_decide (m = streaming_receive)) eqn:E; [|exact A].
    apply bool_decide_eq_true in E. subst m. exfalso. apply F. exists c. reflexivity.
  - apply andb_true_iff in A. apply A.
  - destruct G.
Qed.

Lemma ack_app (es : list aevent) (log : list call) c :
  (forall i q, Acked i q ∈ es -> exists f c, q = RCall f c /\ c ∈ log) ->
  forall i q, Acked i q ∈ es -> exists f c', q = RCall f c' /\ c' ∈ log ++ [c].
Proof.
  intros H i q E. destruct (H i q E) as (f & c' & A & B). exists f, c'. split; [exact A|].
  apply elem_of_app. left. exact B.
Qed.

Lemma delete_sub {A} (l : list A) k x : x ∈ delete k l -> x ∈ l.
Proof.
  intros H. apply (elem_of_submseteq (delete k l)); [exact H|].
  apply sublist_submseteq, sublist_delete.
Qed.

Lemma serve_inv i q o cl es : inv cl es -> guarded q ->
  (exists r, cl_reps cl !! i = Some r /\ r_lead r = true) ->
  inv (fst (serve i q o cl)) (es ++ snd (serve i q o cl)).
Proof.
  intros [R K P] G [r [Er L]]. unfold serve. rewrite Er. destruct q as [f c|h j l now]; [|destruct G].
  rewrite L. destruct o as [|b].
  - pose proof (R i r Er) as F.
    destruct (catch_up_follows (cl_log cl ++ [c]) (length (cl_log cl)) r) as [C D].
    { apply follows_snoc, F. } { apply F. } { rewrite app_length. simpl. lia. }
    cbv zeta. set (r' := catch_up _ _ r) in *.
    destruct (dispatch (command true c) (r_db r')) as [d x] eqn:Ed. simpl.
    assert (Fd : follows (cl_log cl ++ [c]) (mk_replica d (length (cl_log cl ++ [c])) true (r_normal r))).
    { split; simpl; [lia|]. rewrite firstn_all, apply_log_snoc.
      destruct C as [_ C]. rewrite D, take_app in C. rewrite <- C, Ed. reflexivity. }
    split; simpl.
    + intros i0 r0 E0. destruct (decide (i = i0)) as [->|N].
      * rewrite list_lookup_insert in E0 by (apply lookup_lt_Some in Er; exact Er).
        injection E0 as <-. exact Fd.
      * rewrite list_lookup_insert_ne in E0 by exact N. apply follows_snoc, (R i0), E0.
    + intros i0 q0 E0. apply elem_of_app in E0. destruct E0 as [E0|E0].
      * exact (ack_app es (cl_log cl) c K i0 q0 E0).
      * exists f, c. destruct (answered_ok x); apply elem_of_list_singleton in E0; [|discriminate].
        injection E0 as -> ->. split; [reflexivity|]. apply elem_of_app. right. left.
    + intros i0 q0 E0. destruct (P i0 q0 E0) as [A [r0 [B C0]]]. split; [exact A|].
      destruct (decide (i = i0)) as [->|N].
      * rewrite list_lookup_insert by (apply lookup_lt_Some in Er; exact Er).
        eexists. split; [reflexivity|]. reflexivity.
      * rewrite list_lookup_insert_ne by exact N. exists r0. split; assumption.
  - simpl. split; simpl; [| |exact P].
    + intros i0 r0 E0. destruct b; [apply follows_snoc|]; apply (R i0), E0.
    + intros i0 q0 E0. apply elem_of_app in E0. destruct E0 as [E0|E0].
      * destruct b; [exact (ack_app es (cl_log cl) c K i0 q0 E0) | exact (K i0 q0 E0)].
      * apply elem_of_list_singleton in E0. discriminate.
Qed.

Lemma set_rep_inv i f cl es : inv cl es ->
  (forall r, cl_reps cl !! i = Some r -> follows (cl_log cl) r -> follows (cl_log cl) (f r)) ->
  (forall r q, (i, q) ∈ cl_pend cl -> r_lead r = true -> r_lead (f r) = true) ->
  inv (set_rep i f cl) es.
Proof.
  intros [R K P] HF HL. unfold set_rep. destruct (cl_reps cl !! i) as [r|] eqn:Er; [|split; assumption].
  split; simpl; [|exact K|].
  - intros i0 r0 E0. destruct (decide (i = i0)) as [->|N].
    + rewrite list_lookup_insert in E0 by (apply lookup_lt_Some in Er; exact Er).
      injection E0 as <-. apply HF; [reflexivity|]. apply (R i0), Er.
    + rewrite list_lookup_insert_ne in E0 by exact N. apply (R i0), E0.
  - intros i0 q0 E0. destruct (P i0 q0 E0) as [A [r0 [B C0]]]. split; [exact A|].
    destruct (decide (i = i0)) as [->|N].
    + rewrite list_lookup_insert by (apply lookup_lt_Some in Er; exact Er).
      eexists. split; [reflexivity|]. rewrite Er in B. injection B as <-. exact (HL _ q0 E0 C0).
    + rewrite list_lookup_insert_ne by exact N. exists r0. split; assumption.
Qed.

Lemma apply_next_lead log r : r_lead (apply_next log r) = r_lead r.
Proof. unfold apply_next. destruct (log !! r_done r); reflexivity. Qed.

Lemma astep_inv cl es a : inv cl es -> act_ok cl a -> inv (fst (astep cl a)) (es ++ snd (astep cl a)).
Proof.
  intros I A. destruct a as [i q|k o|i|i b|i b]; simpl in *.
  - destruct (cl_reps cl !! i) as [r|] eqn:Er; [|simpl; rewrite app_nil_r; exact I].
    destruct (possible q && admitted r q) eqn:E; simpl; rewrite app_nil_r; [|exact I].
    apply andb_true_iff in E. destruct E as [_ E]. destruct I as [R K P]. split; simpl; [exact R|exact K|].
    intros i0 q0 E0. apply elem_of_app in E0. destruct E0 as [E0|E0]; [exact (P i0 q0 E0)|].
    apply elem_of_list_singleton in E0. injection E0 as -> ->. split; [exact A|].
    exists r. split; [exact Er|]. exact (admitted_lead r q A E).
  - destruct (cl_pend cl !! k) as [[i q]|] eqn:Ep; [|simpl; rewrite app_nil_r; exact I].
    destruct (i_pend _ _ I i q) as [G L]; [exact (elem_of_list_lookup_2 _ _ _ Ep)|].
    apply serve_inv; [|exact G|exact L].
    destruct I as [R K P]. split; simpl; [exact R|exact K|].
    intros i0 q0 E0. apply P, (delete_sub _ k), E0.
  - rewrite app_nil_r. apply set_rep_inv; [exact I| |].
    + intros r _ F. apply apply_next_follows, F.
    + intros r q _ L. rewrite apply_next_lead. exact L.
  - rewrite app_nil_r. apply set_rep_inv; [exact I| |].
    + intros r _ F. exact F.
    + intros r q E L. destruct b; [reflexivity|]. destruct (A q E).
  - rewrite app_nil_r. apply set_rep_inv; [exact I| |].
    + intros r _ F. exact F.
    + intros r q E L. exact L.
Qed.

Lemma arun_inv acts : forall cl es, inv cl es -> acts_ok cl acts ->
  inv (fst (arun (cl, es) acts)) (snd (arun (cl, es) acts)).
Proof.
  induction acts as [|a acts IH]; intros cl es I A; [exact I|].
  destruct A as [A1 A2]. unfold arun in *. simpl.
  destruct (astep cl a) as [cl' es'] eqn:E. apply IH.
  - pose proof (astep_inv cl es a I A1) as I'. rewrite E in I'. exact I'.
  - exact A2.
Qed.

Lemma start_inv n : inv (cluster_start n) [].
Proof.
  split; simpl.
  - intros i r E. apply lookup_replicate in E. destruct E as [-> _]. split; [simpl; lia|reflexivity].
  - intros i q E. apply elem_of_nil in E. destruct E.
  - intros i q E. apply elem_of_nil in E. destruct E.
Qed.

Lemma run_agreed n acts : acts_ok (cluster_start n) acts ->
  agreed (fst (arun (cluster_start n, []) acts)) (snd (arun (cluster_start n, []) acts)).
Proof.
  intros A. destruct (arun_inv acts _ _ (start_inv n) A) as [R K P]. split; [exact R|exact K].
Qed.

(** The log only grows, whatever happens. *)
Lemma astep_log cl a : exists cs, cl_log (fst (astep cl a)) = cl_log cl ++ cs.
Proof.
  destruct a as [i q|k o|i|i b|i b]; simpl.
  - destruct (cl_reps cl !! i) as [r|]; [destruct (possible q && admitted r q)|]; exists []; symmetry; apply app_nil_r.
  - destruct (cl_pend cl !! k) as [[i q]|]; [|exists []; symmetry; apply app_nil_r].
    unfold serve. simpl. destruct (cl_reps cl !! i) as [r|]; [|exists []; symmetry; apply app_nil_r].
    destruct q as [f c|h j l now].
    + destruct (r_lead r).
      * destruct o as [|[]]; simpl; [|exists [c]; reflexivity|exists []; symmetry; apply app_nil_r].
        match goal with |- context [dispatch ?x ?y] => destruct (dispatch x y) end. exists [c]. reflexivity.
      * destruct (repo_call c (r_db r)). exists []. symmetry. apply app_nil_r.
    + destruct (update_locate_by_hash h j l now (r_db r)). exists []. symmetry. apply app_nil_r.
  - unfold set_rep. destruct (cl_reps cl !! i); exists []; symmetry; apply app_nil_r.
  - unfold set_rep. destruct (cl_reps cl !! i); exists []; symmetry; apply app_nil_r.
  - unfold set_rep. destruct (cl_reps cl !! i); exists []; symmetry; apply app_nil_r.
Qed.

Lemma arun_log acts : forall s, exists cs, cl_log (fst (arun s acts)) = cl_log (fst s) ++ cs.
Proof.
  induction acts as [|a acts IH]; intros [cl es].
  - exists []. symmetry. apply app_nil_r.
  - unfold arun. simpl. destruct (astep cl a) as [cl' es'] eqn:E.
    destruct (IH (cl', es ++ es')) as [cs H]. destruct (astep_log cl a) as [cs0 H0]. rewrite E in H0. simpl in *.
    exists (cs0 ++ cs). rewrite app_assoc, <- H0. exact H.
Qed.
