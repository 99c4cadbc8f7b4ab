(** Lemmas about the pages of the metadata server. *)
From Verif Require Import Str_Model Str_Spec Str_Proofs Util_Model Util_Proofs Meta_Model Meta_Spec Meta_Proofs Meta_Ids Rpc_Model Rest_Model Rest_Spec.
From stdpp Require Import gmap.
From Coq Require Import Lia.

Lemma commit_failed : forall d x e d', commit d x = (d', Some e) -> d' = d.
Proof. intros d x e d' H. unfold commit in H. destruct x; cbn in H; [discriminate H|]. by injection H as <- _. Qed.

Lemma raft_answer : forall d x d' y, Meta_Model.answer (commit d x) = (d', y) -> raft_err y <> None -> d' = d.
Proof. intros d [d1|e] d' y H; cbn in H; injection H as <- <-; [intros C; exfalso; apply C; reflexivity|reflexivity]. Qed.

Lemma write_failed : forall raft c d d' e n, write raft c d = (d', Some e, n) -> d' = d.
Proof.
  intros raft c d d' e n H. unfold write in H. destruct raft.
  - destruct (dispatch (command true c) d) as [d1 x] eqn:E.
    assert (H1 : d1 = d' /\ raft_err x = Some e) by (split; congruence). destruct H1 as [-> H1].
    assert (R : raft_err x <> None) by congruence. clear H H1.
    destruct c; cbn [command dispatch rd_dest apply_metadata apply_version apply_version_all apply_bucket rd_type rd_meta rd_ver rd_bkt rd_batch rd_name rd_seq] in E;
      try (exact (raft_answer _ _ _ _ E R)).
    unfold repo_add_version in E. cbn [negb andb] in E. unfold commit in E. destruct (add_ver id v d) as [d2|e2] eqn:A.
    + cbn [fst snd] in E. injection E as <- <-. exfalso; apply R; reflexivity.
    + cbn [fst snd] in E. by injection E as <- _.
  - destruct (direct c d) as [d1 x] eqn:E. destruct x as [x|]; [|discriminate H].
    assert (H1 : d1 = d') by congruence. subst d1. clear H.
    destruct c; cbn [direct] in E; try (exact (commit_failed _ _ _ _ E)).
    + unfold repo_add_version in E. destruct (_ && _) in E; [congruence|exact (commit_failed _ _ _ _ E)].
    + unfold repo_add_version_raft in E. destruct (_ && _) in E; [congruence|exact (commit_failed _ _ _ _ E)].
Qed.

Lemma told_failed : forall raft c d l d' a, told (write raft c d) l = (d', a) ->
  (200 <= answered l < 300)%Z -> ~ went_well a -> d' = d.
Proof.
  intros raft c d l d' a H L W. unfold told in H. destruct (write raft c d) as [[d1 e] n] eqn:E.
  destruct e as [g|].
  - apply write_failed in E. congruence.
  - exfalso. apply W. injection H as <- <-. exact L.
Qed.


(** A write without group does to the data what the entry of the log does. *)
Lemma direct_dispatch : forall c d, fst (direct c d) = fst (dispatch (command false c) d).
Proof. intros c d. destruct c; reflexivity. Qed.

Lemma write_effect : forall raft c d, effect d c (fst (fst (write raft c d))).
Proof.
  intros raft c d. unfold write. destruct raft.
  - generalize (dispatch_effect true c d). destruct (dispatch _ _). auto.
  - generalize (dispatch_effect false c d). rewrite <- direct_dispatch. destruct (direct c d). auto.
Qed.

(** The data after a page. *)
Lemma told_fst : forall raft c d l, fst (told (write raft c d) l) = fst (fst (write raft c d)).
Proof. intros. unfold told. by destruct (write raft c d) as [[d1 e] n]. Qed.

Lemma find_loop_meta : forall h ks d, d_meta (fst (find_loop h ks d)) = d_meta d /\ d_vers (fst (find_loop h ks d)) = d_vers d.
Proof.
  intros h ks. induction ks as [|k ks IH]; intros d; [split; reflexivity|].
  cbn [find_loop]. destruct (cut_last "."%char k) as [[a b]|]; [|split; reflexivity].
  destruct (service_get_version a (to_int b) d).
  - generalize (IH d). destruct (find_loop h ks d). auto.
  - destruct (IH (with_hash (idx_remove h k (d_hash d)) d)) as [A B]. split; [exact A|exact B].
Qed.

(** ** Order of the keys *)

Lemma head_digit : forall m c s, print_N m = c :: s -> dec_digit c.
Proof.
  intros m c s E. destruct (print_N_dec m) as [F _]. rewrite E in F. by apply Forall_cons in F as [? _].
Qed.

Lemma after_minus : forall name z m, (z < 0)%Z -> str_ltb (vkey name m) (name ++ "."%char :: print_Z z) = false.
Proof.
  intros name z m H. unfold vkey. rewrite str_ltb_app. destruct z as [|p|p]; try lia.
  destruct (print_N m) as [|c s] eqn:E; [by apply print_N_nonempty in E|].
  pose proof (head_digit m c s E) as D. unfold dec_digit in D.
  cbn [str_ltb print_Z]. rewrite N.ltb_irrefl, N.eqb_refl.
  change (N_of_ascii "-"%char) with 45%N.
  destruct (N.ltb_spec (N_of_ascii c) 45); [lia|]. destruct (N.eqb_spec (N_of_ascii c) 45); [lia|reflexivity].
Qed.

Lemma after_one : forall name m, (1 <= m)%N -> str_ltb (vkey name m) (name ++ "."%char :: print_Z 1) = false.
Proof.
  intros name m H. unfold vkey. rewrite str_ltb_app.
  change (print_Z 1) with ["1"%char].
  destruct (print_N m) as [|c s] eqn:E; [by apply print_N_nonempty in E|].
  pose proof (head_digit m c s E) as D. unfold dec_digit in D.
  assert (Hc : c <> "0"%char).
  { destruct s as [|c' s]; [|apply (print_N_head m c (c' :: s)); done].
    intros ->. change ["0"%char] with (print_N 0) in E. apply print_N_inj in E. lia. }
  assert (Hn : N_of_ascii c <> 48%N).
  { intros X. apply Hc. apply (f_equal ascii_of_N) in X. rewrite ascii_N_embedding in X. exact X. }
  cbn [str_ltb]. rewrite N.ltb_irrefl, N.eqb_refl.
  change (N_of_ascii "1"%char) with 49%N.
  destruct (N.ltb_spec (N_of_ascii c) 49); [lia|]. destruct (N.eqb_spec (N_of_ascii c) 49); [by destruct s|reflexivity].
Qed.

Lemma filter_every : forall (P : str -> Prop) `{!forall x, Decision (P x)} (l : list str), (forall x, x ∈ l -> P x) -> filter P l = l.
Proof.
  intros P Dec l. induction l as [|x l IH]; intros Hl; [reflexivity|].
  rewrite filter_cons_True by (apply Hl; by left). f_equal. apply IH. intros y Hy. apply Hl. by right.
Qed.

Lemma wrap64_small : forall z, (- 2 ^ 63 <= z < 2 ^ 63)%Z -> wrap64 z = z.
Proof. intros z H. unfold wrap64. rewrite Z.mod_small by lia. lia. Qed.

Lemma wrap64_inner : forall a b, wrap64 (wrap64 a + b) = wrap64 (a + b).
Proof.
  intros a b. unfold wrap64.
  replace ((a + 2 ^ 63) mod 2 ^ 64 - 2 ^ 63 + b + 2 ^ 63)%Z with ((a + 2 ^ 63) mod 2 ^ 64 + b)%Z by ring.
  rewrite Z.add_mod_idemp_l by lia. f_equal. f_equal. ring.
Qed.

Lemma page_length : forall start size_, wrap64 (wrap64 (start + size_) - start + 1) = wrap64 (size_ + 1).
Proof.
  intros start size_. replace (wrap64 (start + size_) - start + 1)%Z with (wrap64 (start + size_) + (1 - start))%Z by ring.
  rewrite wrap64_inner. f_equal. ring.
Qed.

(** ** Buckets *)

Definition under_name (d : db) : Prop := forall n k, d_bkt d !! n = Some k -> b_name k = n.

Lemma insert_under : forall d k, under_name d -> under_name (with_bkt (<[ b_name k := k ]> (d_bkt d)) d).
Proof.
  intros d k Nm n x H. cbn in H. apply lookup_insert_Some in H. destruct H as [[<- <-]|[_ H]]; [reflexivity|exact (Nm n x H)].
Qed.

Lemma write_buckets : forall raft c d, under_name d -> under_name (fst (fst (write raft c d))).
Proof.
  intros raft c d Nm. pose proof (write_effect raft c d) as E. remember (fst (fst (write raft c d))) as d1 eqn:Ed.
  destruct E; try exact Nm. rewrite Ed. clear Ed. destruct H as [(b & [-> | ->])|(n & ->)].
  - assert (A : forall d', bkt_create b d = inl d' -> under_name d').
    { intros d' A. unfold bkt_create in A. destruct (b_name b) as [|x y] eqn:Eb; [discriminate|].
      destruct (d_bkt d !! _); [discriminate|]. injection A as <-. rewrite <- Eb. apply insert_under, Nm. }
    destruct raft; unfold write; cbn [command dispatch direct rd_dest apply_bucket rd_type rd_bkt rd_name];
      destruct (bkt_create b d) as [d'|e]; cbn; try exact Nm; apply A; reflexivity.
  - assert (A : forall d', bkt_update b d = inl d' -> under_name d').
    { intros d' A. unfold bkt_update in A. destruct (b_name b) as [|x y] eqn:Eb; [discriminate|].
      destruct (d_bkt d !! _) as [o|]; [|discriminate]. destruct (_ <=? _)%Z; [discriminate|]. injection A as <-. rewrite <- Eb.
      exact (insert_under d (keep_ctime o b) Nm). }
    destruct raft; unfold write; cbn [command dispatch direct rd_dest apply_bucket rd_type rd_bkt rd_name];
      destruct (bkt_update b d) as [d'|e]; cbn; try exact Nm; apply A; reflexivity.
  - assert (A : forall d', bkt_delete n d = inl d' -> under_name d').
    { intros d' A. unfold bkt_delete in A. repeat (match type of A with (match ?x with _ => _ end) = _ => destruct x end; try discriminate);
        injection A as <-; try exact Nm; intros i x H; cbn in H; apply lookup_delete_Some in H as [_ H]; exact (Nm i x H). }
    destruct raft; unfold write; cbn [command dispatch direct rd_dest apply_bucket rd_type rd_bkt rd_name];
      destruct (bkt_delete n d) as [d'|e]; cbn; try exact Nm; apply A; reflexivity.
Qed.

Lemma find_loop_bkt : forall h ks d, d_bkt (fst (find_loop h ks d)) = d_bkt d.
Proof.
  intros h ks. induction ks as [|k ks IH]; intros d; [reflexivity|].
  cbn [find_loop]. destruct (cut_last "."%char k) as [[a b]|]; [|reflexivity].
  destruct (service_get_version a (to_int b) d).
  - generalize (IH d). destruct (find_loop h ks d). auto.
  - exact (IH (with_hash (idx_remove h k (d_hash d)) d)).
Qed.
