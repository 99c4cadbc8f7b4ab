(** Lemmas about the settings of servers. *)
From Coq Require Import List Ascii ZArith Lia Bool Permutation.
From Verif Require Import Str_Model Str_Proofs Meta_Model Setup_Model Setup_Spec.
Import ListNotations.
Local Open Scope list_scope.
Local Open Scope Z_scope.

Lemma is_zero_blank v : is_zero (Some v) = true <-> blank v.
Proof.
  unfold blank. destruct v as [b|n|t|l]; cbn.
  - destruct b; cbn; split; intros H; try discriminate; [destruct H as [H|[H|H]]; discriminate | auto | reflexivity].
  - rewrite Z.eqb_eq. split; [intros ->; auto | intros [H|[H|H]]; congruence].
  - destruct t; split; intros H; try discriminate; auto. destruct H as [H|[H|H]]; discriminate.
  - split; [discriminate | intros [H|[H|H]]; discriminate].
Qed.

Lemma settle_iff num f env file v : (forall z, file = Some z -> ~ blank z) -> f_need f = false \/ f_def f = None ->
  settle num f env file = Some v <-> asked num f env file v.
Proof.
  intros B ND. unfold settle. fold (in_env f env). destruct (in_env f env) as [raw|] eqn:V.
  - split; [intros H; eapply asked_env; eassumption|]. intros H. inversion H; subst; congruence.
  - destruct file as [z|].
    + destruct (is_zero (Some z)) eqn:Q; [apply is_zero_blank in Q; destruct (B z eq_refl Q)|].
      split; [intros [= ->]; apply asked_file, V|]. intros H. inversion H; subst; congruence.
    + cbn [is_zero]. destruct (f_need f) eqn:Nd.
      * destruct ND as [|D]; [discriminate|]. split; [discriminate|]. intros H. inversion H; subst; congruence.
      * assert (ZN : forall w, nothing (f_kind f) w <-> w = zero_of (f_kind f)) by (intros w; destruct (f_kind f); reflexivity).
        destruct (f_def f) as [d|] eqn:D.
        -- split; [intros [= <-]; constructor; assumption|]. intros H; inversion H; subst; congruence.
        -- split; [intros [= <-]; apply asked_nothing; try assumption; apply ZN; reflexivity|].
           intros H; inversion H; subst; try congruence. f_equal. symmetry. apply ZN. assumption.
Qed.

Lemma settle_all_nth num fs env file l : settle_all num fs env file = Some l ->
  List.length l = List.length fs /\
  forall i f, nth_error fs i = Some f -> exists v, nth_error l i = Some (f_key f, v) /\ settle num f env (file (f_key f)) = Some v.
Proof.
  revert l. induction fs as [|f r IH]; intros l; cbn [settle_all].
  - intros [= <-]. split; [reflexivity|]. intros [|i] f; discriminate.
  - destruct (settle num f env (file (f_key f))) as [v|] eqn:S1; [|discriminate].
    destruct (settle_all num r env file) as [l'|]; [|discriminate]. intros [= <-].
    destruct (IH l' eq_refl) as [L H]. split; [cbn; now rewrite L|].
    intros [|i] g; cbn [nth_error]; [intros [= <-]; eauto | apply H].
Qed.

(** No field of the servers is required and has a default, and no key or variable is there twice. *)
Definition tables_ok : bool :=
  forallb (fun fs => forallb (fun f => negb (f_need f) || match f_def f with None => true | _ => false end) fs) servers.

Lemma tables_fine fs f : In fs servers -> In f fs -> f_need f = false \/ f_def f = None.
Proof.
  intros A B. assert (T : tables_ok = true) by (vm_compute; reflexivity). unfold tables_ok in T.
  rewrite forallb_forall in T. specialize (T _ A). rewrite forallb_forall in T. specialize (T _ B).
  destruct (f_need f); [|auto]. destruct (f_def f); [discriminate|auto].
Qed.

Fixpoint nodup_str (l : list str) : bool :=
  match l with [] => true | x :: r => negb (existsb (str_eqb x) r) && nodup_str r end.

Lemma nodup_str_ok l : nodup_str l = true -> NoDup l.
Proof.
  induction l as [|x r IH]; cbn [nodup_str]; [constructor|]. rewrite andb_true_iff, negb_true_iff. intros [A B].
  constructor; [|auto]. intros I. assert (existsb (str_eqb x) r = true); [|congruence].
  apply existsb_exists. exists x. split; [exact I|]. apply str_eqb_refl.
Qed.

Lemma flag_at_nth key fs l i f b : NoDup (map f_key fs) -> map fst l = map f_key fs ->
  nth_error fs i = Some f -> f_key f = key -> nth_error l i = Some (key, VFlag b) -> flag_at key l = Some b.
Proof.
  revert fs i. induction l as [|[k v] r IH]; intros fs i D M F K H; [destruct i; discriminate|].
  destruct fs as [|g fs]; [discriminate|]. cbn [map fst] in M, D. injection M as Mk Mr.
  apply NoDup_cons_iff in D as [NI D']. cbn [flag_at]. subst key k. destruct i as [|i]; cbn [nth_error] in F, H.
  - injection F as ->. injection H as ->. rewrite str_eqb_refl. reflexivity.
  - destruct (str_eqb (f_key g) (f_key f)) eqn:E1.
    + exfalso. apply NI. apply str_eqb_eq in E1. rewrite E1. apply in_map. eapply nth_error_In, F.
    + eapply IH; try eassumption. reflexivity.
Qed.

Lemma split_commas s : commas (split_on ","%char s) s.
Proof.
  induction s as [|c s IH]; [constructor; intros []|]. cbn [split_on]. destruct (ascii_dec c ","%char) as [->|NC].
  - apply (commas_more [] _ s); [intros [] | exact IH].
  - inversion IH as [a NI E1 E2|a l s' NI C E1 E2].
    + constructor. intros [H|H]; [congruence | contradiction].
    + apply (commas_more (c :: a)); [intros [H|H]; [congruence | contradiction] | exact C].
Qed.

(** ** Block sizes *)

Lemma shard_block_up bps data : 0 < bps -> 0 < data ->
  bps <= shard_block bps data /\ (Z.rem (bps * data) packet = 0 -> shard_block bps data = bps) /\
  (Z.rem (bps * data) packet <> 0 -> exists k, k * packet = bps * data - (bps * data) mod packet + packet /\
     shard_block bps data = k * packet / data).
Proof.
  intros B D. assert (P : 0 < bps * data) by nia. unfold shard_block.
  rewrite Z.rem_mod_nonneg by (unfold packet; lia).
  assert (M := Z.mod_pos_bound (bps * data) packet ltac:(reflexivity)).
  assert (DM := Z.div_mod (bps * data) packet ltac:(discriminate)).
  set (i := (bps * data) mod packet) in *. set (q := bps * data / packet) in *.
  destruct (0 <? i) eqn:I; [apply Z.ltb_lt in I | apply Z.ltb_ge in I].
  - assert (QQ : bps * data - i + packet = (q + 1) * packet) by nia.
    rewrite Z.quot_div_nonneg by (unfold packet in *; lia). split; [|split; [lia|]].
    + rewrite QQ. apply Z.div_le_lower_bound; [lia|]. nia.
    + intros _. exists (q + 1). rewrite QQ. auto.
  - split; [lia|]. split; [reflexivity | lia].
Qed.

Lemma copy_block_ok size : 0 <= size ->
  size <= copy_block size < size + packet /\ (packet | copy_block size).
Proof.
  intros H. unfold copy_block. rewrite Z.rem_mod_nonneg by (unfold packet; lia).
  assert (M := Z.mod_pos_bound size packet ltac:(reflexivity)).
  assert (DM := Z.div_mod size packet ltac:(discriminate)).
  destruct (0 <? size mod packet) eqn:I; [apply Z.ltb_lt in I | apply Z.ltb_ge in I].
  - split; [lia|]. exists (size / packet + 1). nia.
  - split; [unfold packet in *; lia|]. exists (size / packet). nia.
Qed.

(** ** Lost shards being stored *)

Section W.
  Context {A : Type}.
  Definition w_inv (lost : list nat) (s : wstate A) : Prop :=
    Permutation (map fst (w_done s) ++ w_on s ++ w_todo s) lost /\
    (w_err s = None <-> Forall (fun x => snd x = None) (w_done s)) /\
    (forall x, w_err s = Some x -> In (Some x) (map snd (w_done s))).

  Lemma nodup_part {X} (a b c : list X) : NoDup (a ++ b ++ c) -> NoDup b.
  Proof.
    induction a as [|x a IH]; cbn [app].
    - induction b as [|y b IHb]; [constructor|]. cbn [app]. rewrite NoDup_cons_iff, in_app_iff. intros [N1 D].
      constructor; [tauto | apply IHb, D].
    - rewrite NoDup_cons_iff. intros [_ D]. apply IH, D.
  Qed.

  Lemma remove_perm i l : NoDup l -> In i l -> Permutation l (i :: remove Nat.eq_dec i l).
  Proof.
    induction 1 as [|x l NI D IH]; [intros []|]. intros [->|I]; cbn [remove].
    - destruct (Nat.eq_dec i i) as [_|C]; [|congruence]. now rewrite notin_remove.
    - destruct (Nat.eq_dec i x) as [->|_]; [contradiction|]. rewrite (IH I) at 1. apply perm_swap.
  Qed.

  Lemma w_step_inv lost async s e : NoDup lost -> w_inv lost s -> w_inv lost (w_step async s e).
  Proof.
    intros ND (P & Q & R). destruct e as [|i fault|]; cbn [w_step].
    - destruct (w_todo s) as [|i r] eqn:T; [split; [rewrite T|]; auto|]. split; cbn; [|auto].
      rewrite <- P. rewrite <- app_assoc. reflexivity.
    - destruct (existsb (Nat.eqb i) (w_on s)) eqn:X; [|split; auto].
      apply existsb_exists in X as (j & J & EJ). apply Nat.eqb_eq in EJ as <-.
      assert (NO : NoDup (w_on s)).
      { apply Permutation_sym in P. apply (Permutation_NoDup P) in ND. eapply nodup_part, ND. }
      split; [|split]; cbn.
      + rewrite map_app. cbn [map fst]. rewrite <- P. rewrite <- app_assoc. apply Permutation_app_head. cbn [app].
        rewrite (remove_perm i (w_on s) NO J) at 2. reflexivity.
      + rewrite Forall_app. destruct fault as [x|].
        * split; [discriminate|]. intros [_ F]. inversion F as [|? ? X _]. discriminate X.
        * rewrite Q. split; [intros F; split; [exact F | repeat constructor] | tauto].
      + intros x. rewrite map_app, in_app_iff. destruct fault as [y|]; [intros [= ->]; right; left; reflexivity|].
        intros H. left. apply R, H.
    - destruct (w_ret s); [split; auto|]. destruct async; [split; auto|]. destruct (w_on s) eqn:O; split; cbn; rewrite ?O; auto.
  Qed.

  Lemma w_run_inv lost async evs s : NoDup lost -> w_inv lost s -> w_inv lost (w_run async evs s).
  Proof.
    revert s. induction evs as [|e evs IH]; intros s ND I; [exact I|]. cbn. apply IH; [exact ND|]. now apply w_step_inv.
  Qed.

  Lemma w_begin_inv lost : w_inv lost (w_begin lost).
  Proof. split; [reflexivity|]. split; [split; constructor | discriminate]. Qed.
End W.
