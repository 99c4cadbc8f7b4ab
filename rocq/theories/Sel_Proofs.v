(** Lemmas about the load of data servers. *)
From Coq Require Import List Bool Arith NArith ZArith Ascii Lia Permutation.
From Verif Require Import Str_Model Str_Proofs Util_Model Util_Proofs Api_Model Api_Proofs Panic_Model Panic_Proofs Sel_Model Sel_Spec.
Import ListNotations.
Local Open Scope list_scope.
Local Notation length := List.length.

(** ** The choice *)
Definition top (k : kind) : Z := match k with SpaceFirst => int64_max | IoFirst => (2 ^ 31 - 1)%Z end.
Definition rank (k : kind) (m : str -> option Z) (ip : str) : Z := match m ip with Some v => v | None => top k end.
Definition bounded (k : kind) (m : str -> option Z) : Prop := forall ip v, m ip = Some v -> (v <= top k)%Z.
Definition less (k : kind) (m : str -> option Z) : str -> str -> bool :=
  match k with SpaceFirst => less_used m | IoFirst => less_io m end.

Lemma less_rank : forall k m a b, bounded k m -> (less k m a b = false <-> (rank k m a <= rank k m b)%Z).
Proof.
  intros k m a b B. unfold rank.
  assert (E : less k m a b = match m b with None => false | Some v => (v <? match m a with Some w => w | None => top k end)%Z end)
    by (destruct k; reflexivity).
  rewrite E. destruct (m b) as [v|] eqn:Eb.
  - rewrite Z.ltb_ge. reflexivity.
  - destruct (m a) as [w|] eqn:Ea; (split; intros _; [|reflexivity]); [exact (B a w Ea)|lia].
Qed.

Lemma less_true : forall k m a b, bounded k m -> less k m a b = true -> (rank k m b < rank k m a)%Z.
Proof.
  intros k m a b B H. destruct (Z.lt_ge_cases (rank k m b) (rank k m a)) as [L|L]; [exact L|].
  apply (less_rank k m a b B) in L. rewrite L in H. discriminate H.
Qed.

Lemma pop_index_at : forall (idx : nat) (ds rest : list str) ip, pop_index idx ds = Some (rest, ip) -> nth_error ds idx = Some ip.
Proof.
  intros idx ds rest ip H. unfold pop_index in H. destruct (nth_error ds idx) as [r|]; [|discriminate H].
  destruct ds; [discriminate H|]. injection H as _ ->. reflexivity.
Qed.

Lemma pop_least : forall k m ds, bounded k m -> ds <> [] ->
  exists rest ip, pop (strategy_of k m) ds = Some (rest, ip) /\ Permutation ds (ip :: rest) /\
    forall x, In x ds -> (rank k m ip <= rank k m x)%Z.
Proof.
  intros k m ds B Hne.
  destruct (pop_perm _ (strategy_of k m) ds Hne) as (rest & ip & E & P).
  exists rest, ip. repeat split; [exact E|exact P|].
  assert (E' : pop_index (extremal_index (less k m) ds) ds = Some (rest, ip)) by (destruct k; exact E).
  apply pop_index_at in E'.
  destruct (extremal_index_spec _ (less k m) ds) as (e & He & Hall).
  - intros a b c H1 H2. apply (less_rank k m _ _ B) in H1. apply (less_rank k m _ _ B) in H2.
    apply (less_rank k m _ _ B). lia.
  - intros a b H. apply (less_true k m _ _ B) in H. apply (less_rank k m _ _ B). lia.
  - intros a. apply (less_rank k m _ _ B). lia.
  - exact Hne.
  - rewrite E' in He. injection He as <-. intros x Hx. apply (less_rank k m _ _ B), Hall, Hx.
Qed.

Lemma loop_least : forall k m n ds used, bounded k m -> (n <= length ds)%nat ->
  exists l rest, select_loop (repeat (strategy_of k m) n) (ds, used) = Some l /\ length l = n /\
    Permutation ds (l ++ rest) /\ forall x y, In x l -> In y rest -> (rank k m x <= rank k m y)%Z.
Proof.
  intros k m n. induction n as [|n IH]; intros ds used B Hn.
  - exists [], ds. repeat split; [reflexivity|]. intros x y [].
  - assert (Hne : ds <> []) by (destruct ds; [cbn in Hn; lia|discriminate]).
    destruct (pop_least k m ds B Hne) as (rest & ip & E & P & L).
    assert (Hl : length ds = S (length rest)) by (rewrite (Permutation_length P); reflexivity).
    destruct (IH rest (used ++ [ip]) B) as (l & r & E2 & Hlen & P2 & L2); [lia|].
    exists (ip :: l), r. repeat split.
    + cbn [repeat select_loop]. unfold ip_select. destruct ds as [|d ds']; [congruence|].
      rewrite E. rewrite E2. reflexivity.
    + cbn. rewrite Hlen. reflexivity.
    + rewrite P. cbn. constructor. exact P2.
    + intros x y [<-|Hx] Hy; [|exact (L2 x y Hx Hy)].
      apply L. apply (Permutation_in _ (Permutation_sym P)). right.
      apply (Permutation_in _ (Permutation_sym P2)). apply in_or_app. right. exact Hy.
Qed.

Lemma servers_least : forall k m n ds, bounded k m -> (n <= length ds)%nat ->
  exists l rest, select_servers (repeat (strategy_of k m) n) ds = Some l /\ length l = n /\
    Permutation ds (l ++ rest) /\ forall x y, In x l -> In y rest -> (rank k m x <= rank k m y)%Z.
Proof.
  intros k m n ds B Hn. destruct ds as [|d ds].
  - assert (n = 0%nat) as -> by (cbn in Hn; lia). exists [], []. repeat split; [reflexivity|]. intros x y [].
  - cbn [select_servers]. apply loop_least; assumption.
Qed.

(** ** The map *)
Lemma to_int64_le : forall s, (to_int64 s <= int64_max)%Z.
Proof.
  intros s. unfold to_int64. destruct s as [|c s]; [unfold int64_max; lia|].
  match goal with |- (match ?v with Some _ => _ | None => _ end <= _)%Z => destruct v as [z|] end.
  - assert (int64_min <= int64_max)%Z by (unfold int64_min, int64_max; lia). lia.
  - unfold int64_max. lia.
Qed.

Lemma to_int32_range : forall s, (- 2 ^ 31 <= to_int32 s <= 2 ^ 31 - 1)%Z.
Proof. intros s. unfold to_int32. assert (H := Z.mod_pos_bound (to_int64 s + 2 ^ 31) (2 ^ 32)). lia. Qed.

Lemma to_int32_small : forall n, (n < 2 ^ 31)%N -> to_int32 (print_N n) = Z.of_N n.
Proof.
  intros n H. assert (E : to_int64 (print_N n) = Z.of_N n).
  { change (print_N n) with (print_N n).
    assert (P : print_Z (Z.of_N n) = print_N n) by (destruct n; reflexivity).
    rewrite <- P. apply to_int64_print. unfold int64_max. lia. }
  unfold to_int32. rewrite E. rewrite Z.mod_small; lia.
Qed.

Lemma to_int32_wraps : forall n, (2 ^ 31 <= n < 2 ^ 32)%N -> (to_int32 (print_N n) < 0)%Z.
Proof.
  intros n H. assert (E : to_int64 (print_N n) = Z.of_N n).
  { assert (P : print_Z (Z.of_N n) = print_N n) by (destruct n; reflexivity).
    rewrite <- P. apply to_int64_print. unfold int64_max. lia. }
  unfold to_int32. rewrite E.
  replace (Z.of_N n + 2 ^ 31)%Z with (Z.of_N n - 2 ^ 31 + 1 * 2 ^ 32)%Z by lia.
  rewrite Z.mod_add by lia. rewrite Z.mod_small; lia.
Qed.

Lemma read_le : forall k t, (read_stat k t <= top k)%Z.
Proof.
  intros k t. destruct k; cbn [read_stat top]; [apply to_int64_le|].
  apply to_int32_range.
Qed.

Lemma fetch_out : forall k answer ds m ip, ~ In ip ds -> fetch k answer ds m ip = m ip.
Proof.
  intros k answer ds. unfold fetch. induction ds as [|d ds IH]; intros m ip H; [reflexivity|].
  cbn [fold_left]. rewrite IH by (intros X; apply H; right; exact X).
  unfold set_known. destruct (str_eqb ip d) eqn:E; [|reflexivity].
  apply str_eqb_eq in E. subst. exfalso. apply H. left. reflexivity.
Qed.

Lemma fetch_in : forall k answer ds m ip, In ip ds -> fetch k answer ds m ip = option_map (read_stat k) (answer ip).
Proof.
  intros k answer ds. induction ds as [|d ds IH]; intros m ip H; [destruct H|].
  unfold fetch in *. cbn [fold_left].
  destruct (in_dec (list_eq_dec ascii_dec) ip ds) as [I|I]; [apply IH, I|].
  destruct H as [->|H]; [|contradiction].
  fold (fetch k answer ds (set_known m ip (option_map (read_stat k) (answer ip)))).
  rewrite fetch_out by exact I. unfold set_known. rewrite str_eqb_refl. reflexivity.
Qed.

Lemma fetch_bounded : forall k answer ds m, bounded k m -> bounded k (fetch k answer ds m).
Proof.
  intros k answer ds m B ip v H.
  destruct (in_dec (list_eq_dec ascii_dec) ip ds) as [I|I].
  - rewrite (fetch_in k answer ds m ip I) in H. destruct (answer ip) as [t|]; [|discriminate H].
    cbn in H. injection H as <-. apply read_le.
  - rewrite (fetch_out k answer ds m ip I) in H. exact (B ip v H).
Qed.

Lemma refresh_bounded : forall k busy answer now ds kn, bounded k (kn_map kn) -> bounded k (kn_map (refresh k busy answer now ds kn)).
Proof.
  intros k busy answer now ds kn B. unfold refresh. destruct (_ <? _)%Z; [|exact B].
  destruct busy; [exact B|]. apply fetch_bounded, B.
Qed.

Lemma knows_bounded : forall k h, bounded k (kn_map (knows k h)).
Proof.
  intros k h. unfold knows.
  assert (G : forall kn, bounded k (kn_map kn) -> bounded k (kn_map (fold_left
     (fun kn (r : bool * (str -> option told_stat) * Z * list str) => match r with (busy, answer, now, ds) => refresh k busy answer now ds kn end) h kn))).
  { induction h as [|[[[b a] t] ds] h IH]; intros kn B; [exact B|]. apply IH. apply refresh_bounded, B. }
  apply G. intros ip v H. discriminate H.
Qed.

(** ** The numbers *)
Lemma w64_small : forall n, (n < 2 ^ 64)%N -> w64 n = n.
Proof. intros n H. unfold w64. apply N.mod_small, H. Qed.

Lemma sub64_le : forall a b, (b <= a)%N -> (a < 2 ^ 64)%N -> sub64 a b = (a - b)%N.
Proof.
  intros a b H L. unfold sub64. rewrite (w64_small b) by lia. unfold w64.
  replace (a + (2 ^ 64 - b))%N with ((a - b) + 1 * 2 ^ 64)%N by lia.
  rewrite N.mod_add by lia. apply N.mod_small. lia.
Qed.

Lemma sums_left : forall (f : iostat -> N) l a, (forall x s, f (add_stat x s) = w64 (f x + f s)) ->
  (f a + total_of f l < 2 ^ 64)%N -> f (fold_left add_stat l a) = (f a + total_of f l)%N.
Proof.
  intros f l. induction l as [|s l IH]; intros a Hf H; cbn [fold_left].
  - unfold total_of. cbn. lia.
  - change (total_of f (s :: l)) with (f s + total_of f l)%N in *.
    rewrite IH; [|exact Hf|].
    + rewrite Hf, w64_small by lia. lia.
    + rewrite Hf, w64_small by lia. lia.
Qed.

Lemma times_zero : forall l a, io_rtime a = 0%N -> io_wtime a = 0%N ->
  io_rtime (fold_left add_stat l a) = 0%N /\ io_wtime (fold_left add_stat l a) = 0%N.
Proof.
  induction l as [|s l IH]; intros a H1 H2; [split; assumption|]. cbn [fold_left].
  apply IH; cbn [add_stat io_rtime io_wtime]; [|exact H2]. rewrite H1. reflexivity.
Qed.
