(** Proofs about a data server's drives. *)
From Verif Require Import Str_Model Drive_Model Drive_Spec.
From stdpp Require Import gmap sorting.
Local Open Scope list_scope.
Local Open Scope N_scope.

(** ** The list *)

Lemma permitted_allowed : forall inc exc mp, permitted inc exc mp = true <-> allowed inc exc mp.
Proof.
  intros inc exc mp. unfold permitted, allowed. destruct inc as [|i inc].
  - rewrite negb_true_iff, bool_decide_eq_false. split; [intros H; split; [by intros []|done]|intros [_ H]; by apply H].
  - rewrite bool_decide_eq_true. split; [intros H; split; [done|by intros ?]|intros [H _]; by apply H].
Qed.

Lemma list_drives_iff : forall inc exc stat mps d,
  d ∈ list_drives inc exc stat mps <->
  d_mp d ∈ mps /\ allowed inc exc (d_mp d) /\ stat (d_mp d) = Some (d_free d, d_total d).
Proof.
  intros inc exc stat mps d. induction mps as [|mp mps IH]; cbn [list_drives].
  - split; [intros H; by apply elem_of_nil in H|intros [H _]; by apply elem_of_nil in H].
  - assert (d ∈ list_drives inc exc stat mps -> d_mp d ∈ mp :: mps /\ allowed inc exc (d_mp d) /\
      stat (d_mp d) = Some (d_free d, d_total d)) as R.
    { intros H. apply IH in H as (H1 & H2). split; [by right|done]. }
    assert (d_mp d <> mp -> d_mp d ∈ mp :: mps /\ allowed inc exc (d_mp d) /\
      stat (d_mp d) = Some (d_free d, d_total d) -> d ∈ list_drives inc exc stat mps) as L.
    { intros N (H1 & H2). apply IH. apply elem_of_cons in H1 as [H1|H1]; [done|]. done. }
    destruct (permitted inc exc mp) eqn:P.
    + destruct (stat mp) as [[f t]|] eqn:S.
      * rewrite elem_of_cons. split.
        -- intros [->|H]; [|by apply R]. cbn. split; [by left|]. split; [by apply permitted_allowed|done].
        -- intros H. destruct (decide (d_mp d = mp)) as [E|E]; [|right; by apply L].
           left. destruct H as (_ & _ & H). rewrite E, S in H. injection H as -> ->. subst mp. by destruct d.
      * split; [exact R|]. intros H. apply L; [|done]. intros <-. destruct H as (_ & _ & H). congruence.
    + split; [exact R|]. intros H. apply L; [|done]. intros <-. destruct H as (_ & H & _).
      apply permitted_allowed in H. congruence.
Qed.

(** ** Sorting *)

Lemma insert_perm : forall x l, insert_drive x l ≡ₚ x :: l.
Proof.
  intros x l. induction l as [|y l IH]; cbn; [done|]. destruct (_ <? _); [done|]. rewrite IH. constructor.
Qed.

Lemma sort_perm_acc : forall l acc, fold_left (fun acc x => insert_drive x acc) l acc ≡ₚ l ++ acc.
Proof.
  induction l as [|x l IH]; intros acc; cbn; [done|]. rewrite IH, insert_perm. by rewrite Permutation_middle.
Qed.

Lemma sort_perm : forall l, sort_drives l ≡ₚ l.
Proof. intros l. unfold sort_drives. rewrite sort_perm_acc. by rewrite app_nil_r. Qed.

Definition by_free (a b : driver) : Prop := d_free a <= d_free b.

Lemma insert_sorted : forall x l, StronglySorted by_free l -> StronglySorted by_free (insert_drive x l).
Proof.
  intros x l H. induction H as [|y l H IH F]; cbn; [repeat constructor|].
  destruct (N.ltb_spec (d_free x) (d_free y)) as [L|L].
  - constructor; [by constructor|]. constructor; [unfold by_free; lia|].
    eapply List.Forall_impl; [|exact F]. intros a. unfold by_free. lia.
  - constructor; [done|]. rewrite Forall_forall. intros a A. rewrite insert_perm in A.
    apply elem_of_cons in A as [->|A]; [done|]. rewrite Forall_forall in F. by apply F.
Qed.

Lemma sort_sorted : forall l, StronglySorted by_free (sort_drives l).
Proof.
  intros l. unfold sort_drives. assert (StronglySorted by_free []) as S by constructor. revert S. generalize (@nil driver).
  induction l as [|x l IH]; intros acc S; cbn; [done|]. apply IH. by apply insert_sorted.
Qed.

Lemma last_most : forall l d, StronglySorted by_free l -> last l = Some d -> forall d', d' ∈ l -> d_free d' <= d_free d.
Proof.
  intros l d H. induction H as [|y l H IH F]; [done|]. intros L d' M.
  destruct l as [|z l].
  - cbn in L. injection L as ->. apply elem_of_list_singleton in M as ->. lia.
  - change (last (z :: l) = Some d) in L. apply elem_of_cons in M as [->|M]; [|by apply IH].
    rewrite Forall_forall in F. etransitivity; [apply (F z); by left|]. apply IH; [done|by left].
Qed.

Lemma select_first_most : forall l d l', select_first l = (Some d, l') -> most_space l d /\ l' ≡ₚ l.
Proof.
  intros l d l'. unfold select_first. destruct l as [|x l]; [done|]. intros [= L <-]. split; [|apply sort_perm].
  split.
  - rewrite <- sort_perm. by apply last_Some_elem_of.
  - intros d' M. rewrite <- sort_perm in M. by eapply last_most; [apply sort_sorted|..].
Qed.

Lemma select_first_some : forall l, l <> [] -> exists d l', select_first l = (Some d, l').
Proof.
  intros [|x l] N; [done|]. unfold select_first. destruct (last (sort_drives (x :: l))) as [d|] eqn:E; [eauto|].
  apply last_None in E. pose proof (sort_perm (x :: l)) as P. rewrite E in P. by apply Permutation_nil in P.
Qed.

(** ** At the same time *)

Definition held (t : thread) : list driver :=
  match t with
  | TLoad2 _ _ a => [a]
  | TStore1 _ _ a b => [a; b]
  | TStore2 _ _ b => [b]
  | TDone (Some d) => [d]
  | _ => []
  end.

(** Whatever is in the array or in a request's hands is one of the drives. *)
Definition genuine (l : list driver) (s : list driver * list thread) : Prop :=
  (forall d, d ∈ fst s -> d ∈ l) /\ (forall t d, t ∈ snd s -> d ∈ held t -> d ∈ l).

Lemma insert_elem : forall (arr : list driver) j a d, d ∈ <[j := a]> arr -> d = a \/ d ∈ arr.
Proof.
  intros arr j a d H. apply elem_of_list_lookup in H as [i H]. destruct (decide (i = j)) as [->|N].
  - destruct (decide (j < length arr)%nat) as [L|L].
    + rewrite list_lookup_insert in H by done. injection H as ->. by left.
    + rewrite list_insert_ge in H by lia. right. by eapply elem_of_list_lookup_2.
  - rewrite list_lookup_insert_ne in H by done. right. by eapply elem_of_list_lookup_2.
Qed.

Ltac gen_tac := split; [done|intros ? X; cbn in X; set_solver].

Lemma tstep_genuine : forall (l arr : list driver) t, (forall d, d ∈ arr -> d ∈ l) -> (forall d, d ∈ held t -> d ∈ l) ->
  (forall d, d ∈ fst (tstep arr t) -> d ∈ l) /\ (forall d, d ∈ held (snd (tstep arr t)) -> d ∈ l).
Proof.
  intros l arr t A T. destruct t as [i j|i j|i j a|i j a b|i j b| |o]; cbn [tstep].
  - destruct (_ <=? _)%nat; [gen_tac|]. destruct j as [|j]; [gen_tac|].
    destruct (arr !! S j); [|gen_tac]. destruct (arr !! j); [|gen_tac]. destruct (_ <? _); gen_tac.
  - destruct (arr !! pred j) as [a|] eqn:E; [|gen_tac]. split; [done|]. cbn. intros d D.
    apply elem_of_list_singleton in D as ->. apply A. by eapply elem_of_list_lookup_2.
  - destruct (arr !! j) as [b|] eqn:E; [|gen_tac]. split; [done|]. cbn. intros d D.
    apply elem_of_cons in D as [->|D]; [apply T; by left|]. apply elem_of_list_singleton in D as ->.
    apply A. by eapply elem_of_list_lookup_2.
  - cbn. split.
    + intros d D. apply insert_elem in D as [->|D]; [apply T; by left|by apply A].
    + intros d D. apply elem_of_list_singleton in D as ->. apply T. right. by left.
  - cbn. split.
    + intros d D. apply insert_elem in D as [->|D]; [apply T; by left|by apply A].
    + intros d D. by apply elem_of_nil in D.
  - cbn. split; [done|]. intros d D. destruct (last arr) as [x|] eqn:E; [|by apply elem_of_nil in D].
    apply elem_of_list_singleton in D as ->. apply A. by apply last_Some_elem_of.
  - split; [done|exact T].
Qed.

Lemma mstep_genuine : forall l s k, genuine l s -> genuine l (mstep s k).
Proof.
  intros l [arr ts] k [A T]. unfold mstep. destruct (ts !! k) as [t|] eqn:E; [|done]. cbn in A, T.
  assert (forall d, d ∈ held t -> d ∈ l) as H.
  { intros d. apply T. by eapply elem_of_list_lookup_2. }
  destruct (tstep_genuine l arr t A H) as [H1 H2]. destruct (tstep arr t) as [arr' t']. split; [done|].
  cbn in *. intros u d U D. apply elem_of_list_lookup in U as [i U]. destruct (decide (i = k)) as [->|N].
  - rewrite list_lookup_insert in U by (by eapply lookup_lt_Some). injection U as <-. by apply H2.
  - rewrite list_lookup_insert_ne in U by done. eapply T; [by eapply elem_of_list_lookup_2|done].
Qed.

Lemma mrun_genuine : forall l ks s, genuine l s -> genuine l (mrun ks s).
Proof. intros l ks. induction ks as [|k ks IH]; intros s G; [done|]. cbn. apply IH. by apply mstep_genuine. Qed.

Lemma start_genuine : forall (l : list driver) n, genuine l (l, replicate n tstart).
Proof.
  intros l n. split; [done|]. cbn. intros t d T D. apply elem_of_replicate in T as [-> _]. by apply elem_of_nil in D.
Qed.

(** ** The weighted balancer *)

Lemma extremal_elem : forall {A} (f : A -> A -> bool) l x, extremal f x l ∈ x :: l.
Proof.
  intros A f l. unfold extremal. induction l as [|y l IH]; intros x; [by left|]. cbn.
  destruct (f x y).
  - right. apply IH.
  - specialize (IH x). apply elem_of_cons in IH as [IH|IH]; [rewrite IH; by left|right; right; exact IH].
Qed.

Lemma extremal_ge : forall {A} (v : A -> N) l x y, y ∈ x :: l ->
  v y <= v (extremal (fun ex cur => v ex <? v cur) x l).
Proof.
  intros A v l. unfold extremal. induction l as [|z l IH]; intros x y H.
  - apply elem_of_list_singleton in H as ->. cbn. lia.
  - cbn. apply elem_of_cons in H as [->|H].
    + destruct (N.ltb_spec (v x) (v z)); [|apply IH; by left].
      etransitivity; [|apply IH; by left]. lia.
    + destruct (N.ltb_spec (v x) (v z)); [by apply IH|].
      apply elem_of_cons in H as [->|H]; [|apply IH; by right].
      etransitivity; [|apply IH; by left]. lia.
Qed.

Definition within (w : weights) (l : list driver) : Prop := forall d, d ∈ l -> w (d_mp d) <= d_free d.

Lemma remaining_within : forall w d, d_free d < two64 -> w (d_mp d) <= d_free d -> remaining w d = d_free d - w (d_mp d).
Proof.
  intros w d F H. unfold remaining. rewrite (N.mod_small (w (d_mp d))) by lia.
  assert (d_free d + two64 - w (d_mp d) = d_free d - w (d_mp d) + 1 * two64) as -> by lia.
  rewrite N.mod_add by done. apply N.mod_small. lia.
Qed.

Lemma select_weighted_within : forall f w l d w', 2 <= f -> f < two64 -> sensible l -> (forall d, d ∈ l -> d_free d + f < two64) ->
  within w l -> select_weighted f w l = Some (d, w') -> most_unspoken w l d /\ within w' l.
Proof.
  intros f w l d w' F1 F2 [S1 S2] B W. unfold select_weighted. destruct l as [|x l]; [done|]. set (l0 := x :: l) in *.
  set (p := extremal _ x l0). assert (p ∈ l0) as P.
  { pose proof (extremal_elem (fun ex cur => remaining w ex <? remaining w cur) l0 x) as H. fold p in H.
    apply elem_of_cons in H as [->|H]; [by left|done]. }
  assert (forall y, y ∈ l0 -> remaining w y <= remaining w p) as M.
  { intros y Y. apply (extremal_ge (remaining w) l0 x y). by right. }
  clearbody p. intros [= <- <-]. split.
  - split; [done|]. intros y Y. specialize (M y Y). rewrite !remaining_within in M by (try apply S1; try apply W; done).
    pose proof (W y Y). pose proof (W p P). unfold unspoken. lia.
  - intros y Y. cbn. destruct (bool_decide (d_mp y = d_mp p)) eqn:E; [|by apply W].
    apply bool_decide_eq_true in E. apply (S2 y p Y P) in E as ->.
    pose proof (W p P). pose proof (S1 p P). pose proof (B p P). rewrite N.mod_small by lia.
    destruct (N.ltb_spec (d_free p) (w (d_mp p) + f)) as [L|L]; [|done].
    transitivity ((d_free p + f) / f).
    + apply N.div_le_mono; lia.
    + replace (d_free p + f) with (d_free p + 1 * f) by lia. rewrite N.div_add by lia.
      assert (d_free p / f <= d_free p / 2) by (apply N.div_le_compat_l; lia).
      assert (d_free p / 2 < d_free p) by (apply N.div_lt; lia). lia.
Qed.

Lemma each_most_steady : forall f l n w, 2 <= f -> f < two64 -> sensible l -> (forall d, d ∈ l -> d_free d + f < two64) ->
  within w l -> each_most f w (replicate n l).
Proof.
  intros f l n. induction n as [|n IH]; intros w F1 F2 S B W; [done|]. cbn.
  destruct (select_weighted f w l) as [[d w']|] eqn:E; [|by apply IH].
  destruct (select_weighted_within f w l d w' F1 F2 S B W E) as [H1 H2]. split; [done|]. by apply IH.
Qed.

(** A full drive spoken for is taken again and again. *)
Lemma full_forever : forall f full free n, 2 <= f -> f + 1 < two64 -> d_free full = 0 -> d_free free + 1 < two64 ->
  d_mp full <> d_mp free ->
  forall w, w (d_mp full) = 1 -> w (d_mp free) = 0 ->
  fst (selections f w (replicate n [full; free])) = replicate n full.
Proof.
  intros f full free n F1 F2 E0 E1 N. induction n as [|n IH]; intros w W1 W2; [done|]. cbn [replicate selections].
  assert (select_weighted f w [full; free] =
    Some (full, fun mp => if bool_decide (mp = d_mp full) then 1 else w mp)) as ->.
  { unfold select_weighted, extremal. cbn [fold_left]. rewrite N.ltb_irrefl.
    assert (remaining w full = two64 - 1) as R1.
    { unfold remaining. rewrite E0, W1. rewrite (N.mod_small 1) by done. apply N.mod_small. lia. }
    assert (remaining w free = d_free free) as R2 by (rewrite remaining_within; rewrite ?W2; lia).
    assert (remaining w full <? remaining w free = false) as -> by (apply N.ltb_ge; lia).
    rewrite W1, E0. rewrite N.mod_small by lia. assert (0 <? 1 + f = true) as -> by (apply N.ltb_lt; lia).
    assert ((1 + f) / f = 1) as ->; [|done].
    replace (1 + f) with (1 + 1 * f) by lia. rewrite N.div_add by lia. rewrite N.div_small by lia. done. }
  set (w' := fun mp => _). destruct (selections f w' (replicate n [full; free])) as [ds w''] eqn:S.
  cbn. f_equal. specialize (IH w'). rewrite S in IH. cbn in IH. apply IH.
  - unfold w'. by rewrite bool_decide_eq_true_2.
  - unfold w'. by rewrite bool_decide_eq_false_2.
Qed.

(** ** Finding a file *)

Lemma find_path_iff : forall stat l path p, (forall d, d ∈ l -> stat (d_mp d ++ path) <> SError) ->
  find_path stat l path = Some p -> stat p = SThere /\ exists d, d ∈ l /\ p = d_mp d ++ path.
Proof.
  intros stat l path p E. induction l as [|d l IH]; [done|]. cbn.
  destruct (stat (d_mp d ++ path)) eqn:S.
  - intros [= <-]. split; [done|]. exists d. split; [by left|done].
  - intros H. destruct IH as (H1 & d' & H2 & H3); [intros d' D; apply E; by right|done|].
    split; [done|]. exists d'. split; [by right|done].
  - exfalso. apply (E d); [by left|done].
Qed.

Lemma find_path_complete : forall stat l path d, d ∈ l -> stat (d_mp d ++ path) = SThere ->
  exists p, find_path stat l path = Some p.
Proof.
  intros stat l path d. induction l as [|x l IH]; intros D S; [by apply elem_of_nil in D|]. cbn.
  apply elem_of_cons in D as [->|D].
  - rewrite S. eauto.
  - destruct (stat (d_mp x ++ path)); eauto.
Qed.

(** ** One request alone *)

Lemma mrun_app : forall a b s, mrun (a ++ b) s = mrun b (mrun a s).
Proof. intros a b s. unfold mrun. apply fold_left_app. Qed.

Lemma alone_step : forall n arr t arr' t', tstep arr t = (arr', t') ->
  mrun (replicate (S n) 0%nat) (arr, [t]) = mrun (replicate n 0%nat) (arr', [t']).
Proof. intros n arr t arr' t' E. cbn. by rewrite E. Qed.

Lemma insert_front : forall x l, Forall (fun y => d_free x < d_free y) l -> insert_drive x l = x :: l.
Proof. intros x [|y l] H; [done|]. apply Forall_cons in H as [H _]. cbn. by apply N.ltb_lt in H as ->. Qed.

Lemma insert_behind : forall x p q, Forall (fun y => d_free y <= d_free x) p ->
  insert_drive x (p ++ q) = p ++ insert_drive x q.
Proof.
  intros x p q H. induction p as [|y p IH]; [done|]. apply Forall_cons in H as [H1 H2]. cbn.
  apply N.ltb_ge in H1 as ->. by rewrite IH.
Qed.

Lemma sorted_before : forall p y q, StronglySorted by_free (p ++ y :: q) -> Forall (fun z => d_free z <= d_free y) p.
Proof.
  intros p y q. induction p as [|z p IH]; intros S; [constructor|]. cbn in S. apply StronglySorted_inv in S as [S F].
  constructor; [|by apply IH]. rewrite Forall_forall in F. apply F. apply elem_of_app. right. by left.
Qed.

Lemma alone_insert : forall x R P Q, StronglySorted by_free (P ++ Q) -> Forall (fun y => d_free x < d_free y) Q ->
  exists n, mrun (replicate n 0%nat) (P ++ x :: Q ++ R, [TTest (length (P ++ Q)) (length P)]) =
            (insert_drive x (P ++ Q) ++ R, [TTest (S (length (P ++ Q))) (S (length (P ++ Q)))]).
Proof.
  intros x R P. induction P as [|y P IH] using rev_ind; intros Q S F.
  - exists 1%nat. rewrite (alone_step 0 _ _ (x :: Q ++ R) (TTest (Datatypes.S (length Q)) (Datatypes.S (length Q)))).
    + cbn. by rewrite insert_front.
    + assert (length (x :: Q ++ R) <=? length Q = false)%nat as LE.
      { apply Nat.leb_gt. cbn. rewrite app_length. lia. }
      cbn [tstep app length]. cbn [length] in LE. by rewrite LE.
  - set (i := length ((P ++ [y]) ++ Q)) in *.
    assert (length ((P ++ [y]) ++ x :: Q ++ R) <=? i = false)%nat as LE.
    { apply Nat.leb_gt. unfold i. rewrite !app_length. cbn. rewrite app_length. lia. }
    assert (length (P ++ [y]) = Datatypes.S (length P)) as J by (rewrite app_length; cbn; lia).
    assert (((P ++ [y]) ++ x :: Q ++ R) !! Datatypes.S (length P) = Some x) as LX.
    { rewrite <- J. by apply list_lookup_middle. }
    assert (((P ++ [y]) ++ x :: Q ++ R) !! length P = Some y) as LY.
    { rewrite <- app_assoc. by apply list_lookup_middle. }
    rewrite J. destruct (N.ltb_spec (d_free x) (d_free y)) as [L|L].
    + destruct (IH (y :: Q)) as [n H].
      { by rewrite <- app_assoc in S. }
      { by constructor. }
      exists (5 + n)%nat. cbn [Nat.add].
      erewrite alone_step.
      2:{ cbn [tstep]. rewrite LE, LX, LY. apply N.ltb_lt in L as ->. reflexivity. }
      erewrite alone_step.
      2:{ cbn [tstep pred]. rewrite LY. reflexivity. }
      erewrite alone_step.
      2:{ cbn [tstep]. rewrite LX. reflexivity. }
      erewrite alone_step by reflexivity. erewrite alone_step by reflexivity.
      cbn [pred].
      assert (<[length P := x]> (<[Datatypes.S (length P) := y]> ((P ++ [y]) ++ x :: Q ++ R)) = P ++ x :: (y :: Q) ++ R) as ->.
      { rewrite <- J. replace (length (P ++ [y])) with (length (P ++ [y]) + 0)%nat by lia.
        rewrite insert_app_r. cbn. rewrite <- app_assoc. replace (length P) with (length P + 0)%nat by lia.
        rewrite insert_app_r. done. }
      replace i with (length (P ++ y :: Q)) by (unfold i; by rewrite <- app_assoc).
      rewrite H. by rewrite <- app_assoc.
    + exists 1%nat. erewrite alone_step.
      2:{ cbn [tstep]. rewrite LE, LX, LY. apply N.ltb_ge in L as ->. reflexivity. }
      cbn [replicate]. unfold mrun. cbn [fold_left]. f_equal.
      rewrite insert_behind.
      * rewrite insert_front by done. by rewrite <- !app_assoc.
      * apply Forall_app. split; [|by constructor]. rewrite <- app_assoc in S. apply sorted_before in S.
        eapply List.Forall_impl; [|exact S]. cbn. intros a. lia.
Qed.

Lemma alone_sort : forall R acc, StronglySorted by_free acc ->
  exists n, mrun (replicate n 0%nat) (acc ++ R, [TTest (length acc) (length acc)]) =
            (fold_left (fun acc x => insert_drive x acc) R acc, [TPick]).
Proof.
  induction R as [|x R IH]; intros acc S.
  - exists 1%nat. erewrite alone_step.
    2:{ cbn [tstep]. rewrite app_nil_r, Nat.leb_refl. reflexivity. }
    done.
  - destruct (alone_insert x R acc []) as [n H].
    { by rewrite app_nil_r. }
    { constructor. }
    rewrite !app_nil_r in H. destruct (IH (insert_drive x acc)) as [m M].
    { by apply insert_sorted. }
    exists (n + m)%nat. rewrite replicate_add, mrun_app. cbn [app] in H. rewrite H. cbn [fold_left].
    rewrite <- M. assert (length (insert_drive x acc) = Datatypes.S (length acc)) as ->; [|done].
    by rewrite (Permutation_length (insert_perm x acc)).
Qed.

Lemma alone_select : forall l, exists n, mrun (replicate n 0%nat) (l, [tstart]) =
  (snd (select_first l), [TDone (fst (select_first l))]).
Proof.
  intros [|x l].
  - exists 2%nat. done.
  - destruct (alone_sort l [x]) as [n H]; [repeat constructor|]. exists (n + 1)%nat. rewrite replicate_add, mrun_app.
    cbn [app length] in H. unfold tstart. rewrite H. unfold select_first. cbn [fst snd].
    change (sort_drives (x :: l)) with (fold_left (fun acc x => insert_drive x acc) l [x]). done.
Qed.
