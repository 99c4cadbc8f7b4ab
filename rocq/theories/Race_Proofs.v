(** Lemmas about maps used by several goroutines. *)
From Coq Require Import List Bool Arith Lia.
From Verif Require Import Race_Model Race_Spec.
Import ListNotations.

(** ** Lists *)

Lemma put_at_same : forall A i (x : A) l, i < length l -> nth_error (put_at i x l) i = Some x.
Proof. intros A i x l. revert i. induction l as [|y l IH]; intros [|i] H; cbn in *; try lia; [reflexivity|]. apply IH. lia. Qed.

Lemma put_at_other : forall A i j (x : A) l, i <> j -> nth_error (put_at i x l) j = nth_error l j.
Proof. intros A i j x l. revert i j. induction l as [|y l IH]; intros [|i] [|j] H; cbn; try reflexivity; try congruence. apply IH. congruence. Qed.

Lemma nth_error_lt : forall A (l : list A) i x, nth_error l i = Some x -> i < length l.
Proof. intros A l i x H. apply nth_error_Some. congruence. Qed.

Lemma existsb_nth : forall A (f : A -> bool) l, existsb f l = true <-> exists i x, nth_error l i = Some x /\ f x = true.
Proof.
  intros A f l. rewrite existsb_exists. split.
  - intros (x & I & F). apply In_nth_error in I as [i I]. exists i, x. split; assumption.
  - intros (i & x & N & F). exists x. split; [eapply nth_error_In, N|exact F].
Qed.

(** ** One thread *)

Definition of_lock (l : nat) (hs : list (nat * bool)) : list (nat * bool) := filter (fun h => fst h =? l) hs.
Definition only (l : nat) (h : option bool) : list (nat * bool) := match h with None => [] | Some b => [(l, b)] end.

Lemma has_of_lock : forall l b t, has l b t = existsb (fun h => Bool.eqb (snd h) b) (of_lock l (t_held t)).
Proof.
  intros l b t. unfold has, of_lock. induction (t_held t) as [|[l' c] hs IH]; [reflexivity|]. cbn.
  destruct (l' =? l); cbn; rewrite IH; reflexivity.
Qed.

Lemma has_only : forall l t h b, of_lock l (t_held t) = only l h -> has l b t = match h with Some c => Bool.eqb c b | None => false end.
Proof. intros l t h b E. rewrite has_of_lock, E. destruct h; cbn; [apply orb_false_r|reflexivity]. Qed.

Lemma drop_same : forall l b hs, of_lock l hs = [(l, b)] -> of_lock l (drop_lock l b hs) = [].
Proof.
  intros l b. induction hs as [|[l' c] hs IH]; intros E; [reflexivity|]. unfold of_lock in *. cbn in *.
  destruct (l' =? l) eqn:EL; cbn in *.
  - injection E as E1 E2 E3. subst. rewrite eqb_reflx. exact E3.
  - rewrite EL. apply IH, E.
Qed.

Lemma drop_other : forall l l' b hs, l' <> l -> of_lock l (drop_lock l' b hs) = of_lock l hs.
Proof.
  intros l l' b. induction hs as [|[k c] hs IH]; intros N; [reflexivity|]. unfold of_lock in *. cbn.
  destruct ((k =? l') && Bool.eqb c b) eqn:E.
  - apply andb_true_iff in E as [E _]. apply Nat.eqb_eq in E. subst k. destruct (l' =? l) eqn:F; [|reflexivity].
    apply Nat.eqb_eq in F. contradiction.
  - cbn. rewrite IH by exact N. reflexivity.
Qed.

(** ** Use under a lock *)

Definition fits (l m : nat) (t : thread) : Prop :=
  exists h, of_lock l (t_held t) = only l h /\ disciplined l m h (t_rest t) = true /\ (t_in t = Some (m, true) -> h = Some true).

Record tidy (l m : nat) (s : machine) : Prop := {
  td_fits : forall i t, nth_error (m_threads s) i = Some t -> fits l m t;
  td_alone : forall i j t u, i <> j -> nth_error (m_threads s) i = Some t -> nth_error (m_threads s) j = Some u ->
    has l true t = true -> has_any l u = false;
  td_calm : m_fatal s <> Some m }.

Lemma has_any_only : forall l t h, of_lock l (t_held t) = only l h -> has_any l t = match h with Some _ => true | None => false end.
Proof. intros l t h E. unfold has_any. rewrite (has_only _ _ _ true E), (has_only _ _ _ false E). destruct h as [[|]|]; reflexivity. Qed.

(** Replacing a thread by one that holds no more of the lock. *)
Lemma tidy_put : forall l m s i t t' f, tidy l m s -> nth_error (m_threads s) i = Some t -> fits l m t' -> f <> Some m ->
  (has l true t' = true -> has l true t = true \/ forall u, In u (m_threads s) -> has_any l u = false) ->
  (has_any l t' = true -> has_any l t = true \/ forall u, In u (m_threads s) -> has l true u = false) ->
  tidy l m (mk_machine (put_at i t' (m_threads s)) f).
Proof.
  intros l m s i t t' f [F A C] N F' CF H1 H2. assert (i < length (m_threads s)) as L by (eapply nth_error_lt, N).
  constructor; cbn [m_threads m_fatal]; [| |exact CF].
  - intros j u Nj. destruct (Nat.eq_dec i j) as [->|D].
    + rewrite put_at_same in Nj by exact L. injection Nj as <-. exact F'.
    + rewrite put_at_other in Nj by exact D. eapply F, Nj.
  - intros a b ta tb D Na Nb T. destruct (Nat.eq_dec i a) as [<-|Da]; destruct (Nat.eq_dec i b) as [<-|Db]; try congruence.
    + rewrite put_at_same in Na by exact L. injection Na as <-. rewrite put_at_other in Nb by exact D.
      destruct (H1 T) as [O|O]; [exact (A i b t tb D N Nb O)|apply O; eapply nth_error_In, Nb].
    + rewrite put_at_same in Nb by exact L. injection Nb as <-. rewrite put_at_other in Na by exact Da.
      destruct (has_any l t') eqn:E; [|reflexivity]. destruct (H2 eq_refl) as [O|O].
      * rewrite (A a i ta t D Na N T) in O. discriminate O.
      * rewrite (O ta) in T; [discriminate T|eapply nth_error_In, Na].
    + rewrite put_at_other in Na by exact Da. rewrite put_at_other in Nb by exact Db. exact (A a b ta tb D Na Nb T).
Qed.

Lemma none_free : forall (f : thread -> bool) ts, existsb f ts = false -> forall u, In u ts -> f u = false.
Proof.
  intros f ts E u I. destruct (f u) eqn:F; [|reflexivity]. rewrite <- E. symmetry. apply existsb_exists. exists u. split; assumption.
Qed.

Lemma has_any_true : forall l t, has_any l t = false -> has l true t = false.
Proof. intros l t H. unfold has_any in H. apply orb_false_iff in H. apply H. Qed.

Lemma of_lock_cons : forall l l' b hs, l' <> l -> of_lock l ((l', b) :: hs) = of_lock l hs.
Proof. intros l l' b hs N. unfold of_lock. cbn. apply Nat.eqb_neq in N. rewrite N. reflexivity. Qed.
Lemma of_lock_own : forall l b hs, of_lock l ((l, b) :: hs) = (l, b) :: of_lock l hs.
Proof. intros. unfold of_lock. cbn. rewrite Nat.eqb_refl. reflexivity. Qed.

Lemma held_same_has : forall l b t t', of_lock l (t_held t') = of_lock l (t_held t) -> has l b t' = has l b t.
Proof. intros l b t t' E. rewrite !has_of_lock, E. reflexivity. Qed.
Lemma held_same_any : forall l t t', of_lock l (t_held t') = of_lock l (t_held t) -> has_any l t' = has_any l t.
Proof. intros l t t' E. unfold has_any. rewrite (held_same_has l true t t' E), (held_same_has l false t t' E). reflexivity. Qed.

Lemma move_tidy : forall l m s i, tidy l m s -> tidy l m (move s i).
Proof.
  intros l m s i T. unfold move. destruct (m_fatal s) eqn:MF; [exact T|]. destruct (nth_error (m_threads s) i) as [t|] eqn:N; [|exact T].
  destruct (td_fits _ _ _ T i t N) as (h & HO & HD & HI).
  (* a thread that keeps what it holds of the lock *)
  assert (forall rest held inn, of_lock l held = of_lock l (t_held t) -> disciplined l m h rest = true -> (inn = Some (m, true) -> h = Some true) ->
    tidy l m (mk_machine (put_at i (mk_thread rest held inn) (m_threads s)) None)) as KEEP.
  { intros rest held inn E D I'. eapply tidy_put with (t := t); [exact T|exact N| |discriminate| |].
    - exists h. cbn [t_held t_rest t_in]. split; [congruence|]. split; assumption.
    - intros X. left. erewrite <- held_same_has; [exact X|exact E].
    - intros X. left. erewrite <- held_same_any; [exact X|exact E]. }
  destruct (t_in t) as [a|] eqn:TI.
  - apply KEEP; [reflexivity|exact HD|discriminate].
  - destruct (t_rest t) as [|ins r] eqn:TR; [exact T|]. destruct ins as [k|k|k|k|k n|k w]; cbn [disciplined] in HD.
    + (* Lock *)
      destruct (existsb (has_any k) (m_threads s)) eqn:X; [exact T|]. destruct (k =? l) eqn:EK.
      * apply Nat.eqb_eq in EK. subst k. destruct h; [discriminate HD|].
        eapply tidy_put with (t := t); [exact T|exact N| |discriminate| |].
        -- exists (Some true). cbn [t_held t_rest t_in]. rewrite of_lock_own, HO. split; [reflexivity|]. split; [exact HD|discriminate].
        -- intros _. right. exact (none_free _ _ X).
        -- intros _. right. intros u U. apply has_any_true, (none_free _ _ X u U).
      * apply Nat.eqb_neq in EK. apply KEEP; [apply of_lock_cons, EK|exact HD|discriminate].
    + (* Unlock *)
      destruct (k =? l) eqn:EK.
      * apply Nat.eqb_eq in EK. subst k. destruct h as [[|]|]; try discriminate HD.
        assert (of_lock l (drop_lock l true (t_held t)) = []) as Z by (apply drop_same; exact HO).
        assert (forall rest inn, has_any l (mk_thread rest (drop_lock l true (t_held t)) inn) = false) as HA.
        { intros rest inn. rewrite (has_any_only l _ None); [reflexivity|exact Z]. }
        eapply tidy_put with (t := t); [exact T|exact N| |discriminate| |].
        -- exists None. cbn. split; [exact Z|]. split; [exact HD|discriminate].
        -- intros X. rewrite (has_any_true _ _ (HA _ _)) in X. discriminate X.
        -- intros X. rewrite HA in X. discriminate X.
      * apply Nat.eqb_neq in EK. apply KEEP; [apply drop_other, EK|exact HD|discriminate].
    + (* RLock *)
      destruct (existsb (has k true) (m_threads s)) eqn:X; [exact T|]. destruct (k =? l) eqn:EK.
      * apply Nat.eqb_eq in EK. subst k. destruct h; [discriminate HD|].
        assert (of_lock l ((l, false) :: t_held t) = only l (Some false)) as Z by (rewrite of_lock_own, HO; reflexivity).
        eapply tidy_put with (t := t); [exact T|exact N| |discriminate| |].
        -- exists (Some false). cbn [t_held t_rest t_in]. split; [exact Z|]. split; [exact HD|discriminate].
        -- intros Y. erewrite has_only in Y; [|exact Z]. discriminate Y.
        -- intros _. right. exact (none_free _ _ X).
      * apply Nat.eqb_neq in EK. apply KEEP; [apply of_lock_cons, EK|exact HD|discriminate].
    + (* RUnlock *)
      destruct (k =? l) eqn:EK.
      * apply Nat.eqb_eq in EK. subst k. destruct h as [[|]|]; try discriminate HD.
        assert (of_lock l (drop_lock l false (t_held t)) = []) as Z by (apply drop_same; exact HO).
        assert (forall rest inn, has_any l (mk_thread rest (drop_lock l false (t_held t)) inn) = false) as HA.
        { intros rest inn. rewrite (has_any_only l _ None); [reflexivity|exact Z]. }
        eapply tidy_put with (t := t); [exact T|exact N| |discriminate| |].
        -- exists None. cbn. split; [exact Z|]. split; [exact HD|discriminate].
        -- intros X. rewrite (has_any_true _ _ (HA _ _)) in X. discriminate X.
        -- intros X. rewrite HA in X. discriminate X.
      * apply Nat.eqb_neq in EK. apply KEEP; [apply drop_other, EK|exact HD|discriminate].
    + discriminate HD.
    + apply andb_true_iff in HD as [HM HD]. destruct (existsb (writes_now k) (m_threads s)) eqn:X.
      * (* the runtime ends the process: not for [m] *)
        constructor; cbn [m_threads m_fatal]; [apply (td_fits _ _ _ T)|apply (td_alone _ _ _ T)|].
        intros E. injection E as ->. rewrite Nat.eqb_refl in HM. apply existsb_nth in X as (j & u & Nj & W).
        destruct (td_fits _ _ _ T j u Nj) as (g & GO & _ & GI). unfold writes_now in W.
        destruct (t_in u) as [[m' [|]]|] eqn:UI; try discriminate W. apply Nat.eqb_eq in W. subst m'.
        specialize (GI eq_refl). subst g. assert (j <> i) as D by (intros ->; congruence).
        assert (has l true u = true) as HU by (erewrite has_only; [|exact GO]; reflexivity).
        pose proof (td_alone _ _ _ T j i u t D Nj N HU) as Q. erewrite has_any_only in Q; [|exact HO].
        destruct h as [b|]; [discriminate Q|discriminate HM].
      * apply KEEP; [reflexivity|exact HD|]. intros E. injection E as -> ->. rewrite Nat.eqb_refl in HM.
        destruct h as [[|]|]; [reflexivity|discriminate HM|discriminate HM].
Qed.

Lemma start_nth : forall ps i t, nth_error (m_threads (start ps)) i = Some t -> exists p, nth_error ps i = Some p /\ t = mk_thread p [] None.
Proof.
  intros ps i t H. cbn in H. rewrite nth_error_map in H. destruct (nth_error ps i) as [p|]; [|discriminate H].
  injection H as <-. exists p. split; reflexivity.
Qed.

Lemma start_tidy : forall l m ps, Forall (fun p => disciplined l m None p = true) ps -> tidy l m (start ps).
Proof.
  intros l m ps D. constructor.
  - intros i t N. apply start_nth in N as (p & N & ->). exists None. cbn. split; [reflexivity|]. split; [|discriminate].
    rewrite Forall_forall in D. apply D. eapply nth_error_In, N.
  - intros i j t u _ N _ H. apply start_nth in N as (p & _ & ->). discriminate H.
  - discriminate.
Qed.

Lemma go_tidy : forall l m sched s, tidy l m s -> tidy l m (go s sched).
Proof. intros l m. induction sched as [|i r IH]; intros s T; [exact T|]. cbn. apply IH, move_tidy, T. Qed.

Lemma locked_safe : forall l m ps, Forall (fun p => disciplined l m None p = true) ps -> safe_for m ps.
Proof. intros l m ps D sched. apply (td_calm l m), go_tidy, start_tidy, D. Qed.

(** ** One owner *)

Definition owned (m i : nat) (s : machine) : Prop :=
  (forall j t, j <> i -> nth_error (m_threads s) j = Some t -> untouched m (t_rest t) /\ forall w, t_in t <> Some (m, w)) /\ m_fatal s <> Some m.

Lemma untouched_tail : forall m ins r, untouched m (ins :: r) -> untouched m r.
Proof. intros m ins r U w I. apply (U w). right. exact I. Qed.
Lemma untouched_skip : forall m n r, untouched m r -> untouched m (skipn n r).
Proof. intros m n r U w I. apply (U w). rewrite <- (firstn_skipn n r). apply in_or_app. right. exact I. Qed.

Lemma owned_put : forall m i s j t t', owned m i s -> nth_error (m_threads s) j = Some t ->
  (j <> i -> untouched m (t_rest t') /\ forall w, t_in t' <> Some (m, w)) ->
  owned m i (mk_machine (put_at j t' (m_threads s)) None).
Proof.
  intros m i s j t t' [O C] N H. split; [|discriminate]. intros k u D Nk. cbn in Nk.
  destruct (Nat.eq_dec j k) as [->|E].
  - rewrite put_at_same in Nk by (eapply nth_error_lt, N). injection Nk as <-. apply H, D.
  - rewrite put_at_other in Nk by exact E. eapply O; [exact D|exact Nk].
Qed.

Lemma move_owned : forall m i s j, owned m i s -> owned m i (move s j).
Proof.
  intros m i s j O. unfold move. destruct (m_fatal s) eqn:MF; [exact O|]. destruct (nth_error (m_threads s) j) as [t|] eqn:N; [|exact O].
  assert (j <> i -> untouched m (t_rest t) /\ forall w, t_in t <> Some (m, w)) as OWN by (intros D; eapply (proj1 O); [exact D|exact N]).
  destruct (t_in t) as [a|] eqn:TI.
  - eapply owned_put; [exact O|exact N|]. intros D. cbn. split; [apply OWN, D|discriminate].
  - destruct (t_rest t) as [|ins r] eqn:TR; [exact O|].
    assert (forall held, owned m i (mk_machine (put_at j (mk_thread r held None) (m_threads s)) None)) as NEXT.
    { intros held. eapply owned_put; [exact O|exact N|]. intros D. cbn. split; [|discriminate].
      eapply untouched_tail. apply OWN, D. }
    destruct ins as [k|k|k|k|k n|k w].
    + destruct (existsb _ _); [exact O|apply NEXT].
    + apply NEXT.
    + destruct (existsb _ _); [exact O|apply NEXT].
    + apply NEXT.
    + destruct (existsb _ _); [|apply NEXT]. eapply owned_put; [exact O|exact N|]. intros D. cbn. split; [|discriminate].
      apply untouched_skip. eapply untouched_tail. apply OWN, D.
    + destruct (existsb (writes_now k) (m_threads s)) eqn:X.
      * split; [exact (proj1 O)|]. cbn. intros E. injection E as ->. apply existsb_nth in X as (q & u & Nq & W).
        unfold writes_now in W. destruct (t_in u) as [[m' [|]]|] eqn:UI; try discriminate W. apply Nat.eqb_eq in W. subst m'.
        destruct (Nat.eq_dec q i) as [->|D].
        -- assert (j <> i) as D by (intros ->; congruence). destruct (OWN D) as [U _]. apply (U w). left. reflexivity.
        -- destruct (proj1 O q u D Nq) as [_ U]. apply (U true), UI.
      * eapply owned_put; [exact O|exact N|]. intros D. cbn. destruct (OWN D) as [U _]. split; [eapply untouched_tail, U|].
        intros w' E. injection E as -> ->. apply (U w'). left. reflexivity.
Qed.

Lemma owner_safe : forall m i ps, (forall j p, j <> i -> nth_error ps j = Some p -> untouched m p) -> safe_for m ps.
Proof.
  intros m i ps U sched. assert (forall s, owned m i s -> owned m i (go s sched)) as G.
  { induction sched as [|k r IH]; intros s O; [exact O|]. cbn. apply IH, move_owned, O. }
  apply (G (start ps)). split; [|discriminate]. intros j t D N. apply start_nth in N as (p & N & ->). cbn.
  split; [exact (U j p D N)|discriminate].
Qed.

(** ** No writer *)

Definition unwritten (m : nat) (s : machine) : Prop :=
  (forall j t, nth_error (m_threads s) j = Some t -> writes_not m (t_rest t) /\ t_in t <> Some (m, true)) /\ m_fatal s <> Some m.

Lemma writes_not_tail : forall m ins r, writes_not m (ins :: r) -> writes_not m r.
Proof. intros m ins r U I. apply U. right. exact I. Qed.

Lemma unwritten_put : forall m s j t t', unwritten m s -> nth_error (m_threads s) j = Some t ->
  writes_not m (t_rest t') -> t_in t' <> Some (m, true) -> unwritten m (mk_machine (put_at j t' (m_threads s)) None).
Proof.
  intros m s j t t' [O C] N H1 H2. split; [|discriminate]. intros k u Nk. cbn in Nk.
  destruct (Nat.eq_dec j k) as [->|E].
  - rewrite put_at_same in Nk by (eapply nth_error_lt, N). injection Nk as <-. split; assumption.
  - rewrite put_at_other in Nk by exact E. eapply O, Nk.
Qed.

Lemma move_unwritten : forall m s j, unwritten m s -> unwritten m (move s j).
Proof.
  intros m s j O. unfold move. destruct (m_fatal s) eqn:MF; [exact O|]. destruct (nth_error (m_threads s) j) as [t|] eqn:N; [|exact O].
  destruct (proj1 O j t N) as [W1 W2].
  destruct (t_in t) as [a|] eqn:TI.
  - eapply unwritten_put; [exact O|exact N|exact W1|discriminate].
  - destruct (t_rest t) as [|ins r] eqn:TR; [exact O|]. pose proof (writes_not_tail _ _ _ W1) as W.
    assert (forall held, unwritten m (mk_machine (put_at j (mk_thread r held None) (m_threads s)) None)) as NEXT
      by (intros held; eapply unwritten_put; [exact O|exact N|exact W|discriminate]).
    destruct ins as [k|k|k|k|k n|k w].
    + destruct (existsb _ _); [exact O|apply NEXT].
    + apply NEXT.
    + destruct (existsb _ _); [exact O|apply NEXT].
    + apply NEXT.
    + destruct (existsb _ _); [|apply NEXT]. eapply unwritten_put; [exact O|exact N| |discriminate].
      intros I. apply W. rewrite <- (firstn_skipn n r). apply in_or_app. right. exact I.
    + destruct (existsb (writes_now k) (m_threads s)) eqn:X.
      * split; [exact (proj1 O)|]. cbn. intros E. injection E as ->. apply existsb_nth in X as (q & u & Nq & V).
        unfold writes_now in V. destruct (t_in u) as [[m' [|]]|] eqn:UI; try discriminate V. apply Nat.eqb_eq in V. subst m'.
        destruct (proj1 O q u Nq) as [_ Z]. contradiction.
      * eapply unwritten_put; [exact O|exact N|exact W|]. cbn. intros E. injection E as -> ->. apply W1. left. reflexivity.
Qed.

Lemma readers_safe : forall m ps, Forall (writes_not m) ps -> safe_for m ps.
Proof.
  intros m ps U sched. assert (forall s, unwritten m s -> unwritten m (go s sched)) as G.
  { induction sched as [|k r IH]; intros s O; [exact O|]. cbn. apply IH, move_unwritten, O. }
  apply (G (start ps)). split; [|discriminate]. intros j t N. apply start_nth in N as (p & N & ->). cbn.
  split; [|discriminate]. rewrite Forall_forall in U. apply U. eapply nth_error_In, N.
Qed.

(** ** The programs *)

Lemma disciplined_reads : forall l m n r h, h <> None -> disciplined l m h (repeat (IAcc m false) n ++ r) = disciplined l m h r.
Proof.
  intros l m n r h H. induction n as [|n IH]; [reflexivity|]. cbn. rewrite Nat.eqb_refl, IH.
  destruct h as [[|]|]; [reflexivity|reflexivity|congruence].
Qed.

(** A program after which the lock is as before. *)
Definition closed_use (l m : nat) (p : list instr) : Prop := forall r, disciplined l m None (p ++ r) = disciplined l m None r.

Lemma closed_concat : forall l m ps, Forall (closed_use l m) ps -> disciplined l m None (concat ps) = true.
Proof.
  intros l m. induction ps as [|p ps IH]; intros H; [reflexivity|]. cbn. rewrite (Forall_inv H). apply IH, (Forall_inv_tail H).
Qed.

Lemma closed_add : forall l m, closed_use l m (sl_add l m).
Proof. intros l m r. cbn. rewrite !Nat.eqb_refl. reflexivity. Qed.
Lemma closed_list : forall l m n, closed_use l m (sl_list l m n).
Proof.
  intros l m n r. unfold sl_list. cbn. rewrite Nat.eqb_refl. rewrite <- app_assoc, disciplined_reads by discriminate. cbn.
  rewrite Nat.eqb_refl. reflexivity.
Qed.
Lemma closed_ws_remove : forall l m b, closed_use l m (ws_remove l m b).
Proof. intros l m b r. destruct b; cbn; rewrite !Nat.eqb_refl; reflexivity. Qed.
Lemma load_disciplined : forall l o m a b x, disciplined l x None (load_prog l o m a b) = true.
Proof.
  intros l o m a b x. destruct a, b; cbn; rewrite !Nat.eqb_refl; destruct (o =? x), (m =? x); reflexivity.
Qed.

(** ** The pool of connections *)

Definition inside (c : pc) : bool := match c with GLook2 _ | GDial _ | GStore _ _ => true | _ => false end.

Record pinv (s : pool) : Prop := {
  pi_made : NoDup (p_made s);
  pi_known : forall a k, p_conns s a = Some k -> In a (p_made s);
  pi_made_at : forall a, In a (p_made s) -> p_conns s a <> None \/ exists i k, nth_error (p_calls s) i = Some (GStore a k);
  pi_lock : forall i c, nth_error (p_calls s) i = Some c -> inside c = true -> p_lock s = Some i;
  pi_dial : forall i a, nth_error (p_calls s) i = Some (GDial a) -> p_conns s a = None;
  pi_store : forall i a k, nth_error (p_calls s) i = Some (GStore a k) -> p_conns s a = None /\ In a (p_made s);
  pi_done : forall i a k, nth_error (p_calls s) i = Some (GDone a (Some k)) -> p_conns s a = Some k }.

Lemma put_at_some : forall A i j (x y : A) l, i < length l -> nth_error (put_at i x l) j = Some y ->
  (j = i /\ y = x) \/ (j <> i /\ nth_error l j = Some y).
Proof.
  intros A i j x y l L H. destruct (Nat.eq_dec i j) as [<-|D].
  - rewrite put_at_same in H by exact L. injection H as <-. left. split; reflexivity.
  - rewrite put_at_other in H by exact D. right. split; [congruence|exact H].
Qed.

Lemma pinv_step : forall s x, pinv s -> pinv (pool_step s x).
Proof.
  intros s [i ok] [M K MA LK DI ST DO]. unfold pool_step. destruct (nth_error (p_calls s) i) as [c|] eqn:N; [|constructor; assumption].
  assert (i < length (p_calls s)) as L by (eapply nth_error_lt, N).
  (* a step that changes only the call and the lock *)
  assert (forall lock c',
    (forall a k, c <> GStore a k) ->
    (inside c' = true -> lock = Some i) ->
    (forall j d, j <> i -> nth_error (p_calls s) j = Some d -> inside d = true -> lock = Some j) ->
    (forall a, c' = GDial a -> p_conns s a = None) ->
    (forall a k, c' <> GStore a k) ->
    (forall a k, c' = GDone a (Some k) -> p_conns s a = Some k) ->
    pinv (mk_pool (p_conns s) lock (p_made s) (put_at i c' (p_calls s)))) as UPD.
  { intros lock c' NS IL OL CD CS CO. constructor; cbn [p_conns p_lock p_made p_calls]; [exact M|exact K| | | | |].
    - intros a Ia. destruct (MA a Ia) as [Q|(j & k & Q)]; [left; exact Q|right]. exists j, k.
      assert (i <> j) as D by (intros ->; rewrite N in Q; injection Q as Q; exact (NS _ _ Q)).
      rewrite put_at_other by exact D. exact Q.
    - intros j d Nj Id. apply put_at_some in Nj as [[-> ->]|[D Nj]]; [apply IL, Id|exact (OL j d D Nj Id)|exact L].
    - intros j a Nj. apply put_at_some in Nj as [[-> E]|[D Nj]]; [apply CD; congruence|eapply DI, Nj|exact L].
    - intros j a k Nj. apply put_at_some in Nj as [[-> E]|[D Nj]]; [exfalso; eapply CS; symmetry; exact E|eapply ST, Nj|exact L].
    - intros j a k Nj. apply put_at_some in Nj as [[-> E]|[D Nj]]; [apply CO; congruence|eapply DO, Nj|exact L]. }
  destruct c as [a|a|a|a|a k|a r].
  - apply UPD.
    + discriminate.
    + destruct (p_conns s a); discriminate.
    + intros j d D Nj Id. exact (LK j d Nj Id).
    + intros b E. destruct (p_conns s a); discriminate E.
    + intros b k E. destruct (p_conns s a); discriminate E.
    + intros b k E. destruct (p_conns s a) as [q|] eqn:Q; [|discriminate E]. injection E as <- <-. exact Q.
  - destruct (p_lock s) as [h|] eqn:PL; [constructor; try assumption; rewrite PL; exact LK|]. apply UPD.
    + discriminate.
    + intros _. reflexivity.
    + intros j d D Nj Id. pose proof (LK j d Nj Id) as Q. congruence.
    + discriminate.
    + discriminate.
    + discriminate.
  - pose proof (LK i _ N eq_refl) as PL.
    assert (forall j d, j <> i -> nth_error (p_calls s) j = Some d -> inside d = true -> False) as ALONE.
    { intros j d D Nj Id. pose proof (LK j d Nj Id) as Q. congruence. }
    destruct (p_conns s a) as [q|] eqn:Q.
    + apply UPD; try discriminate.
      * intros j d D Nj Id. exfalso. eapply ALONE; eassumption.
      * intros b k E. injection E as <- <-. exact Q.
    + apply UPD; try discriminate.
      * intros _. exact PL.
      * intros j d D Nj Id. exfalso. eapply ALONE; eassumption.
      * intros b E. injection E as <-. exact Q.
  - pose proof (LK i _ N eq_refl) as PL. pose proof (DI i a N) as Q.
    assert (forall j d, j <> i -> nth_error (p_calls s) j = Some d -> inside d = true -> False) as ALONE.
    { intros j d D Nj Id. pose proof (LK j d Nj Id). congruence. }
    destruct ok.
    + assert (~ In a (p_made s)) as NI.
      { intros I. destruct (MA a I) as [Z|(j & k & Z)]; [congruence|]. destruct (Nat.eq_dec j i) as [->|D]; [congruence|].
        eapply ALONE; [exact D|exact Z|reflexivity]. }
      constructor; cbn [p_conns p_lock p_made p_calls].
      * constructor; assumption.
      * intros b k E. right. eapply K, E.
      * intros b [<-|I].
        -- right. exists i, (length (p_made s)). apply put_at_same, L.
        -- destruct (MA b I) as [Z|(j & k & Z)]; [left; exact Z|]. exfalso. destruct (Nat.eq_dec j i) as [->|D]; [congruence|].
           eapply ALONE; [exact D|exact Z|reflexivity].
      * intros j d Nj Id. apply put_at_some in Nj as [[-> ->]|[D Nj]]; [exact PL|exfalso; eapply ALONE; eassumption|exact L].
      * intros j b Nj. apply put_at_some in Nj as [[-> E]|[D Nj]]; [discriminate E|eapply DI, Nj|exact L].
      * intros j b k Nj. apply put_at_some in Nj as [[-> E]|[D Nj]]; [| |exact L].
        -- injection E as -> ->. split; [exact Q|left; reflexivity].
        -- destruct (ST j b k Nj) as [Z I]. split; [exact Z|right; exact I].
      * intros j b k Nj. apply put_at_some in Nj as [[-> E]|[D Nj]]; [discriminate E|eapply DO, Nj|exact L].
    + apply UPD; try discriminate. intros j d D Nj Id. exfalso. eapply ALONE; eassumption.
  - pose proof (LK i _ N eq_refl) as PL. destruct (ST i a k N) as [Q I].
    assert (forall j d, j <> i -> nth_error (p_calls s) j = Some d -> inside d = true -> False) as ALONE.
    { intros j d D Nj Id. pose proof (LK j d Nj Id). congruence. }
    constructor; cbn [p_conns p_lock p_made p_calls].
    + exact M.
    + intros b q E. destruct (b =? a) eqn:BA; [apply Nat.eqb_eq in BA; subst; exact I|eapply K, E].
    + intros b Ib. destruct (b =? a) eqn:BA; [left; discriminate|]. destruct (MA b Ib) as [Z|(j & q & Z)]; [left; exact Z|].
      exfalso. destruct (Nat.eq_dec j i) as [->|D]; [rewrite N in Z; injection Z as -> ->; rewrite Nat.eqb_refl in BA; discriminate BA|].
      eapply ALONE; [exact D|exact Z|reflexivity].
    + intros j d Nj Id. apply put_at_some in Nj as [[-> ->]|[D Nj]]; [discriminate Id|exfalso; eapply ALONE; eassumption|exact L].
    + intros j b Nj. apply put_at_some in Nj as [[-> E]|[D Nj]]; [discriminate E| |exact L]. exfalso. eapply ALONE; [exact D|exact Nj|reflexivity].
    + intros j b q Nj. apply put_at_some in Nj as [[-> E]|[D Nj]]; [discriminate E| |exact L]. exfalso. eapply ALONE; [exact D|exact Nj|reflexivity].
    + intros j b q Nj. apply put_at_some in Nj as [[-> E]|[D Nj]]; [| |exact L].
      * injection E as -> ->. rewrite Nat.eqb_refl. reflexivity.
      * destruct (b =? a) eqn:BA; [|eapply DO, Nj]. apply Nat.eqb_eq in BA. subst. rewrite (DO _ _ _ Nj) in Q. discriminate Q.
  - constructor; assumption.
Qed.

Lemma pinv_new : forall addrs, pinv (pool_new addrs).
Proof.
  intros addrs. assert (forall i c, nth_error (p_calls (pool_new addrs)) i = Some c -> exists a, c = GLook a) as G.
  { intros i c H. cbn in H. rewrite nth_error_map in H. destruct (nth_error addrs i); [|discriminate H]. injection H as <-. eexists. reflexivity. }
  constructor; try (intros; destruct (G _ _ H) as [b E]; discriminate E).
  - constructor.
  - discriminate.
  - intros a [].
  - intros i c N H. destruct (G _ _ N) as [b ->]. discriminate H.
Qed.

Lemma pinv_run : forall l s, pinv s -> pinv (pool_run s l).
Proof. induction l as [|x l IH]; intros s P; [exact P|]. cbn. apply IH, pinv_step, P. Qed.

Lemma pool_one : forall addrs l, one_each (pool_run (pool_new addrs) l).
Proof.
  intros addrs l. pose proof (pinv_run l _ (pinv_new addrs)) as P. split; [apply (pi_made _ P)|].
  intros i j a c d Ni Nj. pose proof (pi_done _ P _ _ _ Ni) as A. pose proof (pi_done _ P _ _ _ Nj) as B. congruence.
Qed.

(** Every step of a call brings it nearer to its end, or it waits for another one. *)
Definition left_of (c : pc) : nat :=
  match c with GLook _ => 5 | GWant _ => 4 | GLook2 _ => 3 | GDial _ => 2 | GStore _ _ => 1 | GDone _ _ => 0 end.

Definition held (s : pool) : Prop := forall h, p_lock s = Some h -> exists c, nth_error (p_calls s) h = Some c /\ inside c = true.

Lemma held_step : forall s x, pinv s -> held s -> held (pool_step s x).
Proof.
  intros s [i ok] P H. unfold pool_step. destruct (nth_error (p_calls s) i) as [c|] eqn:N; [|exact H].
  assert (i < length (p_calls s)) as L by (eapply nth_error_lt, N).
  assert (forall conns made c', inside c = inside c' -> held (mk_pool conns (p_lock s) made (put_at i c' (p_calls s)))) as SAME.
  { intros conns made c' E h Q. cbn in *. destruct (H h Q) as (d & Nd & Id). destruct (Nat.eq_dec i h) as [<-|D].
    - exists c'. rewrite put_at_same by exact L. split; [reflexivity|]. rewrite N in Nd. injection Nd as ->. congruence.
    - exists d. rewrite put_at_other by exact D. split; assumption. }
  destruct c as [a|a|a|a|a k|a r].
  - destruct (p_conns s a); apply SAME; reflexivity.
  - destruct (p_lock s) eqn:Q; [exact H|]. intros h E. cbn in *. injection E as <-. exists (GLook2 a). split; [apply put_at_same, L|reflexivity].
  - destruct (p_conns s a); [intros h E; discriminate E|apply SAME; reflexivity].
  - destruct ok; [apply SAME; reflexivity|intros h E; discriminate E].
  - intros h E. discriminate E.
  - exact H.
Qed.

Lemma held_run : forall l s, pinv s -> held s -> pinv (pool_run s l) /\ held (pool_run s l).
Proof.
  induction l as [|x l IH]; intros s P H; [split; assumption|]. cbn. apply IH; [apply pinv_step, P|apply held_step; assumption].
Qed.

Lemma held_new : forall addrs, held (pool_new addrs).
Proof. intros addrs h E. discriminate E. Qed.

Lemma step_moves : forall s i c ok, nth_error (p_calls s) i = Some c -> left_of c <> 0 -> (forall a, c = GWant a -> p_lock s = None) ->
  exists c', nth_error (p_calls (pool_step s (i, ok))) i = Some c' /\ left_of c' < left_of c.
Proof.
  intros s i c ok N W F. unfold pool_step. rewrite N. assert (i < length (p_calls s)) as L by (eapply nth_error_lt, N).
  destruct c as [a|a|a|a|a k|a r].
  - destruct (p_conns s a); eexists; (split; [apply put_at_same, L|cbn; lia]).
  - rewrite (F a eq_refl). eexists. split; [apply put_at_same, L|cbn; lia].
  - destruct (p_conns s a); eexists; (split; [apply put_at_same, L|cbn; lia]).
  - destruct ok; eexists; (split; [apply put_at_same, L|cbn; lia]).
  - eexists. split; [apply put_at_same, L|cbn; lia].
  - cbn in W. congruence.
Qed.

Lemma pool_progress : forall addrs l, let s := pool_run (pool_new addrs) l in
  (forall i c, nth_error (p_calls s) i = Some c -> left_of c = 0) \/
  exists i c, nth_error (p_calls s) i = Some c /\ forall ok, exists c', nth_error (p_calls (pool_step s (i, ok))) i = Some c' /\ left_of c' < left_of c.
Proof.
  intros addrs l s. destruct (held_run l (pool_new addrs) (pinv_new addrs) (held_new addrs)) as [P H]. fold s in P, H.
  destruct (p_lock s) as [h|] eqn:Q.
  - right. destruct (H h Q) as (c & N & I). exists h, c. split; [exact N|]. intros ok. apply step_moves; [exact N| |].
    + destruct c; discriminate.
    + intros a ->. discriminate I.
  - destruct (existsb (fun c => negb (left_of c =? 0)) (p_calls s)) eqn:E.
    + right. apply existsb_nth in E as (i & c & N & X). exists i, c. split; [exact N|]. intros ok. apply step_moves; [exact N| |].
      * apply negb_true_iff, Nat.eqb_neq in X. exact X.
      * intros a ->. exact Q.
    + left. intros i c N. destruct (left_of c =? 0) eqn:Z; [apply Nat.eqb_eq, Z|]. exfalso.
      assert (existsb (fun c => negb (left_of c =? 0)) (p_calls s) = true) as X; [|congruence].
      apply existsb_nth. exists i, c. split; [exact N|]. rewrite Z. reflexivity.
Qed.
