(** Lemmas about DoneGroup, PutStream and the order of effects. *)
From Verif Require Import Upload_Model Upload_Spec Rs_Proofs.

Lemma set_nth_S : forall (A : Type) (a : A) l i x, set_nth (a :: l) (S i) x = a :: set_nth l i x.
Proof. reflexivity. Qed.

Lemma set_nth_spec : forall (A : Type) (l : list A) i x y, nth_error l i = Some y ->
  forall j, nth_error (set_nth l i x) j = if j =? i then Some x else nth_error l j.
Proof.
  intros A l i x y Hi. assert (i < length l) as Hl by (apply nth_error_Some; rewrite Hi; discriminate).
  revert i Hi Hl. induction l as [|a l IH]; intros i Hi Hl; [cbn in Hl; lia|].
  destruct i as [|i]; intros [|j]; try reflexivity.
  rewrite set_nth_S. cbn [nth_error Nat.eqb] in *. apply (IH i Hi). cbn in Hl. lia.
Qed.

Lemma set_nth_map : forall (A C : Type) (f : A -> C) (l : list A) i x y, nth_error l i = Some y -> f x = f y ->
  map f (set_nth l i x) = map f l.
Proof.
  intros A C f l. induction l as [|a l IH]; intros [|i] x y Hi Hf; try discriminate.
  - injection Hi as ->. cbn. rewrite Hf. reflexivity.
  - rewrite set_nth_S. cbn [map]. rewrite (IH i x y Hi Hf). reflexivity.
Qed.

Lemma set_nth_in : forall (A : Type) (l : list A) i x y, In y (set_nth l i x) -> y = x \/ In y l.
Proof.
  intros A l i x y H. unfold set_nth in H. apply in_app_or in H. destruct H as [H|[H|H]].
  - right. rewrite <- (firstn_skipn i l). apply in_or_app. left. exact H.
  - left. congruence.
  - right. rewrite <- (firstn_skipn (S i) l). apply in_or_app. right. exact H.
Qed.

Lemma set_nth_length : forall (A : Type) (l : list A) i x, i < length l -> length (set_nth l i x) = length l.
Proof. intros A l i x H. unfold set_nth. rewrite app_length. cbn [length]. rewrite firstn_length, skipn_length. lia. Qed.

(** ** DoneGroup *)
Definition outcome (w : worker) : option nat :=
  match w with Running o => o | Reported e => Some e | Finished o => o end.
(** The worker has called [Error]. *)
Definition spoke (w : worker) : bool :=
  match w with Reported _ | Finished (Some _) => true | _ => false end.

Definition dg_inv (outs : list (option nat)) (st : dgroup) : Prop :=
  map outcome (dg_workers st) = outs /\
  (dg_helper st = Offering -> forallb dg_finished (dg_workers st) = true) /\
  (dg_result st = Some None -> dg_helper st = Offering) /\
  (forall e, dg_ec st = Some e \/ dg_result st = Some (Some e) -> In (Some e) outs) /\
  (dg_closed st = true -> dg_ec st <> None \/ exists e, dg_result st = Some (Some e)) /\
  (dg_closed st = false -> dg_ec st = None /\ forall w, In w (dg_workers st) -> spoke w = false).

Lemma dg_inv_init : forall outs, dg_inv outs (dg_init outs).
Proof.
  intros outs. unfold dg_inv, dg_init; cbn. repeat split; try discriminate.
  - rewrite map_map. cbn. apply map_id.
  - intros e [H|H]; discriminate.
  - intros w Hw. apply in_map_iff in Hw. destruct Hw as (o & <- & _). reflexivity.
Qed.

Lemma forallb_finished_set : forall l i w v, nth_error l i = Some v -> dg_finished v = false ->
  forallb dg_finished l = true -> forallb dg_finished (set_nth l i w) = true.
Proof.
  intros l i w v Hi Hv Hf. rewrite forallb_forall in Hf. apply nth_error_In in Hi. apply Hf in Hi. congruence.
Qed.

Lemma dg_inv_step : forall outs st a st', dg_inv outs st -> dg_do st a = Some st' -> dg_inv outs st'.
Proof.
  intros outs st a st' (H1 & H2 & H3 & H4 & H5 & H6) Hd. destruct a as [i| | |]; cbn in Hd.
  - destruct (nth_error (dg_workers st) i) as [[[e|]|e|o]|] eqn:Ei; try discriminate; injection Hd as <-; unfold dg_inv; cbn.
    + split; [rewrite (set_nth_map _ _ outcome _ _ _ _ Ei); [exact H1|reflexivity]|].
      split; [intros H; apply (forallb_finished_set _ _ _ _ Ei eq_refl), H2, H|].
      split; [exact H3|]. split.
      * intros e' [H|H]; [|apply H4; right; exact H]. destruct (dg_closed st) eqn:Ec; [apply H4; left; exact H|].
        injection H as <-. rewrite <- H1. apply nth_error_In in Ei. apply (in_map outcome) in Ei. exact Ei.
      * split; [intros _|discriminate]. destruct (dg_closed st); [apply H5; reflexivity|left; discriminate].
    + split; [rewrite (set_nth_map _ _ outcome _ _ _ _ Ei); [exact H1|reflexivity]|].
      split; [intros H; apply (forallb_finished_set _ _ _ _ Ei eq_refl), H2, H|].
      repeat split; try assumption; try (apply H6; assumption).
      intros w Hw. apply set_nth_in in Hw. destruct Hw as [->|Hw]; [reflexivity|apply H6; assumption].
    + split; [rewrite (set_nth_map _ _ outcome _ _ _ _ Ei); [exact H1|reflexivity]|].
      split; [intros H; apply (forallb_finished_set _ _ _ _ Ei eq_refl), H2, H|].
      repeat split; try assumption; try (apply H6; assumption).
      intros w Hw. apply nth_error_In in Ei. apply (H6 H) in Ei. discriminate.
  - destruct (dg_helper st) eqn:Eh; [|discriminate]. destruct (forallb dg_finished (dg_workers st)) eqn:Ef; [|discriminate].
    injection Hd as <-. unfold dg_inv; cbn. repeat split; try assumption; try (intros _; assumption); apply H6; assumption.
  - destruct (dg_helper st) eqn:Eh; [discriminate|]. destruct (dg_result st) eqn:Er; [discriminate|].
    injection Hd as <-. unfold dg_inv; cbn. split; [exact H1|]. split; [exact H2|]. split; [reflexivity|]. split.
    + intros e [H|H]; [apply H4; left; exact H|discriminate].
    + split; [|exact H6]. intros H. destruct (H5 H) as [H'|[e He]]; [left; exact H'|discriminate].
  - destruct (dg_ec st) eqn:Ee; [|discriminate]. destruct (dg_result st) eqn:Er; [discriminate|].
    injection Hd as <-. unfold dg_inv; cbn. split; [exact H1|]. split; [exact H2|]. split; [discriminate|]. split.
    + intros e [H|H]; [discriminate|]. injection H as <-. apply H4. left. reflexivity.
    + split; [intros _; right; eexists; reflexivity|]. intros H. destruct (H6 H). discriminate.
Qed.

Lemma dg_inv_run : forall l outs st st', dg_inv outs st -> dg_run st l = Some st' -> dg_inv outs st'.
Proof.
  induction l as [|a l IH]; intros outs st st' Hi Hr; cbn in Hr; [congruence|].
  destruct (dg_do st a) as [st1|] eqn:E; [|discriminate]. apply (IH _ st1); [eapply dg_inv_step; eassumption|exact Hr].
Qed.

(** nil is returned only when every worker is done. *)
Lemma dg_nil_done : forall outs l st, dg_run (dg_init outs) l = Some st -> dg_result st = Some None ->
  length (dg_workers st) = length outs /\ forall w, In w (dg_workers st) -> exists o, w = Finished o.
Proof.
  intros outs l st Hr Hn. destruct (dg_inv_run _ _ _ _ (dg_inv_init outs) Hr) as (H1 & H2 & H3 & _).
  split; [rewrite <- H1, map_length; reflexivity|]. specialize (H2 (H3 Hn)). rewrite forallb_forall in H2.
  intros w Hw. specialize (H2 w Hw). destruct w; try discriminate. eexists. reflexivity.
Qed.

Lemma dg_error_genuine : forall outs l st e, dg_run (dg_init outs) l = Some st -> dg_result st = Some (Some e) -> In (Some e) outs.
Proof.
  intros outs l st e Hr Hn. destruct (dg_inv_run _ _ _ _ (dg_inv_init outs) Hr) as (_ & _ & _ & H & _). apply H. right. exact Hn.
Qed.

(** With no error waiting, the done case means that nobody failed. *)
Lemma dg_done_clean : forall outs l st st', dg_run (dg_init outs) l = Some st -> dg_ec st = None ->
  dg_do st TakeDone = Some st' -> forall o, In o outs -> o = None.
Proof.
  intros outs l st st' Hr He Hd o Ho. destruct (dg_inv_run _ _ _ _ (dg_inv_init outs) Hr) as (H1 & H2 & _ & _ & H5 & H6).
  cbn in Hd. destruct (dg_helper st); [discriminate|]. destruct (dg_result st); [discriminate|].
  destruct (dg_closed st); [destruct (H5 eq_refl) as [H|[e H]]; [congruence|discriminate]|].
  destruct (H6 eq_refl) as [_ Hs]. specialize (H2 eq_refl). rewrite forallb_forall in H2.
  rewrite <- H1 in Ho. apply in_map_iff in Ho. destruct Ho as (w & <- & Hw). specialize (Hs w Hw). specialize (H2 w Hw).
  destruct w as [| |[e|]]; try discriminate. reflexivity.
Qed.

(** The wait can always be finished. *)
Definition todo (w : worker) : nat := match w with Running _ => 2 | Reported _ => 1 | Finished _ => 0 end.
Lemma set_nth_sum : forall l i w v, nth_error l i = Some v -> todo w < todo v ->
  list_sum (map todo (set_nth l i w)) < list_sum (map todo l).
Proof.
  induction l as [|a l IH]; intros [|i] w v Hi Hl; try discriminate.
  - injection Hi as ->. unfold set_nth. cbn. lia.
  - specialize (IH i w v Hi Hl). rewrite set_nth_S. cbn [map list_sum fold_right] in *. unfold list_sum in *. lia.
Qed.
Lemma find_todo : forall l, forallb dg_finished l = false -> exists i w, nth_error l i = Some w /\ dg_finished w = false.
Proof.
  induction l as [|a l IH]; intros H; [discriminate|]. cbn in H. destruct (dg_finished a) eqn:E.
  - destruct (IH H) as (i & w & H1 & H2). exists (S i), w. split; assumption.
  - exists 0, a. split; [reflexivity|exact E].
Qed.
Lemma dg_can_finish : forall n st, list_sum (map todo (dg_workers st)) <= n -> dg_result st = None ->
  (dg_helper st = Offering -> forallb dg_finished (dg_workers st) = true) ->
  exists l st', dg_run st l = Some st' /\ dg_result st' <> None.
Proof.
  induction n as [n IH] using (well_founded_induction lt_wf). intros st Hn Hr Hh. destruct (forallb dg_finished (dg_workers st)) eqn:Ef.
  - destruct (dg_helper st) eqn:Eh.
    + eexists [WaitReturns; TakeDone]. eexists. split; [cbn; rewrite Eh, Ef; cbn; rewrite Hr; reflexivity|discriminate].
    + eexists [TakeDone]. eexists. split; [cbn; rewrite Eh, Hr; reflexivity|discriminate].
  - destruct (find_todo _ Ef) as (i & w & Hi & Hw).
    assert (exists w' ec cl, dg_do st (Work i) = Some {| dg_workers := set_nth (dg_workers st) i w'; dg_ec := ec; dg_closed := cl;
      dg_helper := dg_helper st; dg_result := dg_result st |} /\ todo w' < todo w) as (w' & ec & cl & Hs & Ht).
    { cbn. rewrite Hi. destruct w as [[e|]|e|o]; try discriminate; do 3 eexists; (split; [reflexivity|cbn; lia]). }
    pose proof (set_nth_sum _ _ _ _ Hi Ht) as Hlt.
    destruct (IH (list_sum (map todo (set_nth (dg_workers st) i w'))) ltac:(lia)
      {| dg_workers := set_nth (dg_workers st) i w'; dg_ec := ec; dg_closed := cl;
         dg_helper := dg_helper st; dg_result := dg_result st |}) as (l & st' & H1 & H2).
    + apply le_n.
    + exact Hr.
    + cbn. intros Ho. specialize (Hh Ho). discriminate.
    + exists (Work i :: l), st'. split; [cbn [dg_run]; rewrite Hs; exact H1|exact H2].
Qed.
Lemma dg_live : forall outs l st, dg_run (dg_init outs) l = Some st -> dg_result st = None ->
  exists l' st', dg_run st l' = Some st' /\ dg_result st' <> None.
Proof.
  intros outs l st Hr Hn. destruct (dg_inv_run _ _ _ _ (dg_inv_init outs) Hr) as (_ & H2 & _).
  eapply dg_can_finish; [apply le_n|exact Hn|exact H2].
Qed.

(** ** PutStream *)
Section PutStream.
  Context {B : Type}.
  Implicit Types st : @pstream B.

  Definition finishing (t : @ps_thread B) : bool := match t with SendFinish _ => true | _ => false end.
  Definition count {A} (f : A -> bool) (l : list A) : nat := length (filter f l).

  Lemma count_set : forall (A : Type) (f : A -> bool) l i x y, nth_error l i = Some y ->
    count f (set_nth l i x) + Nat.b2n (f y) = count f l + Nat.b2n (f x).
  Proof.
    intros A f l. unfold count. induction l as [|a l IH]; intros [|i] x y Hi; try discriminate.
    - injection Hi as ->. unfold set_nth. cbn. destruct (f x), (f y); cbn; lia.
    - specialize (IH i x y Hi). rewrite set_nth_S. cbn [filter]. destruct (f a); cbn [length] in *; lia.
  Qed.
  Lemma count_app : forall (A : Type) (f : A -> bool) l x, count f (l ++ [x]) = count f l + Nat.b2n (f x).
  Proof. intros A f l x. unfold count. rewrite filter_app, app_length. cbn. destruct (f x); reflexivity. Qed.

  Definition ps_inv st : Prop :=
    count is_finish (ps_log st) + count finishing (ps_threads st) <= Nat.b2n (ps_committed st).

  Lemma ps_inv_step : forall st i st', ps_inv st -> ps_do st i = Some st' -> ps_inv st'.
  Proof.
    intros st i st' Hi Hd. unfold ps_inv, ps_do in *. destruct (nth_error (ps_threads st) i) as [t|] eqn:Et; [|discriminate].
    destruct t as [[|b|ok]|b|ok|r]; try discriminate;
      try (destruct (ps_committed st) eqn:Ec); injection Hd as <-; cbn [ps_log ps_threads ps_committed];
      rewrite ?count_app;
      match goal with |- context [set_nth _ _ ?x] => pose proof (count_set _ finishing _ _ x _ Et) as Hc end;
      cbn in Hc |- *; try destruct ok; cbn in *; lia.
  Qed.
  Lemma ps_inv_run : forall l st st', ps_inv st -> ps_run st l = Some st' -> ps_inv st'.
  Proof.
    induction l as [|i l IH]; intros st st' Hi Hr; cbn in Hr; [congruence|].
    destruct (ps_do st i) as [st1|] eqn:E; [|discriminate]. apply (IH st1); [eapply ps_inv_step; eassumption|exact Hr].
  Qed.

  (** At most one request that finishes the upload. *)
  Lemma finish_once : forall ops l st, ps_run (ps_init ops) l = Some st ->
    length (filter is_finish (ps_log st)) <= 1.
  Proof.
    intros ops l st Hr. assert (Hi : ps_inv st).
    { eapply ps_inv_run; [|exact Hr]. unfold ps_inv, ps_init, count. cbn. clear. induction ops as [|o ops IH]; cbn in *; lia. }
    unfold ps_inv, count in Hi. destruct (ps_committed st); cbn in Hi; lia.
  Qed.

  (** Once the stream is committed or closed it stays so, and a write that starts then
      sends nothing and is refused. *)
  Lemma ps_do_committed : forall st i st', ps_do st i = Some st' -> ps_committed st = true -> ps_committed st' = true.
  Proof.
    intros st i st' Hd Hc. unfold ps_do in Hd. rewrite Hc in Hd.
    destruct (nth_error (ps_threads st) i) as [[[|b|ok]|b|ok|r]|]; try discriminate; injection Hd as <-; reflexivity.
  Qed.
  Lemma late_write : forall l st st' i b, ps_committed st = true -> nth_error (ps_threads st) i = Some (Start (OpWrite b)) ->
    (forall r, ~ In (i, r) (ps_log st)) ->
    ps_run st l = Some st' ->
    (nth_error (ps_threads st') i = Some (Start (OpWrite b)) \/ nth_error (ps_threads st') i = Some (Returned ResClosed)) /\
    forall r, ~ In (i, r) (ps_log st').
  Proof.
    assert (H : forall l st st' i b, ps_committed st = true ->
      (nth_error (ps_threads st) i = Some (Start (OpWrite b)) \/ nth_error (ps_threads st) i = Some (Returned ResClosed)) ->
      (forall r, ~ In (i, r) (ps_log st)) -> ps_run st l = Some st' ->
      (nth_error (ps_threads st') i = Some (Start (OpWrite b)) \/ nth_error (ps_threads st') i = Some (Returned ResClosed)) /\
      forall r, ~ In (i, r) (ps_log st')).
    { induction l as [|j l IH]; intros st st' i b Hc Hi Hl Hr; cbn in Hr; [injection Hr as <-; split; assumption|].
      destruct (ps_do st j) as [st1|] eqn:E; [|discriminate]. apply (IH st1 st' i b); [eapply ps_do_committed; eassumption| | |exact Hr].
      - unfold ps_do in E. rewrite Hc in E. destruct (nth_error (ps_threads st) j) as [t|] eqn:Ej; [|discriminate].
        assert (Hset : forall x, nth_error (set_nth (ps_threads st) j x) i = if i =? j then Some x else nth_error (ps_threads st) i)
          by (intros x; apply (set_nth_spec _ _ _ _ _ Ej)).
        destruct (Nat.eqb_spec i j) as [<-|Hne].
        + rewrite Ej in Hi. destruct Hi as [Hi|Hi]; injection Hi as ->; [|discriminate]. injection E as <-. right.
          cbn [ps_threads]. apply Hset.
        + destruct t as [[|b'|ok]|b'|ok|r]; try discriminate; injection E as <-; cbn [ps_threads]; rewrite Hset; exact Hi.
      - unfold ps_do in E. rewrite Hc in E. destruct (nth_error (ps_threads st) j) as [t|] eqn:Ej; [|discriminate].
        destruct t as [[|b'|ok]|b'|ok|r0]; try discriminate; injection E as <-; cbn [ps_log]; try exact Hl;
          intros r Hin; apply in_app_or in Hin; destruct Hin as [Hin|[Hin|[]]]; try (apply (Hl r Hin));
          injection Hin as -> _; rewrite Ej in Hi; destruct Hi; discriminate. }
    intros l st st' i b Hc Hi Hl Hr. apply (H l st st' i b); auto.
  Qed.
End PutStream.

(** ** Order of effects *)

Lemma commit_not_visible : forall order ok, ~ In Visible (commit_effects order ok).
Proof. intros order ok H. unfold commit_effects in H. apply in_map_iff in H. destruct H as (x & Hx & _). discriminate. Qed.

Lemma store_order : forall n before located order ok wait_nil meta_ok,
  (located = true -> forall i, i < n -> before i = true) ->
  (forall i, i < n -> In i order) ->
  (located = false -> wait_nil = true -> forall i, i < n -> ok i = true) ->
  data_first n before (store_effects located order ok wait_nil meta_ok).
Proof.
  intros n before located order ok wait_nil meta_ok Hl Ho Hw p q E Hv i Hi. unfold store_effects in E.
  destruct located; [left; apply Hl; [reflexivity|exact Hi]|]. right.
  assert (Hall : In (Committed i) (commit_effects order ok) \/ wait_nil = false).
  { destruct wait_nil; [left|right; reflexivity]. unfold commit_effects. apply in_map, filter_In. auto. }
  assert (Hp : exists r, p = commit_effects order ok ++ r /\ wait_nil = true).
  { assert (Hlen : length p <= length (commit_effects order ok) \/ length (commit_effects order ok) < length p) by lia.
    destruct Hlen as [Hlen|Hlen].
    - exfalso. apply (commit_not_visible order ok). apply (f_equal (firstn (length p))) in E.
      rewrite !firstn_app, firstn_all, Nat.sub_diag, firstn_O, app_nil_r in E.
      replace (length p - _) with 0 in E by lia. rewrite firstn_O, app_nil_r in E. rewrite <- E in Hv.
      rewrite <- (firstn_skipn (length p)). apply in_or_app. left. exact Hv.
    - pose proof (f_equal (firstn (length p)) E) as E2.
      rewrite !firstn_app, firstn_all, Nat.sub_diag, firstn_O, app_nil_r in E2. rewrite firstn_all2 in E2 by lia.
      eexists. split; [symmetry; exact E2|]. destruct wait_nil; [reflexivity|]. exfalso.
      apply (f_equal (@length _)) in E. rewrite !app_length in E. cbn in E. lia. }
  destruct Hp as (r & -> & ->). destruct Hall as [Hall|Hall]; [|discriminate]. apply in_or_app. left. exact Hall.
Qed.
