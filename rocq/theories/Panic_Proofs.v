(** Lemmas about panics. *)
From Coq Require Import List Bool.
From Verif Require Import Str_Model Panic_Model Panic_Spec.
Import ListNotations.
Local Open Scope list_scope.

Lemma ours_quiet : forall d, ours d -> quiet d.
Proof. intros d [ -> | [ -> | [ -> | -> ] ] ]; reflexivity. Qed.

Lemma ours_again : forall d v, ours d -> exists l w, d (Some v) = (l, Some w) /\ ~ In (Sent (text v)) l /\ text w = text v.
Proof.
  intros d v [ -> | [ -> | [ -> | -> ] ] ]; cbn; eexists; eexists; (split; [reflexivity|]); split; try reflexivity; intros H;
    repeat destruct H as [H|H]; try discriminate H; exact H.
Qed.

Lemma unwind_calm : forall ds, Forall quiet ds -> snd (unwind ds None) = None.
Proof.
  induction ds as [|d ds IH]; intros H; [reflexivity|]. inversion H; subst. cbn.
  pose proof H2 as Q. unfold quiet in Q. destruct (d None) as [l q]. cbn in Q. subst q.
  specialize (IH H3). destruct (unwind ds None). exact IH.
Qed.

Lemma unwind_again : forall ds v, Forall ours ds -> exists l w, unwind ds (Some v) = (l, Some w) /\ ~ In (Sent (text v)) l /\ text w = text v.
Proof.
  induction ds as [|d ds IH]; intros v H; [cbn; exists [], v; repeat split; intros []|]. inversion H; subst.
  destruct (ours_again d v H2) as (l & w & E & S1 & T). cbn. rewrite E.
  destruct (IH w H3) as (l' & w' & E' & S2 & T'). rewrite E'. exists (l ++ l'), w'.
  split; [reflexivity|]. split; [|congruence]. intros I. apply in_app_or in I. rewrite T in S2. tauto.
Qed.

Lemma unwind_app : forall a b p, unwind (a ++ b) p =
  (fst (unwind a p) ++ fst (unwind b (snd (unwind a p))), snd (unwind b (snd (unwind a p)))).
Proof.
  induction a as [|d a IH]; intros b p; cbn [app unwind fst snd].
  - destruct (unwind b p). reflexivity.
  - destruct (d p) as [l q]. rewrite IH. destruct (unwind a q) as [l1 r1]. cbn [fst snd]. rewrite app_assoc. reflexivity.
Qed.

Lemma http_stays : forall s own p, sv_runs s = true -> sv_runs (fst (finish s (JHttp own, p))) = true.
Proof.
  intros s own p R. cbn [finish]. rewrite R. cbn [guards]. rewrite unwind_app.
  destruct (unwind own p) as [l q]. cbn [snd fst]. destruct q; reflexivity.
Qed.

Lemma finish_gone : forall s j v, Forall ours (own_of j) -> outside j -> sv_runs (fst (finish s (j, Some v))) = false.
Proof.
  intros s j v H O. cbn [finish]. destruct (sv_runs s) eqn:R; [|exact R].
  assert (Forall ours (guards j)) as G.
  { destruct j as [own|own|own]; [destruct O| |exact H]. cbn [guards own_of] in *.
    apply Forall_app. split; [exact H|]. apply Forall_cons; [left; reflexivity|apply Forall_nil]. }
  destruct (unwind_again (guards j) v G) as (l & w & E & _). rewrite E. reflexivity.
Qed.

Lemma finish_stays : forall s j, Forall ours (own_of j) -> sv_runs s = true -> sv_runs (fst (finish s (j, None))) = true.
Proof.
  intros s j H R. cbn [finish]. rewrite R.
  assert (Forall quiet (guards j)) as G.
  { assert (Forall quiet (own_of j)) by (eapply Forall_impl; [exact ours_quiet|exact H]).
    destruct j as [own|own|own]; cbn [guards own_of] in *; [| |assumption]; apply Forall_app; (split; [assumption|]);
      apply Forall_cons; [reflexivity|apply Forall_nil|reflexivity|apply Forall_nil]. }
  pose proof (unwind_calm _ G) as U. destruct (unwind (guards j) None) as [l q]. cbn in U. subst q. reflexivity.
Qed.

Lemma stopped : forall l s, sv_runs s = false -> sv_runs (serve s l) = false.
Proof.
  induction l as [|[j p] l IH]; intros s H; [exact H|]. change (serve s ((j, p) :: l)) with (serve (fst (finish s (j, p))) l).
  apply IH. cbn [finish]. rewrite H. exact H.
Qed.

Lemma serve_iff : forall l s, sv_runs s = true -> Forall (fun jp => Forall ours (own_of (fst jp))) l ->
  (sv_runs (serve s l) = true <-> Forall (fun jp => outside (fst jp) -> snd jp = None) l).
Proof.
  induction l as [|[j p] l IH]; intros s R H; [split; [constructor|intros _; exact R]|].
  apply Forall_inv in H as Hj. apply Forall_inv_tail in H as Hl. cbn [fst] in Hj.
  change (serve s ((j, p) :: l)) with (serve (fst (finish s (j, p))) l).
  destruct p as [v|].
  - destruct j as [own|own|own].
    + rewrite IH; [|apply http_stays, R|exact Hl]. split; intros K.
      * apply Forall_cons; [intros []|exact K].
      * exact (Forall_inv_tail K).
    + rewrite stopped by (apply finish_gone; [exact Hj|exact I]). split; [discriminate|].
      intros K. apply Forall_inv in K. discriminate (K I).
    + rewrite stopped by (apply finish_gone; [exact Hj|exact I]). split; [discriminate|].
      intros K. apply Forall_inv in K. discriminate (K I).
  - rewrite IH; [|apply finish_stays; [exact Hj|exact R]|exact Hl]. split; intros K.
    + apply Forall_cons; [intros _; reflexivity|exact K].
    + exact (Forall_inv_tail K).
Qed.
