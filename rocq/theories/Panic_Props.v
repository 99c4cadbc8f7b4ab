(** What becomes of a panic (C117). *)
From Coq Require Import List Bool.
From Verif Require Import Str_Model Panic_Model Panic_Spec Panic_Proofs.
Import ListNotations.
Local Open Scope list_scope.

(** ** C117: a panic stays within the request or worker it happens in

    In full this is [guarded]; it holds for handlers of HTTP requests, by gin's recovery,
    and as long as nothing panics. *)

(** No HTTP request ends a server. *)
(** Partial.  Full statement: A server goes on running after a handler, a gRPC call or a goroutine
    with a recovery deferred has panicked, and a worker's panic is delivered to its group as an
    error.  It fails in general: [C117_recover_refuted], [C117_goroutine_refuted],
    [C117_interceptor_refuted], [C117_error_refuted], [C117_refuted].  Refuted for the rest:
    graceful.Recover and DoneGroup.Done log with logger.Panicf, which panics again, so every such
    panic ends the process and no group is told. *)
Theorem C117_http_partial : forall s own p, sv_runs s = true ->
  sv_runs (fst (finish s (JHttp own, p))) = true /\
  (p <> None -> snd (finish s (JHttp own, p)) = Failed500).
Proof.
  intros s own p R. split; [exact (http_stays s own p R)|]. intros P. cbn [finish]. rewrite R. cbn [guards]. rewrite unwind_app.
  destruct (unwind own p) as [l q]. cbn [snd fst]. destruct p as [v|]; [|congruence]. destruct q; reflexivity.
Qed.
Print Assumptions C117_http_partial.

(** A server runs on exactly as long as no gRPC call and no goroutine has panicked,
    whatever they have deferred of [Recover] and [Done]. *)
Theorem C117_runs_iff : forall l, Forall (fun jp => Forall ours (own_of (fst jp))) l ->
  (sv_runs (serve server_new l) = true <-> Forall (fun jp => outside (fst jp) -> snd jp = None) l).
Proof. intros l H. exact (serve_iff l server_new eq_refl H). Qed.
Print Assumptions C117_runs_iff.

Definition oops : pval := PValue (s2l "index out of range"%string).
Example C117_case :
  let l := [(JGo [dg_done], None); (JHttp [g_recover false], Some oops); (JGrpc [], None)] in
  Forall (fun jp : job * option pval => Forall ours (own_of (fst jp))) l /\ sv_runs (serve server_new l) = true /\
  sv_runs (serve server_new (l ++ [(JGrpc [], Some oops)])) = false.
Proof.
  cbv zeta. split; [|split; reflexivity].
  apply Forall_cons; [apply Forall_cons; [right; right; left; reflexivity|apply Forall_nil]|].
  apply Forall_cons; [apply Forall_cons; [right; left; reflexivity|apply Forall_nil]|].
  apply Forall_cons; [apply Forall_nil|apply Forall_nil].
Qed.

(** [Recover] and [Done] do not end a panic: they log it and panic again. *)
Theorem C117_recover_refuted : forall ds v, Forall ours ds ->
  exists l w, unwind ds (Some v) = (l, Some w) /\ text w = text v.
Proof. intros ds v H. destruct (unwind_again ds v H) as (l & w & E & _ & T). exists l, w. split; assumption. Qed.
Print Assumptions C117_recover_refuted.

(** A goroutine that panics ends the server, with [Recover] and [Done] deferred or not. *)
Theorem C117_goroutine_refuted : forall s ds v, Forall ours ds -> sv_runs (fst (finish s (JGo ds, Some v))) = false.
Proof. intros s ds v H. exact (finish_gone s (JGo ds) v H I). Qed.
Print Assumptions C117_goroutine_refuted.

(** A gRPC call that panics ends the server instead of being answered with an error. *)
Theorem C117_interceptor_refuted : forall s ds v, Forall ours ds ->
  sv_runs (fst (finish s (JGrpc ds, Some v))) = false /\ snd (finish s (JGrpc ds, Some v)) = Gone.
Proof.
  intros s ds v H. split; [exact (finish_gone s (JGrpc ds) v H I)|].
  pose proof (finish_gone s (JGrpc ds) v H I) as F. cbn [finish] in *. destruct (sv_runs s); [|reflexivity].
  destruct (unwind _ _) as [l [w|]]; [reflexivity|discriminate F].
Qed.
Print Assumptions C117_interceptor_refuted.

(** The error a group would be told of is never delivered. *)
Theorem C117_error_refuted : forall v,
  ~ In (Sent (text v)) (fst (dg_done (Some v))) /\ ~ In (Sent (text v)) (fst (ldg_done (Some v))).
Proof.
  intros v. split.
  - destruct (ours_again dg_done v) as (l & w & E & S & _); [unfold ours; tauto|]. rewrite E. exact S.
  - destruct (ours_again ldg_done v) as (l & w & E & S & _); [unfold ours; tauto|]. rewrite E. exact S.
Qed.
Print Assumptions C117_error_refuted.

Theorem C117_refuted : ~ guarded.
Proof.
  intros [H _]. specialize (H server_new (JGo [g_recover false]) (Some oops)).
  assert (Forall ours [g_recover false]) as O by (apply Forall_cons; [unfold ours; tauto|apply Forall_nil]).
  specialize (H O). discriminate H; [discriminate|reflexivity].
Qed.
Print Assumptions C117_refuted.

(** Of the guards only gin's ends panics. *)
Theorem C117_gin : contains_all gin_recovery /\ ~ contains_all (g_recover true) /\ ~ contains_all dg_done.
Proof.
  split; [intros v; reflexivity|]. split; intros H; specialize (H oops); discriminate H.
Qed.
Print Assumptions C117_gin.

(** A guarded panic is in the log, a function given to [Recover] is told of it, and a worker
    is counted as done exactly once, however it ends. *)
Theorem C117_told : forall ds v, Forall ours ds -> ds <> [] ->
  In (Logged (text v)) (fst (unwind ds (Some v))) /\ In (Called (text v)) (fst (g_recover true (Some v))).
Proof.
  intros ds v H N0. split; [|left; reflexivity]. destruct ds as [|d ds]; [congruence|]. inversion H; subst.
  assert (I : In (Logged (text v)) (fst (d (Some v)))).
  { destruct H2 as [ -> | [ -> | [ -> | -> ] ] ]; cbn; tauto. }
  cbn [unwind]. destruct (d (Some v)) as [l q]. destruct (unwind ds q). cbn [fst] in *. apply in_or_app. left. exact I.
Qed.
Print Assumptions C117_told.

Definition counts (l : list effect) : nat :=
  List.length (filter (fun e => match e with Counted => true | _ => false end) l).
Theorem C117_counted : forall p, counts (fst (dg_done p)) = 1 /\ counts (fst (ldg_done p)) = 1.
Proof. intros [v|]; split; reflexivity. Qed.
Print Assumptions C117_counted.

Example C117_told_case :
  unwind [g_recover true; dg_done] (Some oops) =
  ([Called (text oops); Logged (text oops); Counted; Logged (text oops); Logged (text oops)], Some (PEntry (text oops))).
Proof. reflexivity. Qed.
