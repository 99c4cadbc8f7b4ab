From Coq Require Import List Bool Arith Lia.
From Verif Require Import Seek_Model Seek_Spec Seek_Proofs.
Import ListNotations.

(** * C186: data servers answer what they are asked *)

(** Whatever happens, a server answers a question at most once, only questions that were
    put, and only for pieces it stores. *)
Theorem C186_once : forall holds es, let st := run (start holds) es in
  NoDup (st_answers st) /\
  forall s m, In (s, m) (st_answers st) -> In m (st_asked st) /\ about st holds s m.
Proof.
  intros holds es st. assert (K : ok holds st) by (apply ok_run, start_ok). split.
  - exact (answers_nodup holds st K).
  - intros s m H. split; [exact (answers_asked holds st s m K H)|]. destruct K as (_ & _ & _ & W). exact (proj2 (W s m H)).
Qed.
Print Assumptions C186_once.

(** Wanted: every server that stores a piece answers each question for it.  Proved when its
    watch stays open and its puts work: then the answer was put, or the question is still in
    its watch or being worked on.  Missing: watches that stop, see below. *)
Theorem C186_answers_partial : forall holds es s m, let st := run (start holds) es in
  s < length holds -> steady s es -> In m (st_asked st) -> about st holds s m ->
  In (s, m) (st_answers st) \/
  exists sv, nth_error (st_servers st) s = Some sv /\ (In m (sv_busy sv) \/ In m (sv_queue sv)).
Proof.
  intros holds es s m st L St Hin Ab. destruct (steady_inv holds s es L St) as (sv & H1 & _ & H3).
  specialize (H3 m Ab). fold st in H1, H3. unfold held in H3. apply cq_in in Hin.
  destruct (Nat.eq_dec (ca s m (st_answers st)) 0) as [Z|Z]; [|left; apply ca_in; lia].
  right. exists sv. split; [exact H1|]. destruct (Nat.eq_dec (cq m (sv_busy sv)) 0); [right|left]; apply cq_in; lia.
Qed.
Print Assumptions C186_answers_partial.

(** Then an object of which every piece lies on some server is found by every request that
    puts its questions and does not give up, once nobody has anything left to do. *)
(** Partial; the full statement is at [C186_answers_partial]. *)
Theorem C186_found_partial : forall holds es r q, let st := run (start holds) es in
  (forall s, s < length holds -> steady s es) -> patient r es -> quiet st ->
  nth_error (st_requests st) r = Some q ->
  (forall i, i < rq_shards q -> exists s, stores holds s (rq_obj q) i) ->
  outcome st r = Some true.
Proof. intros holds es r q st A B C D E. exact (found holds r es q A B C D E). Qed.
Print Assumptions C186_found_partial.

(** Two requests for two objects, three servers; the questions and answers overlap. *)
Local Definition three : list (list (nat * nat)) := [[(7, 0); (8, 1)]; [(7, 1); (8, 0)]; [(9, 0)]].
Local Definition two_requests : list event :=
  [Begin 7 2; Begin 8 2; Ask 0 true; Ask 1 true; Notice 1; Notice 0; Ask 0 true; Answer 0 0 true; Notice 1; Notice 1; Ask 1 true;
   Answer 1 1 true; Hear 0; Notice 0; Notice 0; Notice 0; Notice 1; Answer 1 0 true; Answer 1 0 true; Answer 1 0 true;
   Answer 0 2 true; Answer 0 0 true; Answer 0 0 true; Hear 0; Hear 0; Notice 2; Notice 2; Notice 2; Notice 2; Hear 1; Hear 1;
   Answer 2 0 true; Answer 2 0 true; Answer 2 0 true; Answer 2 0 true; Delete 0 true].

Example C186_nonvacuous : let st := run (start three) two_requests in
  (forall s, s < 3 -> steady s two_requests) /\ patient 0 two_requests /\ patient 1 two_requests /\ quiet st /\
  outcome st 0 = Some true /\ outcome st 1 = Some true /\ length (st_asked st) = 4 /\ length (st_answers st) = 4 /\
  (exists q, nth_error (st_requests st) 1 = Some q /\ rq_locates q = [Some 1; Some 0] /\
     forall i, i < rq_shards q -> exists s, stores three s (rq_obj q) i).
Proof.
  cbv zeta. split.
  { intros s _. split; [|intros j]; intros H; repeat (destruct H as [H|H]; [discriminate H|]); exact H. }
  split; [repeat split; intros H; repeat (destruct H as [H|H]; [discriminate H|]); exact H|].
  split; [repeat split; intros H; repeat (destruct H as [H|H]; [discriminate H|]); exact H|].
  split.
  { split; [intros sv H|intros q H]; vm_compute in H; repeat (destruct H as [<-|H]; [split; [reflexivity|reflexivity || discriminate]|]); destruct H. }
  repeat split.
  eexists. split; [vm_compute; reflexivity|]. split; [reflexivity|]. simpl. intros [|[|i]] L; [exists 1|exists 0|lia]; unfold stores; simpl; auto.
Qed.

(** While the watch of a data server is closed, questions pass it by, for it watches again
    from then on and not from where it stopped (locate.go 52-56).  So an object whose pieces
    are all stored, at servers that all watch, is not found however long one waits. *)
Theorem C186_stopped_refuted : exists holds es q, let st := run (start holds) es in
  patient 0 es /\ quiet st /\ (forall sv, In sv (st_servers st) -> sv_watch sv = true) /\
  nth_error (st_requests st) 0 = Some q /\ (forall i, i < rq_shards q -> exists s, stores holds s (rq_obj q) i) /\
  (forall s j, ~ In (Answer s j false) es) /\ outcome st 0 = None.
Proof.
  exists [[(7, 0)]; [(7, 1)]],
    [Begin 7 2; Stopped 1; Ask 0 true; Ask 0 true; Again 1; Notice 0; Notice 0; Answer 0 0 true; Answer 0 0 true; Hear 0],
    (mk_request 7 2 2 [] 1 [Some 0; None] Open).
  cbv zeta. split; [repeat split; intros H; repeat (destruct H as [H|H]; [discriminate H|]); exact H|].
  split.
  { split; [intros sv H|intros q H]; vm_compute in H; repeat (destruct H as [<-|H]; [split; [reflexivity|reflexivity || discriminate]|]); destruct H. }
  split; [intros sv H; vm_compute in H; repeat (destruct H as [<-|H]; [reflexivity|]); destruct H|].
  split; [reflexivity|]. split.
  { simpl. intros [|[|i]] L; [exists 0|exists 1|lia]; unfold stores; simpl; auto. }
  split; [intros s j H; repeat (destruct H as [H|H]; [discriminate H|]); exact H|]. reflexivity.
Qed.
Print Assumptions C186_stopped_refuted.

(** A request whose put fails waits for the answer all the same (object_service.go 76-79). *)
Theorem C186_unasked_refuted : exists holds es q, let st := run (start holds) es in
  (forall s, s < length holds -> steady s es) /\ quiet st /\ nth_error (st_requests st) 0 = Some q /\
  (forall i, i < rq_shards q -> exists s, stores holds s (rq_obj q) i) /\ outcome st 0 = None.
Proof.
  exists [[(7, 0)]], [Begin 7 1; Ask 0 false], (mk_request 7 1 1 [] 0 [None] Open).
  cbv zeta. split.
  { intros s _. split; [|intros j]; intros H; repeat (destruct H as [H|H]; [discriminate H|]); exact H. }
  split.
  { split; [intros sv H|intros q H]; vm_compute in H; repeat (destruct H as [<-|H]; [split; [reflexivity|reflexivity || discriminate]|]); destruct H. }
  split; [reflexivity|]. split; [|reflexivity].
  simpl. intros [|i] L; [exists 0|lia]; unfold stores; simpl; auto.
Qed.
Print Assumptions C186_unasked_refuted.

(** * C187: locating leaves nothing behind in etcd *)

(** Wanted: once a request has deleted its key, the key is not in etcd any more.  Proved for
    requests that found their object, if no piece of it lies on two servers, whatever else
    goes on and goes wrong.  Missing: requests that gave up, and pieces that lie on two
    servers; both leave keys behind, see below. *)
Theorem C187_clean_partial : forall holds es r q, let st := run (start holds) es in
  ~ In (Delete r false) es -> nth_error (st_requests st) r = Some q -> rq_phase q = Gone true ->
  apart holds (rq_obj q) (rq_shards q) -> ~ In r (st_keys st).
Proof. intros holds es r q st Nd. exact (clean holds r es q Nd). Qed.
Print Assumptions C187_clean_partial.

Example C187_clean_nonvacuous : let st := run (start three) two_requests in
  ~ In (Delete 0 false) two_requests /\
  (exists q, nth_error (st_requests st) 0 = Some q /\ rq_phase q = Gone true /\ apart three (rq_obj q) (rq_shards q) /\ rq_shards q = 2) /\
  st_keys st = [1; 1] /\ st_keys (step st (Delete 1 true)) = [].
Proof.
  cbv zeta. split; [intros H; repeat (destruct H as [H|H]; [discriminate H|]); exact H|]. split; [|split; reflexivity].
  eexists. split; [vm_compute; reflexivity|]. split; [reflexivity|]. split; [|reflexivity]. simpl.
  intros i s s' L H H'. unfold stores in H, H'.
  destruct s as [|[|[|s]]], s' as [|[|[|s']]]; simpl in H, H';
    repeat match goal with
    | X : _ \/ _ |- _ => destruct X
    | X : (_, _) = (_, _) |- _ => injection X as X; try discriminate
    | X : False |- _ => destruct X
    end; subst; try reflexivity; try discriminate; try (destruct s; contradiction); try (destruct s'; contradiction).
Qed.

(** The request gives up; a data server that was slower puts its answer after the key was
    deleted (object_service.go 71, 103-105, locate.go 92). *)
Theorem C187_late_refuted : exists holds es q, let st := run (start holds) es in
  (forall s, s < length holds -> steady s es) /\ ~ In (Delete 0 false) es /\ apart holds (rq_obj q) (rq_shards q) /\
  nth_error (st_requests st) 0 = Some q /\ rq_phase q = Gone false /\ In 0 (st_keys st).
Proof.
  exists [[(7, 0)]], [Begin 7 1; Ask 0 true; Notice 0; Late 0; Delete 0 true; Answer 0 0 true], (mk_request 7 1 1 [] 0 [None] (Gone false)).
  cbv zeta. split.
  { intros s _. split; [|intros j]; intros H; repeat (destruct H as [H|H]; [discriminate H|]); exact H. }
  split; [intros H; repeat (destruct H as [H|H]; [discriminate H|]); exact H|]. split.
  { intros i s s' L H H'. destruct s as [|[|s]], s' as [|[|s']]; unfold stores in *; simpl in *; tauto. }
  repeat split. left. reflexivity.
Qed.
Print Assumptions C187_late_refuted.

(** A piece lies on two servers, as after a repair or a migration: the second answer comes
    after the request succeeded. *)
Theorem C187_twice_refuted : exists holds es q, let st := run (start holds) es in
  (forall s, s < length holds -> steady s es) /\ patient 0 es /\ ~ In (Delete 0 false) es /\
  nth_error (st_requests st) 0 = Some q /\ rq_phase q = Gone true /\ In 0 (st_keys st).
Proof.
  exists [[(7, 0)]; [(7, 0)]], [Begin 7 1; Ask 0 true; Notice 0; Notice 1; Answer 0 0 true; Hear 0; Delete 0 true; Answer 1 0 true],
    (mk_request 7 1 1 [] 1 [Some 0] (Gone true)).
  cbv zeta. split.
  { intros s _. split; [|intros j]; intros H; repeat (destruct H as [H|H]; [discriminate H|]); exact H. }
  split; [repeat split; intros H; repeat (destruct H as [H|H]; [discriminate H|]); exact H|].
  split; [intros H; repeat (destruct H as [H|H]; [discriminate H|]); exact H|].
  repeat split. left. reflexivity.
Qed.
Print Assumptions C187_twice_refuted.

(** A key left behind stays for ever: nothing in the program deletes it. *)
Theorem C187_forever_refuted : forall st es r, deleted st r -> In r (st_keys st) -> In r (st_keys (run st es)).
Proof. intros st es r. exact (left_run es st r). Qed.
Print Assumptions C187_forever_refuted.

Example C187_forever_nonvacuous :
  let st := run (start [[(7, 0)]]) [Begin 7 1; Ask 0 true; Notice 0; Late 0; Delete 0 true; Answer 0 0 true] in
  deleted st 0 /\ In 0 (st_keys st).
Proof. cbv zeta. split; [eexists; exists false; split; [vm_compute; reflexivity|reflexivity]|left; reflexivity]. Qed.
