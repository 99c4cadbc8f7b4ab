(** Properties of a data server's drives (C70). *)
From Verif Require Import Str_Model Drive_Model Drive_Spec Drive_Proofs.
From stdpp Require Import gmap.
Local Open Scope list_scope.
Local Open Scope N_scope.

Definition dr (mp : str) (free : N) : driver := mk_driver mp free 100.
Definition drv_a : driver := dr (s2l "/a"%string) 50.
Definition drv_b : driver := dr (s2l "/b"%string) 20.
Definition drv_c : driver := dr (s2l "/c"%string) 90.

(** ** The list *)

(** After an update the list is that of the mounted, allowed drives the system can tell
    the space of, with this space. *)
Theorem C70_update : forall inc exc stat mps old d,
  d ∈ update inc exc stat (Some mps) old <->
  d_mp d ∈ mps /\ allowed inc exc (d_mp d) /\ stat (d_mp d) = Some (d_free d, d_total d).
Proof. intros inc exc stat mps old d. apply list_drives_iff. Qed.
Print Assumptions C70_update.

(** When the mount points cannot be listed the list stays. *)
Theorem C70_failed_update : forall inc exc stat old, update inc exc stat None old = old.
Proof. reflexivity. Qed.
Print Assumptions C70_failed_update.

Example C70_update_case : update [] [s2l "/b"%string] (fun _ => Some (7, 100)) (Some [s2l "/a"%string; s2l "/b"%string]) [drv_c] =
  [dr (s2l "/a"%string) 7] /\
  allowed [] [s2l "/b"%string] (s2l "/a"%string) /\ ~ allowed [] [s2l "/b"%string] (s2l "/b"%string).
Proof.
  split; [vm_compute; reflexivity|]. rewrite <- !permitted_allowed. split; [vm_compute; reflexivity|vm_compute; discriminate].
Qed.

(** ** The choice *)

(** One request at a time: a drive with most space is taken and the list keeps its drives. *)
Theorem C70_choice : forall l, l <> [] ->
  exists d l', select_first l = (Some d, l') /\ most_space l d /\ l' ≡ₚ l /\
    forall fallback, fst (select_mp fallback l) = d_mp d.
Proof.
  intros l N. destruct (select_first_some l N) as (d & l' & E). exists d, l'. split; [exact E|].
  destruct (select_first_most l d l' E) as [M P]. split; [exact M|]. split; [exact P|].
  intros fb. unfold select_mp. rewrite E. reflexivity.
Qed.
Print Assumptions C70_choice.

Example C70_choice_case : select_first [drv_c; drv_a; drv_b] = (Some drv_c, [drv_b; drv_a; drv_c]) /\
  select_mp (s2l "/base"%string) [] = (s2l "/base"%string, []).
Proof. vm_compute. split; reflexivity. Qed.

(** A request that is alone makes these steps: comparing, loading, storing. *)
Theorem C70_alone : forall l, exists n,
  mrun (replicate n 0%nat) (l, [tstart]) = (snd (select_first l), [TDone (fst (select_first l))]).
Proof. exact alone_select. Qed.
Print Assumptions C70_alone.

(** Whatever requests do at the same time, the drive taken is one of the list. *)
Theorem C70_choice_genuine : forall l n ks t d,
  t ∈ snd (mrun ks (l, replicate n tstart)) -> t = TDone (Some d) -> d ∈ l.
Proof.
  intros l n ks t d T ->. destruct (mrun_genuine l ks _ (start_genuine l n)) as [_ G].
  apply (G _ d T). cbn. apply elem_of_list_singleton. reflexivity.
Qed.
Print Assumptions C70_choice_genuine.

(** Two requests, the first in between the loads of the second. *)
Definition race : list nat := [0; 1; 1; 0; 0; 0; 0; 1; 1; 1; 0; 0; 0; 0; 1; 1; 1; 1]%nat.

(** Full statement: requests at the same time keep the list.
[forall l n ks, fst (mrun ks (l, replicate n tstart)) ≡ₚ l, once all are done.]
    Two requests sorting the same list lose a drive; its files are not found then. *)
Theorem C70_race_refuted : exists l ks d path,
  let arr := fst (mrun ks (l, replicate 2 tstart)) in
  snd (mrun ks (l, replicate 2 tstart)) = [TDone (Some drv_a); TDone (Some drv_a)] /\
  d ∈ l /\ d ∉ arr /\
  find_path (fun p => if bool_decide (p = d_mp d ++ path) then SThere else SAbsent) l path = Some (d_mp d ++ path) /\
  find_path (fun p => if bool_decide (p = d_mp d ++ path) then SThere else SAbsent) arr path = None.
Proof.
  exists [drv_a; drv_b], race, drv_b, (s2l "/storage/x.0"%string).
  assert (mrun race ([drv_a; drv_b], replicate 2 tstart) = ([drv_a; drv_a], [TDone (Some drv_a); TDone (Some drv_a)])) as E
    by (vm_compute; reflexivity).
  rewrite E. cbn [fst snd]. split; [reflexivity|]. split; [right; left|].
  split; [|split; vm_compute; reflexivity].
  intros H. apply elem_of_cons in H as [H|H]; [discriminate H|]. apply elem_of_list_singleton in H. discriminate H.
Qed.
Print Assumptions C70_race_refuted.

(** ** The weighted choice *)

(** Full statement: every selection takes a drive with most space not yet spoken for.
[forall f ls w, each_most f w ls.]
    Missing: drives whose space changes between selections, full drives. *)
Theorem C70_weighted_partial : forall f l n, 2 <= f -> f < two64 -> sensible l ->
  (forall d, d ∈ l -> d_free d + f < two64) -> each_most f (fun _ => 0) (replicate n l).
Proof. intros f l n F1 F2 S B. apply each_most_steady; try assumption. intros d _. lia. Qed.
Print Assumptions C70_weighted_partial.

Example C70_weighted_case : sensible [drv_a; drv_b; drv_c] /\ (forall d, d ∈ [drv_a; drv_b; drv_c] -> d_free d + 30 < two64) /\
  fst (selections 30 (fun _ => 0) (replicate 5 [drv_a; drv_b; drv_c])) = [drv_c; drv_c; drv_a; drv_c; drv_a].
Proof.
  split; [|split; [|vm_compute; reflexivity]].
  - assert (forall d, d ∈ [drv_a; drv_b; drv_c] -> d = drv_a \/ d = drv_b \/ d = drv_c) as C.
    { intros d H. apply elem_of_cons in H as [H|H]; [auto|]. apply elem_of_cons in H as [H|H]; [auto|].
      apply elem_of_list_singleton in H. auto. }
    split.
    + intros d D. apply C in D as [ -> |[ -> | -> ]]; vm_compute; split; reflexivity.
    + intros d d' D D'. apply C in D, D'. intros E.
      destruct D as [ -> |[ -> | -> ]]; destruct D' as [ -> |[ -> | -> ]]; (reflexivity || discriminate E).
  - intros d D. apply elem_of_cons in D as [ -> |D]; [reflexivity|]. apply elem_of_cons in D as [ -> |D]; [reflexivity|].
    apply elem_of_list_singleton in D as ->. reflexivity.
Qed.

(** A drive that filled up after something was set aside on it is taken by every later
    selection, however much space another has: the unsigned difference wraps. *)
Theorem C70_weighted_refuted : forall f n, 2 <= f -> f + 1 < two64 ->
  forall full free w, d_free full = 0 -> d_free free + 1 < two64 -> d_mp full <> d_mp free ->
  w (d_mp full) = 1 -> w (d_mp free) = 0 ->
  fst (selections f w (replicate n [full; free])) = replicate n full.
Proof. intros f n F1 F2 full free w E0 E1 N W1 W2. apply full_forever; assumption. Qed.
Print Assumptions C70_weighted_refuted.

(** From the start: the drive has space first, fills up, and is taken ever after. *)
Example C70_weighted_refuted_case :
  fst (selections 30 (fun _ => 0) ([drv_c; drv_a] :: replicate 4 [dr (s2l "/c"%string) 0; drv_a])) =
  drv_c :: replicate 4 (dr (s2l "/c"%string) 0).
Proof. vm_compute. reflexivity. Qed.

(** ** Finding a file *)

(** Full statement: a path that is found is there.
[forall stat l path p, find_path stat l path = Some p -> stat p = SThere.]
    Missing: drives on which looking fails otherwise than by absence. *)
Theorem C70_find_partial : forall stat l path, (forall d, d ∈ l -> stat (d_mp d ++ path) <> SError) ->
  (forall p, find_path stat l path = Some p -> stat p = SThere /\ exists d, d ∈ l /\ p = d_mp d ++ path) /\
  ((exists d, d ∈ l /\ stat (d_mp d ++ path) = SThere) -> exists p, find_path stat l path = Some p).
Proof.
  intros stat l path E. split; [intros p; apply find_path_iff; exact E|].
  intros (d & D & S). apply (find_path_complete stat l path d D S).
Qed.
Print Assumptions C70_find_partial.

Example C70_find_case :
  find_path (fun p => if bool_decide (p = s2l "/b/x"%string) then SThere else SAbsent) [drv_a; drv_b; drv_c] (s2l "/x"%string)
  = Some (s2l "/b/x"%string).
Proof. vm_compute. reflexivity. Qed.

(** A drive that answers with an error hides the file on the next. *)
Theorem C70_find_refuted : exists stat l path p,
  find_path stat l path = Some p /\ stat p = SError /\ exists d, d ∈ l /\ stat (d_mp d ++ path) = SThere.
Proof.
  exists (fun p => if bool_decide (p = s2l "/b/x"%string) then SThere else SError), [drv_a; drv_b], (s2l "/x"%string),
    (s2l "/a/x"%string).
  split; [vm_compute; reflexivity|]. split; [vm_compute; reflexivity|]. exists drv_b. split; [right; left|vm_compute; reflexivity].
Qed.
Print Assumptions C70_find_refuted.
