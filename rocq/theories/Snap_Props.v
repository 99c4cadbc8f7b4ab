From Coq Require Import List Bool Arith NArith ZArith String Lia.
From Verif Require Import Snap_Model Snap_Spec Snap_Proofs.
From Verif Require Meta_Model Meta_Spec Meta_Log.
Import ListNotations.
Local Open Scope list_scope.
Local Notation length := List.length.

(** ** C172: a metadata server can always be started again, and bring others up to date

    In full: whatever happens while snapshots are written, what is on disk is enough for the process
    to start again and for a server that has nothing to be brought up to date.  It holds as long as
    the database can be read for a snapshot. *)

(** An attempt counts as a snapshot exactly if there is one. *)
(** Partial.  Full statement: Whatever fails while snapshots are written, the snapshots and log
    entries on disk are enough for the process to start again and for a server without anything to
    be brought up to date.  It fails in general: [C172_taken_refuted], [C172_lost_refuted].
    Refuted: if WriteTo fails reading, Persist returns the nil of sink.Cancel; the library counts a
    snapshot that is not there and drops entries, and every later start panics. *)
Theorem C172_taken_partial : forall c gz fin, c <> CopyRead -> fst (taken c gz fin) = snd (taken c gz fin).
Proof. exact taken_kept. Qed.
Print Assumptions C172_taken_partial.

(** It is there exactly if nothing failed. *)
Theorem C172_kept : forall c gz fin, snd (taken c gz fin) = true <-> c = CopyOk /\ gz = true /\ fin = true.
Proof. intros [| |] [|] [|]; cbn; split; try discriminate; try (intros (A & B & C); discriminate); auto. Qed.
Print Assumptions C172_kept.

Example C172_taken_case : taken CopyOk true true = (true, true) /\ taken CopyWrite true true = (false, false) /\ taken CopyOk false true = (false, false).
Proof. repeat split; reflexivity. Qed.

(** Partial; the full statement is at [C172_taken_partial]. *)
Theorem C172_starts_partial : forall E D (step : D -> E -> D) trailing d vs, Forall readable vs ->
  let n := run step trailing (init d) vs in
  recoverable n /\ (forall oks, hd true oks = true -> n_phase (start n oks) = Up).
Proof.
  intros E D step trailing d vs F n.
  assert (R : recoverable n) by (apply recoverable_run; [apply inv_init|exact F|left; reflexivity]).
  split; [exact R|]. intros oks H. exact (starts E D n oks R H).
Qed.
Print Assumptions C172_starts_partial.

(** Three entries, two snapshots and a third that the disk did not take; one entry is kept behind. *)
Definition some_events : list (event nat) :=
  [EAppend 1; EAppend 2; EApply; EBegin; EAppend 3; EPersist CopyOk true true; EApply; EBegin; EPersist CopyOk true true;
   EApply; EBegin; EPersist CopyWrite true true; EApply].
Definition sum : nat -> nat -> nat := fun d e => 10 * d + e.

Example C172_starts_case :
  Forall readable some_events /\
  let n := run sum 1 (init 0) (some_events ++ [ECrash]) in
  n_first n = 2 /\ n_snaps n = [Snap 2 12; Snap 1 1] /\
  let m := run sum 1 n [EStart [true]; EApply] in (n_phase m, n_data m, n_applied m) = (Up, 123, 3).
Proof. split; [repeat (constructor; [exact I|]); constructor|]. vm_compute. repeat split; reflexivity. Qed.

(** A database that cannot be read for a snapshot (the file cannot be opened, say): [Persist] answers
    what [Cancel] answers, the library counts a snapshot that is not there and drops the entries it
    would hold. *)
Theorem C172_taken_refuted : forall gz, taken CopyRead gz true = (true, false).
Proof. intros gz. reflexivity. Qed.
Print Assumptions C172_taken_refuted.

(** The newest snapshot, 0 if there is none. *)
Definition newest {E D : Type} (n : node E D) : nat := fold_right (fun s m => Nat.max (sn_index s) m) 0 (n_snaps n).

Local Lemma newest_in {E D : Type} (n : node E D) s : In s (n_snaps n) -> sn_index s <= newest n.
Proof.
  unfold newest. induction (n_snaps n) as [|x r IH]; [intros []|]. intros [H|H]; cbn [fold_right]; [subst; lia|]. specialize (IH H). lia.
Qed.

(** From then on the process cannot be started any more, whatever is tried: every start ends with the
    panic of raft_impl.go 58; nor can others be brought up to date. *)
Theorem C172_lost_refuted : forall E D (step : D -> E -> D) trailing (n : node E D) gz,
  n_phase n = Up -> n_taking n = None -> n_last n < n_applied n -> n_applied n <= length (n_log n) ->
  newest n < n_applied n -> newest n < length (n_log n) - trailing ->
  let m := run step trailing n [EBegin; EPersist CopyRead gz true] in
  n_phase m = Up /\ n_data m = n_data n /\ n_log m = n_log n /\ ~ recoverable m /\
  forall tries, tries <> [] -> n_phase (run step trailing m (ECrash :: map EStart tries)) = Broken.
Proof.
  intros E D step trailing n gz P Tk L A N1 N2 m.
  assert (Hm : m = Node (n_log n) (Nat.max (n_first n) (Nat.min (n_applied n) (length (n_log n) - trailing))) (n_snaps n) (n_data n)
                 (n_applied n) (n_applied n) None Up).
  { unfold m, run. cbn [fold_left]. unfold happen at 2. rewrite P, Tk. replace (n_applied n <=? n_last n) with false by (symmetry; apply Nat.leb_gt; exact L).
    unfold happen. cbn [n_phase n_taking]. rewrite C172_taken_refuted. cbn [sn_index n_log n_snaps n_data n_applied]. unfold compact. cbn [n_log n_first].
    replace (length (n_log n) <=? trailing) with false by (symmetry; apply Nat.leb_gt; lia). reflexivity. }
  rewrite Hm. clear m Hm. set (first := Nat.max (n_first n) (Nat.min (n_applied n) (length (n_log n) - trailing))).
  assert (Hf : newest n < first) by (unfold first; lia). clearbody first.
  assert (Hlen : newest n < length (n_log n)) by lia.
  cbn [n_phase n_data n_log]. split; [reflexivity|]. split; [reflexivity|]. split; [reflexivity|]. split.
  - intros [R|(s & r & Es & R)]; cbn [n_first n_snaps] in *; [lia|]. assert (In s (n_snaps n)) as Hs by (rewrite Es; left; reflexivity).
    apply newest_in in Hs. lia.
  - assert (One : forall (x : node E D) oks, n_snaps x = n_snaps n -> n_first x = first -> n_log x = n_log n ->
              n_phase (start x oks) = Broken).
    { intros x oks H1 H2 H3. unfold start. rewrite H1, H2, H3. destruct (n_snaps n) as [|s r] eqn:Q.
      - replace (first <=? 0) with false by (symmetry; apply Nat.leb_gt; lia).
        replace (length (n_log n) <=? 0) with false by (symmetry; apply Nat.leb_gt; lia). reflexivity.
      - rewrite <- Q in *. destruct (pick (n_snaps n) oks) as [s'|] eqn:Pk; [|reflexivity]. apply pick_in in Pk. apply newest_in in Pk.
        replace (first <=? sn_index s') with false by (symmetry; apply Nat.leb_gt; lia).
        replace (length (n_log n) <=? sn_index s') with false by (symmetry; apply Nat.leb_gt; lia). reflexivity. }
    assert (All : forall tries (x : node E D), n_snaps x = n_snaps n -> n_first x = first -> n_log x = n_log n ->
              n_phase x = Down \/ n_phase x = Broken -> tries <> [] -> n_phase (run step trailing x (map EStart tries)) = Broken).
    { induction tries as [|oks tries IH]; intros x H1 H2 H3 Hp Ne; [congruence|]. cbn [map]. unfold run. cbn [fold_left].
      assert (Hs : happen step trailing x (EStart oks) = start x oks) by (unfold happen; destruct Hp as [-> | ->]; reflexivity).
      rewrite Hs. destruct tries as [|o2 tries]; [cbn [map fold_left]; apply One; assumption|].
      destruct (start_disk E D x oks) as (D1 & D2 & D3). apply (IH (start x oks)); [congruence|congruence|congruence|right; apply One; assumption|discriminate]. }
    intros tries Ne. unfold run. cbn [fold_left]. unfold happen at 2. cbn [n_phase n_log n_first n_snaps n_data].
    apply All; try reflexivity; [left; reflexivity|exact Ne].
Qed.
Print Assumptions C172_lost_refuted.

Example C172_lost_case :
  let n := run sum 1 (init 0) [EAppend 1; EAppend 2; EApply; EApply] in
  n_phase n = Up /\ n_taking n = None /\ n_last n < n_applied n /\ n_applied n <= length (n_log n) /\
  newest n < n_applied n /\ newest n < length (n_log n) - 1 /\
  n_phase (run sum 1 n [EBegin; EPersist CopyRead true true; ECrash; EStart []]) = Broken.
Proof. vm_compute. repeat split; lia. Qed.

(** ** C173: after a restart the data is that of the entries applied

    In full: however a metadata server is stopped and started, its data is that of the entries it has
    applied.  It holds if every start finds a snapshot, or the database as it was at first; without
    a snapshot the entries are applied to what they made before (C21). *)

(** Partial.  Full statement: However a metadata server is stopped and started, its data is that of
    the entries applied so far, and every snapshot holds exactly the entries up to its number.  It
    fails in general: [C173_metadata_refuted]. *)
Theorem C173_exact_partial : forall E D (step : D -> E -> D) trailing d vs,
  starts_from step trailing d (init d) vs ->
  let n := run step trailing (init d) vs in n_phase n = Up -> exact step d n.
Proof.
  intros E D step trailing d vs S1 n. apply (holds_run E D step trailing d vs (init d)); [apply inv_init|apply holds_init|exact S1].
Qed.
Print Assumptions C173_exact_partial.

(** Every snapshot holds the entries up to its number. *)
Theorem C173_snapshot : forall E D (step : D -> E -> D) trailing d vs,
  starts_from step trailing d (init d) vs ->
  forall s, In s (n_snaps (run step trailing (init d) vs)) ->
  sn_data s = after step d (n_log (run step trailing (init d) vs)) (sn_index s) /\ sn_index s <= length (n_log (run step trailing (init d) vs)).
Proof.
  intros E D step trailing d vs S1 s Hs. split.
  - exact (proj1 (holds_run E D step trailing d vs (init d) (inv_init E D d) (holds_init E D step d) S1) s Hs).
  - exact (proj1 (proj2 (proj2 (inv_run E D step trailing vs _ (inv_init E D d)))) s Hs).
Qed.
Print Assumptions C173_snapshot.

Example C173_case :
  let vs := some_events ++ [ECrash; EStart [true]; EApply; EAppend 4; ECrash; EStart [true]; EApply; EApply] in
  starts_from sum 1 0 (init 0) vs /\
  let n := run sum 1 (init 0) vs in (n_phase n, n_data n, n_log n) = (Up, 1234, [1; 2; 3; 4]).
Proof.
  cbv zeta. split; [|vm_compute; reflexivity]. cbn [starts_from app some_events]. repeat (split; [exact I|]). split; [left; vm_compute; discriminate|].
  repeat (split; [exact I|]). split; [left; vm_compute; discriminate|]. repeat split.
Qed.

(** Without a snapshot: if applying an entry of the log again changes nothing, restarts change nothing. *)
(** Partial; the full statement is at [C173_exact_partial]. *)
Theorem C173_again_partial : forall E D (step : D -> E -> D) trailing (n : node E D) vs,
  n_snaps n = [] -> (forall e, In e (n_log n) -> step (n_data n) e = n_data n) ->
  Forall (fun v => v = EApply \/ v = ECrash \/ exists oks, v = EStart oks) vs ->
  n_data (run step trailing n vs) = n_data n /\ n_log (run step trailing n vs) = n_log n.
Proof.
  intros E D step trailing n vs S1 Ab F. revert n S1 Ab. induction F as [|v vs Hv F IH]; intros n S1 Ab; [split; reflexivity|].
  assert (K : n_snaps (happen step trailing n v) = [] /\ n_data (happen step trailing n v) = n_data n /\ n_log (happen step trailing n v) = n_log n).
  { destruct Hv as [-> | [-> | (oks & ->)]]; unfold happen.
    - destruct (n_phase n); [|repeat split; assumption + reflexivity|repeat split; assumption + reflexivity].
      destruct (nth_error (n_log n) (n_applied n)) as [e|] eqn:Q; [|repeat split; assumption + reflexivity].
      cbn [n_snaps n_data n_log]. apply nth_error_In in Q. rewrite (Ab e Q). repeat split; assumption + reflexivity.
    - destruct (n_phase n); cbn [n_snaps n_data n_log]; repeat split; assumption + reflexivity.
    - destruct (n_phase n); [repeat split; assumption + reflexivity| |]; unfold start; rewrite S1; destruct (_ || _); cbn [n_snaps n_data n_log]; repeat split; reflexivity. }
  destruct K as (K1 & K2 & K3). unfold run. cbn [fold_left]. destruct (IH (happen step trailing n v) K1) as (A & B).
  - rewrite K2, K3. exact Ab.
  - split; [etransitivity; [exact A|exact K2]|etransitivity; [exact B|exact K3]].
Qed.
Print Assumptions C173_again_partial.

(** [Apply] of the metadata server (Meta_Model) as the step, and its life until all of a log is
    applied. *)
Definition meta_step (d : Meta_Model.db) (c : Meta_Spec.call) : Meta_Model.db := fst (Meta_Model.dispatch (Meta_Spec.command true c) d).
Definition grown (cs : list Meta_Spec.call) : list (event Meta_Spec.call) := map EAppend cs ++ repeat EApply (length cs).

Local Lemma grown_run trailing cs d (n : node Meta_Spec.call Meta_Model.db) : n_phase n = Up -> n_applied n = length (n_log n) -> n_data n = d ->
  let m := run meta_step trailing n (grown cs) in
  n_phase m = Up /\ n_snaps m = n_snaps n /\ n_log m = n_log n ++ cs /\ n_data m = Meta_Spec.apply_log d cs.
Proof.
  intros P A Dd. unfold grown. rewrite run_app.
  assert (H1 : run meta_step trailing n (map EAppend cs) =
               Node (n_log n ++ cs) (n_first n) (n_snaps n) (n_data n) (n_applied n) (n_last n) (n_taking n) Up).
  { clear A Dd d. revert n P. induction cs as [|c cs IH]; intros n P; cbn [map].
    - rewrite app_nil_r. destruct n; cbn in *. subst. reflexivity.
    - unfold run. cbn [fold_left]. specialize (IH (happen meta_step trailing n (EAppend c))). unfold run in IH. rewrite IH.
      + unfold happen. rewrite P. cbn [n_log n_first n_snaps n_data n_applied n_last n_taking n_phase]. rewrite <- app_assoc. reflexivity.
      + unfold happen. rewrite P. reflexivity. }
  rewrite H1. clear H1. rewrite <- Dd. rewrite A. generalize (n_log n) (n_first n) (n_snaps n) (n_data n) (n_last n) (n_taking n). clear n P A Dd d.
  intros l f sn d la tk. revert l d. induction cs as [|c cs IH]; intros l d; cbn [length repeat].
  - repeat split; reflexivity.
  - unfold run. cbn [fold_left].
    assert (St : happen meta_step trailing (Node (l ++ c :: cs) f sn d (length l) la tk Up) EApply =
                 Node (l ++ c :: cs) f sn (meta_step d c) (S (length l)) la tk Up).
    { unfold happen. cbn [n_phase n_log n_applied n_data n_first n_snaps n_last n_taking].
      rewrite nth_error_app2, Nat.sub_diag by lia. reflexivity. }
    specialize (IH (l ++ [c]) (meta_step d c)). rewrite <- app_assoc in IH. cbn [app] in IH. rewrite app_length in IH. cbn [length] in IH.
    rewrite Nat.add_1_r in IH. rewrite St. exact IH.
Qed.

(** The log of calls that find what they are about: restarts without a snapshot change nothing. *)
(** Partial; the full statement is at [C173_exact_partial]. *)
Theorem C173_metadata_partial : forall trailing cs vs, Meta_Spec.all_on_target Meta_Model.db_empty cs -> (N.of_nat (length cs) < 2 ^ 64)%N ->
  (forall u, Meta_Spec.adds_uid cs u -> ~ Meta_Spec.adds_hash cs u) ->
  Forall (fun v => v = EApply \/ v = ECrash \/ exists oks, v = EStart oks) vs ->
  n_data (run meta_step trailing (init Meta_Model.db_empty) (grown cs ++ vs)) = Meta_Spec.apply_log Meta_Model.db_empty cs.
Proof.
  intros trailing cs vs T L U F. rewrite run_app.
  destruct (grown_run trailing cs Meta_Model.db_empty (init Meta_Model.db_empty) eq_refl eq_refl eq_refl) as (P & S1 & Lg & Dd).
  destruct (C173_again_partial _ _ meta_step trailing _ vs S1) with (2 := F) as (A & _); [|rewrite A; exact Dd].
  rewrite Lg, Dd. cbn [init n_log app]. intros e He.
  pose proof (Meta_Log.replay cs [e] T L U) as R. cbn in R. apply R.
  intros c Hc. apply stdpp.base.elem_of_list_In in Hc. destruct Hc as [<-|[]]. apply stdpp.base.elem_of_list_In. exact He.
Qed.
Print Assumptions C173_metadata_partial.

Definition some_id : Str_Model.str := Str_Model.s2l "obj"%string.
Definition some_meta : Meta_Model.metadata := Meta_Model.mk_metadata some_id (Str_Model.s2l "b"%string) 1%Z 1%Z.
Definition some_version (uid : Str_Model.str) : Meta_Model.version :=
  Meta_Model.mk_version false 1%Z 4%Z 2%Z 0%Z 10%Z 1%Z 0%N (Str_Model.s2l "h"%string) uid [].

Example C173_metadata_case :
  let cs := [Meta_Spec.AddMetadata some_id some_meta; Meta_Spec.AddVersion some_id (some_version (Str_Model.s2l "u"%string))] in
  Meta_Spec.all_on_target Meta_Model.db_empty cs /\ (forall u, Meta_Spec.adds_uid cs u -> ~ Meta_Spec.adds_hash cs u) /\
  Meta_Model.get_ver some_id 1%N (n_data (run meta_step 1 (init Meta_Model.db_empty) (grown cs ++ [ECrash; EStart []; EApply; EApply]))) =
    Some (Meta_Model.with_seq 1%N (some_version (Str_Model.s2l "u"%string))).
Proof.
  cbv zeta. split; [|split].
  - cbn [Meta_Spec.all_on_target]. split; [exact I|]. split; [vm_compute; discriminate|exact I].
  - intros u (id & v & A & B) (id' & v' & A' & B'). apply stdpp.base.elem_of_list_In in A, A'.
    destruct A as [A|[A|[]]]; [discriminate A|]. destruct A' as [A'|[A'|[]]]; [discriminate A'|].
    injection A as _ <-. injection A' as _ <-. subst u. discriminate B'.
  - vm_compute. reflexivity.
Qed.

(** Missing: an object removed and created again.  After a restart without a snapshot its versions have
    other numbers; after one with a snapshot (C173_exact_partial) they have not. *)
Theorem C173_metadata_refuted : exists cs id k,
  let n := run meta_step 1 (init Meta_Model.db_empty) (grown cs) in
  let m := run meta_step 1 n ([ECrash; EStart []] ++ repeat EApply (length cs)) in
  n_phase n = Up /\ n_phase m = Up /\ n_applied m = n_applied n /\
  Meta_Model.get_ver id k (n_data m) <> Meta_Model.get_ver id k (n_data n) /\
  let s := run meta_step 1 n ([EBegin; EPersist CopyOk true true; ECrash; EStart []] ++ repeat EApply (length cs)) in
  n_phase s = Up /\ Meta_Model.get_ver id k (n_data s) = Meta_Model.get_ver id k (n_data n).
Proof.
  exists [Meta_Spec.AddMetadata some_id some_meta; Meta_Spec.AddVersion some_id (some_version (Str_Model.s2l "u"%string));
          Meta_Spec.RemoveMetadata some_id;
          Meta_Spec.AddMetadata some_id some_meta; Meta_Spec.AddVersion some_id (some_version (Str_Model.s2l "w"%string))], some_id, 1%N.
  vm_compute. repeat split; discriminate.
Qed.
Print Assumptions C173_metadata_refuted.
