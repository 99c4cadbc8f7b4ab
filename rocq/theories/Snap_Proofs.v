From Coq Require Import List Bool Arith Lia.
From Verif Require Import Snap_Model Snap_Spec.
Import ListNotations.

Lemma taken_kept : forall c gz fin, c <> CopyRead -> fst (taken c gz fin) = snd (taken c gz fin).
Proof. intros [| |] [|] [|] H; try reflexivity; congruence. Qed.

Lemma run_app : forall {E D} (step : D -> E -> D) t n a b, run step t n (a ++ b) = run step t (run step t n a) b.
Proof. intros. apply fold_left_app. Qed.

Section Proofs.
  Variables E D : Type.
  Variable step : D -> E -> D.
  Variable trailing : nat.
  Notation node := (node E D).
  Notation happen := (happen step trailing).
  Notation run := (run step trailing).

  Lemma after_app : forall d (l : list E) e k, k <= length l -> after step d (l ++ [e]) k = after step d l k.
  Proof.
    intros d l e k H. unfold after. rewrite firstn_app. replace (k - length l) with 0 by lia. cbn [firstn].
    rewrite app_nil_r. reflexivity.
  Qed.

  Lemma firstn_snoc : forall {A} (l : list A) k e, nth_error l k = Some e -> firstn (S k) l = firstn k l ++ [e].
  Proof.
    induction l as [|x l IH]; intros [|k] e H; try discriminate H.
    - cbn in H. injection H as ->. reflexivity.
    - cbn [nth_error] in H. cbn [firstn app]. rewrite <- (IH k e H). reflexivity.
  Qed.

  Lemma after_step : forall d l k e, nth_error l k = Some e -> after step d l (S k) = step (after step d l k) e.
  Proof. intros d l k e H. unfold after. rewrite (firstn_snoc l k e H), fold_left_app. reflexivity. Qed.

  Lemma pick_in : forall (snaps : list (snap D)) oks s, pick snaps oks = Some s -> In s snaps.
  Proof.
    induction snaps as [|x r IH]; intros oks s H; [discriminate H|]. cbn [pick] in H.
    destruct oks as [|[|] oks]; [injection H as ->; left; reflexivity|injection H as ->; left; reflexivity|].
    right. exact (IH oks s H).
  Qed.

  Lemma insert_in : forall (s x : snap D) l, In x (insert s l) -> x = s \/ In x l.
  Proof.
    intros s x l. induction l as [|y r IH]; cbn [insert].
    - intros [H|[]]. left. symmetry. exact H.
    - destruct (_ <=? _).
      + intros [H|H]; [left; symmetry; exact H|right; exact H].
      + intros [H|H]; [right; left; exact H|]. destruct (IH H) as [K|K]; [left; exact K|right; right; exact K].
  Qed.

  Lemma firstn_in : forall {A} k (l : list A) x, In x (firstn k l) -> In x l.
  Proof.
    intros A k. induction k as [|k IH]; intros [|y l] x H; try contradiction. destruct H as [H|H]; [left; exact H|right; exact (IH l x H)].
  Qed.

  Lemma keep_in : forall (s x : snap D) l, In x (keep s l) -> x = s \/ In x l.
  Proof. intros s x l H. exact (insert_in s x l (firstn_in 2 _ x H)). Qed.

  Lemma keep_head : forall (s : snap D) l, exists h r, keep s l = h :: r /\ sn_index s <= sn_index h.
  Proof.
    intros s [|x r]; unfold keep; cbn [insert].
    - exists s, []. split; [reflexivity|lia].
    - destruct (sn_index x <=? sn_index s) eqn:H; cbn [firstn]; eexists _, _; (split; [reflexivity|]); [lia|].
      apply Nat.leb_gt in H. lia.
  Qed.

  (** ** What is on disk *)

  Definition in_log (n : node) (s : snap D) : Prop := sn_index s <= length (n_log n).

  Definition inv (n : node) : Prop :=
    n_applied n <= length (n_log n) /\ n_first n <= length (n_log n) /\
    (forall s, In s (n_snaps n) -> in_log n s) /\ (forall s, n_taking n = Some s -> in_log n s) /\
    (n_phase n = Up -> n_first n <= n_applied n) /\ (forall s, n_taking n = Some s -> n_first n <= sn_index s <= n_applied n) /\
    (n_phase n <> Up -> n_taking n = None).

  Lemma compact_le : forall (n : node) i, n_first n <= length (n_log n) -> compact trailing n i <= length (n_log n).
  Proof. intros n i H. unfold compact. destruct (_ <=? _); lia. Qed.
  Lemma compact_max : forall (n : node) i, n_first n <= compact trailing n i /\ compact trailing n i <= Nat.max (n_first n) i.
  Proof. intros n i. unfold compact. destruct (_ <=? _); lia. Qed.

  Lemma inv_start : forall (n : node) oks, inv n -> inv (start n oks).
  Proof.
    intros n oks (A & B & S1 & _). unfold start.
    set (from := match n_snaps n with [] => _ | _ => _ end).
    assert (K : forall d i, from = Some (d, i) -> i <= length (n_log n)).
    { intros d i. unfold from. destruct (n_snaps n) as [|x r] eqn:Q; [intros H; injection H as _ <-; lia|]. rewrite <- Q in *.
      destruct (pick (n_snaps n) oks) as [s|] eqn:P; [|discriminate]. intros H. injection H as _ <-. exact (S1 s (pick_in _ _ _ P)). }
    destruct from as [[d i]|].
    - specialize (K d i eq_refl). destruct (_ || _) eqn:L.
      + apply orb_prop in L. assert (Q : n_first n <= i) by (destruct L as [L|L]; apply Nat.leb_le in L; lia).
        unfold inv, in_log. cbn [n_log n_first n_snaps n_data n_applied n_last n_taking n_phase].
        split; [exact K|]. split; [exact B|]. split; [exact S1|]. split; [discriminate|]. split; [intros _; exact Q|]. split; discriminate + reflexivity.
      + unfold inv, in_log. cbn [n_log n_first n_snaps n_data n_applied n_last n_taking n_phase].
        split; [lia|]. split; [exact B|]. split; [exact S1|]. split; [discriminate|]. split; [discriminate|]. split; [discriminate|reflexivity].
    - unfold inv, in_log. cbn [n_log n_first n_snaps n_data n_applied n_last n_taking n_phase].
      split; [lia|]. split; [exact B|]. split; [exact S1|]. split; [discriminate|]. split; [discriminate|]. split; [discriminate|reflexivity].
  Qed.

  Lemma inv_crash : forall n : node, inv n ->
    inv (Node (n_log n) (n_first n) (n_snaps n) (n_data n) 0 0 None Down).
  Proof.
    intros n (A & B & S1 & _). unfold inv, in_log. cbn [n_log n_first n_snaps n_data n_applied n_last n_taking n_phase].
    split; [lia|]. split; [exact B|]. split; [exact S1|]. split; [discriminate|]. split; [discriminate|]. split; [discriminate|reflexivity].
  Qed.

  Lemma inv_happen : forall (n : node) v, inv n -> inv (happen n v).
  Proof.
    intros n v I. unfold Snap_Model.happen. destruct (n_phase n) eqn:P; destruct v as [e| | |c gz fin| |oks];
      try exact I; try exact (inv_start n oks I); try exact (inv_crash n I);
      destruct I as (A & B & S1 & T1 & F1 & G1 & U1).
    - unfold inv, in_log in *. cbn [n_log n_first n_snaps n_data n_applied n_last n_taking n_phase]. rewrite app_length. cbn [length].
      split; [lia|]. split; [lia|]. split; [intros s H; specialize (S1 s H); lia|]. split; [intros s H; specialize (T1 s H); lia|].
      split; [intros _; exact (F1 P)|]. split; [exact G1|congruence].
    - destruct (nth_error (n_log n) (n_applied n)) as [e|] eqn:Q; [|split; [exact A|]; repeat (split; [assumption|]); exact U1].
      assert (L : n_applied n < length (n_log n)) by (apply nth_error_Some; congruence). specialize (F1 P).
      unfold inv, in_log in *. cbn [n_log n_first n_snaps n_data n_applied n_last n_taking n_phase].
      split; [lia|]. split; [exact B|]. split; [exact S1|]. split; [exact T1|]. split; [intros _; lia|]. split; [intros s H; specialize (G1 s H); lia|congruence].
    - destruct (n_taking n) eqn:Tk; [split; [exact A|]; rewrite Tk; repeat (split; [assumption|]); exact U1|].
      destruct (_ <=? _); [split; [exact A|]; rewrite Tk; repeat (split; [assumption|]); exact U1|].
      unfold inv, in_log in *. cbn [n_log n_first n_snaps n_data n_applied n_last n_taking n_phase].
      split; [exact A|]. split; [exact B|]. split; [exact S1|]. split; [intros s H; injection H as <-; exact A|].
      split; [intros _; exact (F1 P)|]. split; [intros s H; injection H as <-; cbn [sn_index]; specialize (F1 P); lia|congruence].
    - destruct (n_taking n) as [s|] eqn:Tk; [|split; [exact A|]; rewrite Tk; repeat (split; [assumption|]); exact U1].
      destruct (taken c gz fin) as [told kept]. specialize (T1 s eq_refl). specialize (G1 s eq_refl). specialize (F1 P).
      set (sn := if kept then keep s (n_snaps n) else n_snaps n).
      assert (S2 : forall x, In x sn -> in_log n x).
      { intros x. unfold sn. destruct kept; [|apply S1]. intros H. destruct (keep_in _ _ _ H) as [->|H2]; [exact T1|exact (S1 x H2)]. }
      clearbody sn. destruct told; unfold inv, in_log in *; cbn [n_log n_first n_snaps n_data n_applied n_last n_taking n_phase].
      + split; [exact A|]. split; [exact (compact_le n _ B)|]. split; [exact S2|]. split; [discriminate|].
        split; [|split; [discriminate|reflexivity]]. intros _.
        pose proof (compact_max n (sn_index s)) as (_ & M). lia.
      + split; [exact A|]. split; [exact B|]. split; [exact S2|]. split; [discriminate|].
        split; [intros _; exact F1|]. split; [discriminate|reflexivity].
  Qed.

  Lemma inv_init : forall d, inv (init d).
  Proof.
    intros d. unfold inv, in_log, init. cbn [n_log n_first n_snaps n_data n_applied n_last n_taking n_phase length].
    split; [lia|]. split; [lia|]. split; [intros s []|]. split; [discriminate|]. split; [intros _; lia|]. split; [discriminate|reflexivity].
  Qed.

  Lemma inv_run : forall vs n, inv n -> inv (run n vs).
  Proof. induction vs as [|v vs IH]; intros n I; [exact I|]. apply IH, inv_happen, I. Qed.

  Lemma start_disk : forall (n : node) oks, n_first (start n oks) = n_first n /\ n_snaps (start n oks) = n_snaps n /\ n_log (start n oks) = n_log n.
  Proof.
    intros n oks. unfold start. destruct (match n_snaps n with [] => _ | _ => _ end) as [[d i]|]; [destruct (_ || _)|]; repeat split; reflexivity.
  Qed.

  Lemma recoverable_happen : forall (n : node) v, inv n -> readable v -> recoverable n -> recoverable (happen n v).
  Proof.
    intros n v I Hr R. unfold Snap_Model.happen. destruct (n_phase n) eqn:P; destruct v as [e| | |c gz fin| |oks]; try exact R;
      try (unfold recoverable in *; destruct (start_disk n oks) as (-> & -> & _); exact R).
    - destruct (nth_error _ _); exact R.
    - destruct (n_taking n); [exact R|]. destruct (_ <=? _); exact R.
    - destruct (n_taking n) as [s|] eqn:Tk; [|exact R].
      assert (C : c <> CopyRead) by (intros ->; exact Hr). pose proof (taken_kept c gz fin C) as K.
      destruct (taken c gz fin) as [told kept]. cbn [fst snd] in K. subst kept. destruct told; [|exact R].
      unfold recoverable. cbn [n_first n_snaps]. right. destruct (keep_head s (n_snaps n)) as (h & r & Eh & L). exists h, r. split; [exact Eh|].
      destruct I as (_ & _ & _ & _ & _ & G & _). specialize (G s Tk). pose proof (compact_max n (sn_index s)) as (_ & M). lia.
  Qed.

  Lemma recoverable_run : forall vs (n : node), inv n -> Forall readable vs -> recoverable n -> recoverable (run n vs).
  Proof.
    induction vs as [|v vs IH]; intros n I F R; [exact R|]. inversion F; subst. apply IH; [apply inv_happen; exact I|assumption|].
    apply recoverable_happen; assumption.
  Qed.

  Lemma starts : forall (n : node) oks, recoverable n -> hd true oks = true -> n_phase (start n oks) = Up.
  Proof.
    intros n oks R H. unfold start. destruct (n_snaps n) as [|s r] eqn:Q.
    - destruct R as [R|(s & r & E0 & _)]; [|congruence]. rewrite R. reflexivity.
    - assert (P : pick (s :: r) oks = Some s) by (destruct oks as [|[|] oks]; [reflexivity|reflexivity|discriminate H]). rewrite P.
      assert (L : n_first n <= sn_index s) by (destruct R as [R|(s' & r' & E' & L)]; [lia|congruence]).
      apply Nat.leb_le in L. rewrite L. reflexivity.
  Qed.

  (** ** What the database holds *)

  Section Data.
    Variable d : D.
    Definition good (n : node) (s : snap D) : Prop := sn_data s = after step d (n_log n) (sn_index s).
    Definition holds (n : node) : Prop :=
      (forall s, In s (n_snaps n) -> good n s) /\ (forall s, n_taking n = Some s -> good n s) /\
      (n_phase n = Up -> exact step d n).

    Lemma holds_happen : forall (n : node) v, inv n -> holds n ->
      match v with EStart _ => n_snaps n <> [] \/ n_data n = d | _ => True end -> holds (happen n v).
    Proof.
      intros n v I (S1 & T1 & X) Hs.
      assert (St : forall oks, (n_snaps n <> [] \/ n_data n = d) -> holds (start n oks)).
      { intros oks H. unfold start. destruct (n_snaps n) as [|x r] eqn:Q.
        - destruct H as [H|H]; [congruence|]. destruct (_ || _); unfold holds, good, exact; cbn [n_log n_first n_snaps n_data n_applied n_last n_taking n_phase];
            (split; [intros s []|]; split; [discriminate|]); [intros _; rewrite H; reflexivity|discriminate].
        - rewrite <- Q in *. destruct (pick (n_snaps n) oks) as [s|] eqn:P.
          + destruct (_ || _); unfold holds, good, exact; cbn [n_log n_first n_snaps n_data n_applied n_last n_taking n_phase];
              (split; [exact S1|]; split; [discriminate|]); [intros _; exact (S1 s (pick_in _ _ _ P))|discriminate].
          + unfold holds, good, exact; cbn [n_log n_first n_snaps n_data n_applied n_last n_taking n_phase].
            split; [exact S1|]. split; discriminate. }
      assert (Cr : holds (Node (n_log n) (n_first n) (n_snaps n) (n_data n) 0 0 None Down)).
      { unfold holds, good, exact; cbn [n_log n_first n_snaps n_data n_applied n_last n_taking n_phase]. split; [exact S1|]. split; discriminate. }
      unfold Snap_Model.happen. destruct (n_phase n) eqn:P; destruct v as [e| | |c gz fin| |oks];
        try exact (St oks Hs); try exact Cr; try (split; [exact S1|]; split; [exact T1|]; rewrite P; exact X);
        destruct I as (A & B & IS & IT & _).
      - unfold holds, good, exact in *; cbn [n_log n_first n_snaps n_data n_applied n_last n_taking n_phase].
        split; [intros s H; rewrite after_app by exact (IS s H); exact (S1 s H)|].
        split; [intros s H; rewrite after_app by exact (IT s H); exact (T1 s H)|]. intros _. rewrite after_app by exact A. exact (X eq_refl).
      - destruct (nth_error (n_log n) (n_applied n)) as [e|] eqn:Q; [|split; [exact S1|]; split; [exact T1|]; rewrite P; exact X].
        unfold holds, good, exact in *; cbn [n_log n_first n_snaps n_data n_applied n_last n_taking n_phase].
        split; [exact S1|]. split; [exact T1|]. intros _. rewrite (after_step d _ _ e Q), <- (X eq_refl). reflexivity.
      - destruct (n_taking n) eqn:Tk; [split; [exact S1|]; split; [rewrite Tk; exact T1|]; rewrite P; exact X|].
        destruct (_ <=? _); [split; [exact S1|]; split; [rewrite Tk; exact T1|]; rewrite P; exact X|].
        unfold holds, good, exact in *; cbn [n_log n_first n_snaps n_data n_applied n_last n_taking n_phase].
        split; [exact S1|]. split; [intros s H; injection H as <-; exact (X eq_refl)|exact X].
      - destruct (n_taking n) as [s|] eqn:Tk; [|split; [exact S1|]; split; [rewrite Tk; exact T1|]; rewrite P; exact X].
        destruct (taken c gz fin) as [told kept]. set (sn := if kept then keep s (n_snaps n) else n_snaps n).
        assert (S2 : forall x, In x sn -> good n x).
        { intros x. unfold sn. destruct kept; [|apply S1]. intros H. destruct (keep_in _ _ _ H) as [->|H2]; [exact (T1 s eq_refl)|exact (S1 x H2)]. }
        clearbody sn. destruct told; unfold holds, good, exact in *; cbn [n_log n_first n_snaps n_data n_applied n_last n_taking n_phase];
          (split; [exact S2|]; split; [discriminate|exact X]).
    Qed.

    Lemma holds_run : forall vs (n : node), inv n -> holds n -> starts_from step trailing d n vs -> holds (run n vs).
    Proof.
      induction vs as [|v vs IH]; intros n I H S1; [exact H|]. destruct S1 as (S1 & S2).
      apply IH; [apply inv_happen; exact I|apply holds_happen; assumption|exact S2].
    Qed.

    Lemma holds_init : holds (init d).
    Proof. split; [intros s []|]. split; [discriminate|reflexivity]. Qed.
  End Data.
End Proofs.
