(** Proofs about requests that continue one upload at the same time. *)
From Verif Require Import Tandem_Model Tandem_Spec.
From Coq Require Import List Arith Bool Lia.
Import ListNotations.

Lemma upd_same {A} (f : nat -> A) i x : upd f i x i = x.
Proof. unfold upd. rewrite Nat.eqb_refl. reflexivity. Qed.
Lemma upd_other {A} (f : nat -> A) i x j : j <> i -> upd f i x j = f j.
Proof. intros H. unfold upd. apply Nat.eqb_neq in H. rewrite H. reflexivity. Qed.
Lemma upd_cases {A} (f : nat -> A) i x j : (j = i /\ upd f i x j = x) \/ (j <> i /\ upd f i x j = f j).
Proof.
  destruct (Nat.eq_dec j i) as [->|H]; [left|right].
  - split; [reflexivity|apply upd_same].
  - split; [exact H|apply upd_other; exact H].
Qed.

Lemma cmd_eqb_spec a b : cmd_eqb a b = true <-> a = b.
Proof.
  destruct a, b; cbn [cmd_eqb]; try (split; discriminate).
  - rewrite andb_true_iff, !Nat.eqb_eq. split; [intros [-> ->]; reflexivity|intros H; injection H as -> ->; auto].
  - rewrite Nat.eqb_eq. split; [intros ->; reflexivity|intros H; injection H as ->; reflexivity].
  - rewrite Nat.eqb_eq. split; [intros ->; reflexivity|intros H; injection H as ->; reflexivity].
Qed.

Lemma in_without x c l : In x (without c l) <-> In x l /\ x <> c.
Proof.
  unfold without. rewrite filter_In, negb_true_iff. split; intros [H1 H2]; split; auto.
  - intros ->. assert (cmd_eqb c c = true) by (apply cmd_eqb_spec; reflexivity). congruence.
  - destruct (cmd_eqb c x) eqn:E; [|reflexivity]. apply cmd_eqb_spec in E. congruence.
Qed.

Lemma in_pend c l : existsb (cmd_eqb c) l = true <-> In c l.
Proof.
  rewrite existsb_exists. split.
  - intros (x & H & E). apply cmd_eqb_spec in E. subst. exact H.
  - intros H. exists c. split; [exact H|apply cmd_eqb_spec; reflexivity].
Qed.

Lemma pick_in c l r : pick c l = Some r -> In c l /\ forall x, In x r -> In x l.
Proof.
  revert r. induction l as [|x l IH]; intros r H; cbn [pick] in H; [discriminate|].
  destruct (cmd_eqb c x) eqn:E.
  - apply cmd_eqb_spec in E. injection H as <-. subst. split; [left; reflexivity|intros y Hy; right; exact Hy].
  - destruct (pick c l) as [r'|] eqn:P; [|discriminate]. injection H as <-.
    destruct (IH r' eq_refl) as [H1 H2]. split; [right; exact H1|].
    intros y [->|Hy]; [left; reflexivity|right; auto].
Qed.

Lemma exec_frame c s s' : exec c s = Some s' ->
  s_phase s' = s_phase s /\ s_stray s' = s_stray s /\ s_saved s' = s_saved s.
Proof.
  destruct c as [c i|i|i]; cbn [exec]; intros H.
  - destruct (s_tmp s i); [|discriminate]. injection H as <-. auto.
  - destruct (s_tmp s i) as [[|x l]|], (s_kept s i); try discriminate; injection H as <-; auto.
  - injection H as <-. auto.
Qed.

Lemma exec_kept c s s' i l : exec c s = Some s' -> s_kept s i = Some l -> s_kept s' i = Some l.
Proof.
  destruct c as [c j|j|j]; cbn [exec]; intros H K.
  - destruct (s_tmp s j); [|discriminate]. injection H as <-. exact K.
  - destruct (s_tmp s j) as [[|x l']|], (s_kept s j) eqn:E; try discriminate; injection H as <-; try exact K.
    cbn [s_kept]. rewrite upd_other; [exact K|]. intros ->. congruence.
  - injection H as <-. exact K.
Qed.

Lemma exec_commit i s s' : exec (Commit i) s = Some s' -> s_kept s' i <> None.
Proof.
  cbn [exec]. intros H.
  destruct (s_tmp s i) as [[|x l']|], (s_kept s i) eqn:E; try discriminate; injection H as <-.
  - rewrite E. discriminate.
  - rewrite E. discriminate.
  - cbn [s_kept]. rewrite upd_same. discriminate.
Qed.

(** Files and commands of a step. *)
Lemma step_kept t qs s e i l : s_kept s i = Some l -> s_kept (step t qs s e) i = Some l.
Proof.
  intros K. destruct e as [j|j c|j ok|c|j]; cbn [step].
  - destruct (s_phase s j); try exact K. destruct (current t s) as [n|]; [|exact K].
    destruct (n =? q_first (qs j)); exact K.
  - destruct (s_phase s j); try exact K. destruct (existsb (cmd_eqb c) pend); [|exact K].
    destruct (exec c s) as [s'|] eqn:E; [|exact K]. exact (exec_kept _ _ _ _ _ E K).
  - destruct (s_phase s j) as [|[|c p] g|]; try exact K. unfold go. destruct g as [k|[a|]|]; try exact K.
    destruct (nth_error (q_rows (qs j)) k); [exact K|]. destruct (_ <? _); [exact K|].
    destruct (_ <? _); [exact K|]. destruct ok; exact K.
  - destruct (pick c (s_stray s)) as [r|]; [|exact K]. cbv zeta.
    destruct (exec c _) as [s'|] eqn:E; [|exact K].
    cbn [leave s_kept]. exact (exec_kept _ _ _ _ _ E K).
  - exact K.
Qed.

Lemma run_kept t qs es : forall s i l, s_kept s i = Some l -> s_kept (run t qs s es) i = Some l.
Proof.
  induction es as [|e es IH]; intros s i l K; [exact K|].
  apply (IH (step t qs s e)). apply step_kept. exact K.
Qed.

(** ** Whose answer is 200 *)

Definition told (t : setup) (s : state) (j : nat) (p : phase) : Prop :=
  match p with
  | Flight pend Keep => In j (s_saved s) /\ forall i, i < t_shards t -> In (Commit i) pend \/ s_kept s i <> None
  | Flight _ (Flush None) => In j (s_saved s)
  | Done Stored => In j (s_saved s) /\ forall i, i < t_shards t -> s_kept s i <> None
  | Flight _ (Flush (Some a)) => a <> Stored
  | _ => True
  end.

Lemma told_mono t s s' j p : told t s j p ->
  (forall x, In x (s_saved s) -> In x (s_saved s')) ->
  (forall i, s_kept s i <> None -> s_kept s' i <> None) -> told t s' j p.
Proof.
  intros H Hs Hk. destruct p as [|pend [k|[a|]|]|[]]; cbn [told] in *; auto.
  - destruct H as [H1 H2]. split; [auto|]. intros i Hi. destruct (H2 i Hi); auto.
  - destruct H as [H1 H2]. split; [auto|]. intros i Hi. auto.
Qed.

Lemma kept_some t qs s e i : s_kept s i <> None -> s_kept (step t qs s e) i <> None.
Proof.
  destruct (s_kept s i) as [l|] eqn:K; [|congruence]. intros _.
  rewrite (step_kept t qs s e i l K). discriminate.
Qed.

Lemma exec_some c s s' i : exec c s = Some s' -> s_kept s i <> None -> s_kept s' i <> None.
Proof.
  intros E. destruct (s_kept s i) as [l|] eqn:K; [|congruence]. intros _.
  rewrite (exec_kept _ _ _ _ _ E K). discriminate.
Qed.

Lemma told_step t qs s e : (forall j, told t s j (s_phase s j)) ->
  forall j, told t (step t qs s e) j (s_phase (step t qs s e) j).
Proof.
  intros H j.
  assert (At : forall s0 j0 p, (forall x, In x (s_saved s) -> In x (s_saved s0)) ->
            (forall i, s_kept s i <> None -> s_kept s0 i <> None) -> s_phase s0 = s_phase s ->
            told t s0 j0 p -> told t (at_ s0 j0 p) j (s_phase (at_ s0 j0 p) j)).
  { intros s0 j0 p Hs Hk Hp Ht. cbn [at_ s_phase]. rewrite Hp.
    destruct (upd_cases (s_phase s) j0 p j) as [[-> ->]|[_ ->]].
    - apply (told_mono t s0); [exact Ht|auto|auto].
    - apply (told_mono t s); [apply H|exact Hs|exact Hk]. }
  assert (Id : told t s j (s_phase s j)) by apply H.
  destruct e as [j0|j0 c|j0 ok|c|i]; cbn [step].
  - destruct (s_phase s j0) eqn:P; try exact Id. destruct (current t s) as [n|].
    + destruct (n =? q_first (qs j0)); apply At; try reflexivity; auto; exact Logic.I.
    + apply At; try reflexivity; auto; exact Logic.I.
  - destruct (s_phase s j0) as [|pend g|] eqn:P; try exact Id.
    destruct (existsb (cmd_eqb c) pend) eqn:X; [|exact Id].
    pose proof (H j0) as T. rewrite P in T.
    destruct (exec c s) as [s'|] eqn:E.
    + destruct (exec_frame _ _ _ E) as (F1 & F2 & F3).
      apply At; [rewrite F3; auto|intros i; apply (exec_some _ _ _ _ E)|exact F1|].
      destruct g as [k|[a|]|]; cbn [told] in *; auto.
      * rewrite F3. exact T.
      * destruct T as [T1 T2]. rewrite F3. split; [exact T1|]. intros i Hi.
        destruct (T2 i Hi) as [I|K].
        -- destruct (cmd_eqb c (Commit i)) eqn:Q.
           ++ apply cmd_eqb_spec in Q. subst c. right. exact (exec_commit _ _ _ E).
           ++ left. apply in_or_app. left. apply in_without. split; [exact I|].
              intros Q'. subst c. assert (cmd_eqb (Commit i) (Commit i) = true) by (apply cmd_eqb_spec; reflexivity). congruence.
        -- right. exact (exec_some _ _ _ _ E K).
    + cbn [leave s_phase]. apply (told_mono t (at_ s j0 (Done (on_error g)))); [|auto|auto].
      apply At; try reflexivity; auto. destruct g as [k|[a|]|]; cbn [on_error told] in *; auto.
      destruct a; auto. congruence.
  - destruct (s_phase s j0) as [|[|c pend] g|] eqn:P; try exact Id.
    pose proof (H j0) as T. rewrite P in T. unfold go. destruct g as [k|[a|]|].
    + destruct (nth_error (q_rows (qs j0)) k) as [c|]; [apply At; try reflexivity; auto; exact Logic.I|].
      destruct (_ <? _); [apply At; try reflexivity; auto; exact Logic.I|].
      destruct (_ <? _); [apply At; try reflexivity; auto; discriminate|].
      destruct ok; [|apply At; try reflexivity; auto; discriminate].
      apply At; try reflexivity; cbn [save s_saved s_kept]; auto.
      * intros x Hx. apply in_or_app. left. exact Hx.
      * cbn [told save s_saved]. apply in_or_app. right. left. reflexivity.
    + cbn [leave s_phase]. apply (told_mono t (at_ s j0 (Done a))); [|auto|auto].
      apply At; try reflexivity; auto. cbn [told] in T. destruct a; try exact Logic.I. congruence.
    + cbn [told] in T. apply At; try reflexivity; auto. cbn [told]. split; [exact T|]. intros i Hi. left.
      apply in_map_iff. exists i. split; [reflexivity|]. apply in_seq. lia.
    + cbn [told] in T. destruct T as [T1 T2]. apply At; try reflexivity; auto. cbn [told]. split; [exact T1|].
      intros i Hi. destruct (T2 i Hi) as [[]|K]. exact K.
  - destruct (pick c (s_stray s)) as [r|]; [|exact Id]. cbv zeta.
    destruct (exec c _) as [s'|] eqn:E.
    + destruct (exec_frame _ _ _ E) as (F1 & F2 & F3). cbn [leave s_phase]. rewrite F1.
      apply (told_mono t s); [exact Id|cbn [leave s_saved]; rewrite F3; auto|].
      intros i. cbn [leave s_kept]. exact (exec_some _ _ _ i E).
    + apply (told_mono t s); [exact Id|auto|auto].
  - apply (told_mono t s); [exact Id|auto|auto].
Qed.

Lemma told_run t qs es : forall s, (forall j, told t s j (s_phase s j)) ->
  forall j, told t (run t qs s es) j (s_phase (run t qs s es) j).
Proof.
  induction es as [|e es IH]; intros s H; [exact H|].
  apply (IH (step t qs s e)). apply told_step. exact H.
Qed.

Lemma told_start t : forall j, told t start j (s_phase start j).
Proof. intros j. exact Logic.I. Qed.

Lemma answered t qs es j : s_phase (run t qs start es) j = Done Stored ->
  In j (s_saved (run t qs start es)) /\
  forall i, i < t_shards t -> exists l, s_kept (run t qs start es) i = Some l.
Proof.
  intros H. pose proof (told_run t qs es start (told_start t) j) as T. rewrite H in T. destruct T as [T1 T2].
  split; [exact T1|]. intros i Hi. destruct (s_kept _ i) as [l|] eqn:K; [exists l; reflexivity|].
  exfalso. exact (T2 i Hi K).
Qed.

(** ** Where rows come from *)

Section Source.
Variable R : nat -> Prop.

Definition fits (c : cmd) : Prop := match c with Append c _ => R c | _ => True end.

Definition sound (s : state) : Prop :=
  (forall i l, s_tmp s i = Some l -> Forall R l) /\
  (forall i l, s_kept s i = Some l -> Forall R l /\ l <> []) /\
  (forall j p g, s_phase s j = Flight p g -> Forall fits p) /\
  Forall fits (s_stray s).

Lemma sound_start : sound start.
Proof.
  split; [|split; [|split]].
  - intros i l H. injection H as <-. constructor.
  - discriminate.
  - discriminate.
  - constructor.
Qed.

Lemma fits_then c : Forall fits (then_ c).
Proof. destruct c; repeat constructor. Qed.

Lemma fits_without c p : Forall fits p -> Forall fits (without c p).
Proof. rewrite !Forall_forall. intros H x Hx. apply in_without in Hx. apply H. tauto. Qed.

Lemma exec_sound c s s' : sound s -> fits c -> exec c s = Some s' -> sound s'.
Proof.
  intros (A & B & C & D) F E. destruct (exec_frame _ _ _ E) as (F1 & F2 & F3).
  assert (CD : (forall j p g, s_phase s' j = Flight p g -> Forall fits p) /\ Forall fits (s_stray s')).
  { rewrite F1, F2. auto. }
  destruct CD as [C' D']. split; [|split; [|split; [exact C'|exact D']]].
  - intros i l H. destruct c as [c j|j|j]; cbn [exec] in E.
    + destruct (s_tmp s j) as [l0|] eqn:T; [|discriminate]. injection E as <-. cbn [s_tmp] in H.
      destruct (upd_cases (s_tmp s) j (Some (l0 ++ [c])) i) as [[-> Q]|[_ Q]]; rewrite Q in H.
      * injection H as <-. apply Forall_app. split; [exact (A j l0 T)|]. constructor; [exact F|constructor].
      * exact (A i l H).
    + destruct (s_tmp s j) as [[|x l']|] eqn:T, (s_kept s j) eqn:K; try discriminate; injection E as <-; try exact (A i l H).
      cbn [s_tmp] in H. destruct (upd_cases (s_tmp s) j (Some []) i) as [[-> Q]|[_ Q]]; rewrite Q in H.
      * injection H as <-. constructor.
      * exact (A i l H).
    + injection E as <-. cbn [s_tmp] in H.
      destruct (upd_cases (s_tmp s) j None i) as [[-> Q]|[_ Q]]; rewrite Q in H; [discriminate|exact (A i l H)].
  - intros i l H. destruct c as [c j|j|j]; cbn [exec] in E.
    + destruct (s_tmp s j) as [l0|] eqn:T; [|discriminate]. injection E as <-. exact (B i l H).
    + destruct (s_tmp s j) as [[|x l']|] eqn:T, (s_kept s j) eqn:K; try discriminate; injection E as <-; try exact (B i l H).
      cbn [s_kept] in H. destruct (upd_cases (s_kept s) j (Some (x :: l')) i) as [[-> Q]|[_ Q]]; rewrite Q in H.
      * injection H as <-. split; [exact (A j _ T)|discriminate].
      * exact (B i l H).
    + injection E as <-. exact (B i l H).
Qed.

Lemma sound_at s j p : sound s -> (forall l g, p = Flight l g -> Forall fits l) -> sound (at_ s j p).
Proof.
  intros (A & B & C & D) H. split; [exact A|split; [exact B|split; [|exact D]]].
  intros i l g Q. cbn [at_ s_phase] in Q.
  destruct (upd_cases (s_phase s) j p i) as [[-> W]|[_ W]]; rewrite W in Q; [exact (H _ _ Q)|exact (C _ _ _ Q)].
Qed.

Lemma sound_leave s l : sound s -> Forall fits l -> sound (leave s l).
Proof.
  intros (A & B & C & D) H. split; [exact A|split; [exact B|split; [exact C|]]].
  cbn [leave s_stray]. apply Forall_app. auto.
Qed.

Lemma fits_pieces t c : R c -> Forall fits (pieces t c).
Proof. intros H. apply Forall_forall. intros x Hx. apply in_map_iff in Hx. destruct Hx as (i & <- & _). exact H. Qed.

Lemma fits_rest t q : (forall c, carries q c -> R c) -> Forall fits (rest t q).
Proof.
  intros H. unfold rest. destruct (q_tail q) as [[c n]|] eqn:T; [|constructor].
  apply fits_pieces, H. right. exists n. exact T.
Qed.

Lemma step_sound t qs s e : (forall j c, carries (qs j) c -> R c) -> sound s -> sound (step t qs s e).
Proof.
  intros Q H. assert (H0 := H). destruct H as (A & B & C & D). destruct e as [j|j c|j ok|c|j]; cbn [step].
  - destruct (s_phase s j); try exact H0. destruct (current t s) as [n|].
    + destruct (n =? q_first (qs j)); apply sound_at; try exact H0; intros l g E; [injection E as <- <-; constructor|discriminate].
    + apply sound_at; [exact H0|discriminate].
  - destruct (s_phase s j) as [|pend g|] eqn:P; try exact H0. destruct (existsb (cmd_eqb c) pend) eqn:X; [|exact H0].
    apply in_pend in X. pose proof (C _ _ _ P) as F.
    assert (Fc : fits c) by (rewrite Forall_forall in F; auto).
    destruct (exec c s) as [s'|] eqn:E.
    + apply sound_at; [exact (exec_sound _ _ _ H0 Fc E)|]. intros l g' W. injection W as <- <-.
      apply Forall_app. split; [apply fits_without; exact F|apply fits_then].
    + apply sound_leave; [apply sound_at; [exact H0|discriminate]|apply fits_without; exact F].
  - destruct (s_phase s j) as [|[|c p] g|] eqn:P; try exact H0. unfold go. destruct g as [k|[a|]|].
    + destruct (nth_error (q_rows (qs j)) k) as [c|] eqn:W.
      * apply sound_at; [exact H0|]. intros l g E. injection E as <- <-. apply fits_pieces, (Q j). left.
        exact (nth_error_In _ _ W).
      * destruct (_ <? _); [apply sound_at; [exact H0|discriminate]|].
        assert (FR : forall x l g, Flight (rest t (qs j)) x = Flight l g -> Forall fits l).
        { intros x l g E. injection E as <- <-. apply fits_rest, Q. }
        destruct (_ <? _); [apply sound_at; [exact H0|apply FR]|].
        destruct ok; apply sound_at; try apply FR; exact H0.
    + apply sound_leave; [apply sound_at; [exact H0|discriminate]|].
      apply Forall_forall. intros x Hx. apply in_map_iff in Hx. destruct Hx as (i & <- & _). exact Logic.I.
    + apply sound_at; [exact H0|]. intros l g E. injection E as <- <-.
      apply Forall_forall. intros x Hx. apply in_map_iff in Hx. destruct Hx as (i & <- & _). exact Logic.I.
    + apply sound_at; [exact H0|discriminate].
  - destruct (pick c (s_stray s)) as [r|] eqn:P; [|exact H0]. cbv zeta. destruct (pick_in _ _ _ P) as [P1 P2].
    rewrite Forall_forall in D.
    assert (H1 : sound (mk_state (s_tmp s) (s_kept s) (s_phase s) r (s_saved s))).
    { split; [exact A|split; [exact B|split; [exact C|]]]. apply Forall_forall. intros x Hx. apply D, P2, Hx. }
    destruct (exec c _) as [s'|] eqn:E; [|exact H1].
    apply sound_leave; [|apply fits_then]. exact (exec_sound _ _ _ H1 (D _ P1) E).
  - split; [|split; [exact B|split; [exact C|exact D]]]. intros i l H. cbn [s_tmp] in H.
    destruct (upd_cases (s_tmp s) j None i) as [[-> W]|[_ W]]; rewrite W in H; [discriminate|exact (A _ _ H)].
Qed.

Lemma run_sound t qs es : (forall j c, carries (qs j) c -> R c) -> forall s, sound s -> sound (run t qs s es).
Proof.
  intros Q. induction es as [|e es IH]; intros s H; [exact H|]. apply (IH (step t qs s e)). apply step_sound; assumption.
Qed.
End Source.

Lemma source t qs es i c l : let s := run t qs start es in
  s_tmp s i = Some l \/ s_kept s i = Some l -> In c l -> exists j, carries (qs j) c.
Proof.
  intros s H I.
  destruct (run_sound (fun c => exists j, carries (qs j) c) t qs es (fun j c Hc => ex_intro _ j Hc) start (sound_start _)) as (A & B & _).
  destruct H as [H|H].
  - pose proof (A i l H) as F. rewrite Forall_forall in F. exact (F c I).
  - destruct (B i l H) as [F _]. rewrite Forall_forall in F. exact (F c I).
Qed.

Lemma skipn_in {A} (x : A) n l : In x (skipn n l) -> In x l.
Proof. intros H. rewrite <- (firstn_skipn n l). apply in_or_app. right. exact H. Qed.
Lemma firstn_in {A} (x : A) n l : In x (firstn n l) -> In x l.
Proof. intros H. rewrite <- (firstn_skipn n l). apply in_or_app. left. exact H. Qed.

Lemma honest_carries t w q c : honest t w q -> carries q c -> In c w.
Proof.
  intros [(k & _ & H2 & _ & H4)|(_ & H2 & H3)] [I|(n & E)].
  - rewrite H2 in I. apply firstn_in in I. exact (skipn_in _ _ _ I).
  - rewrite E in H4. destruct H4 as (_ & H4 & _). exact (nth_error_In _ _ H4).
  - rewrite H2 in I. destruct I.
  - congruence.
Qed.

Lemma single t qs es j r : object t [r] -> (forall j, honest t [r] (qs j)) ->
  s_phase (run t qs start es) j = Done Stored ->
  forall i, i < t_shards t -> intact [r] (s_kept (run t qs start es) i).
Proof.
  intros O H D i Hi. destruct (answered t qs es j D) as [_ K]. destruct (K i Hi) as [l E]. exists l. split; [exact E|].
  destruct (run_sound (fun c => c = r) t qs es) with (s := start) as (A & B & _).
  - intros j0 c Hc. pose proof (honest_carries _ _ _ _ (H j0) Hc) as [->|[]]. reflexivity.
  - apply sound_start.
  - destruct (B i l E) as [F N]. destruct l as [|x l]; [congruence|]. inversion F; subst. reflexivity.
Qed.

(** A file that is lost stays lost. *)
Lemma gone_exec c s s' i : s_tmp s i = None /\ s_kept s i = None -> exec c s = Some s' ->
  s_tmp s' i = None /\ s_kept s' i = None.
Proof.
  intros (H2 & H3) E. destruct c as [c j|j|j]; cbn [exec] in E.
  - destruct (s_tmp s j) eqn:T; [|discriminate]. injection E as <-. cbn [s_tmp s_kept].
    rewrite upd_other; [auto|]. intros ->. congruence.
  - destruct (s_tmp s j) as [[|x l]|] eqn:T, (s_kept s j) eqn:K; try discriminate; injection E as <-; auto.
    cbn [s_tmp s_kept]. rewrite !upd_other; [auto| |]; intros ->; congruence.
  - injection E as <-. cbn [s_tmp s_kept]. split; [|exact H3].
    destruct (upd_cases (s_tmp s) j None i) as [[_ ->]|[_ ->]]; auto.
Qed.

Lemma gone_step t qs s e i : s_tmp s i = None /\ s_kept s i = None ->
  s_tmp (step t qs s e) i = None /\ s_kept (step t qs s e) i = None.
Proof.
  intros B. destruct e as [j|j c|j ok|c|j]; cbn [step].
  - destruct (s_phase s j); try exact B. destruct (current t s) as [n|]; [|exact B].
    destruct (n =? q_first (qs j)); exact B.
  - destruct (s_phase s j); try exact B. destruct (existsb (cmd_eqb c) pend); [|exact B].
    destruct (exec c s) as [s'|] eqn:E; [|exact B]. exact (gone_exec _ _ _ _ B E).
  - destruct (s_phase s j) as [|[|c p] g|]; try exact B. unfold go. destruct g as [k|[a|]|]; try exact B.
    destruct (nth_error (q_rows (qs j)) k); [exact B|]. destruct (_ <? _); [exact B|].
    destruct (_ <? _); [exact B|]. destruct ok; exact B.
  - destruct (pick c (s_stray s)) as [r|]; [|exact B]. cbv zeta.
    destruct (exec c _) as [s'|] eqn:E; [|exact B]. cbn [leave s_tmp s_kept]. refine (gone_exec c _ _ _ _ E). exact B.
  - cbn [s_tmp s_kept]. destruct B as [H2 H3]. split; [|exact H3].
    destruct (upd_cases (s_tmp s) j None i) as [[_ ->]|[_ ->]]; auto.
Qed.

Lemma gone_run t qs es es' i :
  s_tmp (run t qs start es) i = None /\ s_kept (run t qs start es) i = None -> s_kept (run t qs start (es ++ es')) i = None.
Proof.
  unfold run. rewrite fold_left_app. generalize (fold_left (step t qs) es start) as s.
  induction es' as [|e es' IH]; intros s G; [exact (proj2 G)|].
  apply (IH (step t qs s e)). apply gone_step. exact G.
Qed.

(** ** One request after another *)

Section Apart.
Variables (t : setup) (w : list nat) (qs : nat -> request).
Hypothesis O : object t w.
Hypothesis Q : forall j, honest t w (qs j).

(** A file is lost: no request can be answered with 200 any more. *)
Definition broken (s : state) : Prop :=
  exists i, i < t_shards t /\ s_tmp s i = None /\ s_kept s i = None.

(** No request but [j] is served. *)
Definition only (s : state) (j : nat) : Prop :=
  s_stray s = [] /\ forall j' p g, j' <> j -> s_phase s j' <> Flight p g.

(** A row is on its way: a server has [old] and is to get it, or has [new]. *)
Definition sending (s : state) (pend : list cmd) (new : list nat) : Prop :=
  exists old c,
    (forall x, In x pend -> exists i, x = Append c i /\ i < t_shards t) /\
    (pend <> [] -> new = old ++ [c]) /\
    forall i, i < t_shards t -> s_kept s i = None /\
      ((In (Append c i) pend /\ s_tmp s i = Some old) \/ (~ In (Append c i) pend /\ s_tmp s i = Some new)).

(** What the rows sent so far come to. *)
Definition so_far (q : request) (k : nat) (new : list nat) : Prop :=
  k <= length (q_rows q) /\
  ((exists k0, q_first q = t_row t * k0 /\
     q_rows q = firstn (length (q_rows q)) (skipn k0 w) /\
     t_row t * (k0 + length (q_rows q)) <= t_size t /\
     match q_tail q with
     | None => True
     | Some (c, n) => 0 < n < t_row t /\ nth_error w (k0 + length (q_rows q)) = Some c /\
                      t_row t * (k0 + length (q_rows q)) + n <= t_size t
     end /\ new = firstn (k0 + k) w) \/
   (q_first q = t_size t /\ q_rows q = [] /\ q_tail q = None /\ new = w)).

Definition keeping (s : state) (pend : list cmd) : Prop :=
  (forall x, In x pend -> exists i, i < t_shards t /\ (x = Commit i \/ x = Forget i)) /\
  forall i, i < t_shards t ->
    (In (Commit i) pend /\ ~ In (Forget i) pend /\ s_tmp s i = Some w /\ s_kept s i = None) \/
    (~ In (Commit i) pend /\ s_kept s i = Some w /\ (In (Forget i) pend \/ s_tmp s i = None)).

Definition serving (s : state) (j : nat) (pend : list cmd) (g : goal) : Prop :=
  match g with
  | Row k => exists new, so_far (qs j) k new /\ sending s pend new
  | Flush a => a <> Some Exceeds /\ sending s pend w
  | Keep => keeping s pend
  end.

Definition calm (s : state) : Prop :=
  broken s \/
  (exists m, (forall i, i < t_shards t -> s_kept s i = None /\ s_tmp s i = Some (firstn m w)) /\
     (forall j p g, s_phase s j <> Flight p g) /\ forall x, In x (s_stray s) -> exists i, x = Forget i /\ i < t_shards t) \/
  (exists j pend g, s_phase s j = Flight pend g /\ only s j /\ serving s j pend g) \/
  ((forall i, i < t_shards t -> s_kept s i = Some w /\ s_tmp s i = None) /\
     (forall j p g, s_phase s j <> Flight p g) /\ s_stray s = []).

Lemma w_pos : w <> [].
Proof. destruct O as (_ & _ & H & _). intros E. subst. cbn [length] in H. lia. Qed.

Lemma step_broken s e : broken s -> broken (step t qs s e).
Proof. intros (i & H1 & H2). exists i. split; [exact H1|]. apply gone_step. exact H2. Qed.

Lemma firstn_next (l : list nat) n c : nth_error l n = Some c -> firstn (S n) l = firstn n l ++ [c].
Proof.
  revert n. induction l as [|x l IH]; intros [|n] H; cbn [nth_error] in H; try discriminate.
  - injection H as ->. reflexivity.
  - cbn [firstn app]. f_equal. exact (IH n H).
Qed.

Lemma nth_error_slice (l : list nat) k n m c : nth_error (firstn m (skipn k l)) n = Some c -> nth_error l (k + n) = Some c.
Proof.
  revert l. induction k as [|k IH]; intros l H.
  - cbn [skipn Nat.add] in *. revert n m H. induction l as [|x l IH]; intros n m H.
    + destruct m, n; discriminate.
    + destruct m as [|m]; [destruct n; discriminate|]. destruct n as [|n]; [exact H|]. exact (IH n m H).
  - destruct l as [|x l]; [|exact (IH l H)]. cbn [skipn] in H. destruct m, n; discriminate.
Qed.

(** When all that was to be sent is sent and comes to the size, it is the object. *)
Lemma at_size q k new : so_far q k new -> k = length (q_rows q) -> reached t q = t_size t ->
  match q_tail q with None => new = w | Some (c, _) => new ++ [c] = w end.
Proof.
  intros [_ H] Hk. unfold reached. destruct O as (_ & Hr & Hl & Hs). destruct H as [(k0 & H1 & H2 & H3 & H4 & H5)|(H1 & H2 & H3 & H4)].
  - intros E. subst k. destruct (q_tail q) as [[c n]|].
    + destruct H4 as (H4 & H6 & H7).
      assert (B : k0 + length (q_rows q) = length w - 1).
      { assert (k0 + length (q_rows q) < length w) by (apply nth_error_Some; congruence).
        assert (length w - 1 < k0 + length (q_rows q) + 1) by nia. lia. }
      rewrite H5, <- (firstn_next _ _ _ H6), B. replace (S (length w - 1)) with (length w) by lia. apply firstn_all.
    + assert (length w - 1 < k0 + length (q_rows q)) by nia. rewrite H5. apply firstn_all2. lia.
  - intros _. rewrite H3. exact H4.
Qed.

Lemma never_over q k new : so_far q k new -> t_size t <? reached t q = false.
Proof.
  intros [_ H]. apply Nat.ltb_ge. unfold reached. destruct H as [(k0 & H1 & H2 & H3 & H4 & H5)|(H1 & H2 & H3 & H4)].
  - destruct (q_tail q) as [[c n]|]; [destruct H4 as (H4 & H6 & H7)|]; nia.
  - rewrite H1, H2, H3. cbn [length]. lia.
Qed.

Lemma sending_row s new c : (forall i, i < t_shards t -> s_kept s i = None /\ s_tmp s i = Some new) ->
  forall j g, sending (at_ s j (Flight (pieces t c) g)) (pieces t c) (new ++ [c]).
Proof.
  intros H j g. exists new, c. split; [|split].
  - intros x Hx. apply in_map_iff in Hx. destruct Hx as (i & <- & Hi). exists i. apply in_seq in Hi. split; [reflexivity|lia].
  - reflexivity.
  - intros i Hi. destruct (H i Hi) as [H1 H2]. split; [exact H1|]. left. split; [|exact H2].
    apply in_map_iff. exists i. split; [reflexivity|apply in_seq; lia].
Qed.

Lemma sending_none s new : (forall i, i < t_shards t -> s_kept s i = None /\ s_tmp s i = Some new) -> sending s [] new.
Proof.
  intros H. exists [], 0. split; [intros x []|]. split; [congruence|]. intros i Hi. destruct (H i Hi) as [H1 H2].
  split; [exact H1|]. right. split; [intros []|exact H2].
Qed.

Lemma sending_done s new : sending s [] new -> forall i, i < t_shards t -> s_kept s i = None /\ s_tmp s i = Some new.
Proof. intros (old & c & _ & _ & H) i Hi. destruct (H i Hi) as [H1 [[[] _]|[_ H2]]]. auto. Qed.

Lemma quiet_only s j p : (forall j p g, s_phase s j <> Flight p g) -> s_stray s = [] -> only (at_ s j p) j.
Proof.
  intros H1 H2. split; [exact H2|]. intros j' p' g' N. cbn [at_ s_phase]. rewrite upd_other; [apply H1|exact N].
Qed.

Lemma only_at s j p : only s j -> only (at_ s j p) j.
Proof.
  intros [H1 H2]. split; [exact H1|]. intros j' p' g' N. cbn [at_ s_phase]. rewrite upd_other; [apply H2; exact N|exact N].
Qed.

Lemma only_quiet s j a : only s j -> forall j' p g, s_phase (at_ s j (Done a)) j' <> Flight p g.
Proof.
  intros [H1 H2] j' p g. cbn [at_ s_phase]. destruct (upd_cases (s_phase s) j (Done a) j') as [[_ ->]|[N ->]]; [discriminate|].
  apply H2. exact N.
Qed.

(** Carrying out a piece of the row. *)
Lemma sending_exec s pend new x : sending s pend new -> In x pend ->
  exists s', exec x s = Some s' /\ forall j p, sending (at_ s' j p) (without x pend ++ then_ x) new.
Proof.
  intros (old & c & H1 & H2 & H3) Hx. destruct (H1 x Hx) as (i & -> & Hi).
  assert (N : new = old ++ [c]). { apply H2. intros E. rewrite E in Hx. destruct Hx. }
  destruct (H3 i Hi) as [K [[_ T]|[N' _]]]; [|contradiction].
  cbn [exec]. rewrite T. eexists. split; [reflexivity|]. intros j p. exists old, c. cbn [then_]. rewrite app_nil_r.
  split; [|split].
  - intros y Hy. apply in_without in Hy. apply H1. tauto.
  - intros _. exact N.
  - intros i' Hi'. destruct (H3 i' Hi') as [K' D]. cbn [at_ s_kept s_tmp]. split; [exact K'|].
    destruct (upd_cases (s_tmp s) i (Some (old ++ [c])) i') as [[-> ->]|[Ne ->]].
    + right. split; [|rewrite N; reflexivity]. intros I. apply in_without in I. destruct I as [_ I]. apply I. reflexivity.
    + destruct D as [[I T']|[I T']].
      * left. split; [|exact T']. apply in_without. split; [exact I|]. intros E. injection E as E. apply Ne. exact E.
      * right. split; [|exact T']. intros I'. apply in_without in I'. tauto.
Qed.

Lemma keeping_exec s pend x : keeping s pend -> In x pend ->
  exists s', exec x s = Some s' /\ forall j p, keeping (at_ s' j p) (without x pend ++ then_ x).
Proof.
  intros (H1 & H2) Hx. destruct (H1 x Hx) as (i & Hi & [-> | ->]).
  - destruct (H2 i Hi) as [(_ & NF & T & K)|(N & _)]; [|contradiction].
    cbn [exec]. rewrite T, K. pose proof w_pos as W.
    assert (E : exists y l, w = y :: l) by (destruct w as [|y l]; [congruence|exists y, l; reflexivity]).
    destruct E as (y & l & Ew). eexists. split; [rewrite Ew; reflexivity|]. intros j p. cbn [then_]. split.
    + intros z Hz. apply in_app_or in Hz. destruct Hz as [Hz|[<-|[]]].
      * apply in_without in Hz. apply H1. tauto.
      * exists i. auto.
    + intros i' Hi'. cbn [at_ s_kept s_tmp].
      destruct (upd_cases (s_tmp s) i (Some []) i') as [[-> ->]|[Ne ->]].
      * right. rewrite upd_same. split; [|split; [congruence|]].
        -- intros I. apply in_app_or in I. destruct I as [I|[I|[]]]; [|discriminate]. apply in_without in I. tauto.
        -- left. apply in_or_app. right. left. reflexivity.
      * rewrite upd_other by exact Ne. destruct (H2 i' Hi') as [(I & I2 & T' & K')|(I & K' & F)].
        -- left. split; [|split; [|auto]].
           ++ apply in_or_app. left. apply in_without. split; [exact I|]. congruence.
           ++ intros I'. apply in_app_or in I'. destruct I' as [I'|[I'|[]]]; [|congruence]. apply in_without in I'. tauto.
        -- right. split; [|split; [exact K'|]].
           ++ intros I'. apply in_app_or in I'. destruct I' as [I'|[I'|[]]]; [|discriminate]. apply in_without in I'. tauto.
           ++ destruct F as [F|F]; [|right; exact F]. left. apply in_or_app. left. apply in_without. split; [exact F|discriminate].
  - cbn [exec]. eexists. split; [reflexivity|]. intros j p. cbn [then_]. rewrite app_nil_r. split.
    + intros z Hz. apply in_without in Hz. apply H1. tauto.
    + intros i' Hi'. cbn [at_ s_kept s_tmp].
      destruct (upd_cases (s_tmp s) i None i') as [[-> ->]|[Ne ->]].
      * destruct (H2 i Hi) as [(I & NF & _)|(I & K' & F)]; [contradiction|]. right. split; [|split; [exact K'|right; reflexivity]].
        intros I'. apply in_without in I'. tauto.
      * destruct (H2 i' Hi') as [(I & I2 & T' & K')|(I & K' & F)].
        -- left. split; [|split; [|auto]].
           ++ apply in_without. split; [exact I|discriminate].
           ++ intros I'. apply in_without in I'. tauto.
        -- right. split; [|split; [exact K'|]].
           ++ intros I'. apply in_without in I'. tauto.
           ++ destruct F as [F|F]; [|right; exact F]. left. apply in_without. split; [exact F|congruence].
Qed.

Lemma serving_exec s j pend g x : serving s j pend g -> In x pend ->
  exists s', exec x s = Some s' /\ forall p, serving (at_ s' j p) j (without x pend ++ then_ x) g.
Proof.
  destruct g as [k|a|]; cbn [serving].
  - intros (new & H1 & H2) Hx. destruct (sending_exec _ _ _ _ H2 Hx) as (s' & E & H). exists s'. split; [exact E|].
    intros p. exists new. auto.
  - intros (H1 & H2) Hx. destruct (sending_exec _ _ _ _ H2 Hx) as (s' & E & H). exists s'. auto.
  - intros H2 Hx. destruct (keeping_exec _ _ _ H2 Hx) as (s' & E & H). exists s'. auto.
Qed.

Lemma sending_exact s s' pend new : sending s pend new -> s_tmp s' = s_tmp s -> s_kept s' = s_kept s -> sending s' pend new.
Proof. intros (old & c & H) E1 E2. exists old, c. rewrite E1, E2. exact H. Qed.

Lemma begins s j n : (exists m, (forall i, i < t_shards t -> s_kept s i = None /\ s_tmp s i = Some (firstn m w))) ->
  current t s = Some n -> n = q_first (qs j) ->
  exists new, so_far (qs j) 0 new /\ forall i, i < t_shards t -> s_kept s i = None /\ s_tmp s i = Some new.
Proof.
  intros (m & H) C E. destruct O as (Hn & Hr & Hl & Hs). destruct (H 0 Hn) as [_ T].
  unfold current in C. rewrite T in C. injection C as C. rewrite firstn_length in C.
  exists (firstn m w). split; [|exact H]. split; [lia|].
  destruct (Q j) as [(k & H1 & H2 & H3 & H4)|(H1 & H2 & H3)].
  - left. exists k. repeat (split; [assumption|]). rewrite Nat.add_0_r.
    assert (B : Nat.min (t_row t * Nat.min m (length w)) (t_size t) = t_row t * k) by congruence.
    destruct (le_lt_dec (length w) k) as [G|G].
    + rewrite (firstn_all2 (n := k)) by lia. apply firstn_all2.
      destruct (le_lt_dec (length w) m); [assumption|exfalso]. rewrite (Nat.min_l m) in B by lia.
      assert (t_row t * m <= t_row t * (length w - 1)) by (apply Nat.mul_le_mono_l; lia).
      assert (t_row t * length w <= t_row t * k) by (apply Nat.mul_le_mono_l; lia). lia.
    + assert (t_row t * k <= t_row t * (length w - 1)) by (apply Nat.mul_le_mono_l; lia).
      assert (B2 : t_row t * Nat.min m (length w) = t_row t * k) by lia.
      apply Nat.mul_cancel_l in B2; [|lia]. f_equal. lia.
  - right. repeat (split; [assumption|]). apply firstn_all2.
    destruct (le_lt_dec (length w) m); [assumption|exfalso]. rewrite (Nat.min_l m) in C by lia.
    assert (t_row t * m <= t_row t * (length w - 1)) by (apply Nat.mul_le_mono_l; lia). lia.
Qed.

Lemma calm_begin s j : calm s -> quiet s -> calm (step t qs s (Begin j)).
Proof.
  intros H [Q1 Q2]. destruct H as [B|[(m & H1 & H2 & H3)|[(j0 & p & g & H & _)|(H1 & H2 & H3)]]].
  - left. apply step_broken. exact B.
  - cbn [step]. assert (Id : calm s) by (right; left; exists m; auto).
    assert (Dn : forall a, calm (at_ s j (Done a))).
    { intros a. right. left. exists m. split; [exact H1|]. split; [|exact H3].
      apply (only_quiet s j). split; [exact Q2|intros; apply Q1]. }
    destruct (s_phase s j); try exact Id. destruct (current t s) as [n|] eqn:C; [|apply Dn].
    destruct (n =? q_first (qs j)) eqn:E; [|apply Dn]. apply Nat.eqb_eq in E.
    destruct (begins s j n (ex_intro _ m H1) C E) as (new & S1 & S2).
    right. right. left. exists j, [], (Row 0). split; [cbn [at_ s_phase]; apply upd_same|]. split.
    + apply quiet_only; [exact Q1|exact Q2].
    + cbn [serving]. exists new. split; [exact S1|]. apply (sending_exact s); [|reflexivity|reflexivity].
      apply sending_none. exact S2.
  - exfalso. exact (Q1 _ _ _ H).
  - cbn [step]. assert (Id : calm s) by (right; right; right; auto).
    destruct (s_phase s j); try exact Id. destruct O as (Hn & _). unfold current. destruct (H1 0 Hn) as [_ ->].
    right. right. right. split; [exact H1|]. split; [|exact Q2]. apply (only_quiet s j). split; [exact Q2|intros; apply Q1].
Qed.

Lemma calm_do s j c : calm s -> calm (step t qs s (Do j c)).
Proof.
  intros H. assert (H0 := H). destruct H as [B|[(m & H1 & H2 & H3)|[(j0 & p & g & H1 & H2 & H3)|(H1 & H2 & H3)]]].
  - left. apply step_broken. exact B.
  - cbn [step]. destruct (s_phase s j) as [|p g|] eqn:P; try exact H0. exfalso. exact (H2 _ _ _ P).
  - cbn [step]. destruct (s_phase s j) as [|p' g'|] eqn:P; try exact H0.
    assert (j = j0). { destruct (Nat.eq_dec j j0) as [|N]; [assumption|]. exfalso. destruct H2 as [_ H2]. exact (H2 _ _ _ N P). }
    subst j0. rewrite P in H1. injection H1 as -> ->. destruct (existsb (cmd_eqb c) p) eqn:X; [|exact H0].
    apply in_pend in X. destruct (serving_exec _ _ _ _ _ H3 X) as (s' & E & V). rewrite E.
    destruct (exec_frame _ _ _ E) as (F1 & F2 & F3).
    right. right. left. eexists j, _, g. split; [cbn [at_ s_phase]; apply upd_same|]. split; [|apply V].
    apply only_at. destruct H2 as [G1 G2]. split; [rewrite F2; exact G1|rewrite F1; exact G2].
  - cbn [step]. destruct (s_phase s j) as [|p g|] eqn:P; try exact H0. exfalso. exact (H2 _ _ _ P).
Qed.

Lemma calm_go s j ok : calm s -> calm (step t qs s (Go j ok)).
Proof.
  intros H. assert (H0 := H). destruct H as [B|[(m & H1 & H2 & H3)|[(j0 & p & g & H1 & H2 & H3)|(H1 & H2 & H3)]]].
  - left. apply step_broken. exact B.
  - cbn [step]. destruct (s_phase s j) as [|p g|] eqn:P; try exact H0. exfalso. exact (H2 _ _ _ P).
  - cbn [step]. destruct (s_phase s j) as [|p' g'|] eqn:P; try exact H0.
    assert (j = j0). { destruct (Nat.eq_dec j j0) as [|N]; [assumption|]. exfalso. destruct H2 as [_ H2]. exact (H2 _ _ _ N P). }
    subst j0. rewrite P in H1. injection H1 as -> ->. destruct p as [|c p]; [|exact H0]. unfold go.
    assert (Fl : forall s1 p1 g1, only s1 j -> serving (at_ s1 j (Flight p1 g1)) j p1 g1 -> calm (at_ s1 j (Flight p1 g1))).
    { intros s1 p1 g1 G V. right. right. left. exists j, p1, g1. split; [cbn [at_ s_phase]; apply upd_same|]. split; [|exact V].
      apply only_at. exact G. }
    destruct g as [k|a|]; cbn [serving] in H3.
    + destruct H3 as (new & S1 & S2). pose proof (sending_done _ _ S2) as A.
      destruct (nth_error (q_rows (qs j)) k) as [c|] eqn:Nk.
      * apply Fl; [exact H2|]. cbn [serving]. exists (new ++ [c]). split; [|apply sending_row; exact A].
        assert (Lk : k < length (q_rows (qs j))) by (apply nth_error_Some; congruence).
        destruct S1 as [_ [(k0 & A1 & A2 & A3 & A4 & A5)|(_ & A2 & _)]].
        -- split; [lia|]. left. exists k0. repeat (split; [assumption|]).
           rewrite Nat.add_succ_r, A5. symmetry. apply firstn_next. rewrite A2 in Nk. exact (nth_error_slice _ _ _ _ _ Nk).
        -- rewrite A2 in Nk. destruct k; discriminate.
      * assert (Lk : length (q_rows (qs j)) <= k) by (apply nth_error_None; exact Nk).
        assert (Lk' : k = length (q_rows (qs j))) by (destruct S1; lia).
        destruct (reached t (qs j) <? t_size t) eqn:L1.
        -- right. left. assert (Pm : exists m, new = firstn m w).
           { destruct S1 as [_ [(k0 & _ & _ & _ & _ & A5)|(_ & _ & _ & A5)]]; [exists (k0 + k); exact A5|].
             exists (length w). rewrite A5. symmetry. apply firstn_all. }
           destruct Pm as (m & ->). exists m. split; [exact A|]. split; [apply (only_quiet s j); exact H2|].
           cbn [at_ s_stray]. destruct H2 as [-> _]. intros x [].
        -- rewrite (never_over _ _ _ S1). apply Nat.ltb_ge in L1.
           assert (R : reached t (qs j) = t_size t). { pose proof (never_over _ _ _ S1) as N. apply Nat.ltb_ge in N. lia. }
           pose proof (at_size _ _ _ S1 Lk' R) as W.
           assert (V : forall s1 a, a <> Some Exceeds -> s_tmp s1 = s_tmp s -> s_kept s1 = s_kept s ->
                     serving (at_ s1 j (Flight (rest t (qs j)) (Flush a))) j (rest t (qs j)) (Flush a)).
           { intros s1 a Ha E1 E2. cbn [serving]. split; [exact Ha|]. unfold rest. destruct (q_tail (qs j)) as [[c n]|].
             - rewrite <- W. apply (sending_row s1). rewrite E1, E2. exact A.
             - rewrite <- W. apply (sending_exact s1); try reflexivity. apply sending_none. rewrite E1, E2. exact A. }
           destruct ok.
           ++ apply Fl; [exact H2|]. apply V; try reflexivity. discriminate.
           ++ apply Fl; [exact H2|]. apply V; try reflexivity. discriminate.
    + destruct H3 as [Ha S2]. pose proof (sending_done _ _ S2) as A. destruct a as [a|].
      * right. left. exists (length w). rewrite firstn_all. split; [exact A|]. split; [apply (only_quiet s j); exact H2|].
        cbn [leave at_ s_stray]. destruct H2 as [-> _]. cbn [app]. intros x Hx. apply in_map_iff in Hx.
        destruct Hx as (i & <- & Hi). apply in_seq in Hi. exists i. split; [reflexivity|lia].
      * apply Fl; [exact H2|]. cbn [serving]. split.
        -- intros x Hx. apply in_map_iff in Hx. destruct Hx as (i & <- & Hi). apply in_seq in Hi. exists i. split; [lia|auto].
        -- intros i Hi. destruct (A i Hi) as [A1 A2]. left. split; [|split; [|split; [exact A2|exact A1]]].
           ++ apply in_map_iff. exists i. split; [reflexivity|apply in_seq; lia].
           ++ intros I. apply in_map_iff in I. destruct I as (i' & E & _). discriminate.
    + right. right. right. split; [|split; [apply (only_quiet s j); exact H2|destruct H2; assumption]].
      intros i Hi. destruct H3 as [_ H3]. destruct (H3 i Hi) as [([] & _)|(_ & K & [[]|T])]. split; [exact K|exact T].
  - cbn [step]. destruct (s_phase s j) as [|p g|] eqn:P; try exact H0. exfalso. exact (H2 _ _ _ P).
Qed.

Lemma calm_late s c : calm s -> calm (step t qs s (Late c)).
Proof.
  intros H. assert (H0 := H). destruct H as [B|[(m & H1 & H2 & H3)|[(j0 & p & g & H1 & [H2 H2'] & H3)|(H1 & H2 & H3)]]].
  - left. apply step_broken. exact B.
  - cbn [step]. destruct (pick c (s_stray s)) as [r|] eqn:P; [|exact H0]. cbv zeta.
    destruct (pick_in _ _ _ P) as [P1 P2]. destruct (H3 c P1) as (i & -> & Hi). cbn [exec then_].
    left. exists i. cbn [leave s_tmp s_kept]. rewrite upd_same. split; [exact Hi|]. split; [reflexivity|]. apply H1. exact Hi.
  - cbn [step]. rewrite H2. exact H0.
  - cbn [step]. rewrite H3. exact H0.
Qed.

Lemma calm_expire s i : calm s -> calm (step t qs s (Expire i)).
Proof.
  intros H. assert (H0 := H). destruct (le_lt_dec (t_shards t) i) as [G|G].
  - destruct H as [B|[(m & H1 & H2 & H3)|[(j0 & p & g & H1 & H2 & H3)|(H1 & H2 & H3)]]].
    + left. apply step_broken. exact B.
    + right. left. exists m. split; [|auto]. intros i' Hi'. cbn [step s_kept s_tmp]. rewrite upd_other by lia. apply H1. exact Hi'.
    + right. right. left. exists j0, p, g. split; [exact H1|]. split; [exact H2|].
      assert (Sn : forall new, sending s p new -> sending (step t qs s (Expire i)) p new).
      { intros new (old & c & A1 & A2 & A3). exists old, c. split; [exact A1|]. split; [exact A2|].
        intros i' Hi'. cbn [step s_kept s_tmp]. rewrite upd_other by lia. apply A3. exact Hi'. }
      destruct g as [k|a|]; cbn [serving] in *.
      * destruct H3 as (new & A1 & A2). exists new. auto.
      * destruct H3. auto.
      * destruct H3 as [A1 A2]. split; [exact A1|]. intros i' Hi'. cbn [step s_kept s_tmp]. rewrite upd_other by lia. apply A2. exact Hi'.
    + right. right. right. split; [|auto]. intros i' Hi'. cbn [step s_kept s_tmp]. rewrite upd_other by lia. apply H1. exact Hi'.
  - destruct (s_kept s i) as [l|] eqn:K.
    + destruct H as [B|[(m & H1 & H2 & H3)|[(j0 & p & g & H1 & H2 & H3)|(H1 & H2 & H3)]]].
      * left. apply step_broken. exact B.
      * destruct (H1 i G). congruence.
      * right. right. left. exists j0, p, g. split; [exact H1|]. split; [exact H2|].
        destruct g as [k|a|]; cbn [serving] in *.
        -- destruct H3 as (new & _ & (old & c & _ & _ & A)). destruct (A i G). congruence.
        -- destruct H3 as (_ & (old & c & _ & _ & A)). destruct (A i G). congruence.
        -- destruct H3 as [A1 A2]. split; [exact A1|]. intros i' Hi'. cbn [step s_kept s_tmp].
           destruct (upd_cases (s_tmp s) i None i') as [[-> ->]|[_ ->]]; [|apply A2; exact Hi'].
           destruct (A2 i G) as [(_ & _ & _ & A3)|(A3 & A4 & _)]; [congruence|]. right. auto.
      * right. right. right. split; [|auto]. intros i' Hi'. cbn [step s_kept s_tmp]. destruct (H1 i' Hi') as [A B]. split; [exact A|].
        destruct (upd_cases (s_tmp s) i None i') as [[_ ->]|[_ ->]]; auto.
    + left. exists i. cbn [step s_kept s_tmp]. rewrite upd_same. auto.
Qed.

Lemma calm_run es : forall s, calm s -> apart t qs s es -> calm (run t qs s es).
Proof.
  induction es as [|e es IH]; intros s H A; [exact H|]. destruct A as [A1 A2].
  apply (IH (step t qs s e)); [|exact A2]. destruct e as [j|j c|j ok|c|i].
  - apply calm_begin; assumption.
  - apply calm_do; assumption.
  - apply calm_go; assumption.
  - apply calm_late; assumption.
  - apply calm_expire; assumption.
Qed.

Lemma calm_start : calm start.
Proof.
  right. left. exists 0. split; [intros i _; split; reflexivity|]. split; [discriminate|]. intros x [].
Qed.

Lemma apart_whole es j : apart t qs start es -> s_phase (run t qs start es) j = Done Stored ->
  forall i, i < t_shards t -> s_kept (run t qs start es) i = Some w.
Proof.
  intros A D i Hi. destruct (answered t qs es j D) as [_ K]. destruct (K i Hi) as [l E].
  destruct (calm_run es start calm_start A) as [(i' & B1 & B2 & B3)|[(m & H1 & _)|[(j0 & p & g & H1 & H2 & H3)|(H1 & _)]]].
  - destruct (K i' B1). congruence.
  - destruct (H1 i Hi). congruence.
  - destruct g as [k|a|]; cbn [serving] in H3.
    + destruct H3 as (new & _ & (old & c & _ & _ & H3)). destruct (H3 i Hi). congruence.
    + destruct H3 as (_ & (old & c & _ & _ & H3)). destruct (H3 i Hi). congruence.
    + destruct H3 as [_ H3]. destruct (H3 i Hi) as [(_ & _ & _ & H4)|(_ & H4 & _)]; [congruence|exact H4].
  - apply H1. exact Hi.
Qed.
End Apart.
