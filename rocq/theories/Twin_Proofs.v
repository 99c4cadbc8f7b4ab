From Verif Require Import Twin_Model Twin_Spec.
From Coq Require Import List Arith Bool Lia.
Import ListNotations.

Lemma nth_put_same : forall (A : Type) (l : list A) i x y, nth_error l i = Some y -> nth_error (put_at l i x) i = Some x.
Proof.
  intros A l i x y H. assert (i < length l) as L by (apply nth_error_Some; congruence). unfold put_at.
  rewrite nth_error_app2; rewrite firstn_length_le by lia; [|lia]. rewrite Nat.sub_diag. reflexivity.
Qed.
Lemma nth_put_other : forall (A : Type) (l : list A) i k x y, nth_error l i = Some y -> k <> i -> nth_error (put_at l i x) k = nth_error l k.
Proof.
  intros A l. induction l as [|a l IH]; intros i k x y H N; [destruct i; discriminate|].
  destruct i as [|i]; [destruct k as [|k]; [congruence|reflexivity]|].
  destruct k as [|k]; [reflexivity|]. cbn. apply (IH i k x y); [exact H|congruence].
Qed.
Lemma filter_one : forall (A : Type) (f : A -> bool) l i k a b, length (filter f l) <= 1 ->
  nth_error l i = Some a -> f a = true -> nth_error l k = Some b -> f b = true -> i = k.
Proof.
  assert (forall (A : Type) (f : A -> bool) l i a, nth_error l i = Some a -> f a = true -> 1 <= length (filter f l)) as P.
  { intros A f l i a H F. assert (In a (filter f l)) as I by (apply filter_In; split; [eapply nth_error_In; exact H|exact F]).
    destruct (filter f l); [destruct I|cbn; lia]. }
  intros A f. induction l as [|x l IH]; intros i k a b L Hi Fi Hk Fk; [destruct i; discriminate|].
  cbn [filter] in L. destruct i as [|i], k as [|k]; [reflexivity| | |].
  - cbn in Hi, Hk. injection Hi as ->. rewrite Fi in L. cbn in L. pose proof (P A f l k b Hk Fk). lia.
  - cbn in Hi, Hk. injection Hk as ->. rewrite Fk in L. cbn in L. pose proof (P A f l i a Hi Fi). lia.
  - f_equal. apply (IH i k a b); try assumption. destruct (f x); cbn in L; lia.
Qed.

Section Store.
  Context {B : Type}.
  Variable c : list B.

  Definition pending (s : state B) (i : nat) : Prop :=
    nth_error (st_threads s) i = Some (Thread Rename Check) \/ nth_error (st_threads s) i = Some (Thread Rename Act).
  Definition full (s : state B) (j : nat) : Prop := exists x, st_data s j = c ++ x.
  Definition writes (s : state B) (k j : nat) (r : list (list B)) : Prop :=
    exists cs, nth_error (st_threads s) k = Some (Thread (Append cs) (Writing j r)).

  Record inv (s : state B) : Prop := {
    v_brings : forall i t, nth_error (st_threads s) i = Some t -> brings c (t_kind t);
    v_rename : forall i j r, nth_error (st_threads s) i <> Some (Thread Rename (Writing j r));
    v_pending : forall i, pending s i -> st_data s i = c /\ st_entry s <> Some i;
    v_writes : forall k j r, writes s k j r -> ~ pending s j /\ (full s j \/ st_data s j ++ concat r = c);
    v_entry : forall j, st_entry s = Some j -> full s j \/ exists k r, writes s k j r /\ st_data s j ++ concat r = c;
    v_told : is_told s TOk -> st_entry s <> None;
    v_open : forall k j r, writes s k j r -> st_entry s <> None }.

  Lemma inv_arrive : forall ks, Forall (brings c) ks -> inv (arrive c ks).
  Proof.
    intros ks F. assert (forall i t, nth_error (st_threads (arrive c ks)) i = Some t -> exists k, t = Thread k Check /\ brings c k) as A.
    { intros i t H. cbn in H. rewrite nth_error_map in H. destruct (nth_error ks i) as [k|] eqn:E; [|discriminate]. injection H as <-.
      exists k. split; [reflexivity|]. rewrite Forall_forall in F. apply F. eapply nth_error_In. exact E. }
    constructor.
    - intros i t H. destruct (A i t H) as (k & -> & K). exact K.
    - intros i j r H. destruct (A i _ H) as (k & E & _). discriminate.
    - intros i _. split; [reflexivity|discriminate].
    - intros k j r (cs & H). destruct (A _ _ H) as (k0 & E & _). discriminate.
    - discriminate.
    - intros (i & k & H). destruct (A _ _ H) as (k0 & E & _). discriminate.
    - intros k j r (cs & H). destruct (A _ _ H) as (k0 & E & _). discriminate.
  Qed.

  (** A request ends or moves on without touching a file. *)
  Lemma inv_move : forall s i t p, inv s -> nth_error (st_threads s) i = Some t ->
    match t_kind t, p with
    | Rename, Done x => x = TOk -> st_entry s <> None
    | Append _, Done x => (x = TOk -> st_entry s <> None) /\ match t_pc t with Writing j r => full s j | _ => True end
    | Rename, Act => t_pc t = Check
    | Append _, Act => t_pc t = Check
    | _, _ => False
    end ->
    inv (State (st_entry s) (st_data s) (put_at (st_threads s) i (Thread (t_kind t) p))).
  Proof.
    intros s i t p [V1 V2 V3 V4 V5 V6 V7] H M.
    set (s' := State (st_entry s) (st_data s) (put_at (st_threads s) i (Thread (t_kind t) p))).
    assert (forall k, k <> i -> nth_error (st_threads s') k = nth_error (st_threads s) k) as O
      by (intros k N; cbn; eapply nth_put_other; [exact H|exact N]).
    assert (nth_error (st_threads s') i = Some (Thread (t_kind t) p)) as I by (cbn; eapply nth_put_same; exact H).
    assert (forall j, pending s' j -> pending s j) as Pe.
    { intros j P. destruct (Nat.eq_dec j i) as [->|N].
      - unfold pending in P. rewrite I in P. unfold pending. rewrite H. destruct t as [k q]. cbn in *.
        destruct P as [P|P]; injection P as -> ->; [contradiction|]. cbn in M. subst q. left. reflexivity.
      - unfold pending in *. rewrite (O j N) in P. exact P. }
    assert (forall k j r, writes s' k j r -> k <> i /\ writes s k j r) as Wr.
    { intros k j r (cs & W). destruct (Nat.eq_dec k i) as [->|N].
      - exfalso. rewrite I in W. injection W as W1 ->. rewrite W1 in M. exact M.
      - split; [exact N|]. exists cs. rewrite <- (O k N). exact W. }
    constructor.
    - intros k x X. destruct (Nat.eq_dec k i) as [->|N]; [rewrite I in X; injection X as <-; cbn; apply (V1 i t H)|].
      rewrite (O k N) in X. exact (V1 k x X).
    - intros k j r X. destruct (Nat.eq_dec k i) as [->|N]; [rewrite I in X; injection X as X1 ->; rewrite X1 in M; exact M|].
      rewrite (O k N) in X. exact (V2 k j r X).
    - intros j P. cbn [st_data st_entry s']. apply V3. apply Pe. exact P.
    - intros k j r W. apply Wr in W as [_ W]. destruct (V4 k j r W) as [W1 W2]. split; [intros P; apply W1, Pe, P|exact W2].
    - intros j E. cbn in E. destruct (V5 j E) as [F|(k & r & W & D)]; [left; exact F|].
      destruct (Nat.eq_dec k i) as [->|N].
      + left. destruct W as (cs & W). rewrite H in W. injection W as ->. cbn in M.
        destruct p; try contradiction; [cbn in M; discriminate M|]. apply M.
      + right. exists k, r. split; [|exact D]. destruct W as (cs & W). exists cs. rewrite (O k N). exact W.
    - intros (k & x & X). cbn [st_entry s']. destruct (Nat.eq_dec k i) as [->|N].
      + rewrite I in X. injection X as X1 ->. destruct (t_kind t); [apply M; reflexivity|apply M; reflexivity].
      + rewrite (O k N) in X. apply V6. exists k, x. exact X.
    - intros k j r W. apply Wr in W as [_ W]. exact (V7 k j r W).
  Qed.

  Lemma inv_happen : forall s v, inv s -> exclusive s -> ~ breaks v -> inv (happen s v).
  Proof.
    intros s v V X Nb. destruct v as [i|i|i]; [|contradiction Nb; exact I|].
    - cbn. destruct (nth_error (st_threads s) i) as [t|] eqn:H; [|exact V].
      pose proof V as [V1 V2 V3 V4 V5 V6 V7].
      assert (forall k b, nth_error (st_threads s) k = Some b -> busy b = true -> busy t = true -> k = i) as One.
      { intros k b Hk Bk Bt. exact (filter_one _ busy (st_threads s) k i b t X Hk Bk H Bt). }
      unfold go. destruct (t_pc t) as [| |j [|c0 r]|x] eqn:Q.
      + destruct (st_entry s) as [j|] eqn:E.
        * rewrite <- E. apply inv_move; [exact V|exact H|]. destruct (t_kind t); [intros _; rewrite E; discriminate|].
          rewrite Q. split; [intros _; rewrite E; discriminate|exact I].
        * rewrite <- E. apply inv_move; [exact V|exact H|]. destruct (t_kind t); exact Q.
      + destruct t as [k p]. cbn in Q. subst p. cbn [t_kind]. destruct k as [|cs].
        * (* renamed *)
          assert (pending s i) as Pi by (right; exact H).
          destruct (V3 i Pi) as [Di _].
          set (s' := State (Some i) (st_data s) (put_at (st_threads s) i (Thread Rename (Done TOk)))).
          assert (forall k, k <> i -> nth_error (st_threads s') k = nth_error (st_threads s) k) as O
            by (intros k N; cbn; eapply nth_put_other; [exact H|exact N]).
          assert (nth_error (st_threads s') i = Some (Thread Rename (Done TOk))) as Ii by (cbn; eapply nth_put_same; exact H).
          assert (forall j, pending s' j -> j <> i /\ pending s j) as Pe.
          { intros j P. destruct (Nat.eq_dec j i) as [->|N]; [unfold pending in P; rewrite Ii in P; destruct P; discriminate|].
            split; [exact N|]. unfold pending in *. rewrite (O j N) in P. exact P. }
          assert (forall k j r, writes s' k j r -> writes s k j r) as Wr.
          { intros k j r (cs & W). destruct (Nat.eq_dec k i) as [->|N]; [rewrite Ii in W; discriminate|]. exists cs. rewrite <- (O k N). exact W. }
          constructor.
          -- intros k x Xx. destruct (Nat.eq_dec k i) as [->|N]; [rewrite Ii in Xx; injection Xx as <-; exact I|]. rewrite (O k N) in Xx. exact (V1 k x Xx).
          -- intros k j r Xx. destruct (Nat.eq_dec k i) as [->|N]; [rewrite Ii in Xx; discriminate|]. rewrite (O k N) in Xx. exact (V2 k j r Xx).
          -- intros j P. apply Pe in P as [N P]. cbn [st_data st_entry s']. split; [apply V3; exact P|congruence].
          -- intros k j r W. apply Wr in W. destruct (V4 k j r W) as [W1 W2]. split; [intros P; apply Pe in P as [_ P]; exact (W1 P)|exact W2].
          -- intros j E. cbn in E. injection E as <-. left. exists []. cbn. rewrite app_nil_r. exact Di.
          -- intros _. discriminate.
          -- intros k j r _. discriminate.
        * destruct (st_entry s) as [j|] eqn:E.
          -- (* an existing file is opened *)
             assert (full s j) as Fj.
             { destruct (V5 j eq_refl) as [F|(k & r & (cs' & W) & D)]; [exact F|].
               pose proof (One k _ W eq_refl eq_refl) as ->. rewrite H in W. discriminate. }
             set (s' := State (Some j) (st_data s) (put_at (st_threads s) i (Thread (Append cs) (Writing j cs)))).
             assert (forall k, k <> i -> nth_error (st_threads s') k = nth_error (st_threads s) k) as O
               by (intros k N; cbn; eapply nth_put_other; [exact H|exact N]).
             assert (nth_error (st_threads s') i = Some (Thread (Append cs) (Writing j cs))) as Ii by (cbn; eapply nth_put_same; exact H).
             assert (forall k, pending s' k -> pending s k) as Pe.
             { intros k P. destruct (Nat.eq_dec k i) as [->|N]; [unfold pending in P; rewrite Ii in P; destruct P; discriminate|].
               unfold pending in *. rewrite (O k N) in P. exact P. }
             constructor.
             ++ intros k x Xx. destruct (Nat.eq_dec k i) as [->|N]; [rewrite Ii in Xx; injection Xx as <-; exact (V1 i _ H)|]. rewrite (O k N) in Xx. exact (V1 k x Xx).
             ++ intros k y r Xx. destruct (Nat.eq_dec k i) as [->|N]; [rewrite Ii in Xx; discriminate|]. rewrite (O k N) in Xx. exact (V2 k y r Xx).
             ++ intros k P. apply Pe in P. cbn [st_data st_entry s']. exact (V3 k P).
             ++ intros k y r (cs' & W). destruct (Nat.eq_dec k i) as [->|N].
                ** rewrite Ii in W. injection W as -> -> ->. split; [intros P; apply Pe in P; apply V3 in P as [_ P]; congruence|left; exact Fj].
                ** rewrite (O k N) in W. destruct (V4 k y r (ex_intro _ cs' W)) as [W1 W2]. split; [intros P; apply W1, Pe, P|exact W2].
             ++ intros y Ey. cbn in Ey. injection Ey as <-. left. exact Fj.
             ++ intros _. discriminate.
             ++ intros k y r _. discriminate.
          -- (* a new file *)
             set (s' := State (Some i) (set_data (st_data s) i []) (put_at (st_threads s) i (Thread (Append cs) (Writing i cs)))).
             assert (forall k, k <> i -> nth_error (st_threads s') k = nth_error (st_threads s) k) as O
               by (intros k N; cbn; eapply nth_put_other; [exact H|exact N]).
             assert (nth_error (st_threads s') i = Some (Thread (Append cs) (Writing i cs))) as Ii by (cbn; eapply nth_put_same; exact H).
             assert (forall k, pending s' k -> k <> i /\ pending s k) as Pe.
             { intros k P. destruct (Nat.eq_dec k i) as [->|N]; [unfold pending in P; rewrite Ii in P; destruct P; discriminate|].
               split; [exact N|]. unfold pending in *. rewrite (O k N) in P. exact P. }
             assert (forall k, k <> i -> st_data s' k = st_data s k) as Do.
             { intros k N. cbn. unfold set_data. apply Nat.eqb_neq in N. rewrite N. reflexivity. }
             assert (st_data s' i = []) as Di by (cbn; unfold set_data; rewrite Nat.eqb_refl; reflexivity).
             assert (concat cs = c) as Cc by exact (V1 i _ H).
             constructor.
             ++ intros k x Xx. destruct (Nat.eq_dec k i) as [->|N]; [rewrite Ii in Xx; injection Xx as <-; exact Cc|]. rewrite (O k N) in Xx. exact (V1 k x Xx).
             ++ intros k y r Xx. destruct (Nat.eq_dec k i) as [->|N]; [rewrite Ii in Xx; discriminate|]. rewrite (O k N) in Xx. exact (V2 k y r Xx).
             ++ intros k P. apply Pe in P as [N P]. rewrite (Do k N). split; [apply V3; exact P|cbn; congruence].
             ++ intros k y r (cs' & W). destruct (Nat.eq_dec k i) as [->|N].
                ** rewrite Ii in W. injection W as -> -> ->. split; [intros P; apply Pe in P as [P _]; congruence|]. right. rewrite Di. exact Cc.
                ** exfalso. rewrite (O k N) in W. apply N. exact (One k _ W eq_refl eq_refl).
             ++ intros y Ey. cbn in Ey. injection Ey as <-. right. exists i, cs. split; [exists cs; exact Ii|]. rewrite Di. exact Cc.
             ++ intros _. discriminate.
             ++ intros k y r _. discriminate.
      + (* written *)
        destruct t as [k p]. cbn in Q. subst p. destruct k as [|cs]; [contradiction (V2 i j [] H)|].
        assert (full s j) as Fj.
        { destruct (V4 i j [] (ex_intro _ cs H)) as [_ [F|F]]; [exact F|]. cbn in F. rewrite app_nil_r in F. exists []. rewrite app_nil_r. exact F. }
        apply inv_move; [exact V|exact H|]. cbn. split; [|exact Fj]. intros _.
        exact (V7 i j [] (ex_intro _ cs H)).
      + (* a piece is written *)
        destruct t as [k p]. cbn in Q. subst p. destruct k as [|cs]; [contradiction (V2 i j (c0 :: r) H)|]. cbn [t_kind].
        set (s' := State (st_entry s) (set_data (st_data s) j (st_data s j ++ c0)) (put_at (st_threads s) i (Thread (Append cs) (Writing j r)))).
        assert (forall k, k <> i -> nth_error (st_threads s') k = nth_error (st_threads s) k) as O
          by (intros k N; cbn; eapply nth_put_other; [exact H|exact N]).
        assert (nth_error (st_threads s') i = Some (Thread (Append cs) (Writing j r))) as Ii by (cbn; eapply nth_put_same; exact H).
        assert (forall k, pending s' k -> pending s k) as Pe.
        { intros k P. destruct (Nat.eq_dec k i) as [->|N]; [unfold pending in P; rewrite Ii in P; destruct P; discriminate|].
          unfold pending in *. rewrite (O k N) in P. exact P. }
        assert (forall k, k <> j -> st_data s' k = st_data s k) as Do.
        { intros k N. cbn. unfold set_data. apply Nat.eqb_neq in N. rewrite N. reflexivity. }
        assert (st_data s' j = st_data s j ++ c0) as Dj by (cbn; unfold set_data; rewrite Nat.eqb_refl; reflexivity).
        destruct (V4 i j (c0 :: r) (ex_intro _ cs H)) as [Pj Fj].
        assert (full s' j \/ st_data s' j ++ concat r = c) as Fj'.
        { rewrite Dj. destruct Fj as [[x Fx]|Fj]; [left; exists (x ++ c0); rewrite Dj, Fx, app_assoc; reflexivity|].
          right. cbn in Fj. rewrite <- app_assoc. exact Fj. }
        assert (forall y, full s y -> full s' y) as Fy.
        { intros y [x Fx]. destruct (Nat.eq_dec y j) as [->|N]; [exists (x ++ c0); rewrite Dj, Fx, app_assoc; reflexivity|].
          exists x. rewrite (Do y N). exact Fx. }
        constructor.
        * intros k x Xx. destruct (Nat.eq_dec k i) as [->|N]; [rewrite Ii in Xx; injection Xx as <-; exact (V1 i _ H)|]. rewrite (O k N) in Xx. exact (V1 k x Xx).
        * intros k y q Xx. destruct (Nat.eq_dec k i) as [->|N]; [rewrite Ii in Xx; discriminate|]. rewrite (O k N) in Xx. exact (V2 k y q Xx).
        * intros k P. apply Pe in P. assert (k <> j) as N by (intros ->; exact (Pj P)). rewrite (Do k N). exact (V3 k P).
        * intros k y q (cs' & W). destruct (Nat.eq_dec k i) as [->|N].
          -- rewrite Ii in W. injection W as -> -> ->. split; [intros P; apply Pj, Pe, P|exact Fj'].
          -- exfalso. rewrite (O k N) in W. apply N. exact (One k _ W eq_refl eq_refl).
        * intros y E. cbn in E. destruct (V5 y E) as [F|(k & q & (cs' & W) & D)]; [left; exact (Fy y F)|].
          pose proof (One k _ W eq_refl eq_refl) as ->. rewrite H in W. injection W as -> -> <-.
          destruct Fj' as [F|F]; [left; exact F|]. right. exists i, r. split; [exists cs'; exact Ii|exact F].
        * intros (k & x & Xx). cbn [st_entry s']. destruct (Nat.eq_dec k i) as [->|N]; [rewrite Ii in Xx; discriminate|].
          rewrite (O k N) in Xx. apply V6. exists k, x. exact Xx.
        * intros k y q _. cbn [st_entry s']. exact (V7 i j (c0 :: r) (ex_intro _ cs H)).
      + exact V.
    - cbn. destruct (nth_error (st_threads s) i) as [[k [| |j r|x]]|] eqn:H; try exact V.
      apply (inv_move s i (Thread k Act) (Done TNotFound) V H). cbn. destruct k; [discriminate|split; [discriminate|exact I]].
  Qed.

  Lemma inv_run : forall vs s, inv s -> always exclusive s vs -> Forall (fun v => ~ breaks v) vs -> inv (run s vs).
  Proof.
    induction vs as [|v vs IH]; intros s V A F; [exact V|]. cbn in *. destruct A as [A1 A2]. inversion F; subst.
    apply IH; [apply inv_happen; assumption|exact A2|assumption].
  Qed.

  (** What a reader sees is the start of the object. *)
  Lemma inv_read : forall s x, inv s -> read s (length c) = Some x -> exists y, x ++ y = c.
  Proof.
    intros s x V R. unfold read in R. destruct (st_entry s) as [j|] eqn:E; [|discriminate]. injection R as <-.
    destruct (v_entry s V j E) as [[y F]|(k & r & _ & F)].
    - rewrite F. exists []. rewrite firstn_app, firstn_all, Nat.sub_diag, app_nil_r. cbn. apply app_nil_r.
    - exists (concat r). rewrite firstn_all2; [exact F|]. rewrite <- F, app_length. lia.
  Qed.

  Lemma inv_quiet : forall s, inv s -> nobody_writes s -> read s (length c) = None \/ read s (length c) = Some c.
  Proof.
    intros s V Nw. unfold read. destruct (st_entry s) as [j|] eqn:E; [right|left; reflexivity].
    destruct (v_entry s V j E) as [[y F]|(k & r & (cs & W) & _)].
    - rewrite F, firstn_app, firstn_all, Nat.sub_diag, app_nil_r. reflexivity.
    - contradiction (Nw _ _ _ _ W).
  Qed.

  Lemma inv_told : forall s, inv s -> nobody_writes s -> is_told s TOk -> read s (length c) = Some c.
  Proof.
    intros s V Nw T. destruct (inv_quiet s V Nw) as [R|R]; [|exact R]. exfalso. apply (v_told s V T).
    unfold read in R. destruct (st_entry s); [discriminate|reflexivity].
  Qed.
End Store.

(** ** Only commits of pieces that are not compressed *)
Section Renames.
  Context {B : Type}.
  Variable c : list B.

  Record rinv (s : state B) : Prop := {
    r_kind : Forall (fun t => t_kind t = Rename /\ forall j r, t_pc t <> Writing j r) (st_threads s);
    r_data : forall j, st_data s j = c;
    r_told : is_told s TOk -> st_entry s <> None }.

  Lemma forall_put : forall (A : Type) (P : A -> Prop) l i x, Forall P l -> P x -> Forall P (put_at l i x).
  Proof.
    intros A P l i x F X. unfold put_at. apply Forall_app. rewrite Forall_forall in F. split.
    - apply Forall_forall. intros y Y. apply F. rewrite <- (firstn_skipn i l). apply in_or_app. left. exact Y.
    - constructor; [exact X|]. apply Forall_forall. intros y Y. apply F. rewrite <- (firstn_skipn (S i) l). apply in_or_app. right. exact Y.
  Qed.
  Lemma told_put : forall (s : state B) e d i t x, nth_error (st_threads s) i = Some t ->
    is_told (State e d (put_at (st_threads s) i (Thread (t_kind t) x))) TOk -> is_told s TOk \/ x = Done TOk.
  Proof.
    intros s e d i t x H (k & y & K). cbn in K. destruct (Nat.eq_dec k i) as [->|N].
    - rewrite (nth_put_same _ _ _ _ _ H) in K. injection K as _ ->. right. reflexivity.
    - rewrite (nth_put_other _ _ _ _ _ _ H N) in K. left. exists k, y. exact K.
  Qed.

  Lemma rinv_happen : forall s v, rinv s -> rinv (happen s v).
  Proof.
    intros s v V. pose proof V as [K D T]. destruct v as [i|i|i]; cbn.
    - destruct (nth_error (st_threads s) i) as [t|] eqn:H; [|exact V].
      assert (t_kind t = Rename /\ forall j r, t_pc t <> Writing j r) as [Kt Nt]
        by (rewrite Forall_forall in K; apply K; eapply nth_error_In; exact H).
      unfold go. destruct (t_pc t) as [| |j r|x] eqn:Q; [| |contradiction (Nt j r eq_refl)|exact V].
      + destruct (st_entry s) as [j|] eqn:E.
        * constructor; cbn [st_threads st_data st_entry]; [apply forall_put; [exact K|cbn; split; [exact Kt|discriminate]]|exact D|discriminate].
        * constructor; cbn [st_threads st_data st_entry]; [apply forall_put; [exact K|cbn; split; [exact Kt|discriminate]]|exact D|].
          intros X. apply (told_put s _ _ i t _ H) in X as [X|X]; [exact (T X)|discriminate].
      + rewrite Kt. constructor; cbn [st_threads st_data st_entry]; [apply forall_put; [exact K|cbn; split; [reflexivity|discriminate]]|exact D|discriminate].
    - destruct (nth_error (st_threads s) i) as [[k [| |j r|x]]|] eqn:H; try exact V.
      exfalso. rewrite Forall_forall in K. destruct (K _ (nth_error_In _ _ H)) as [_ N]. exact (N j r eq_refl).
    - destruct (nth_error (st_threads s) i) as [[k [| |j r|x]]|] eqn:H; try exact V.
      assert (k = Rename) as -> by (rewrite Forall_forall in K; exact (proj1 (K _ (nth_error_In _ _ H)))).
      constructor; cbn [st_threads st_data st_entry]; [apply forall_put; [exact K|cbn; split; [reflexivity|discriminate]]|exact D|].
      intros X. apply (told_put s _ _ i (Thread Rename Act) _ H) in X as [X|X]; [exact (T X)|discriminate].
  Qed.
  Lemma rinv_run : forall vs s, rinv s -> rinv (run s vs).
  Proof. induction vs as [|v vs IH]; intros s V; [exact V|]. cbn. apply IH, rinv_happen, V. Qed.

  Lemma rinv_arrive : forall ks, Forall (fun k => k = Rename) ks -> rinv (arrive c ks).
  Proof.
    intros ks F. constructor; cbn.
    - apply Forall_forall. intros t H. apply in_map_iff in H as (k & <- & H). rewrite Forall_forall in F. cbn. split; [exact (F k H)|discriminate].
    - reflexivity.
    - intros (i & k & H). cbn in H. rewrite nth_error_map in H. destruct (nth_error ks i); discriminate.
  Qed.
  Lemma rinv_read : forall s, rinv s -> (read s (length c) = None \/ read s (length c) = Some c) /\ (is_told s TOk -> read s (length c) = Some c).
  Proof.
    intros s [K D T]. unfold read. destruct (st_entry s) as [j|] eqn:E.
    - rewrite D, firstn_all. split; [right|]; reflexivity.
    - split; [left; reflexivity|]. intros X. contradiction (T X eq_refl).
  Qed.
End Renames.

(** ** What is there stays *)
Section Stay.
  Context {B : Type}.

  (** A file is there, and the requests have not looked for it or have ended. *)
  Definition settled (s : state B) (j : nat) (d : list B) (old : list bool) : Prop :=
    st_entry s = Some j /\ st_data s j = d /\ length old = length (st_threads s) /\
    forall i t, nth_error (st_threads s) i = Some t ->
      t_pc t = Check \/ (exists x, t_pc t = Done x /\ (nth_error old i = Some true -> x = TOk)).

  Lemma settled_happen : forall s j d old v, settled s j d old -> settled (happen s v) j d old.
  Proof.
    intros s j d old v V. pose proof V as (E & D & L & K). destruct v as [i|i|i]; cbn.
    - destruct (nth_error (st_threads s) i) as [t|] eqn:H; [|exact V]. unfold go.
      destruct (K i t H) as [Q|(x & Q & _)]; rewrite Q; [|exact V]. rewrite E.
      unfold settled. cbn. split; [reflexivity|]. split; [exact D|].
      assert (i < length (st_threads s)) as Li by (apply nth_error_Some; congruence).
      split.
      { unfold put_at. rewrite app_length, firstn_length_le by lia. cbn [length]. rewrite skipn_length. lia. }
      intros k y Y. destruct (Nat.eq_dec k i) as [->|N].
      + rewrite (nth_put_same _ _ _ _ _ H) in Y. injection Y as <-. right. exists TOk. split; reflexivity.
      + rewrite (nth_put_other _ _ _ _ _ _ H N) in Y. exact (K k y Y).
    - destruct (nth_error (st_threads s) i) as [[k [| |y r|x]]|] eqn:H; try exact V.
      destruct (K i _ H) as [Q|(x & Q & _)]; discriminate.
    - destruct (nth_error (st_threads s) i) as [[k [| |y r|x]]|] eqn:H; try exact V.
      destruct (K i _ H) as [Q|(x & Q & _)]; discriminate.
  Qed.
  Lemma settled_run : forall vs s j d old, settled s j d old -> settled (run s vs) j d old.
  Proof. induction vs as [|v vs IH]; intros s j d old V; [exact V|]. cbn. apply IH, settled_happen, V. Qed.

  Definition waits (t : thread B) : bool := match t_pc t with Check => true | _ => false end.

  Lemma stays : forall (s : state B) vs size i t,
    st_entry s <> None -> (forall k t', nth_error (st_threads s) k = Some t' -> t_pc t' = Check \/ exists x, t_pc t' = Done x) ->
    read (run s vs) size = read s size /\
    (nth_error (st_threads s) i = Some t -> t_pc t = Check ->
       forall x k, nth_error (st_threads (run s vs)) i = Some (Thread k (Done x)) -> x = TOk).
  Proof.
    intros s vs size i t E K. destruct (st_entry s) as [j|] eqn:Ej; [|contradiction E; reflexivity].
    assert (settled s j (st_data s j) (map waits (st_threads s))) as S0.
    { split; [exact Ej|]. split; [reflexivity|]. split; [apply map_length|]. intros k y Y.
      destruct (K k y Y) as [Q|(x & Q)]; [left; exact Q|]. right. exists x. split; [exact Q|]. rewrite nth_error_map, Y. unfold waits. cbn. rewrite Q. discriminate. }
    apply (settled_run vs) in S0. destruct S0 as (E1 & D1 & _ & K1). split.
    - unfold read. rewrite E1, Ej, D1. reflexivity.
    - intros Hi Q x k Hx. destruct (K1 i _ Hx) as [Q'|(y & Q' & Y)]; [discriminate|]. cbn in Q'. injection Q' as ->. apply Y.
      rewrite nth_error_map, Hi. unfold waits. cbn. rewrite Q. reflexivity.
  Qed.
End Stay.

(** ** One upload *)

Definition uinv (u : upload) : Prop :=
  (u_entry u = true -> u_events u = 0) /\
  (u_entry u = false -> halfway u = false /\ (u_file u = true -> u_events u <> 0)).

Lemma between_put : forall l i p, existsb (fun p => match p with PatchOpen => true | _ => false end) l = false -> p <> PatchOpen ->
  existsb (fun p => match p with PatchOpen => true | _ => false end) (put_at l i p) = false.
Proof.
  intros l i p H N. unfold put_at. rewrite existsb_app. cbn [existsb].
  assert (forall k, existsb (fun p => match p with PatchOpen => true | _ => false end) (firstn k l) = false) as F.
  { intros k. rewrite <- (firstn_skipn k l), existsb_app in H. apply orb_false_elim in H. apply H. }
  assert (forall k, existsb (fun p => match p with PatchOpen => true | _ => false end) (skipn k l) = false) as G.
  { intros k. rewrite <- (firstn_skipn k l), existsb_app in H. apply orb_false_elim in H. apply H. }
  rewrite F, (G (S i)). destruct p; try reflexivity. contradiction N; reflexivity.
Qed.
Lemma between_in : forall l i, nth_error l i = Some PatchOpen -> existsb (fun p => match p with PatchOpen => true | _ => false end) l = true.
Proof. intros l i H. apply existsb_exists. exists PatchOpen. split; [eapply nth_error_In; exact H|reflexivity]. Qed.

Lemma uinv_happen : forall u v, uinv u -> (halfway u = true -> u_entry (uhappen u v) = u_entry u) -> uinv (uhappen u v).
Proof.
  intros u v V A. pose proof V as [V1 V2]. destruct v as [i| |].
  - cbn in *. destruct (nth_error (u_reqs u) i) as [p|] eqn:H; [|exact V].
    destruct (u_entry u) eqn:E.
    + specialize (V1 eq_refl). destruct (halfway u) eqn:Bt.
      * specialize (A eq_refl). destruct p; cbn in *; unfold uinv; cbn; rewrite ?E in *; cbn in *; try discriminate A;
          try (split; [intros _; exact V1|discriminate]).
        destruct (u_file u); cbn in *; rewrite ?E in *; split; try (intros _; exact V1); discriminate.
      * destruct p; cbn; unfold uinv; cbn; rewrite ?E; try (split; [intros _; exact V1|discriminate]).
        -- destruct (u_file u); cbn; rewrite ?E; split; try (intros _; exact V1); discriminate.
        -- split; [discriminate|]. intros _. split; [apply between_put; [exact Bt|discriminate]|discriminate].
        -- split; [discriminate|]. intros _. split; [apply between_put; [exact Bt|discriminate]|discriminate].
    + destruct (V2 eq_refl) as [Bt F].
      destruct p; cbn; unfold uinv; cbn; rewrite ?E; try (split; [discriminate|]; intros _; split; [apply between_put; [exact Bt|discriminate]|exact F]).
      * exfalso. unfold halfway in Bt. rewrite (between_in _ _ H) in Bt. discriminate.
      * destruct (u_file u) eqn:Fl; cbn; rewrite ?E, ?Fl; (split; [discriminate|]; intros _; split; [apply between_put; [exact Bt|discriminate]|]); discriminate.
  - cbn in *. destruct (u_entry u) eqn:E; [|exact V]. cbn in *. split; [discriminate|]. intros _. split; [|discriminate].
    unfold halfway in *. cbn. destruct (existsb _ (u_reqs u)); [discriminate (A eq_refl)|reflexivity].
  - cbn in *. destruct (u_events u) as [|n] eqn:N; [exact V|]. destruct (u_entry u) eqn:E; [discriminate (V1 eq_refl)|].
    unfold uinv. cbn. rewrite ?E. split; [discriminate|]. intros _. split; [apply V2; reflexivity|discriminate].
Qed.
Lemma uinv_run : forall vs u, uinv u -> apart u vs -> uinv (urun u vs).
Proof.
  induction vs as [|v vs IH]; intros u V A; [exact V|]. cbn in *. destruct A as [A1 A2]. apply IH; [apply uinv_happen; assumption|exact A2].
Qed.

(** Once the entry and its notifications are gone the file stays, if no PUT is about to rename it. *)
Definition orphan (u : upload) : Prop :=
  u_entry u = false /\ u_file u = true /\ u_events u = 0 /\ Forall (fun p => p <> PutRename) (u_reqs u).
Lemma orphan_run : forall vs u, orphan u -> orphan (urun u vs).
Proof.
  induction vs as [|v vs IH]; intros u V; [exact V|]. cbn. apply IH. pose proof V as (E & F & N & K). destruct v as [i| |]; cbn.
  - destruct (nth_error (u_reqs u) i) as [p|] eqn:H; [|exact V].
    assert (p <> PutRename) as Np by (rewrite Forall_forall in K; apply K; eapply nth_error_In; exact H).
    destruct p; cbn; unfold orphan; cbn; rewrite ?E, ?F, ?N; try (split; [reflexivity|]; split; [reflexivity|]; split; [reflexivity|]; apply forall_put; [exact K|discriminate]).
    contradiction Np; reflexivity.
  - rewrite E. exact V.
  - rewrite N. exact V.
Qed.
