(** Proofs about finding by hash beside writes. *)
From Verif Require Import Str_Model Str_Proofs Meta_Model Meta_Spec Meta_Proofs Meta_History Search_Model Search_Spec.
From stdpp Require Import gmap sorting.
Local Arguments N.pow : simpl never.
Local Arguments N.add : simpl never.

Lemma run_app : forall s a b, run s (a ++ b) = run (run s a) b.
Proof. intros. unfold run. apply fold_left_app. Qed.

(** ** The database in every execution *)

Definition sound (K : N) (d : db) : Prop := inv K d /\ inv_ikeys K d.

Definition keyed (K : N) (k : str) : Prop := exists id n, k = vkey id n /\ (1 <= n <= K)%N.

Definition good (K : N) (s : state) : Prop :=
  sound K (s_db s) /\ forall i q k, s_searches s !! i = Some q -> k ∈ q_left q -> keyed K k.

Lemma keyed_weaken : forall K K' k, (K <= K')%N -> keyed K k -> keyed K' k.
Proof. intros K K' k H (id & n & -> & ?). exists id, n. split; [done|lia]. Qed.

Lemma sound_weaken : forall K K' d, (K <= K')%N -> sound K d -> sound K' d.
Proof. intros K K' d H [I J]. split; [by eapply inv_weaken|by eapply inv_ikeys_weaken]. Qed.

Lemma sound_write : forall B K d o, sound K d -> event_ok B (Write o) -> (B <= K)%N -> (K + 1 < 2 ^ 63)%N ->
  sound (K + 1) (hstep d o).
Proof.
  intros B K d o [I J] O HB HK. pose proof pow63_64. destruct o as [r|h|h i l now]; [|done|].
  - split; [by apply (inv_hstep B); [done|done|done|lia]|]. destruct O as (batch & c & -> & Hc). cbn.
    eapply (inv_ikeys_effect B); [exact I|done|apply dispatch_effect| |done|lia]. intros id v ->. done.
  - apply (sound_weaken K); [lia|]. cbn. apply (locate_ind (sound K)); [|done].
    intros d0 id n v d' [I0 J0] E. split; [by eapply inv_upd|by eapply inv_ikeys_upd].
Qed.

Lemma drop_db : forall q d, fst (drop_gone q d) = d \/
  exists k, q_gone q = Some k /\ fst (drop_gone q d) = with_hash (idx_remove (q_hash q) k (d_hash d)) d.
Proof. intros q d. unfold drop_gone. destruct (q_gone q); [right; eauto|by left]. Qed.

Lemma drop_search : forall q d, q_left (snd (drop_gone q d)) = q_left q /\
  q_found (snd (drop_gone q d)) = q_found q /\ q_hash (snd (drop_gone q d)) = q_hash q /\
  q_gone (snd (drop_gone q d)) = None.
Proof. intros q d. unfold drop_gone. destruct (q_gone q) eqn:E; cbn; [done|]. by rewrite E. Qed.

Lemma look_left : forall d q k, k ∈ q_left (look_next d q) -> k ∈ q_left q.
Proof.
  intros d q k H. unfold look_next in H. destruct (q_gone q); [done|]. destruct (q_left q) as [|x ks] eqn:E; [by rewrite E in H|].
  destruct (cut_last _ x) as [[a b]|]; [|by apply elem_of_nil in H].
  destruct (service_get_version _ _ _); cbn in H; by constructor.
Qed.

Lemma good_step : forall B K s e, good K s -> event_ok B e -> (B <= K)%N -> (K + 1 < 2 ^ 63)%N -> good (K + 1) (step s e).
Proof.
  intros B K s e [D L] O HB HK.
  assert (good (K + 1) s) as W.
  { split; [eapply sound_weaken; [|done]; lia|]. intros i q k Hq Hk. eapply keyed_weaken; [|by eapply L]. lia. }
  destruct e as [o|h|i|i]; cbn [step].
  - split; [by eapply sound_write|]. cbn. apply W.
  - destruct W as [W1 W2]. split; [done|]. cbn. intros j q k Hq Hk. apply lookup_app_Some in Hq as [Hq|[_ Hq]]; [by eapply W2|].
    apply list_lookup_singleton_Some in Hq as [_ <-]. cbn in Hk. rewrite ksort_perm, elem_of_elements in Hk.
    by apply (proj2 W1) in Hk.
  - destruct (s_searches s !! i) as [q|] eqn:E; [|done]. destruct W as [W1 W2]. split; [done|]. cbn.
    intros j q' k Hq Hk. apply list_lookup_insert_Some in Hq as [(-> & <- & _)|[_ Hq]]; [|by eapply W2].
    apply look_left in Hk. by eapply W2.
  - destruct (s_searches s !! i) as [q|] eqn:E; [|done]. destruct W as [W1 W2].
    pose proof (drop_search q (s_db s)) as (S1 & _). pose proof (drop_db q (s_db s)) as S2.
    destruct (drop_gone q (s_db s)) as [d q2]. cbn [fst snd] in *. split; cbn.
    + destruct S2 as [->|(k & _ & ->)]; [done|]. destruct W1 as [I J]. split; [exact I|].
      intros h x Hx. cbn in Hx. apply idx_remove_sub in Hx. by apply J in Hx.
    + intros j q' k Hq Hk. apply list_lookup_insert_Some in Hq as [(-> & <- & _)|[_ Hq]]; [|by eapply W2].
      rewrite S1 in Hk. by eapply W2.
Qed.

Lemma good_start : forall K, good K (start db_empty).
Proof.
  intros K. split; [|intros i q k H; done]. split; [apply inv_empty|]. intros h k Hk. done.
Qed.

Lemma execution_app : forall B a b, execution B (a ++ b) -> execution B a.
Proof. intros B a b [O H]. apply Forall_app in O as [O1 O2]. rewrite app_length in H. split; [done|lia]. Qed.

Lemma good_run : forall B es, execution B es -> good (B + N.of_nat (length es)) (run (start db_empty) es).
Proof.
  intros B es. induction es as [|e es IH] using rev_ind; intros H; [apply good_start|].
  pose proof (IH (execution_app _ _ _ H)) as G. destruct H as [O L]. apply Forall_app in O as [_ O].
  apply List.Forall_inv in O. rewrite app_length in *. cbn [length] in *. rewrite run_app. cbn [run fold_left].
  replace (B + N.of_nat (length es + 1))%N with ((B + N.of_nat (length es)) + 1)%N in * by lia.
  apply (good_step B); [exact G|exact O|lia|lia].
Qed.

(** ** The searches of an execution *)

Lemma searches_grow : forall s e i q, s_searches s !! i = Some q ->
  exists q', s_searches (step s e) !! i = Some q' /\ q_hash q' = q_hash q /\
    (q' = q \/ (e = Look i /\ q' = look_next (s_db s) q) \/ (e = Drop i /\ q' = snd (drop_gone q (s_db s)))).
Proof.
  intros s e i q H. destruct e as [o|h|j|j]; cbn [step].
  - exists q. cbn. eauto.
  - exists q. cbn. split; [by apply lookup_app_l_Some|eauto].
  - destruct (s_searches s !! j) as [q0|] eqn:E; [|by exists q; eauto].
    destruct (decide (i = j)) as [->|N]; cbn.
    + exists (look_next (s_db s) q0). rewrite list_lookup_insert by (by eapply lookup_lt_Some). assert (q0 = q) as -> by congruence.
      split; [done|]. split; [|by right; left].
      unfold look_next. destruct (q_gone q); [done|]. destruct (q_left q); [done|].
      destruct (cut_last _ _) as [[? ?]|]; [|done]. by destruct (service_get_version _ _ _).
    + exists q. rewrite list_lookup_insert_ne by done. eauto.
  - destruct (s_searches s !! j) as [q0|] eqn:E; [|by exists q; eauto].
    destruct (drop_gone q0 (s_db s)) as [d q1] eqn:Ed. cbn.
    destruct (decide (i = j)) as [->|N]; cbn.
    + exists q1. rewrite list_lookup_insert by (by eapply lookup_lt_Some). assert (q0 = q) as -> by congruence. rewrite Ed.
      split; [done|]. pose proof (drop_search q (s_db s)) as (_ & _ & X & _). rewrite Ed in X. cbn in X.
      split; [done|]. right. by right.
    + exists q. rewrite list_lookup_insert_ne by done. eauto.
Qed.

Lemma look_found : forall d q v, v ∈ q_found (look_next d q) -> v ∈ q_found q \/
  exists k ks, q_gone q = None /\ q_left q = k :: ks /\ look d k = Some v.
Proof.
  intros d q v H. unfold look_next in H. destruct (q_gone q); [by left|]. destruct (q_left q) as [|x ks] eqn:E; [by left|].
  destruct (cut_last _ x) as [[a b]|] eqn:Ec; [|by left].
  destruct (service_get_version _ _ _) as [v'|] eqn:Ev; cbn in H; [|by left].
  apply elem_of_app in H as [H|H]; [by left|]. apply elem_of_list_singleton in H. subst v'. right.
  exists x, ks. unfold look. rewrite Ec. done.
Qed.

Lemma searches_snoc : forall es e, searches_after (es ++ [e]) = s_searches (step (run (start db_empty) es) e).
Proof. intros. unfold searches_after. by rewrite run_app. Qed.

(** What a search began with. *)
Lemma begun : forall pre h, searches_after (pre ++ [Begin h]) !! length (searches_after pre) =
  Some (begin_search h (db_after pre)).
Proof. intros. unfold searches_after, db_after. rewrite run_app. cbn. by rewrite list_lookup_middle. Qed.

Lemma begun_later : forall pre h post, exists q,
  searches_after (pre ++ Begin h :: post) !! length (searches_after pre) = Some q /\ q_hash q = h.
Proof.
  intros pre h post. induction post as [|e post IH] using rev_ind.
  - exists (begin_search h (db_after pre)). split; [apply begun|done].
  - destruct IH as (q & Hq & Eh). destruct (searches_grow _ e _ _ Hq) as (q' & Hq' & E & _). exists q'.
    split; [|congruence]. rewrite <-Hq'. unfold searches_after.
    replace (pre ++ Begin h :: post ++ [e]) with ((pre ++ Begin h :: post) ++ [e]) by (by rewrite <-app_assoc).
    by rewrite (run_app _ _ [e]).
Qed.

Lemma snoc_mid : forall {A} (pre : list A) b post e, pre ++ b :: post ++ [e] = (pre ++ b :: post) ++ [e].
Proof. intros. by rewrite <-app_assoc. Qed.

(** Every version found was stored when it was looked at. *)
Lemma found_stored : forall B pre h post q v, execution B (pre ++ Begin h :: post) ->
  searches_after (pre ++ Begin h :: post) !! length (searches_after pre) = Some q -> v ∈ q_found q ->
  exists p id n, p `prefix_of` post /\ get_ver id n (db_after (pre ++ Begin h :: p)) = Some v.
Proof.
  intros B pre h post. induction post as [|e post IH] using rev_ind; intros q v X Hq Hv.
  - rewrite begun in Hq. injection Hq as <-. by apply elem_of_nil in Hv.
  - rewrite snoc_mid in *. pose proof (execution_app _ _ _ X) as X0.
    destruct (begun_later pre h post) as (q0 & Hq0 & _).
    destruct (searches_grow _ e _ _ Hq0) as (q' & Hq' & _ & Hs).
    assert (q' = q) as ->.
    { rewrite searches_snoc in Hq. congruence. }
    assert (v ∈ q_found q0 -> exists p id n, p `prefix_of` post ++ [e] /\
      get_ver id n (db_after (pre ++ Begin h :: p)) = Some v) as Old.
    { intros Hv0. destruct (IH q0 v X0 Hq0 Hv0) as (p & id & n & Hp & G). exists p, id, n. split; [|done].
      by apply prefix_app_r. }
    destruct Hs as [->|[[_ ->]|[_ ->]]]; [by apply Old| |].
    + apply look_found in Hv as [Hv|(k & ks & Hg & Hl & Hk)]; [by apply Old|].
      destruct (good_run _ _ X0) as [_ L]. destruct (L _ _ k Hq0) as (id & n & -> & Hn); [rewrite Hl; by constructor|].
      exists post, id, n. split; [by apply prefix_app_r|]. rewrite <-look_vkey; [done|]. destruct X0 as [_ X0]. lia.
    + rewrite (proj1 (proj2 (drop_search _ _))) in Hv. by apply Old.
Qed.

(** ** Executions without removed objects and migrated versions *)

(** A number that was given before is not given again. *)
Lemma old_effect : forall K id n d c d', inv K d -> (K + 1 < 2 ^ 64)%N -> counter_ge id n d ->
  effect d c d' -> ~ removes_some_object c -> ~ migrates c ->
  forall v', get_ver id n d' = Some v' -> exists v, get_ver id n d = Some v /\ v_hash v = v_hash v'.
Proof.
  intros K id n d c d' I HK (b & Hb & Hn) E R M v' G.
  destruct E as [c|i m o Hm0|i m Hn0 Hv|i m Hm0|i v b0 hi ui Hb0 Hu Hk Hh|i v b0 hi ui Hb0 Hu Hk Hh|i n0 b0 v Hb0 Hk
    |i n0 v b0 o Hb0 Hk Ht|i b0 Hb0|c m Hc]; unfold with_meta, with_vers, with_hash, with_uid, with_bkt in G; cbn in G;
    try (exists v'; done).
  - rewrite gv_clear in G. destruct (decide (id = i)); [done|]. by exists v'.
  - destruct R. exists i. by left.
  - rewrite gv_put in G by done. destruct (decide _) as [[-> ->]|N]; [|by exists v'].
    replace b0 with b in * by congruence. destruct (I _ _ Hb) as [I1 _]. rewrite next_seq_lt in Hn by lia. lia.
  - destruct M. by exists i, v.
  - rewrite gv_del in G by done. destruct (decide _) as [X|N]; [done|]. by exists v'.
  - rewrite gv_put in G by done. destruct (decide _) as [[-> ->]|N]; [|by exists v'].
    injection G as <-. exists o. split; [|done]. unfold get_ver. by rewrite Hb0.
  - destruct R. exists i. by right.
Qed.

Definition settled (K : N) (d : db) (q : search) : Prop :=
  (forall k, k ∈ q_left q -> exists id n, k = vkey id n /\ (1 <= n <= K)%N /\ counter_ge id n d /\
     forall v, get_ver id n d = Some v -> v_hash v = q_hash q) /\
  (forall k, q_gone q = Some k -> exists id n, k = vkey id n /\ (1 <= n <= K)%N /\ counter_ge id n d /\ get_ver id n d = None).

Definition exact (K : N) (d : db) : Prop := inv K d /\ inv_hash d /\ inv_ikeys K d /\ inv_hexact d.

Definition fine (K : N) (s : state) : Prop :=
  exact K (s_db s) /\ forall i q, s_searches s !! i = Some q -> settled K (s_db s) q.

Lemma plain_effect : forall B K d c d', exact K d -> effect d c d' -> ~ removes_some_object c -> ~ migrates c ->
  (B <= K)%N -> (K + 1 < 2 ^ 63)%N ->
  exact (K + 1) d' /\ forall q, settled K d q -> settled (K + 1) d' q.
Proof.
  intros B K d c d' (I & H & J & X) E R M HB HK. pose proof pow63_64.
  assert (forall id v, c = MigrateVersion id v -> (1 <= v_seq v <= B)%N) as HM by (intros id v ->; destruct M; by exists id, v).
  split.
  - split_and!.
    + eapply inv_effect; [done|done|done|done|lia].
    + by eapply inv_hash_effect.
    + eapply (inv_ikeys_effect B); [exact I|done|done|done|done|lia].
    + by eapply inv_hexact_effect.
  - assert (forall id n, counter_ge id n d -> counter_ge id n d') as C.
    { intros id n Hc. eapply (counter_effect K); [done|lia|done|done|]. intros Y. apply R. by exists id. }
    intros q [Q1 Q2]. split.
    + intros k Hk. destruct (Q1 k Hk) as (id & n & -> & Hn & Hc & Hh). exists id, n. split_and!; [done|lia|lia|by apply C|].
      intros v G. destruct (old_effect K id n d c d' I ltac:(lia) Hc E R M v G) as (v0 & G0 & E0). rewrite <-E0. by apply Hh.
    + intros k Hk. destruct (Q2 k Hk) as (id & n & -> & Hn & Hc & Hh). exists id, n. split_and!; [done|lia|lia|by apply C|].
      destruct (get_ver id n d') as [v|] eqn:G; [|done].
      destruct (old_effect K id n d c d' I ltac:(lia) Hc E R M v G) as (v0 & G0 & E0). congruence.
Qed.

Lemma settled_weaken : forall K K' d q, (K <= K')%N -> settled K d q -> settled K' d q.
Proof.
  intros K K' d q HK [Q1 Q2]. split; intros k Hk.
  - destruct (Q1 k Hk) as (id & n & -> & Hn & X). exists id, n. split_and!; [done|lia|lia|by apply X|by apply X].
  - destruct (Q2 k Hk) as (id & n & -> & Hn & X). exists id, n. split_and!; [done|lia|lia|by apply X|by apply X].
Qed.

Lemma exact_weaken : forall K K' d, (K <= K')%N -> exact K d -> exact K' d.
Proof.
  intros K K' d HK (I & H & J & X). split_and!; [by eapply inv_weaken|done|by eapply inv_ikeys_weaken|done].
Qed.

Lemma plain_write : forall B K d o, exact K d -> event_ok B (Write o) -> plain (Write o) -> (B <= K)%N -> (K + 1 < 2 ^ 63)%N ->
  exact (K + 1) (hstep d o) /\ forall q, settled K d q -> settled (K + 1) (hstep d o) q.
Proof.
  intros B K d o X O [P1 P2] HB HK. destruct o as [r|h|h i l now]; [|done|].
  - destruct O as (batch & c & -> & Hc). cbn. eapply (plain_effect B); [done|apply dispatch_effect| | |done|done].
    + intros Y. apply P1. by exists batch, c.
    + intros Y. apply P2. by exists batch, c.
  - cbn. cut (exact K (fst (update_locate_by_hash h i l now d)) /\
      forall q, settled K d q -> settled K (fst (update_locate_by_hash h i l now d)) q).
    { intros [Y1 Y2]. split; [eapply exact_weaken; [|done]; lia|]. intros q Q. eapply settled_weaken; [|by apply Y2]. lia. }
    apply (locate_ind (fun d' => exact K d' /\ forall q, settled K d q -> settled K d' q)); [|done].
    intros d0 id n v d' [X0 S0] E.
    assert (~ removes_some_object (UpdateVersion id n v)) as R by (intros (? & [Y|Y]); done).
    assert (~ migrates (UpdateVersion id n v)) as M by (intros (? & ? & Y); done).
    pose proof X0 as (I & H & J & XX). split.
    + split_and!; [by eapply inv_upd|by eapply inv_hash_effect|by eapply inv_ikeys_upd|by eapply inv_hexact_effect].
    + intros q Q. apply S0 in Q. pose proof pow63_64.
      assert (forall id n, counter_ge id n d0 -> counter_ge id n d') as C.
      { intros id1 n1 Hc. eapply (counter_effect K); [done|lia|done|done|]. intros Y. apply R. by exists id1. }
      destruct Q as [Q1 Q2]. split.
      * intros k Hk. destruct (Q1 k Hk) as (id1 & n1 & -> & Hn & Hc & Hh). exists id1, n1. split_and!; [done|lia|lia|by apply C|].
        intros v1 G. destruct (old_effect K id1 n1 d0 _ d' I ltac:(lia) Hc E R M v1 G) as (v0 & G0 & E0). rewrite <-E0. by apply Hh.
      * intros k Hk. destruct (Q2 k Hk) as (id1 & n1 & -> & Hn & Hc & Hh). exists id1, n1. split_and!; [done|lia|lia|by apply C|].
        destruct (get_ver id1 n1 d') as [v1|] eqn:G; [|done].
        destruct (old_effect K id1 n1 d0 _ d' I ltac:(lia) Hc E R M v1 G) as (v0 & G0 & E0). congruence.
Qed.

Lemma settled_look : forall K d q, (K < 2 ^ 63)%N -> settled K d q -> settled K d (look_next d q).
Proof.
  intros K d q HK [Q1 Q2]. unfold look_next. destruct (q_gone q) eqn:Eg; [split; [done|by rewrite Eg]|].
  destruct (q_left q) as [|x ks] eqn:El; [split; [by rewrite El|by rewrite Eg]|].
  destruct (Q1 x) as (id & n & -> & Hn & Hc & Hh); [by constructor|].
  pose proof (look_vkey d id n ltac:(lia)) as L. unfold look in L. rewrite cut_last_vkey in *.
  rewrite L. destruct (get_ver id n d) as [v|] eqn:G; split; cbn.
  - intros k Hk. apply Q1. by constructor.
  - done.
  - intros k Hk. apply Q1. by constructor.
  - intros k [= <-]. by exists id, n.
Qed.

Lemma fine_step : forall B K s e, fine K s -> event_ok B e -> plain e -> (B <= K)%N -> (K + 1 < 2 ^ 63)%N ->
  fine (K + 1) (step s e).
Proof.
  intros B K s e [D L] O P HB HK.
  assert (fine (K + 1) s) as W.
  { split; [eapply exact_weaken; [|done]; lia|]. intros i q Hq. eapply settled_weaken; [|by eapply L]. lia. }
  destruct e as [o|h|i|i]; cbn [step].
  - destruct (plain_write B K (s_db s) o D O P HB HK) as [X1 X2]. split; [done|]. cbn. intros i q Hq. apply X2. by eapply L.
  - destruct W as [W1 W2]. split; [done|]. cbn. intros j q Hq. apply lookup_app_Some in Hq as [Hq|[_ Hq]]; [by eapply W2|].
    apply list_lookup_singleton_Some in Hq as [_ <-]. destruct W1 as (I & H & J & X). split; [|done].
    intros k Hk. cbn in Hk. rewrite ksort_perm, elem_of_elements in Hk.
    destruct (X _ _ Hk) as (id & n & v & -> & G & Eh). exists id, n. destruct (inv_number _ _ _ _ _ I G) as [_ Hn].
    split_and!; [done|lia|lia|eapply has_counter; [done|]; unfold has_version; by rewrite G|]. cbn. intros v0 G0. congruence.
  - destruct (s_searches s !! i) as [q|] eqn:E; [|done]. destruct W as [W1 W2]. split; [done|]. cbn.
    intros j q' Hq. apply list_lookup_insert_Some in Hq as [(-> & <- & _)|[_ Hq]]; [|by eapply W2].
    apply settled_look; [done|]. by eapply W2.
  - destruct (s_searches s !! i) as [q|] eqn:E; [|done]. destruct W as [W1 W2].
    pose proof (drop_search q (s_db s)) as (S1 & S2 & S3 & S4). pose proof (drop_db q (s_db s)) as S5.
    destruct (drop_gone q (s_db s)) as [d q2]. cbn [fst snd] in *.
    assert (forall q, settled (K + 1) (s_db s) q -> settled (K + 1) d q) as T.
    { intros q0 Q. destruct S5 as [->|(k & _ & ->)]; [done|]. exact Q. }
    split; cbn.
    + destruct S5 as [->|(k & Hk & ->)]; [done|]. destruct W1 as (I & H & J & X).
      destruct (W2 _ _ E) as [_ Q2]. destruct (Q2 k Hk) as (id & n & -> & Hn & Hc & Hg). split_and!.
      * exact I.
      * intros id' n' v' G. change (get_ver id' n' (s_db s) = Some v') in G. cbn.
        apply idx_remove_other; [|by apply H]. intros Y. apply vkey_inj2 in Y as [-> ->]. congruence.
      * intros h x Hx. cbn in Hx. apply idx_remove_sub in Hx. by apply J in Hx.
      * intros h x Hx. cbn in Hx. apply idx_remove_sub in Hx. by apply X in Hx.
    + intros j q' Hq. apply list_lookup_insert_Some in Hq as [(-> & <- & _)|[_ Hq]]; [|by eapply T, W2].
      apply T. destruct (W2 _ _ E) as [Q1 _]. split; [|by rewrite S4]. rewrite S1, S3. exact Q1.
Qed.

Lemma fine_run : forall B es, execution B es -> Forall plain es ->
  fine (B + N.of_nat (length es)) (run (start db_empty) es).
Proof.
  intros B es. induction es as [|e es IH] using rev_ind; intros H P.
  - split; [|intros i q Hq; done]. split_and!; [apply inv_empty|by intros id n v G|intros h k Hk; done|intros h k Hk; done].
  - apply Forall_app in P as [P1 P2]. apply List.Forall_inv in P2.
    pose proof (IH (execution_app _ _ _ H) P1) as G. destruct H as [O L]. apply Forall_app in O as [_ O].
    apply List.Forall_inv in O. rewrite app_length in *. cbn [length] in *. rewrite run_app. cbn [run fold_left].
    replace (B + N.of_nat (length es + 1))%N with ((B + N.of_nat (length es)) + 1)%N in * by lia.
    apply (fine_step B); [exact G|exact O|exact P2|lia|lia].
Qed.

(** No entry of a stored version is lost. *)
Lemma kept : forall B es, execution B es -> Forall plain es -> all_found (db_after es).
Proof.
  intros B es X P id n v G. destruct (fine_run _ _ X P) as [(I & H & J & _) _]. fold (db_after es) in *.
  destruct X as [_ XL]. unfold find_by_hash.
  rewrite (proj1 (find_loop_result _ _ _ (fun k => ikeys_dots _ (db_after es) (v_hash v) k J))).
  apply elem_of_list_omap. exists (vkey id n). split.
  - rewrite ksort_perm, elem_of_elements. by apply H.
  - destruct (inv_number _ _ _ _ _ I G). rewrite look_vkey by lia. done.
Qed.

(** Every version found has the content asked for. *)
Lemma found_right : forall B pre h post q v, execution B (pre ++ Begin h :: post) -> Forall plain (pre ++ Begin h :: post) ->
  searches_after (pre ++ Begin h :: post) !! length (searches_after pre) = Some q -> v ∈ q_found q ->
  exists p id n, p `prefix_of` post /\ get_ver id n (db_after (pre ++ Begin h :: p)) = Some v /\ v_hash v = h.
Proof.
  intros B pre h post. induction post as [|e post IH] using rev_ind; intros q v X P Hq Hv.
  - rewrite begun in Hq. injection Hq as <-. by apply elem_of_nil in Hv.
  - rewrite snoc_mid in *. pose proof (execution_app _ _ _ X) as X0. apply Forall_app in P as [P0 _].
    destruct (begun_later pre h post) as (q0 & Hq0 & Hh0).
    destruct (searches_grow _ e _ _ Hq0) as (q' & Hq' & _ & Hs).
    assert (q' = q) as ->.
    { rewrite searches_snoc in Hq. congruence. }
    assert (v ∈ q_found q0 -> exists p id n, p `prefix_of` post ++ [e] /\
      get_ver id n (db_after (pre ++ Begin h :: p)) = Some v /\ v_hash v = h) as Old.
    { intros Hv0. destruct (IH q0 v X0 P0 Hq0 Hv0) as (p & id & n & Hp & G). exists p, id, n. split; [|done].
      by apply prefix_app_r. }
    destruct Hs as [->|[[_ ->]|[_ ->]]]; [by apply Old| |].
    + apply look_found in Hv as [Hv|(k & ks & Hg & Hl & Hk)]; [by apply Old|].
      destruct (fine_run _ _ X0 P0) as [_ L]. destruct (L _ _ Hq0) as [Q1 _].
      destruct (Q1 k) as (id & n & -> & Hn & Hc & Hh); [rewrite Hl; by constructor|].
      assert (get_ver id n (db_after (pre ++ Begin h :: post)) = Some v) as G.
      { rewrite <-look_vkey; [done|]. destruct X0 as [_ X0]. lia. }
      exists post, id, n. split; [by apply prefix_app_r|]. split; [done|]. rewrite (Hh _ G). done.
    + rewrite (proj1 (proj2 (drop_search _ _))) in Hv. by apply Old.
Qed.

(** A version stored all the time is found. *)
Lemma found_all : forall B pre h post q id n, execution B (pre ++ Begin h :: post) -> Forall plain (pre ++ Begin h :: post) ->
  searches_after (pre ++ Begin h :: post) !! length (searches_after pre) = Some q -> finished q = true ->
  (forall p, p `prefix_of` post -> exists v, get_ver id n (db_after (pre ++ Begin h :: p)) = Some v /\ v_hash v = h) ->
  exists p v, p `prefix_of` post /\ get_ver id n (db_after (pre ++ Begin h :: p)) = Some v /\ v ∈ q_found q.
Proof.
  intros B pre h post q id n X P Hq F St.
  assert (vkey id n ∈ q_left q \/
    exists p v, p `prefix_of` post /\ get_ver id n (db_after (pre ++ Begin h :: p)) = Some v /\ v ∈ q_found q) as [Y|Y]; [|
    |done].
  2: { unfold finished in F. destruct (q_left q); [by apply elem_of_nil in Y|done]. }
  clear F. revert q X P Hq St. induction post as [|e post IH] using rev_ind; intros q X P Hq St.
  - rewrite begun in Hq. injection Hq as <-. left. cbn. rewrite ksort_perm, elem_of_elements.
    destruct (St [] ltac:(done)) as (v & G & <-).
    destruct (fine_run B pre) as [(I & H & J & _) _]; [by eapply execution_app|by apply Forall_app in P as [? _]|].
    apply H. unfold db_after in G. rewrite run_app in G. exact G.
  - rewrite snoc_mid in *. pose proof (execution_app _ _ _ X) as X0. apply Forall_app in P as [P0 _].
    destruct (begun_later pre h post) as (q0 & Hq0 & Hh0).
    destruct (searches_grow _ e _ _ Hq0) as (q' & Hq' & _ & Hs).
    assert (q' = q) as ->.
    { rewrite searches_snoc in Hq. congruence. }
    assert (forall p, p `prefix_of` post -> exists v, get_ver id n (db_after (pre ++ Begin h :: p)) = Some v /\ v_hash v = h) as St0.
    { intros p Hp. apply St. by apply prefix_app_r. }
    specialize (IH q0 X0 P0 Hq0 St0).
    assert (q_left q0 = q_left q -> q_found q0 = q_found q -> vkey id n ∈ q_left q \/
      exists p v, p `prefix_of` post ++ [e] /\ get_ver id n (db_after (pre ++ Begin h :: p)) = Some v /\ v ∈ q_found q) as Old.
    { intros <- <-. destruct IH as [Y|(p & v & Hp & G & Hv)]; [by left|]. right. exists p, v. split; [by apply prefix_app_r|done]. }
    destruct Hs as [->|[[_ ->]|[_ ->]]]; [by apply Old| |].
    + destruct (q_gone q0) eqn:Eg; [apply Old; unfold look_next; by rewrite Eg|].
      destruct (q_left q0) as [|k ks] eqn:El; [apply Old; unfold look_next; by rewrite Eg, El|].
      destruct (good_run _ _ X0) as [_ L]. destruct (L _ _ k Hq0) as (id1 & n1 & -> & Hn); [rewrite El; by constructor|].
      assert (look (db_after (pre ++ Begin h :: post)) (vkey id1 n1) = get_ver id1 n1 (db_after (pre ++ Begin h :: post))) as LK.
      { apply look_vkey. destruct X0 as [_ X0]. lia. }
      unfold look in LK. unfold look_next. rewrite Eg, El, cut_last_vkey in *.
      change (s_db _) with (db_after (pre ++ Begin h :: post)). rewrite LK.
      destruct IH as [Y|(p & v & Hp & G & Hv)].
      * apply elem_of_cons in Y as [Y|Y].
        -- apply vkey_inj2 in Y as [-> ->]. destruct (St0 post ltac:(done)) as (v & G & _). rewrite G. right.
           exists post, v. split; [by apply prefix_app_r|]. split; [done|]. cbn. apply elem_of_app. right. by constructor.
        -- destruct (get_ver id1 n1 _); left; done.
      * right. exists p, v. split; [by apply prefix_app_r|]. split; [done|].
        destruct (get_ver id1 n1 _); cbn; [apply elem_of_app; by left|done].
    + destruct (drop_search q0 (s_db (run (start db_empty) (pre ++ Begin h :: post)))) as (S1 & S2 & _). by apply Old.
Qed.

(** ** A search alone *)

Lemma visits_alone : forall h ks i d f qs, qs !! i = Some (mk_search h ks None f) ->
  (forall k, k ∈ ks -> cut_last "."%char k <> None) ->
  run (mk_state d qs) (visits i (length ks)) =
  mk_state (fst (find_loop h ks d)) (<[ i := mk_search h [] None (f ++ snd (find_loop h ks d)) ]> qs).
Proof.
  intros h. induction ks as [|k ks IH]; intros i d f qs Hq C.
  - cbn. f_equal. rewrite app_nil_r. symmetry. by apply list_insert_id.
  - cbn [length visits run fold_left].
    assert (cut_last "."%char k <> None) as Ck by (apply C; by constructor).
    assert (forall k0, k0 ∈ ks -> cut_last "."%char k0 <> None) as C' by (intros; apply C; by constructor).
    pose proof (lookup_lt_Some _ _ _ Hq) as Hl.
    cbn [step s_searches s_db]. rewrite Hq. cbn [step s_searches s_db]. rewrite list_lookup_insert by done.
    unfold look_next. cbn [q_gone q_left q_hash q_found find_loop].
    destruct (cut_last "."%char k) as [[name t]|]; [|done].
    destruct (service_get_version name (to_int t) d) as [v|].
    + cbn [drop_gone q_gone]. rewrite list_insert_insert. fold (run (mk_state d (<[i:=mk_search h ks None (f ++ [v])]> qs)) (visits i (length ks))).
      rewrite (IH i d (f ++ [v])); [|by rewrite list_lookup_insert|done]. rewrite list_insert_insert.
      destruct (find_loop h ks d). cbn [fst snd]. by rewrite <-app_assoc.
    + cbn [drop_gone q_gone q_hash q_left q_found]. rewrite list_insert_insert.
      fold (run (mk_state (with_hash (idx_remove h k (d_hash d)) d) (<[i:=mk_search h ks None f]> qs)) (visits i (length ks))).
      rewrite (IH i _ f); [|by rewrite list_lookup_insert|done]. by rewrite list_insert_insert.
Qed.
